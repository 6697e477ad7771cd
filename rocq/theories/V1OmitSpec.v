(** Requests to package v1 that name less. *)
From Verif Require Export V1Spec.
Local Open Scope string_scope.

(** [q'] is [q] with the namespace, the scope, both or none of them left out. *)
Definition names_less (q q' : uopts) : Prop :=
  uo_tenant q' = uo_tenant q /\ uo_group q' = uo_group q /\ uo_activity q' = uo_activity q
  /\ (uo_namespace q' = uo_namespace q \/ uo_namespace q' = ANil) /\ (uo_scope q' = uo_scope q \/ uo_scope q' = ANil).
(** The roles of [p] in the tenant [t] have no descendants. *)
Definition flat (st : ustate) (p t : string) : Prop :=
  forall a l d, member st p t a -> u_roles st !! tp_role a = Some l -> ~ descends (u_heap st) l d.
(** A descendant of the role [r], whose id is among [ids], has the permission. *)
Definition by_descendant (st : ustate) (r grp act : string) (ids : string -> Prop) : Prop :=
  exists l d gd id, u_roles st !! r = Some l /\ descends (u_heap st) l d /\ has_id (u_heap st) d id
    /\ owns (u_heap st) d grp gd /\ offers gd act /\ ids id.
