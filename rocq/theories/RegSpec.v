(** What the registries should hold after a history. *)
From Verif Require Export RegModel.

(** What each Add call offers for registration. *)
Definition adds_role (x : op) : option nat := match x with OAddRole l => Some l | _ => None end.
Definition adds_group (x : op) : option nat := match x with OAddGroup l => Some l | _ => None end.
Definition adds_tenant (x : op) : option nat := match x with OAddTenant l => Some l | _ => None end.
Definition adds_attribute (x : op) : option attr := match x with OAddAttribute a => Some a | _ => None end.

(** The ids of objects. *)
Definition role_called (st : state) (id : string) (l : nat) : bool :=
  bool_decide ((r_id <$> h_roles (s_heap st) !! l) = Some id).
Definition group_called (st : state) (id : string) (l : nat) : bool :=
  bool_decide ((g_id <$> h_groups (s_heap st) !! l) = Some id).
Definition tenant_called (st : state) (id : string) (l : nat) : bool :=
  bool_decide ((t_id <$> s_tenants st !! l) = Some id).

(** The first element of [l] that satisfies [f]. *)
Definition first {A} (f : A -> bool) (l : list A) : option A := List.find f l.

(** [ids] lists, without repetition, exactly the ids with property [P]. *)
Definition lists (ids : list string) (P : string -> Prop) : Prop :=
  NoDup ids /\ forall id, id ∈ ids <-> P id.
