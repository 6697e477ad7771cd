(** What the v2 registries should hold after a history, and what the set-up methods should change. *)
From Verif Require Export V2Spec V2RegModel.

(** What a call offers for registration. *)
Definition offers_roles (x : vop) : list nat := match x with VAddRoles ls => ls | _ => [] end.
Definition offers_tenants (x : vop) : list nat := match x with VAddTenant l => [l] | _ => [] end.
Definition offers_default (x : vop) : list string := match x with VSetDefault t => [t] | _ => [] end.

(** The names of objects. *)
Definition vrole_named (st : vstate) (name : string) (l : nat) : bool :=
  bool_decide ((vr_name <$> w_roles st !! l) = Some name).
Definition vtenant_named (st : vstate) (id : string) (l : nat) : bool :=
  bool_decide ((vt_id <$> w_tenants st !! l) = Some id).

(** The last element of [l] that satisfies [f]. *)
Definition last_such {A} (f : A -> bool) (l : list A) : option A := List.find f (rev l).

(** Exactly one object changes. *)
Definition vtenant_becomes (st : vstate) (t : nat) (c : vtenant) (st' : vstate) : Prop :=
  st' = vw_tenants st (<[t := c]> (w_tenants st)).
Definition vrole_becomes (st : vstate) (r : nat) (c : vrole) (st' : vstate) : Prop :=
  st' = vw_roles st (<[r := c]> (w_roles st)).
