(** What the v1 registries should hold after a history, and what the set-up methods should change. *)
From Verif Require Export V1RegModel V1Spec RoleEffSpec RegSpec.

(** What each Add call offers for registration. *)
Definition uadds_role (x : uop) : option nat := match x with UAddRole l => Some l | _ => None end.
Definition uadds_group (x : uop) : option nat := match x with UAddGroup l => Some l | _ => None end.
Definition uadds_tenant (x : uop) : option nat := match x with UAddTenant l => Some l | _ => None end.
Definition uadds_namespace (x : uop) : option nat := match x with UAddNamespace l => Some l | _ => None end.
Definition uadds_attribute (x : uop) : option attr := match x with UAddAttribute a => Some a | _ => None end.

(** The ids of objects. *)
Definition urole_id (st : ustate) (l : nat) : option string := r_id <$> h_roles (u_heap st) !! l.
Definition ugroup_id (st : ustate) (l : nat) : option string := g_id <$> h_groups (u_heap st) !! l.
Definition utenant_id (st : ustate) (l : nat) : option string := ut_id <$> u_tenants st !! l.
Definition uns_id (st : ustate) (l : nat) : option string := un_id <$> u_nss st !! l.
Definition named (key : nat -> option string) (id : string) (l : nat) : bool := bool_decide (key l = Some id).

(** [st'] differs from [st] at most in the tenant object [t], which becomes [c]. *)
Definition tenant_becomes (st : ustate) (t : nat) (c : utenant) (st' : ustate) : Prop :=
  st' = uw_tenants st (<[t := c]> (u_tenants st)).
(** [m'] is [m] with what [xs] offers under new keys: the first one of each. *)
Definition fills {K} `{Countable K} (key : nat -> option K) (m : gmap K nat) (xs : list nat) (m' : gmap K nat) : Prop :=
  forall k l, m' !! k = Some l <-> m !! k = Some l \/ m !! k = None /\ first_with key xs (Some k) l.
(** All attributes are in the group object registered as [grp]. *)
Definition in_group (st : ustate) (grp : string) (attrs : list attr) : Prop :=
  exists gl g, u_groups st !! grp = Some gl /\ h_groups (u_heap st) !! gl = Some g
    /\ forall a, a ∈ attrs -> is_Some (g_perms g !! attr_string a).
(** Tenant [d] is a direct descendant of tenant [t]; a cycle can be reached from [t]. *)
Definition utenant_edge (st : ustate) : nat -> nat -> Prop := child_of (utenant_children st).
Definition utenant_cyclic (st : ustate) (t : nat) : Prop :=
  exists d, rtc (utenant_edge st) t d /\ tc (utenant_edge st) d d.
(** [m] lists, group by group, what the registered role [r] holds itself. *)
Definition lists_own (st : ustate) (r : string) (m : gmap string (list attr)) : Prop :=
  exists l, u_roles st !! r = Some l /\ forall grp,
    (is_Some (m !! grp) <-> exists g, owns (u_heap st) l grp g)
    /\ forall a, listed m grp a <-> exists k, holds (u_heap st) l grp k a.
(** A tenant with one field replaced. *)
Definition ut_with_desc (c : utenant) m := UTenant (ut_id c) (ut_namespaces c) (ut_roles c) (ut_scopes c) m (ut_default c) (ut_managed c).
Definition ut_with_namespaces (c : utenant) m := UTenant (ut_id c) m (ut_roles c) (ut_scopes c) (ut_desc c) (ut_default c) (ut_managed c).
Definition ut_with_roles (c : utenant) X := UTenant (ut_id c) (ut_namespaces c) X (ut_scopes c) (ut_desc c) (ut_default c) (ut_managed c).
Definition ut_with_scopes (c : utenant) X := UTenant (ut_id c) (ut_namespaces c) (ut_roles c) X (ut_desc c) (ut_default c) (ut_managed c).
Definition ut_with_default (c : utenant) d := UTenant (ut_id c) (ut_namespaces c) (ut_roles c) (ut_scopes c) (ut_desc c) d (ut_managed c).
Definition ut_with_manager (c : utenant) := UTenant (ut_id c) (ut_namespaces c) (ut_roles c) (ut_scopes c) (ut_desc c) (ut_default c) true.
