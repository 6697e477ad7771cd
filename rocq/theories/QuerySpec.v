(** Specification vocabulary for the listing queries. *)
From Verif Require Export QueryModel RootSpec.

(** [p] has a row in tenant [t]. *)
Definition has_row (st : state) (p t : any) : Prop :=
  exists d, stored st d /\ principal d = p /\ principal d <> ANil /\ tenant d = t /\ tenant d <> ANil.
(** [p] has a row naming role [r] in tenant [t] ([r] may be nil). *)
Definition holds_role (st : state) (p t r : any) : Prop :=
  exists d, stored st d /\ principal d = p /\ principal d <> ANil /\ tenant d = t /\ tenant d <> ANil /\ role d = r.
(** A row puts scope [s] into tenant [t] (and namespace [n]). *)
Definition scope_of (st : state) (t s : any) : Prop :=
  exists d, stored st d /\ tenant d = t /\ tenant d <> ANil /\ scope d = s /\ scope d <> ANil.
Definition scope_within (st : state) (t n s : any) : Prop :=
  exists d, stored st d /\ tenant d = t /\ tenant d <> ANil /\ namespace d = n /\ namespace d <> ANil
            /\ scope d = s /\ scope d <> ANil.
(** The scopes GetScopesWithRolesForPrincipal goes through: those of the namespace if there is one,
    otherwise all of the tenant. *)
Definition offered_scope (st : state) (t n s : any) : Prop :=
  scope_within st t n s \/ (~ exists s', scope_within st t n s') /\ scope_of st t s.
(** A row of [p] in tenant [t] naming both scope [s] and role [r]. *)
Definition scoped_role (st : state) (p t s r : any) : Prop :=
  exists d, stored st d /\ principal d = p /\ principal d <> ANil /\ tenant d = t /\ tenant d <> ANil
            /\ scope d = s /\ scope d <> ANil /\ role d = r /\ role d <> ANil.

(** The response lists role [r] under scope [s]. *)
Definition lists_role (resp : list (any * list any)) (s r : any) : Prop :=
  exists rs, (s, rs) ∈ resp /\ r ∈ rs.
(** The response lists role id [r] for attribute [a] of category [grp]. *)
Definition lists_attr (m : gmap string (list (attr * list string))) (grp : string) (a : attr) (r : string) : Prop :=
  exists l rs, m !! grp = Some l /\ (a, rs) ∈ l /\ r ∈ rs.
(** Registered role [id] has attribute [a] in category [grp], itself or through descendants. *)
Definition role_offers (st : state) (id grp : string) (a : attr) : Prop :=
  exists l d k, m_roles st !! id = Some l /\ rtc (role_edge (s_heap st)) l d /\ holds (s_heap st) d grp k a.

(** The listing is exactly the stored rows satisfying [P], each once. *)
Definition lists_rows (st : state) (l : list data) (P : data -> Prop) : Prop :=
  NoDup l /\ forall d, d ∈ l <-> stored st d /\ P d.

(** The tenant GetScopesWithRolesForPrincipal(p, t, _) answers for. *)
Definition answered_for (o : oracle) (st : state) (p t : any) (st' : state) (T : any) : Prop :=
  has_row st p t /\ T = t /\ st' = st
  \/ ~ has_row st p t /\ exists ps U, p = AStr ps /\ get_implicit_tenants o st ps = Ok (st', U)
     /\ ((exists u, u ∈ U /\ AStr u <> t /\ T = AStr u /\ has_row st p T)
         \/ (forall u, u ∈ U -> ~ has_row st p (AStr u)) /\ T = t).

(** A scope row of tenant [t] for [p]: one of its own, whatever the namespace, or one for nobody in
    particular in namespace [n] or in none. *)
Definition tn_scope_row (p t n : any) (d : data) : Prop :=
  tenant d = t /\ tenant d <> ANil /\ scope d <> ANil
  /\ (principal d = p /\ principal d <> ANil \/ principal d = ANil /\ unset_or (namespace d) n).
