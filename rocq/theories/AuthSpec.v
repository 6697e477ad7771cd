(** What the root package's Authorize decides, in terms of the rows Data() returns, the
    registries and the role graph. *)
From Verif Require Export AuthModel RoleSpec DataSpec.

(** The stored rows, as returned by the exported Data(). *)
Definition stored (st : state) (d : data) : Prop := d ∈ trie_data id_oracle (m_trie st).

(** A row that concerns [p]: addressed to nobody in particular, or to [p]. *)
Definition for_principal (d : data) (p : string) : Prop :=
  principal d = ANil \/ principal d = AStr p.
(** [x] is unset, or is [v]. *)
Definition unset_or (x v : any) : Prop := x = ANil \/ x = v.

(** Membership requests (no activity), per shape of the request. *)
Definition grants_membership (st : state) (p : string) (q : opts) (f : shape) : Prop :=
  match f with
  | FT => exists d, stored st d /\ principal d = AStr p /\ tenant d = o_tenant q /\ tenant d <> ANil
  | FTN => exists d, stored st d /\ tenant d = o_tenant q /\ tenant d <> ANil
             /\ namespace d = o_namespace q /\ namespace d <> ANil /\ for_principal d p
  | FTS => exists d, stored st d /\ tenant d = o_tenant q /\ tenant d <> ANil
             /\ scope d = o_scope q /\ scope d <> ANil /\ for_principal d p
  | FTNS => exists d, stored st d /\ tenant d = o_tenant q /\ tenant d <> ANil
             /\ scope d = o_scope q /\ scope d <> ANil
             /\ (principal d = AStr p
                 \/ principal d = ANil /\ unset_or (namespace d) (o_namespace q))
  | FNS => exists d0 d, stored st d0 /\ principal d0 = AStr p /\ tenant d0 <> ANil
             /\ stored st d /\ tenant d = tenant d0
             /\ scope d = o_scope q /\ scope d <> ANil
             /\ (principal d = AStr p
                 \/ principal d = ANil /\ unset_or (namespace d) (o_namespace q))
  | FNone => False
  end.

(** The row [d] makes its role usable for a request of [p] about tenant [t] (given with the
    namespace and scope of [q]). *)
Definition role_row (p : string) (t : any) (q : opts) (f : shape) (d : data) : Prop :=
  role d <> ANil /\
  match f with
  | FTN => (tenant d = t /\ tenant d <> ANil /\ principal d = AStr p
            \/ namespace d = o_namespace q /\ namespace d <> ANil)
           /\ unset_or (namespace d) (o_namespace q)
  | FTS => (tenant d = t /\ tenant d <> ANil /\ principal d = AStr p
            \/ scope d = o_scope q /\ scope d <> ANil)
           /\ unset_or (scope d) (o_scope q)
  | FTNS | FNS =>
      principal d = AStr p
      /\ (tenant d = t /\ tenant d <> ANil \/ namespace d = o_namespace q /\ namespace d <> ANil
          \/ scope d = o_scope q /\ scope d <> ANil)
      /\ unset_or (namespace d) (o_namespace q) /\ unset_or (scope d) (o_scope q)
  | FT | FNone => False
  end.

(** The tenant in whose name roles are looked up: the requested one, or, when none is given, any
    tenant the principal has a row in. *)
Definition role_tenant (st : state) (p : string) (q : opts) (f : shape) (t : any) : Prop :=
  match f with
  | FNS => exists d0, stored st d0 /\ principal d0 = AStr p /\ tenant d0 <> ANil /\ t = tenant d0
  | _ => t = o_tenant q
  end.

(** Activity requests: some usable role is registered and permits the activity. *)
Definition grants_activity (st : state) (p : string) (q : opts) (f : shape) : Prop :=
  exists g a t d r l,
    o_group q = AStr g /\ o_activity q = AStr a
    /\ role_tenant st p q f t /\ stored st d /\ role_row p t q f d
    /\ role d = AStr r /\ m_roles st !! r = Some l
    /\ permits (s_heap st) l g a [].

(** A request without group or without activity is a membership request. *)
Definition asks_activity (q : opts) : Prop := o_group q <> ANil /\ o_activity q <> ANil.
Definition grants (st : state) (p : string) (q : opts) (f : shape) : Prop :=
  asks_activity q /\ grants_activity st p q f \/ ~ asks_activity q /\ grants_membership st p q f.

(** Everything named in the request is registered. *)
Definition valid_request (st : state) (q : opts) : Prop :=
  (o_tenant q = ANil \/ exists t l, o_tenant q = AStr t /\ m_tenants st !! t = Some l)
  /\ (o_namespace q = ANil \/ exists n, o_namespace q = AStr n /\ n ∈ m_namespaces st)
  /\ (o_scope q = ANil \/ exists s, o_scope q = AStr s /\ s ∈ m_scopes st).

(** The verdict, given the set [U] of the principal's implicit tenants. *)
Definition authorized (st : state) (U : gset string) (p : string) (q : opts) : Prop :=
  p ∈ m_principals st /\ U <> ∅ /\ valid_request st q
  /\ (grants st p q (shape_of q)
      \/ exists u, u ∈ U /\ grants st p (set_o_tenant q (AStr u)) (shape_of q)).

(** [st'] differs from [st] at most in the two caches. *)
Definition same_but_caches (st st' : state) : Prop :=
  exists hi ca, st' = with_cache (with_hierarchy st hi) ca.
