(** What a user expects of package v2, stated without the model's loops. *)
From Verif Require Export DagSpec MatchSpec V2Model.

(** ** Assignments *)

(** [pr] is one of the assignments the authorizer holds. *)
Definition assigned (st : vstate) (pr : prole) : Prop :=
  exists l, Some l ∈ w_assign st /\ w_prs st !! l = Some pr.
(** The assignment list contains a nil pointer. *)
Definition broken (st : vstate) : Prop := None ∈ w_assign st.
(** The expiry of [pr] has passed at the instant [now]. *)
Definition expired (now : Z) (pr : prole) : Prop := exists e, pr_expiry pr = Some e /\ (e < now)%Z.

(** ** Tenants *)

Definition tenant_at (st : vstate) (l : nat) (t : vtenant) : Prop := w_tenants st !! l = Some t.
(** [b] is one of the child tenants of [a]. *)
Definition child_tenant (st : vstate) (a b : nat) : Prop :=
  exists t k, tenant_at st a t /\ vt_children t !! k = Some b.
(** [user] holds a managing assignment in tenant [a] and [b] is a child of [a]. *)
Definition manages (st : vstate) (user : string) (a b : nat) : Prop :=
  child_tenant st a b /\
  exists t pr, tenant_at st a t /\ assigned st pr /\
    pr_principal pr = user /\ pr_tenant pr = vt_id t /\ pr_manage pr = true.
(** Tenants are told apart by their ids. *)
Definition distinct_ids (st : vstate) : Prop :=
  forall a b ta tb, tenant_at st a ta -> tenant_at st b tb -> vt_id ta = vt_id tb -> a = b.

(** The tenants at which a request is directed: the one it names, else the default tenant, else
    the active registered tenants in which the principal has an assignment. *)
Definition names (st : vstate) (q : request) (name : string) : Prop :=
  name <> "" /\ (q_tenant q = name \/ q_tenant q = "" /\ w_default st = name).
Definition nameless (st : vstate) (q : request) : Prop := q_tenant q = "" /\ w_default st = "".
Definition target (st : vstate) (q : request) (t : nat) : Prop :=
  (exists name, names st q name /\ w_reg st !! name = Some t) \/
  (nameless st q /\
   exists pr c, assigned st pr /\ pr_principal pr = q_principal q /\ pr_tenant pr <> "" /\
     w_reg st !! pr_tenant pr = Some t /\ tenant_at st t c /\ vt_status c = TActive).

(** The namespace used in a tenant: the one named, else the default one, else the only one; it
    has to exist and to contain the scope named, if any. *)
Definition uses_namespace (t : vtenant) (q : request) (n : string) : Prop :=
  (q_namespace q = n /\ n <> "" \/
   q_namespace q = "" /\ vt_default t = n /\ n <> "" \/
   q_namespace q = "" /\ vt_default t = "" /\ dom (vt_namespaces t) = {[n]}) /\
  exists scopes, vt_namespaces t !! n = Some scopes /\ (q_scope q = "" \/ q_scope q ∈ scopes).

(** ** Permissions *)

(** What a role stands for when a decision is made: what was remembered the first time the role
    was resolved, else what the role graph says now. *)
Definition role_perm (st : vstate) (r p : string) : Prop :=
  match d_resolved (w_dag st) !! r with
  | Some s => p ∈ s
  | None => confers (w_roles st) (w_dag st) r p
  end.
Definition role_name (st : vstate) (r x : string) : Prop :=
  match d_resolved (w_dag st) !! r with
  | Some s => x ∈ s
  | None => includes (w_roles st) (w_dag st) r x
  end.

(** [pr] counts for [user] in tenant [t] and namespace [n]: unexpired, and given in [t] or in a
    tenant [user] manages below [t]. *)
Definition counts (st : vstate) (now : Z) (user : string) (t : nat) (n : string) (pr : prole) : Prop :=
  assigned st pr /\ pr_principal pr = user /\ ~ expired now pr /\
  (pr_namespace pr = "" \/ pr_namespace pr = n) /\
  exists t' c, rtc (manages st user) t t' /\ tenant_at st t' c /\ pr_tenant pr = vt_id c.
Definition scoped_perm (st : vstate) (now : Z) (user : string) (t : nat) (n scope p : string) : Prop :=
  exists pr, counts st now user t n pr /\ pr_scope pr = scope /\ role_perm st (pr_role pr) p.
Definition global_perm (st : vstate) (now : Z) (user : string) (t : nat) (n scope p : string) : Prop :=
  exists pr, counts st now user t n pr /\ pr_scope pr <> scope /\ pr_scope pr = "" /\
    role_perm st (pr_role pr) p.
(** Scoped permissions hide unscoped ones. *)
Definition effective (st : vstate) (now : Z) (user : string) (t : nat) (n scope p : string) : Prop :=
  scoped_perm st now user t n scope p \/
  global_perm st now user t n scope p /\ forall p', ~ scoped_perm st now user t n scope p'.

(** The request matches the stored permission string [p]. *)
Definition matches_perm (q : request) (p : string) : Prop :=
  (q_resource q <> "" \/ q_action q <> "") /\
  StrMatches p (res_act (q_resource q) (q_action q)).
(** No permission string the principal could hold makes the matcher loop on this request. *)
Definition no_loop (st : vstate) (now : Z) (q : request) : Prop :=
  forall t n p, scoped_perm st now (q_principal q) t n (q_scope q) p \/
                global_perm st now (q_principal q) t n (q_scope q) p ->
    ~ StrLoops p (res_act (q_resource q) (q_action q)).

(** ** Decisions *)
Definition v2_allowed (st : vstate) (now : Z) (q : request) : Prop :=
  exists t c n p, target st q t /\ tenant_at st t c /\ uses_namespace c q n /\
    effective st now (q_principal q) t n (q_scope q) p /\ matches_perm q p.
Definition holds_role (st : vstate) (now : Z) (user : string) (t : nat) (n x : string) : Prop :=
  exists pr, counts st now user t n pr /\ pr_role pr <> "" /\
    (x = pr_role pr \/ role_name st (pr_role pr) x).
Definition v2_can_allowed (st : vstate) (now : Z) (q : request) (roles : list string) : Prop :=
  exists t c n x, target st q t /\ tenant_at st t c /\ uses_namespace c q n /\
    holds_role st now (q_principal q) t n x /\ x ∈ roles.

(** ** Invariant of every reachable state: all pointers lead somewhere, names and keys agree. *)
Record v2_wf (st : vstate) : Prop := {
  wf_dag : dag_wf (w_roles st) (w_dag st);
  wf_reg : forall id l, w_reg st !! id = Some l -> exists t, tenant_at st l t /\ vt_id t = id;
  wf_kids : forall l t k c, tenant_at st l t -> vt_children t !! k = Some c ->
    exists tc, tenant_at st c tc /\ vt_id tc = k;
  wf_prs : forall l, Some l ∈ w_assign st -> exists pr, w_prs st !! l = Some pr
}.
