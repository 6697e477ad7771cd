(** What it means to leave something out of a request in package v2. *)
From Verif Require Export V2GrowSpec.
Local Open Scope string_scope.

(** The request [q] with another tenant, namespace or scope. *)
Definition in_tenant (q : request) (t : string) : request :=
  Req (q_principal q) t (q_namespace q) (q_scope q) (q_resource q) (q_action q).
Definition in_namespace (q : request) (n : string) : request :=
  Req (q_principal q) (q_tenant q) n (q_scope q) (q_resource q) (q_action q).
Definition in_scope (q : request) (s : string) : request :=
  Req (q_principal q) (q_tenant q) (q_namespace q) s (q_resource q) (q_action q).

(** [t] is the id of a registered tenant, which is active. *)
Definition active (st : vstate) (t : string) : Prop :=
  exists l c, w_reg st !! t = Some l /\ tenant_at st l c /\ vt_status c = TActive.
(** The request is about the one tenant [c]. *)
Definition about (st : vstate) (q : request) (c : vtenant) : Prop :=
  exists id l, names st q id /\ w_reg st !! id = Some l /\ tenant_at st l c.
(** [n] is the namespace of the tenant [c] for those who do not name one. *)
Definition own_namespace (c : vtenant) (n : string) : Prop :=
  vt_default c = n /\ n <> "" \/ vt_default c = "" /\ dom (vt_namespaces c) = {[n]}.
(** The scope [s] exists in the namespace of the tenant [c] that the request is about. *)
Definition has_scope (c : vtenant) (q : request) (s : string) : Prop :=
  forall n scopes, q_namespace q = n /\ n <> "" \/ q_namespace q = "" /\ own_namespace c n -> vt_namespaces c !! n = Some scopes -> s ∈ scopes.
