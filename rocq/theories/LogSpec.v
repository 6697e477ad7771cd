(** What a reader of the audit log expects. *)
From Verif Require Export V2Spec LogModel.

(** The request names a tenant, by itself or by the default tenant, that is not registered. *)
Definition unknown_tenant (st : vstate) (q : request) : Prop := exists name, names st q name /\ w_reg st !! name = None.
(** The verdict in the words of the log *)
Definition says_verdict (st : vstate) (q : request) (b : bool) (msg : string) : Prop :=
  b = true /\ msg = "Authorization granted"
  \/ b = false /\ unknown_tenant st q /\ msg = "Failed authorization due to invalid tenant"
  \/ b = false /\ ~ unknown_tenant st q /\ msg = "Authorization failed".
Definition is_verdict (msg : string) : Prop :=
  msg ∈ ["Authorization granted"; "Failed authorization due to invalid tenant"; "Authorization failed"].
(** Of the entries of one call the last is the verdict and no other is one; all carry the request. *)
Definition tells (st : vstate) (q : request) (b : bool) (es : list entry) : Prop :=
  exists es1 msg, es = es1 ++ [Entry (log_attrs q) msg] /\ says_verdict st q b msg
    /\ forall e, e ∈ es1 -> en_attrs e = log_attrs q /\ ~ is_verdict (en_msg e).
(** A target tenant with a usable namespace in which the principal holds nothing *)
Definition holds_nothing (st : vstate) (now : Z) (q : request) : Prop :=
  exists t c n, target st q t /\ tenant_at st t c /\ uses_namespace c q n
    /\ forall p, ~ effective st now (q_principal q) t n (q_scope q) p.
Definition holds_no_role (st : vstate) (now : Z) (q : request) : Prop :=
  exists t c n, target st q t /\ tenant_at st t c /\ uses_namespace c q n
    /\ forall x, ~ holds_role st now (q_principal q) t n x.
(** The log names the tenant. *)
Definition tenant_named (e : entry) (t : string) : Prop := ("tenant", t) ∈ en_attrs e.
(** An entry that says granted, written by Authorize or Can, stands for a request that was allowed. *)
Definition grants_mean_allowed (st : vstate) (now : Z) : Prop :=
  forall o q es r, (v2_authorize_logged true o st now q = (es, r) \/ exists roles, v2_can_logged true o st now q roles = (es, r)) ->
  forall q', Entry (log_attrs q') "Authorization granted" ∈ es -> v2_allowed st now q'.
