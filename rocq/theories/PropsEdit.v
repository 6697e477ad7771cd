(** Properties of package v2 when the caller writes to the objects handed over. *)
From Verif Require Import EditEx.
Local Open Scope string_scope.

(** ** C125: decisions follow what the exported fields say now *)
(** Refuted for ids of tenants: after the id is changed into that of another tenant, somebody
    without any assignment naming the tenant asked for is let in. *)
Theorem C125_tenant_refuted : exists st st' e user t, vreachable st /\ edit_step st e = Ok st'
  /\ (forall pr, assigned st' pr -> pr_principal pr = user -> pr_tenant pr <> t)
  /\ vanswer (v2_authorize id_oracle st 0 (q_of user t)) = Some false /\ vanswer (v2_authorize id_oracle st' 0 (q_of user t)) = Some true.
Proof. exact c125_tenant_refuted. Qed.
Print Assumptions C125_tenant_refuted.
(** Refuted: a tenant under a new id lets nobody in, under the old name or the new. *)
Theorem C125_lost_refuted : exists ops st outs user old new, erun id_oracle 0 v2_init ops = Ok (st, outs) /\ distinct_ids st /\ ~ broken st
  /\ v2_allowed st 0 (q_of user old)
  /\ vanswer (v2_authorize id_oracle st 0 (q_of user old)) = Some false /\ vanswer (v2_authorize id_oracle st 0 (q_of user new)) = Some false.
Proof. exact c125_lost_refuted. Qed.
Print Assumptions C125_lost_refuted.
(** Refuted for names of roles: after the name is changed, Can finds a role that nobody was given
    and that is not registered. *)
Theorem C125_role_refuted : exists st st' e user t r, vreachable st /\ edit_step st e = Ok st'
  /\ (forall pr, assigned st' pr -> pr_role pr <> r) /\ edges_of (d_edges (w_dag st')) r = [] /\ d_edges (w_dag st') = ∅ /\ d_roles (w_dag st') !! r = None
  /\ vanswer (v2_can id_oracle st 0 (q_of user t) [r]) = Some false /\ vanswer (v2_can id_oracle st' 0 (q_of user t) [r]) = Some true.
Proof. exact c125_role_refuted. Qed.
Print Assumptions C125_role_refuted.
(** Refuted for the permissions of roles: no role permits anything any more, yet a request is
    still granted, because what the role permitted was remembered. *)
Theorem C125_stale_refuted : exists st user t, ereachable st /\ distinct_ids st /\ ~ broken st /\ (forall r p, ~ confers (w_roles st) (w_dag st) r p)
  /\ vanswer (v2_authorize id_oracle st 0 (q_of user t)) = Some true.
Proof. exact c125_stale_refuted. Qed.
Print Assumptions C125_stale_refuted.
(** Refuted for the map userRoleMap: it keeps what an assignment said when it was given (but
    nothing reads that map, see below). *)
Theorem C125_index_refuted : exists st, ereachable st /\ ~ broken st /\ ~ index_agrees st.
Proof. exact c125_index_refuted. Qed.
Print Assumptions C125_index_refuted.
(** What holds.  As long as ids of tenants are left alone, Authorize and Can decide by what the
    fields say at the time of the decision (of roles already resolved, by what was remembered),
    whatever was written before ... *)
Theorem C125_authorize_partial (o : oracle) (st : vstate) (now : Z) (q : request) (st' : vstate) (b : bool) :
  ereachable st -> distinct_ids st -> v2_authorize o st now q = Ok (st', b) -> b = true <-> v2_allowed st now q.
Proof. exact (c125_authorize o st now q st' b). Qed.
Print Assumptions C125_authorize_partial.
Theorem C125_can_partial (o : oracle) (st : vstate) (now : Z) (q : request) (roles : list string) (st' : vstate) (b : bool) :
  ereachable st -> distinct_ids st -> v2_can o st now q roles = Ok (st', b) -> b = true <-> v2_can_allowed st now q roles.
Proof. exact (c125_can o st now q roles st' b). Qed.
Print Assumptions C125_can_partial.
(** ... and they return, unless the list has holes left by a removal ... *)
Theorem C125_returns_partial (o : oracle) (st : vstate) (now : Z) (q : request) (roles : list string) : ereachable st -> ~ broken st ->
  (no_loop st now q -> exists st' b, v2_authorize o st now q = Ok (st', b)) /\ exists st' b, v2_can o st now q roles = Ok (st', b).
Proof. exact (c125_returns o st now q roles). Qed.
Print Assumptions C125_returns_partial.
(** ... which no write makes. *)
Theorem C125_not_broken_partial (o : oracle) (ops : list eop) (st : vstate) (outs : list vout) :
  Forall keeps_ids ops -> Forall no_removal ops -> erun o 0 v2_init ops = Ok (st, outs) -> ~ broken st.
Proof. exact (c125_not_broken o ops st outs). Qed.
Print Assumptions C125_not_broken_partial.
(** A child deleted from ChildTenants is no child any more, so nobody manages it through that
    tenant; the others stay. *)
Theorem C125_children (st : vstate) (t : nat) (ks : gset string) (st' : vstate) (c : vtenant) : edit_step st (EChildren t ks) = Ok st' -> tenant_at st t c ->
  forall b, child_tenant st' t b <-> exists k, vt_children c !! k = Some b /\ k ∉ ks.
Proof. exact (c125_children st t ks st' c). Qed.
Print Assumptions C125_children.
Example C125_example : ereachable (eops_state w125_moved) /\ distinct_ids (eops_state w125_moved)
  /\ may (vops_state w_base) "ann" "acme" = Some true /\ may (vops_state w_base) "bob" "acme" = Some false
  /\ may (eops_state w125_moved) "ann" "acme" = Some false /\ may (eops_state w125_moved) "bob" "acme" = Some true
  /\ ereachable (eops_state w125_all) /\ distinct_ids (eops_state w125_all) /\ ~ broken (eops_state w125_all)
  /\ vanswer (v2_authorize id_oracle (eops_state w125_all) 0 (Req "bob" "acme" "" "s" "/new" "GET")) = Some true
  /\ is (eops_state w125_all) "bob" "acme" "reader" = Some true.
Proof. exact c125_ex. Qed.

(** ** C43: what userRoleMap holds makes no difference to anything *)
(** Two authorizers that differ only in that map give the same answers to whatever follows. *)
Theorem C43_index_unread (o : oracle) (i : nat) (st1 st2 : vstate) (ops : list eop) :
  but_for_index st1 st2 -> alike_but_index (erun o i st1 ops) (erun o i st2 ops).
Proof. exact (c43_unread o i st1 st2 ops). Qed.
Print Assumptions C43_index_unread.
Example C43_index_unread_example : let st := eops_state w125_moved in
  but_for_index st (vw_index st ∅) /\ indexed st "ann" "acme" = [0] /\ indexed (vw_index st ∅) "ann" "acme" = [].
Proof. exact c43_unread_ex. Qed.
