(** Properties C112 and C113: which calls to the root package return, told from the calls made before. *)
From Verif Require Import RoleCor NameEx RootCallsEx RootCallsRet RootRetEx RootRefuse RootRefuseEx NameSpec RootRetSpec.

(** C112.  A call that sets something up, made on objects that the constructors returned, always returns unless it gives a tenant something before AddTenant
    was called with it; then, and only then, it panics. *)
Theorem C112_set_up_calls (o : oracle) (ops : list op) (st : state) (outs : list out) (o' : oracle) (x : op) :
  run o 0 init_state ops = Ok (st, outs) -> groups_made (log_of ops outs) -> pointers_made (log_of ops outs) x -> ~ asks x ->
  ((exists st' y, step o' st x = Ok (st', y)) <-> ~ too_early (log_of ops outs) x)
  /\ (step o' st x = Panic <-> too_early (log_of ops outs) x) /\ step o' st x <> Hang.
Proof. exact (c112_exact o ops st outs o' x). Qed.
Print Assumptions C112_set_up_calls.
(** A tenant put below another before it is registered: only if the other has a default namespace does the call panic. *)
Example C112_ex : run id_oracle 0 init_state w112_ops = Ok (ops_state w112_ops, ops_outs w112_ops)
  /\ groups_made (log_of w112_ops (ops_outs w112_ops)) /\ pointers_made (log_of w112_ops (ops_outs w112_ops)) (OTenantAddDescendant 0 [1])
  /\ outcome (step id_oracle (ops_state w112_ops) (OTenantAddDescendant 0 [1])) = "returns" /\ outcome (step id_oracle (ops_state w112_default) (OTenantAddDescendant 0 [1])) = "panics"
  /\ too_early (log_of w112_default (ops_outs w112_default)) (OTenantAddDescendant 0 [1])
  /\ outcome (step id_oracle (ops_state w112_ops) (OTenantAddScopes 1 ["s"])) = "panics" /\ too_early (log_of w112_ops (ops_outs w112_ops)) (OTenantAddScopes 1 ["s"])
  /\ outcome (step id_oracle (ops_state w112_ops) (OTenantAddScopes 1 [])) = "returns".
Proof. exact c112_ex. Qed.

(** C113.  Not every request gets an answer.  Authorize panics if a row handed to AddData has something other than a text as its tenant … *)
Theorem C113_rows_refuted : exists o ops st outs p q, run o 0 init_state ops = Ok (st, outs) /\ groups_made (log_of ops outs)
  /\ request_textual q /\ ~ manages_circle (log_of ops outs) p /\ roles_decide (log_of ops outs) q /\ authorize o st p q = Panic.
Proof. exact c113_rows. Qed.
Print Assumptions C113_rows_refuted.
(** … or the request asks for something other than a text; … *)
Theorem C113_request_refuted : exists o ops st outs p q, run o 0 init_state ops = Ok (st, outs) /\ groups_made (log_of ops outs)
  /\ rows_textual (log_of ops outs) /\ ~ manages_circle (log_of ops outs) p /\ roles_decide (log_of ops outs) q /\ authorize o st p q = Panic.
Proof. exact c113_request. Qed.
Print Assumptions C113_request_refuted.
(** … it never returns if the principal may manage a tenant that has a circle below it … *)
Theorem C113_tenant_circle_refuted : exists o ops st outs p q, run o 0 init_state ops = Ok (st, outs) /\ groups_made (log_of ops outs)
  /\ rows_textual (log_of ops outs) /\ request_textual q /\ roles_decide (log_of ops outs) q /\ authorize o st p q = Hang.
Proof. exact c113_circle. Qed.
Print Assumptions C113_tenant_circle_refuted.
(** … or a role has a circle below it, or a permission on which comparing with the activity asked for does not end. *)
Theorem C113_role_circle_refuted : exists o ops st outs p q, run o 0 init_state ops = Ok (st, outs) /\ groups_made (log_of ops outs)
  /\ rows_textual (log_of ops outs) /\ request_textual q /\ ~ manages_circle (log_of ops outs) p /\ authorize o st p q = Hang.
Proof. exact c113_roles. Qed.
Print Assumptions C113_role_circle_refuted.
Theorem C113_permission_refuted : exists o ops st outs p q, run o 0 init_state ops = Ok (st, outs) /\ groups_made (log_of ops outs)
  /\ rows_textual (log_of ops outs) /\ request_textual q /\ ~ manages_circle (log_of ops outs) p /\ (forall l, ~ role_circle (log_of ops outs) l) /\ authorize o st p q = Hang.
Proof. exact c113_star. Qed.
Print Assumptions C113_permission_refuted.
(** In no other case: if none of these happens in a role that the request leads to, every request is answered … *)
Theorem C113_answered_partial (o : oracle) (ops : list op) (st : state) (outs : list out) (o' : oracle) (p : string) (q : opts) :
  run o 0 init_state ops = Ok (st, outs) -> groups_made (log_of ops outs) ->
  rows_textual (log_of ops outs) -> request_textual q -> ~ manages_circle (log_of ops outs) p -> ~ endless (log_of ops outs) p q ->
  exists st' b, authorize o' st p q = Ok (st', b).
Proof. exact (c113_returns o ops st outs o' p q). Qed.
Print Assumptions C113_answered_partial.
(** … so are the questions for the tenants of a principal, and for the tenants below a tenant; … *)
Theorem C113_tenants_partial (o : oracle) (ops : list op) (st : state) (outs : list out) (o' : oracle) (p : string) :
  run o 0 init_state ops = Ok (st, outs) -> groups_made (log_of ops outs) ->
  rows_textual (log_of ops outs) -> ~ manages_circle (log_of ops outs) p -> exists st' U, get_implicit_tenants o' st p = Ok (st', U).
Proof. exact (c113_tenants o ops st outs o' p). Qed.
Print Assumptions C113_tenants_partial.
Theorem C113_children_partial (o : oracle) (ops : list op) (st : state) (outs : list out) (o' : oracle) (t : string) :
  run o 0 init_state ops = Ok (st, outs) -> groups_made (log_of ops outs) ->
  (forall l, tenant_at (log_of ops outs) t l -> ~ tenant_circle (log_of ops outs) l) -> exists st' ds, tenant_children o' st t = Ok (st', ds).
Proof. exact (c113_children o ops st outs o' t). Qed.
Print Assumptions C113_children_partial.
(** … and with the conditions of C111 the answer is there and is the right one. *)
Theorem C113_decided_partial (o : oracle) (ops : list op) (st : state) (outs : list out) (o' : oracle) (p : string) (q : opts) :
  run o 0 init_state ops = Ok (st, outs) -> groups_made (log_of ops outs) ->
  rows_textual (log_of ops outs) -> request_textual q -> ~ manages_circle (log_of ops outs) p -> ~ endless (log_of ops outs) p q ->
  keeps_names_apart ops -> asked_last (log_of ops outs) p -> links_registered (log_of ops outs) -> flags_alike (log_of ops outs) p ->
  exists st' b, authorize o' st p q = Ok (st', b) /\ (b = true <-> granted (log_of ops outs) p q).
Proof. exact (c113_decided o ops st outs o' p q). Qed.
Print Assumptions C113_decided_partial.
(** The roles are in order for every request if they are for every registered role. *)
Theorem C113_roles_in_order (h : log) (p : string) (q : opts) : roles_decide h q -> ~ endless h p q.
Proof. exact (decide_not_endless h p q). Qed.
Print Assumptions C113_roles_in_order.
(** The program of examples/main.go meets all of it, with the twelve requests of C111. *)
Example C113_ex : run id_oracle 0 init_state w104_ops = Ok (ops_state w104_ops, ops_outs w104_ops) /\ groups_made (log_of w104_ops (ops_outs w104_ops))
  /\ rows_textual (log_of w104_ops (ops_outs w104_ops)) /\ ~ manages_circle (log_of w104_ops (ops_outs w104_ops)) "principalA"
  /\ Forall (fun pqb => request_textual pqb.1.2 /\ roles_decide (log_of w104_ops (ops_outs w104_ops)) pqb.1.2
       /\ exists st', authorize rev_oracle (ops_state w104_ops) pqb.1.1 pqb.1.2 = Ok (st', pqb.2)) w111_answers.
Proof. exact c113_ex. Qed.
(** A request is refused exactly if the calls made do not grant it, and it does not lead to a role in which the search goes on for ever … *)
Theorem C113_refused (o : oracle) (ops : list op) (st : state) (outs : list out) (o' : oracle) (p : string) (q : opts) :
  run o 0 init_state ops = Ok (st, outs) -> groups_made (log_of ops outs) -> rows_textual (log_of ops outs) -> request_textual q -> ~ manages_circle (log_of ops outs) p ->
  keeps_names_apart ops -> asked_last (log_of ops outs) p -> links_registered (log_of ops outs) -> flags_alike (log_of ops outs) p ->
  (exists st', authorize o' st p q = Ok (st', false)) <-> ~ granted (log_of ops outs) p q /\ ~ endless (log_of ops outs) p q.
Proof. exact (c113_refused o ops st outs o' p q). Qed.
Print Assumptions C113_refused.
(** … and if it is not granted but leads to such a role, it never gets an answer. *)
Theorem C113_endless (o : oracle) (ops : list op) (st : state) (outs : list out) (o' : oracle) (p : string) (q : opts) :
  run o 0 init_state ops = Ok (st, outs) -> groups_made (log_of ops outs) -> rows_textual (log_of ops outs) -> request_textual q -> ~ manages_circle (log_of ops outs) p ->
  keeps_names_apart ops -> asked_last (log_of ops outs) p -> links_registered (log_of ops outs) -> flags_alike (log_of ops outs) p ->
  ~ granted (log_of ops outs) p q -> authorize o' st p q = Hang <-> endless (log_of ops outs) p q.
Proof. exact (c113_endless o ops st outs o' p q). Qed.
Print Assumptions C113_endless.
(** Two roles below each other: all three can happen. *)
Example C113_circle_ex : run id_oracle 0 init_state w113e = Ok (ops_state w113e, ops_outs w113e) /\ groups_made (log_of w113e (ops_outs w113e))
  /\ rows_textual (log_of w113e (ops_outs w113e)) /\ keeps_names_apart w113e /\ links_registered (log_of w113e (ops_outs w113e))
  /\ Forall (fun p => ~ manages_circle (log_of w113e (ops_outs w113e)) p /\ asked_last (log_of w113e (ops_outs w113e)) p /\ flags_alike (log_of w113e (ops_outs w113e)) p) ["ann"; "eve"]
  /\ Forall (fun pq => request_textual pq.2) w113_asked
  /\ map (fun pq => answer (authorize rev_oracle (ops_state w113e) pq.1 pq.2)) w113_asked = ["yes"; "hangs"; "no"; "no"; "hangs"; "no"].
Proof. exact c113_circle_ex. Qed.
