(** Property C109: what package v1 decides follows from the calls made. *)
From Verif Require Import V1CallsDec V1CallsEx V1Ex V1CallsSpec.

(** C109.  An assignment is kept as text and read back by cutting it at the underscores (C44), so the decisions do not follow from the calls if ids contain underscores:
    something is allowed that no call grants, and something that a call grants is denied. *)
Theorem C109_underscores_refuted : exists o ops st outs, urun o 0 u_init ops = Ok (st, outs) /\ groups_made (log_of ops outs)
  /\ (exists p q, u_authorize o st p q = Ok true /\ ~ granted (log_of ops outs) p q)
  /\ exists p q, u_authorize o st p q = Ok false /\ granted (log_of ops outs) p q.
Proof. exact c109_underscore. Qed.
Print Assumptions C109_underscores_refuted.
(** Without underscores in the ids, whatever calls were made in whatever order, an answer is "yes" exactly when the calls made so far grant it …
    ([groups_made] only leaves out calls on groups that NewAttributeGroup never returned, which a Go program cannot make.) *)
Theorem C109_decisions (o : oracle) (ops : list uop) (st : ustate) (outs : list uout) (o' : oracle) (p : string) (q : uopts) (b : bool) :
  urun o 0 u_init ops = Ok (st, outs) -> Forall plain_names ops -> groups_made (log_of ops outs) ->
  u_authorize o' st p q = Ok b -> b = true <-> granted (log_of ops outs) p q.
Proof. exact (decided_by_calls o ops st outs o' p q b). Qed.
Print Assumptions C109_decisions.
(** … and Authorize panics exactly when an activity alone is asked for and the caller has something assigned in a tenant never registered. *)
Theorem C109_panics (o : oracle) (ops : list uop) (st : ustate) (outs : list uout) (o' : oracle) (p : string) (q : uopts) :
  urun o 0 u_init ops = Ok (st, outs) -> Forall plain_names ops -> groups_made (log_of ops outs) ->
  u_authorize o' st p q = Panic <-> lost (log_of ops outs) p q.
Proof. exact (lost_by_calls o ops st outs o' p q). Qed.
Print Assumptions C109_panics.
(** A program in the manner of TestAuthorize, fourteen requests with their answers, and one that panics *)
Example C109_ex : urun id_oracle 0 u_init w109_ops = Ok (uops_state w109_ops, uops_outs w109_ops) /\ Forall plain_names w109_ops
  /\ groups_made (log_of w109_ops (uops_outs w109_ops))
  /\ Forall (fun pqb => u_authorize rev_oracle (uops_state w109_ops) pqb.1.1 pqb.1.2 = Ok pqb.2) w109_requests
  /\ u_authorize rev_oracle (uops_state w109_ops) "eve" (q_only "/ping GET") = Panic.
Proof. exact c109_ex. Qed.
