(** Properties C114 and C115: which calls to package v1 return, told from the calls made before. *)
From Verif Require Import V1CallsRet V1Refuse V1CallsEx V1RetEx V1Ex V1RetSpec.

(** C114.  A call that sets something up, made on objects that the constructors returned, always returns unless it assigns something (or looks up what is assigned)
    in a tenant that AddTenant was not called with; then, and only then, it panics. *)
Theorem C114_set_up_calls (o : oracle) (ops : list uop) (st : ustate) (outs : list uout) (o' : oracle) (x : uop) :
  urun o 0 u_init ops = Ok (st, outs) -> pointers_made (log_of ops outs) x -> set_up x ->
  ((exists st' y, ustep o' st x = Ok (st', y)) <-> ~ too_early (log_of ops outs) x)
  /\ (ustep o' st x = Panic <-> too_early (log_of ops outs) x) /\ ustep o' st x <> Hang.
Proof. exact (c114_exact o ops st outs o' x). Qed.
Print Assumptions C114_set_up_calls.
(** Eleven calls on a tenant never registered *)
Example C114_ex : urun id_oracle 0 u_init w114_ops = Ok (uops_state w114_ops, uops_outs w114_ops)
  /\ Forall (pointers_made (log_of w114_ops (uops_outs w114_ops))) w114_calls /\ Forall set_up w114_calls
  /\ map (fun x => outcome (ustep id_oracle (uops_state w114_ops) x)) w114_calls
     = ["panics"; "returns"; "panics"; "returns"; "panics"; "returns"; "panics"; "returns"; "returns"; "returns"; "returns"]
  /\ too_early (log_of w114_ops (uops_outs w114_ops)) (UTAssignScopes 0 "ann" []) /\ ~ too_early (log_of w114_ops (uops_outs w114_ops)) (UTSetDefault 0 "n").
Proof. exact c114_ex. Qed.

(** C115.  Not every request gets an answer, even without underscores in the ids.  Authorize panics if an activity alone is asked for and the caller has something
    assigned in a tenant never registered; … *)
Theorem C115_lost_refuted : exists o ops st outs p q, urun o 0 u_init ops = Ok (st, outs) /\ Forall plain_names ops /\ groups_made (log_of ops outs)
  /\ roles_decide (log_of ops outs) p q /\ u_authorize o st p q = Panic.
Proof. exact c115_lost. Qed.
Print Assumptions C115_lost_refuted.
(** … it never returns if a role has a circle below it, or a permission on which comparing with the activity asked for does not end. *)
Theorem C115_role_circle_refuted : exists o ops st outs p q, urun o 0 u_init ops = Ok (st, outs) /\ Forall plain_names ops /\ groups_made (log_of ops outs)
  /\ ~ lost (log_of ops outs) p q /\ u_authorize o st p q = Hang.
Proof. exact c115_circle. Qed.
Print Assumptions C115_role_circle_refuted.
Theorem C115_permission_refuted : exists o ops st outs p q, urun o 0 u_init ops = Ok (st, outs) /\ Forall plain_names ops /\ groups_made (log_of ops outs)
  /\ ~ lost (log_of ops outs) p q /\ (forall l, ~ role_circle (log_of ops outs) l) /\ u_authorize o st p q = Hang.
Proof. exact c115_star. Qed.
Print Assumptions C115_permission_refuted.
(** In no other case: if none of these happens, every request is answered, and the answer is the one the calls made lead to (C109).  Roles that the request does not
    lead to may have circles. *)
Theorem C115_decided_partial (o : oracle) (ops : list uop) (st : ustate) (outs : list uout) (o' : oracle) (p : string) (q : uopts) :
  urun o 0 u_init ops = Ok (st, outs) -> Forall plain_names ops -> groups_made (log_of ops outs) ->
  ~ lost (log_of ops outs) p q -> roles_decide (log_of ops outs) p q ->
  exists b, u_authorize o' st p q = Ok b /\ (b = true <-> granted (log_of ops outs) p q).
Proof. exact (c115_answered o ops st outs o' p q). Qed.
Print Assumptions C115_decided_partial.
(** The fourteen requests of C109 meet all of it. *)
Example C115_ex : urun id_oracle 0 u_init w109_ops = Ok (uops_state w109_ops, uops_outs w109_ops) /\ Forall plain_names w109_ops
  /\ groups_made (log_of w109_ops (uops_outs w109_ops))
  /\ Forall (fun pqb => roles_decide (log_of w109_ops (uops_outs w109_ops)) pqb.1.1 pqb.1.2 /\ ~ lost (log_of w109_ops (uops_outs w109_ops)) pqb.1.1 pqb.1.2
       /\ u_authorize rev_oracle (uops_state w109_ops) pqb.1.1 pqb.1.2 = Ok pqb.2) w109_requests.
Proof. exact c115_ex. Qed.
(** A request is refused exactly if the calls made do not grant it, nothing is lost, and the search ends in every role the request leads to (as far as it goes there). *)
Theorem C115_refused (o : oracle) (ops : list uop) (st : ustate) (outs : list uout) (o' : oracle) (p : string) (q : uopts) :
  urun o 0 u_init ops = Ok (st, outs) -> Forall plain_names ops -> groups_made (log_of ops outs) ->
  u_authorize o' st p q = Ok false <-> ~ granted (log_of ops outs) p q /\ ~ lost (log_of ops outs) p q /\ request_ends (log_of ops outs) p q.
Proof. exact (c115_refused o ops st outs o' p q). Qed.
Print Assumptions C115_refused.
(** A request that is not granted goes on for ever exactly if nothing is lost and the search does not end in one of these roles. *)
Theorem C115_endless (o : oracle) (ops : list uop) (st : ustate) (outs : list uout) (o' : oracle) (p : string) (q : uopts) :
  urun o 0 u_init ops = Ok (st, outs) -> Forall plain_names ops -> groups_made (log_of ops outs) ->
  ~ granted (log_of ops outs) p q -> u_authorize o' st p q = Hang <-> ~ lost (log_of ops outs) p q /\ ~ request_ends (log_of ops outs) p q.
Proof. exact (c115_endless o ops st outs o' p q). Qed.
Print Assumptions C115_endless.
Example C115_circle_ex : urun id_oracle 0 u_init w115_circle = Ok (uops_state w115_circle, uops_outs w115_circle) /\ Forall plain_names w115_circle
  /\ groups_made (log_of w115_circle (uops_outs w115_circle))
  /\ map (fun q => answer (u_authorize rev_oracle (uops_state w115_circle) "ann" q)) w115_asked = ["yes"; "hangs"; "no"; "no"].
Proof. exact c115_circle_ex. Qed.
