(** Properties C110 and C111: what the root package decides, told from the calls made. *)
From Verif Require Import RoleCor NameEx RootCallsFresh RootCallsEx NameSpec RootCallsSpec.

(** C110.  Nothing is allowed that the calls made so far do not grant: whatever calls were made, in whatever order and with whatever was asked in between.
    ([groups_made] only leaves out calls on groups that NewAttributeGroup never returned, which a Go program cannot make.) *)
Theorem C110_only_what_is_granted (o : oracle) (ops : list op) (st : state) (outs : list out) (o' : oracle) (p : string) (q : opts) (st' : state) :
  run o 0 init_state ops = Ok (st, outs) -> groups_made (log_of ops outs) ->
  authorize o' st p q = Ok (st', true) -> granted (log_of ops outs) p q.
Proof. exact (c110_sound o ops st outs o' p q st'). Qed.
Print Assumptions C110_only_what_is_granted.

(** C111.  Not everything that the calls grant is allowed.  Something granted is lost if a principal is asked about before everything is set up … *)
Theorem C111_asked_early_refuted : exists o ops st outs p q st', run o 0 init_state ops = Ok (st, outs) /\ groups_made (log_of ops outs) /\ keeps_names_apart ops
  /\ links_registered (log_of ops outs) /\ flags_alike (log_of ops outs) p /\ authorize o st p q = Ok (st', false) /\ granted (log_of ops outs) p q.
Proof. exact c111_asked_refuted. Qed.
Print Assumptions C111_asked_early_refuted.
(** … or the same name is used for things of different sorts … *)
Theorem C111_names_refuted : exists o ops st outs p q st', run o 0 init_state ops = Ok (st, outs) /\ groups_made (log_of ops outs) /\ asked_last (log_of ops outs) p
  /\ links_registered (log_of ops outs) /\ flags_alike (log_of ops outs) p /\ authorize o st p q = Ok (st', false) /\ granted (log_of ops outs) p q.
Proof. exact c111_names_refuted. Qed.
Print Assumptions C111_names_refuted.
(** … or a tenant put below another is not the one registered under its id … *)
Theorem C111_links_refuted : exists o ops st outs p q st', run o 0 init_state ops = Ok (st, outs) /\ groups_made (log_of ops outs) /\ keeps_names_apart ops /\ asked_last (log_of ops outs) p
  /\ flags_alike (log_of ops outs) p /\ authorize o st p q = Ok (st', false) /\ granted (log_of ops outs) p q.
Proof. exact c111_links_refuted. Qed.
Print Assumptions C111_links_refuted.
(** … or the rows of a principal in one tenant disagree on whether they let manage the tenants below. *)
Theorem C111_flags_refuted : exists o ops st outs p q st', run id_oracle 0 init_state ops = Ok (st, outs) /\ groups_made (log_of ops outs) /\ keeps_names_apart ops /\ asked_last (log_of ops outs) p
  /\ links_registered (log_of ops outs) /\ authorize o st p q = Ok (st', false) /\ granted (log_of ops outs) p q.
Proof. exact c111_flags_refuted. Qed.
Print Assumptions C111_flags_refuted.
(** In no other case: if none of the four happens, an answer is "yes" exactly when the calls made so far grant it. *)
Theorem C111_decisions_partial (o : oracle) (ops : list op) (st : state) (outs : list out) (o' : oracle) (p : string) (q : opts) (st' : state) (b : bool) :
  run o 0 init_state ops = Ok (st, outs) -> groups_made (log_of ops outs) -> keeps_names_apart ops ->
  asked_last (log_of ops outs) p -> links_registered (log_of ops outs) -> flags_alike (log_of ops outs) p ->
  authorize o' st p q = Ok (st', b) -> b = true <-> granted (log_of ops outs) p q.
Proof. exact (c111_exact o ops st outs o' p q st' b). Qed.
Print Assumptions C111_decisions_partial.
(** The program of examples/main.go meets all of it; twelve requests with their answers *)
Example C111_ex : run id_oracle 0 init_state w104_ops = Ok (ops_state w104_ops, ops_outs w104_ops) /\ groups_made (log_of w104_ops (ops_outs w104_ops)) /\ keeps_names_apart w104_ops
  /\ asked_last (log_of w104_ops (ops_outs w104_ops)) "principalA" /\ links_registered (log_of w104_ops (ops_outs w104_ops)) /\ flags_alike (log_of w104_ops (ops_outs w104_ops)) "principalA"
  /\ Forall (fun pqb => exists st', authorize rev_oracle (ops_state w104_ops) pqb.1.1 pqb.1.2 = Ok (st', pqb.2)) w111_answers.
Proof. exact c111_ex. Qed.
