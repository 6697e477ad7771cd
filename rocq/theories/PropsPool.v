(** Property C41: decisions of package v2 made at the same time. *)
From Verif Require Import PoolEx.

(** A call can be granted, or denied, by what another call wrote into the map it is reading. *)
Theorem C41_granted_refuted :
  exists st, vreachable st /\ distinct_ids st /\ ~ broken st /\
  exists ths M es, Forall2 (jobs_of st) (both q_ann_doc) ths /\
    mrun (start ths) (ann_fills ++ bob_fills ++ [Move 0 (ChItem "/doc GET")]) = Some (M, es) /\
    ~ right_answer st (CallAuthorize 0 q_ann_doc) /\ answered M 0 true.
Proof. exact c41_granted_refuted. Qed.
Print Assumptions C41_granted_refuted.
Theorem C41_denied_refuted :
  exists st, vreachable st /\ distinct_ids st /\ ~ broken st /\
  exists ths M es, Forall2 (jobs_of st) (both q_ann_own) ths /\
    mrun (start ths) (ann_fills ++ bob_clears ++ [Move 0 ChGo; Move 0 ChGo]) = Some (M, es) /\
    right_answer st (CallAuthorize 0 q_ann_own) /\ answered M 0 false.
Proof. exact c41_denied_refuted. Qed.
Print Assumptions C41_denied_refuted.

(** Between Get and Put a map belongs to one goroutine and is in no pool. *)
Theorem C41_exclusive (ths : list (list job)) (xs : list cmd) (M : machine) (es : list event) (i k m : nat) :
  mrun (start ths) xs = Some (M, es) -> has_taken M i m -> has_taken M k m -> i = k.
Proof. exact (c41_exclusive ths xs M es i k m). Qed.
Print Assumptions C41_exclusive.
Theorem C41_not_free (ths : list (list job)) (xs : list cmd) (M : machine) (es : list event) (i m : nat) :
  mrun (start ths) xs = Some (M, es) -> has_taken M i m -> m ∉ mc_scoped M /\ m ∉ mc_global M.
Proof. exact (c41_not_free ths xs M es i m). Qed.
Print Assumptions C41_not_free.

(** A call answers rightly, whatever the other goroutines do, if nobody takes the map it is reading; in particular if
    no other goroutine takes any map meanwhile, or if there is no other goroutine. *)
Theorem C41_undisturbed (st : vstate) (cs : list call) (ths : list (list job)) (xs : list cmd) (M : machine)
    (es : list event) (i : nat) (c : call) (b : bool) :
  Forall2 (jobs_of st) cs ths -> mrun (start ths) xs = Some (M, es) -> cs !! i = Some c ->
  undisturbed i es -> answered M i b -> (b = true <-> right_answer st c).
Proof. exact (c41_calls st cs ths xs M es i c b). Qed.
Print Assumptions C41_undisturbed.
Theorem C41_no_overlap (st : vstate) (cs : list call) (ths : list (list job)) (xs : list cmd) (M : machine)
    (es : list event) (i : nat) (c : call) (b : bool) :
  Forall2 (jobs_of st) cs ths -> mrun (start ths) xs = Some (M, es) -> cs !! i = Some c ->
  (forall es1 m es2 k m' es3, es = es1 ++ EReturn i m :: es2 ++ EGet k m' :: es3 -> k <> i -> EEnd i ∈ es2) ->
  answered M i b -> (b = true <-> right_answer st c).
Proof. exact (c41_calls_apart st cs ths xs M es i c b). Qed.
Print Assumptions C41_no_overlap.
Theorem C41_alone (st : vstate) (c : call) (js : list job) (xs : list cmd) (M : machine) (es : list event) (b : bool) :
  jobs_of st c js -> mrun (start [js]) xs = Some (M, es) -> answered M 0 b -> (b = true <-> right_answer st c).
Proof. exact (c41_call_alone st c js xs M es b). Qed.
Print Assumptions C41_alone.

(** Whatever the schedule, a grant rests on something held by the principal of one of the calls under way. *)
Theorem C41_mixed (st : vstate) (cs : list call) (ths : list (list job)) (xs : list cmd) (M : machine)
    (es : list event) (i : nat) (now : Z) (q : request) :
  Forall2 (jobs_of st) cs ths -> mrun (start ths) xs = Some (M, es) -> cs !! i = Some (CallAuthorize now q) ->
  answered M i true ->
  exists k c x, cs !! k = Some c /\ matches_perm q x /\
    exists t n, match c with
    | CallAuthorize now' q' => scoped_perm st now' (q_principal q') t n (q_scope q') x \/
                               global_perm st now' (q_principal q') t n (q_scope q') x
    | CallCan now' q' _ => holds_role st now' (q_principal q') t n x
    end.
Proof. exact (c41_mixed st cs ths xs M es i now q). Qed.
Print Assumptions C41_mixed.

(** The jobs the theorems speak about exist for all calls in all states without nil assignments. *)
Theorem C41_jobs_exist (st : vstate) (cs : list call) :
  vreachable st -> distinct_ids st -> ~ broken st -> exists ths, Forall2 (jobs_of st) cs ths.
Proof. exact (c41_jobs_exist st cs). Qed.
Print Assumptions C41_jobs_exist.
Example C41_ex :
  (exists st ths M es, vreachable st /\ distinct_ids st /\ Forall2 (jobs_of st) (both q_ann_own) ths /\
     mrun (start ths) apart = Some (M, es) /\ undisturbed 0 es /\ undisturbed 1 es /\
     answered M 0 true /\ answered M 1 true) /\
  (exists st ths M es, vreachable st /\ distinct_ids st /\ Forall2 (jobs_of st) (both q_ann_doc) ths /\
     mrun (start ths) reuse = Some (M, es) /\ undisturbed 0 es /\ undisturbed 1 es /\
     answered M 0 false /\ answered M 1 true).
Proof. exact c41_ex. Qed.
