(** Properties of concurrent AddPrincipalRole and RemovePrincipalRole calls (v2). *)
From Verif Require Import CAssignEx CAssignHole CAssignProofs CAssignSpec.

(** ** C81: concurrent assignments and removals act as if made one after the other *)
(** The property is [as_if_in_turn] for any mixture of calls.  It is false. *)
Theorem C81_in_turn_refuted : ~ (forall (prs : list prole) (old : list (option nat)) (ts : list athread),
  Forall starting ts -> as_if_in_turn prs old ts).
Proof. exact in_turn_false. Qed.
Print Assumptions C81_in_turn_refuted.
(** It holds when all calls are AddPrincipalRole calls, which share the lock; missing: the mixture. *)
Theorem C81_in_turn_partial (prs : list prole) (old : list (option nat)) (lss : list (list nat)) :
  as_if_in_turn prs old (AWait <$> lss).
Proof. exact (adds_in_turn prs old lss). Qed.
Print Assumptions C81_in_turn_partial.
(** Then no row is lost or doubled, old rows stay in front, and the rows of a call stay together. *)
Theorem C81_adds (prs : list prole) (old : list (option nat)) (lss : list (list nat)) (sched : list nat) (st' : astate) :
  finishes prs old (AWait <$> lss) sched st' ->
  as_threads st' = replicate (length lss) ADone /\
  exists lss', lss' ≡ₚ lss /\ as_list st' = old ++ (Some <$> concat lss').
Proof. exact (adds_list prs old lss sched st'). Qed.
Print Assumptions C81_adds.
(** Whenever something can be removed, adding any other row at the same time can go wrong in three ways, none of which
    is possible one after the other.  The row added is lost though both calls report success: *)
Theorem C81_lost (prs : list prole) (ls : list nat) (tg : prole) (l : nat) :
  (forall x, x ∈ ls -> is_Some (prs !! x)) -> is_Some (prs !! l) ->
  (exists x, x ∈ ls /\ row_fits prs tg x) -> ~ row_fits prs tg l ->
  exists sched st', finishes prs (Some <$> ls) [AWait [l]; XLen tg] sched st' /\ as_threads st' = [ADone; XDone None] /\
    (forall x, Some x ∈ as_list st' -> x ∈ ls) /\
    forall sched', one_by_one 2 sched' -> ~ finishes prs (Some <$> ls) [AWait [l]; XLen tg] sched' st'.
Proof. exact (hole_lost prs ls tg l). Qed.
Print Assumptions C81_lost.
(** The removal reports success and has no effect: *)
Theorem C81_undone (prs : list prole) (ls : list nat) (tg : prole) (l : nat) :
  (forall x, x ∈ ls -> is_Some (prs !! x)) -> is_Some (prs !! l) ->
  (exists x, x ∈ ls /\ row_fits prs tg x) -> ~ row_fits prs tg l ->
  exists sched st', finishes prs (Some <$> ls) [AWait [l]; XLen tg] sched st' /\ as_threads st' = [ADone; XDone None] /\
    as_list st' = (Some <$> ls) ++ [Some l] /\
    forall sched', one_by_one 2 sched' -> ~ finishes prs (Some <$> ls) [AWait [l]; XLen tg] sched' st'.
Proof. exact (hole_undone prs ls tg l). Qed.
Print Assumptions C81_undone.
(** The removal panics: *)
Theorem C81_panics (prs : list prole) (ls : list nat) (tg : prole) (l : nat) :
  (forall x, x ∈ ls -> is_Some (prs !! x)) -> is_Some (prs !! l) ->
  (exists x, x ∈ ls /\ row_fits prs tg x) -> ~ row_fits prs tg l ->
  (exists sched st', finishes prs (Some <$> ls) [AWait [l]; XLen tg] sched st' /\ as_threads st' = [ADone; XPanic]) /\
  forall sched' st', one_by_one 2 sched' -> finishes prs (Some <$> ls) [AWait [l]; XLen tg] sched' st' ->
    as_threads st' = [ADone; XDone None].
Proof. exact (hole_panic prs ls tg l). Qed.
Print Assumptions C81_panics.
(** No mixture of calls ever blocks for good. *)
Theorem C81_no_deadlock (prs : list prole) (old : list (option nat)) (ts : list athread) (sched : list nat) (st' : astate) :
  Forall starting ts -> arun prs (AState old None ts) sched = Some st' ->
  Forall ended (as_threads st') \/ exists i st2, astep prs st' i = Some st2.
Proof. exact (no_deadlock prs old ts sched st'). Qed.
Print Assumptions C81_no_deadlock.
Example C81_hyps : (forall x, x ∈ [0; 1] -> is_Some (x_prs !! x)) /\ is_Some (x_prs !! 2) /\
  (exists x, x ∈ [0; 1] /\ row_fits x_prs x_ann x) /\ ~ row_fits x_prs x_ann 2.
Proof. exact x_hyps. Qed.
Example C81_case : exists sched st', finishes x_prs [Some 0] (AWait <$> [[1]; [2; 0]]) sched st' /\
  as_list st' = [Some 0; Some 2; Some 0; Some 1].
Proof. exact x_adds. Qed.
Example C81_waits : exists st', arun x_prs (AState [Some 0] None (AWait <$> [[1]; [2; 0]])) [1; 1] = Some st' /\
  astep x_prs st' 0 = None /\ is_Some (astep x_prs st' 1).
Proof. exact x_waits. Qed.
