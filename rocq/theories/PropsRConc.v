(** Calls of Authorize of the root package made by several goroutines at the same time. *)
From Verif Require Import RootEx RDecEx RConcProofs RConcEx RConcSpec.

(** C95.  If there is one goroutine only, the model of calls made at the same time is the model of one call. *)
Theorem C95_one_call (st : state) (c : ask) (st' : state) (r : res bool) : kmet st [c] st' [KDone r] ->
  match r with
  | Ok b => authorize (a_orders c) st (a_principal c) (a_request c) = Ok (st', b)
  | Panic => authorize (a_orders c) st (a_principal c) (a_request c) = Panic
  | Hang => authorize (a_orders c) st (a_principal c) (a_request c) = Hang
  end.
Proof. exact (c95_one_call st c st' r). Qed.
Print Assumptions C95_one_call.
Example C95_one_call_ex : exists pcs, kmet (ops_state w95_ops) [Ask rev_oracle "ann" w94_q]
    (left_by (ops_state w95_ops) (krun [Ask rev_oracle "ann" w94_q] (kstart (ops_state w95_ops) [Ask rev_oracle "ann" w94_q]) [0; 0; 0; 0; 0])) pcs /\ answers pcs [false].
Proof. exact c95_one_ex. Qed.

(** C95.  Whatever the others do meanwhile, each call does something it could have done if it had been made alone at the start: it gives such an answer,
    or it panics or never returns, which it then could have done alone as well … *)
Theorem C95_alone (st : state) (calls : list ask) (st' : state) (pcs : list kpc) (i : nat) (c : ask) (r : res bool) :
  reachable st -> kmet st calls st' pcs -> calls !! i = Some c -> pcs !! i = Some (KDone r) -> alone_does st (a_principal c) (a_request c) r.
Proof. exact (c95_alone st calls st' pcs i c r). Qed.
Print Assumptions C95_alone.
(** … and what stays behind are tenants of principals that GetImplicitTenants could have returned at the start, nothing else. *)
Theorem C95_leaves (st : state) (calls : list ask) (st' : state) (pcs : list kpc) : reachable st -> kmet st calls st' pcs ->
  same_but_caches st st' /\ forall p U, m_cache st' !! p = Some U -> exists o st1, get_implicit_tenants o st p = Ok (st1, U).
Proof. exact (fun R M => conj (c95_only_caches st calls st' pcs R M) (fun p U => c95_remembered st calls st' pcs p U R M)). Qed.
Print Assumptions C95_leaves.
Example C95_alone_ex : reachable (ops_state h95_ops)
  /\ exists st', kmet (ops_state h95_ops) h95_calls st' [KDone Hang; KDone Panic; KDone (Ok false)].
Proof. exact (conj h95_reachable h95_met). Qed.

(** C95.  No call waits for another: one that has not ended can take its next step … *)
Theorem C95_moves (st : state) (calls : list ask) (i : nat) (c : ask) (pcs : list kpc) (pc : kpc) :
  calls !! i = Some c -> pcs !! i = Some pc -> ~ finished pc -> exists s', kstep calls (st, pcs) i = Some s'.
Proof. exact (c95_moves st calls i c pcs pc). Qed.
Print Assumptions C95_moves.
(** … and the number of its steps is bounded by the rows of its principal, whatever the others do. *)
Theorem C95_bounded (st : state) (calls : list ask) (sched : list nat) (s' : state * list kpc) (i : nat) (c : ask) :
  calls !! i = Some c -> krun calls (kstart st calls) sched = Some s' -> steps_of i sched <= 2 * rows_count st (a_principal c) + 3.
Proof. exact (c95_bound st calls sched s' i c). Qed.
Print Assumptions C95_bounded.

Example C95_bounded_ex : rows_count (ops_state w94_ops) "ann" = 1 /\ steps_of 0 e95_sched = 5.
Proof. exact (proj2 (proj2 (proj2 (proj2 c95_ex)))). Qed.

(** C96.  All answers together need not be those of calls made one after the other: ann has two rows in tenant acme, one with ManageDescendants and one
    without.  Two goroutines ask the same question, one is told yes, the other no; made one after the other, in any order, the two calls agree. *)
Theorem C96_one_after_other_refuted : exists st calls st' pcs bs, reachable st /\ hierarchy_fresh st /\ tenants_coherent st
  /\ kmet st calls st' pcs /\ answers pcs bs /\ forall js, js ≡ₚ seq 0 (length calls) -> ~ fits_order st calls bs js.
Proof. exact c95_refuted. Qed.
Print Assumptions C96_one_after_other_refuted.
(** C96.  Nor does an answer stay: the goroutine that was told yes is told no whenever it asks again, though nothing has been changed. *)
Theorem C96_repeats_refuted : exists st calls st' pcs i c, reachable st /\ hierarchy_fresh st /\ tenants_coherent st
  /\ kmet st calls st' pcs /\ calls !! i = Some c /\ pcs !! i = Some (KDone (Ok true))
  /\ may_answer st' (a_principal c) (a_request c) false /\ ~ may_answer st' (a_principal c) (a_request c) true.
Proof. exact c95_repeats_refuted. Qed.
Print Assumptions C96_repeats_refuted.

(** C96.  If the tenants of the principals do not depend on the order of their rows, the answers are those of calls made one after the other,
    in whatever order one likes … *)
Theorem C96_one_after_other_partial (st : state) (calls : list ask) (st' : state) (pcs : list kpc) (bs : list bool) (js : list nat) :
  reachable st -> kmet st calls st' pcs -> (forall c, c ∈ calls -> settled st [] (a_principal c)) -> answers pcs bs -> fits_order st calls bs js.
Proof. exact (c95_in_turn st calls st' pcs bs js). Qed.
Print Assumptions C96_one_after_other_partial.
(** … and every later call repeats them. *)
Theorem C96_repeats_partial (st : state) (calls : list ask) (st' : state) (pcs : list kpc) (i : nat) (c : ask) (b : bool) (o : oracle) (st2 : state) (b' : bool) :
  reachable st -> kmet st calls st' pcs -> settled st [] (a_principal c) -> calls !! i = Some c -> pcs !! i = Some (KDone (Ok b)) ->
  authorize o st' (a_principal c) (a_request c) = Ok (st2, b') -> b' = b.
Proof. exact (c95_repeats st calls st' pcs i c b o st2 b'). Qed.
Print Assumptions C96_repeats_partial.
Example C96_ex : reachable (ops_state w94_ops) /\ (forall c, c ∈ e95_calls -> settled (ops_state w94_ops) [] (a_principal c))
  /\ (exists pcs, kmet (ops_state w94_ops) e95_calls (left_by (ops_state w94_ops) e95_run) pcs /\ answers pcs [true; true; false])
  /\ answer (authorize rev_oracle (left_by (ops_state w94_ops) e95_run) "ann" w94_q) = Some true
  /\ rows_count (ops_state w94_ops) "ann" = 1 /\ steps_of 0 e95_sched = 5.
Proof. exact c95_ex. Qed.
