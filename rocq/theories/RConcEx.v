(** Concrete cases for calls of Authorize made at the same time. *)
From Verif Require Import RootEx RDecEx RConcProofs.

Definition done_with (s : option (state * list kpc)) : option (list (option bool)) :=
  match s with Some x => Some (map (fun pc => match pc with KDone (Ok b) => Some b | _ => None end) x.2) | None => None end.
Definition left_by (st : state) (s : option (state * list kpc)) : state := match s with Some x => x.1 | None => st end.
Lemma done_answers (st : state) (calls : list ask) (sched : list nat) (bs : list bool) :
  done_with (krun calls (kstart st calls) sched) = Some (Some <$> bs) ->
  exists pcs, kmet st calls (left_by st (krun calls (kstart st calls) sched)) pcs /\ answers pcs bs.
Proof.
  intros H. destruct (krun calls (kstart st calls) sched) as [[st' pcs]|] eqn:E; [|discriminate]. injection H as H.
  exists pcs. split; [exists sched; exact E|]. unfold answers. cbn in H. clear E. revert bs H. induction pcs as [|pc pcs IH]; intros [|b bs] H; try discriminate; [reflexivity|].
  cbn [map fmap list_fmap] in H |- *. injection H as H1 H2. f_equal; [|exact (IH bs H2)].
  destruct pc as [|? ? ?|? ? ? ? ?|?|[]]; try discriminate H1. injection H1 as ->. reflexivity.
Qed.

(** ** Two goroutines with one request, different answers *)
Definition w95_ops : list op := w94_ops ++ [OAddData w94_r2].
Definition w95_calls (o1 o2 : oracle) : list ask := [Ask o1 "ann" w94_q; Ask o2 "ann" w94_q].
Definition w95_sched (i j : nat) : list nat := [i; j; i; i; i; i; i; j; j; j; j].
Lemma w95_reachable : reachable (ops_state w95_ops).
Proof. reach_ops w95_ops. Qed.
Definition w95_run : option (state * list kpc) :=
  krun (w95_calls id_oracle rev_oracle) (kstart (ops_state w95_ops) (w95_calls id_oracle rev_oracle)) (w95_sched 0 1).
Lemma w95_done : done_with w95_run = Some (Some <$> [true; false]).
Proof. vm_compute. reflexivity. Qed.
Lemma w95_met : exists pcs, kmet (ops_state w95_ops) (w95_calls id_oracle rev_oracle) (left_by (ops_state w95_ops) w95_run) pcs /\ answers pcs [true; false].
Proof. exact (done_answers _ _ _ _ w95_done). Qed.
Lemma w95_fresh : hierarchy_fresh (ops_state w95_ops) /\ tenants_coherent (ops_state w95_ops).
Proof.
  split.
  - intros t ds d H. exfalso. revert H. change (m_hierarchy (ops_state w95_ops)) with (∅ : gmap string (list any)).
    rewrite lookup_empty. discriminate.
  - apply coherent_registered. intros l c k d Hl Hk.
    assert (E : s_tenants (ops_state w95_ops) = [Tenant "acme" {["branch" := 1]} None true; Tenant "branch" ∅ None true; Tenant "other" ∅ None true])
      by (vm_compute; reflexivity).
    rewrite E in Hl. clear E. destruct l as [|[|[|l]]]; cbn in Hl; [| | |discriminate]; injection Hl as <-; cbn in Hk.
    + apply lookup_singleton_Some in Hk as [<- <-]. vm_compute. reflexivity.
    + rewrite lookup_empty in Hk. discriminate.
    + rewrite lookup_empty in Hk. discriminate.
Qed.
Lemma c95_refuted : exists st calls st' pcs bs, reachable st /\ hierarchy_fresh st /\ tenants_coherent st
  /\ kmet st calls st' pcs /\ answers pcs bs /\ forall js, js ≡ₚ seq 0 (length calls) -> ~ fits_order st calls bs js.
Proof.
  destruct w95_met as (pcs & M & A). destruct w95_fresh as [Hf Hco].
  exists (ops_state w95_ops), (w95_calls id_oracle rev_oracle), (left_by (ops_state w95_ops) w95_run), pcs, [true; false].
  split; [exact w95_reachable|]. split; [exact Hf|]. split; [exact Hco|]. split; [exact M|]. split; [exact A|].
  intros js Hjs. apply (disagree_no_order _ _ "ann" w94_q); [|reflexivity|left|right; left|exact Hjs].
  intros c Hc. unfold w95_calls in Hc. rewrite !elem_of_cons, elem_of_nil in Hc. destruct Hc as [->|[->|[]]]; reflexivity.
Qed.
Lemma cached_same_answer (st : state) (p : string) (U : gset string) (q : opts) (b1 b2 : bool) : m_cache st !! p = Some U ->
  may_answer st p q b1 -> may_answer st p q b2 -> b1 = b2.
Proof.
  intros Hc M1 M2. pose proof (seq_cached st p U q b1 Hc M1) as E1. pose proof (seq_cached st p U q b2 Hc M2) as E2.
  destruct b1, b2; try reflexivity; [symmetry; apply E2, E1; reflexivity|apply E1, E2; reflexivity].
Qed.
Lemma answer_may (o : oracle) (st : state) (p : string) (q : opts) (b : bool) : answer (authorize o st p q) = Some b -> may_answer st p q b.
Proof. intros H. destruct (authorize o st p q) as [[st' b']| |] eqn:E; [|discriminate|discriminate]. injection H as ->. exists o, st'. exact E. Qed.
Lemma w95_cached : m_cache (left_by (ops_state w95_ops) w95_run) !! "ann" = Some {["acme"]}.
Proof. apply (bool_decide_unpack _). vm_compute. exact I. Qed.
Lemma w95_denied : answer (authorize id_oracle (left_by (ops_state w95_ops) w95_run) "ann" w94_q) = Some false.
Proof. vm_compute. reflexivity. Qed.
Lemma c95_repeats_refuted : exists st calls st' pcs i c, reachable st /\ hierarchy_fresh st /\ tenants_coherent st
  /\ kmet st calls st' pcs /\ calls !! i = Some c /\ pcs !! i = Some (KDone (Ok true))
  /\ may_answer st' (a_principal c) (a_request c) false /\ ~ may_answer st' (a_principal c) (a_request c) true.
Proof.
  destruct w95_met as (pcs & M & A). destruct w95_fresh as [Hf Hco].
  exists (ops_state w95_ops), (w95_calls id_oracle rev_oracle), (left_by (ops_state w95_ops) w95_run), pcs, 0, (Ask id_oracle "ann" w94_q).
  split; [exact w95_reachable|]. split; [exact Hf|]. split; [exact Hco|]. split; [exact M|]. split; [reflexivity|]. split; [rewrite A; reflexivity|].
  cbn [a_principal a_request]. pose proof (answer_may _ _ _ _ _ w95_denied) as Hd. split; [exact Hd|].
  intros Ht. pose proof (cached_same_answer _ _ _ _ _ _ w95_cached Hd Ht) as E. discriminate E.
Qed.

(** ** Flags agree *)
Definition e95_calls : list ask := [Ask id_oracle "ann" w94_q; Ask rev_oracle "ann" w94_q; Ask id_oracle "zoe" w94_q].
Definition e95_sched : list nat := [0; 1; 0; 1; 2; 0; 1; 0; 1; 0; 1].
Definition e95_run : option (state * list kpc) := krun e95_calls (kstart (ops_state w94_ops) e95_calls) e95_sched.
Lemma e95_done : done_with e95_run = Some (Some <$> [true; true; false]).
Proof. vm_compute. reflexivity. Qed.
Lemma e95_met : exists pcs, kmet (ops_state w94_ops) e95_calls (left_by (ops_state w94_ops) e95_run) pcs /\ answers pcs [true; true; false].
Proof. exact (done_answers _ _ _ _ e95_done). Qed.
Lemma e95_zoe : flags_agree (ops_state w94_ops) "zoe".
Proof.
  intros d d' H _ P _ _ _. exfalso. eapply stored_list in H; [|vm_compute; reflexivity].
  rewrite !elem_of_cons, elem_of_nil in H. destruct H as [->|[->|[]]]; discriminate P.
Qed.
Lemma e95_settled c : c ∈ e95_calls -> settled (ops_state w94_ops) [] (a_principal c).
Proof.
  intros Hc. destruct w94_fresh as [Hf Hco]. unfold e95_calls in Hc. rewrite !elem_of_cons, elem_of_nil in Hc.
  right. split; [exact Hf|]. split; [exact Hco|]. change (with_rows ?s []) with s.
  destruct Hc as [->|[->|[->|[]]]]; [exact w94_flags|exact w94_flags|exact e95_zoe].
Qed.
Lemma e95_later : answer (authorize rev_oracle (left_by (ops_state w94_ops) e95_run) "ann" w94_q) = Some true.
Proof. vm_compute. reflexivity. Qed.
Lemma c95_ex : reachable (ops_state w94_ops) /\ (forall c, c ∈ e95_calls -> settled (ops_state w94_ops) [] (a_principal c))
  /\ (exists pcs, kmet (ops_state w94_ops) e95_calls (left_by (ops_state w94_ops) e95_run) pcs /\ answers pcs [true; true; false])
  /\ answer (authorize rev_oracle (left_by (ops_state w94_ops) e95_run) "ann" w94_q) = Some true
  /\ rows_count (ops_state w94_ops) "ann" = 1 /\ steps_of 0 e95_sched = 5.
Proof.
  split; [exact w94_reachable|]. split; [exact e95_settled|]. split; [exact e95_met|]. split; [exact e95_later|]. split; vm_compute; reflexivity.
Qed.
Lemma c95_one_ex : exists pcs, kmet (ops_state w95_ops) [Ask rev_oracle "ann" w94_q]
    (left_by (ops_state w95_ops) (krun [Ask rev_oracle "ann" w94_q] (kstart (ops_state w95_ops) [Ask rev_oracle "ann" w94_q]) [0; 0; 0; 0; 0])) pcs /\ answers pcs [false].
Proof. apply done_answers. vm_compute. reflexivity. Qed.

(** ** A call that panics or never returns, beside one that returns *)
Definition h95_ops : list op :=
  [ONewTenant "acme"; OAddTenant 0; OTenantAddDescendant 0 [0]; OAddPrincipal "ann"; OAddPrincipal "bob"; ONewRole "clerk"; OAddRole 0;
   OTenantAddPrincipal 0 "ann" true ["clerk"]; OAddData (Data (AInt 7) ANil ANil (AStr "bob") ANil ANil)].
Definition h95_calls : list ask := [Ask id_oracle "ann" w94_q; Ask id_oracle "bob" w94_q; Ask id_oracle "zoe" w94_q].
Definition h95_run : option (state * list kpc) := krun h95_calls (kstart (ops_state h95_ops) h95_calls) [0; 1; 2; 1; 0].
Definition ended (s : option (state * list kpc)) : option (list kpc) := match s with Some x => Some x.2 | None => None end.
Lemma h95_reachable : reachable (ops_state h95_ops).
Proof. reach_ops h95_ops. Qed.
Lemma ended_met (st : state) (calls : list ask) (sched : list nat) (pcs : list kpc) :
  ended (krun calls (kstart st calls) sched) = Some pcs -> exists st', kmet st calls st' pcs.
Proof.
  intros H. destruct (krun calls (kstart st calls) sched) as [[st' pcs']|] eqn:E; [|discriminate]. injection H as <-. exists st'. exists sched. exact E.
Qed.
Lemma h95_met : exists st', kmet (ops_state h95_ops) h95_calls st' [KDone Hang; KDone Panic; KDone (Ok false)].
Proof. apply (ended_met _ _ [0; 1; 2; 1; 0]). vm_compute. reflexivity. Qed.
