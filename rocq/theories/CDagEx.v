(** Concrete cases for concurrent calls on a role graph. *)
From Verif Require Import DagProofs CDagModel CDagProofs CDagTurn CDagHole CDagBetween CDagRace CDagSpec.

Global Instance gout_dec : EqDecision gout. Proof. solve_decision. Defined.
Global Instance gpc_dec : EqDecision gpc. Proof. solve_decision. Defined.
Global Instance dag_dec : EqDecision dag. Proof. solve_decision. Defined.
(** Where everybody is after a schedule *)
Definition g_after (h : list vrole) (d : dag) (calls : list gcall) (sched : list nat) : option (list gpc) :=
  snd <$> grun calls (gstart h d calls) sched.
Lemma g_after_met h d calls sched pcs : g_after h d calls sched = Some pcs -> exists s, met h d calls (s, pcs).
Proof.
  unfold g_after. destruct (grun calls (gstart h d calls) sched) as [[s p]|] eqn:E; [|discriminate].
  intros [= <-]. exists s, sched. exact E.
Qed.
Definition g_answer (k : bool) (h : list vrole) (d : dag) (name : string) : option (gset string) :=
  match bfs (contrib_of k) (2 + edge_count (d_edges d)) h d ∅ ∅ [name] with Ok a => Some a | _ => None end.
Lemma g_answer_gives k h d name a x : g_answer k h d name = Some a -> gives k h d name x <-> x ∈ a.
Proof.
  unfold g_answer. destruct (bfs _ _ _ _ _ _ _) as [b| |] eqn:E; [|discriminate|discriminate]. intros [= <-].
  rewrite gives_iff. symmetry. exact (bfs_exact _ _ _ _ _ _ E x).
Qed.

(** A role [lead] without, and a role [crew] with a permission; [crew] is not yet below [lead]. *)
Definition e_heap : list vrole := [VRole "lead" ∅; VRole "crew" {["/logs GET"]}].
Definition e_dag : dag := Dag {["lead" := 0; "crew" := 1]} ∅ ∅.
Definition e_dag1 : dag := Dag {["lead" := 0; "crew" := 1]} {["lead" := ["crew"]]} ∅.
Lemma e_wf : dag_wf e_heap e_dag.
Proof.
  intros n l H. unfold e_dag in H. cbn [d_roles] in H. apply lookup_insert_Some in H as [[_ <-]|[_ H]]; [by eexists|].
  apply lookup_singleton_Some in H as [_ <-]. by eexists.
Qed.
Lemma e_add : dag_add_child e_dag "lead" ["crew"] = Ok (e_dag1, None).
Proof.
  assert (H : match dag_add_child e_dag "lead" ["crew"] with Ok (d, None) => bool_decide (d = e_dag1) | _ => false end = true)
    by (vm_compute; reflexivity).
  destruct (dag_add_child e_dag "lead" ["crew"]) as [[d [e|]]| |]; try discriminate. apply bool_decide_eq_true in H. by rewrite H.
Qed.
Lemma e_differs : confers e_heap e_dag1 "lead" "/logs GET" /\ ~ confers e_heap e_dag "lead" "/logs GET".
Proof.
  split.
  - apply (g_answer_gives true e_heap e_dag1 "lead" {["/logs GET"]}); [apply (bool_decide_unpack _); vm_compute; exact I|set_solver].
  - intros H. apply (g_answer_gives true e_heap e_dag "lead" ∅) in H; [set_solver|apply (bool_decide_unpack _); vm_compute; exact I].
Qed.
Definition in_turn_always : Prop := forall (h : list vrole) (d : dag) (calls : list gcall),
  Forall (valid_call h) calls -> dag_wf h d -> acyclic (d_edges d) -> as_if_in_turn h d calls.
Lemma in_turn_false : ~ in_turn_always.
Proof.
  intros H. destruct e_differs as [H1 H0]. eapply (hole_not_in_turn e_heap e_dag "lead" "lead" ["crew"] e_dag1 "/logs GET").
  - exact e_wf.
  - reflexivity.
  - exact e_add.
  - exact H1.
  - exact H0.
  - apply H; [|exact e_wf|exact empty_acyclic]. repeat (constructor; [done|]). constructor.
Qed.
(** Half of a grant: the answer has one of the two permissions granted by one call. *)
Definition e_grant : list gcall := [CResolve true "lead"; CPerm true 0 [("/doc", "GET"); ("/doc", "PUT")]].
Lemma e_half : exists s, met e_heap e_dag e_grant (s, [PDone (OSet {["/doc GET"]}); PDone OUnit]).
Proof.
  apply (g_after_met e_heap e_dag e_grant [1; 1; 0; 0; 0; 0; 0; 0; 0; 1; 1]). apply (bool_decide_unpack _). vm_compute. exact I.
Qed.
Definition alone_out (hd : list vrole * dag) (c : gcall) : option gout :=
  match alone hd c with Ok (_, out) => Some out | _ => None end.
Lemma alone_out_ok hd c hd1 out : alone hd c = Ok (hd1, out) -> alone_out hd c = Some out.
Proof. intros H. unfold alone_out. by rewrite H. Qed.
Lemma e_half_alone : forall order outs hd', order ≡ₚ seq 0 2 -> in_turn e_grant (e_heap, e_dag) order hd' outs ->
  ~ Forall2 (fun i out => [PDone (OSet {["/doc GET"]}); PDone OUnit] !! i = Some (PDone out)) order outs.
Proof.
  intros order outs hd' Hp Ht Ho.
  assert (Hcase : order = [0; 1] \/ order = [1; 0]).
  { pose proof (Permutation_length Hp) as Hl. cbn in Hl. destruct order as [|x [|y [|z order]]]; try discriminate Hl.
    assert (Hx : x ∈ [0; 1]) by (change [0; 1] with (seq 0 2); rewrite <-Hp; left).
    assert (Hy : y ∈ [0; 1]) by (change [0; 1] with (seq 0 2); rewrite <-Hp; right; left).
    assert (Hnd : NoDup [x; y]) by (rewrite Hp; apply NoDup_seq).
    assert (Hne : x <> y) by (intros ->; apply NoDup_cons in Hnd as [Hn _]; apply Hn; left).
    apply elem_of_cons in Hx as [->|Hx%elem_of_list_singleton]; apply elem_of_cons in Hy as [->|Hy%elem_of_list_singleton]; subst; auto; done. }
  destruct Hcase as [-> | ->].
  - inversion Ht as [|? ? c hd1 out ? ? ? Hc Ha Ht1]; subst. injection Hc as <-.
    inversion Ho as [|? ? ? ? E _]; subst. injection E as <-. apply alone_out_ok in Ha.
    apply (bool_decide_pack _) in Ha. vm_compute in Ha. exact Ha.
  - inversion Ht as [|? ? c hd1 out ? ? ? Hc Ha Ht1]; subst. injection Hc as <-.
    cbn in Ha. injection Ha as <- <-.
    inversion Ht1 as [|? ? c hd2 out ? ? ? Hc2 Ha2 Ht2]; subst. injection Hc2 as <-.
    inversion Ho as [|? ? ? ? _ Ho1]; subst. inversion Ho1 as [|? ? ? ? E _]; subst. injection E as <-.
    apply alone_out_ok in Ha2. apply (bool_decide_pack _) in Ha2. vm_compute in Ha2. exact Ha2.
Qed.
(** Calls that do not get in each other's way, overlapping: an edge is added and granted to while the roles below
    [lead] are resolved. *)
Definition e_apart : list gcall :=
  [CAddChild "lead" ["crew"]; CResolve false "lead"; CPerm true 1 [("/doc", "PUT")]; CGet "crew"].
Lemma e_apart_ok : apart e_dag e_apart.
Proof.
  constructor.
  - intros i j name ls _ H. apply elem_of_list_lookup_2 in H. unfold e_apart in H. rewrite !elem_of_cons, elem_of_nil in H.
    destruct H as [H|[H|[H|[H|[]]]]]; discriminate.
  - intros i j k k' name Hi Hj Hne. exfalso. apply Hne.
    assert (Hone : forall n kk, e_apart !! n = Some (CResolve kk name) -> n = 1).
    { intros n kk. do 4 (destruct n as [|n]; [try discriminate; reflexivity|]). discriminate. }
    by rewrite (Hone _ _ Hi), (Hone _ _ Hj).
  - intros i j add l ps name _ H. apply elem_of_list_lookup_2 in H. unfold e_apart in H. rewrite !elem_of_cons, elem_of_nil in H.
    destruct H as [H|[H|[H|[H|[]]]]]; discriminate.
Qed.
Lemma e_apart_valid : Forall (valid_call e_heap) e_apart.
Proof. repeat (constructor; [done || by eexists|]). constructor. Qed.
Lemma e_apart_run : exists s, met e_heap e_dag e_apart
  (s, [PDone (OErr None); PDone (OSet {["lead"; "crew"]}); PDone OUnit; PDone (OGet (Some 1))]).
Proof.
  apply (g_after_met e_heap e_dag e_apart [1; 1; 2; 1; 0; 0; 2; 0; 3; 0; 1; 1; 1; 2; 1; 1]). apply (bool_decide_unpack _). vm_compute. exact I.
Qed.
(** While the graph grows: an answer between. *)
Definition e_grow : list gcall :=
  [CResolve true "lead"; CAddChild "lead" ["crew"]; CPerm true 1 [("/doc", "GET"); ("/doc", "PUT")]; CResolve true "lead"].
Lemma e_growing : growing e_heap e_dag true e_grow.
Proof.
  assert (Hno : forall l, ~ offered e_grow l).
  { intros l (ls & H & _). unfold e_grow in H. rewrite !elem_of_cons, elem_of_nil in H.
    destruct H as [H|[H|[H|[H|[]]]]]; discriminate. }
  constructor.
  - intros c H. unfold e_grow in H. rewrite !elem_of_cons, elem_of_nil in H. destruct H as [->|[->|[->|[->|[]]]]]; done.
  - intros l r l' H. by apply Hno in H.
  - intros l l' r r' H. by apply Hno in H.
Qed.
Lemma e_grow_valid : Forall (valid_call e_heap) e_grow.
Proof. repeat (constructor; [done || by eexists|]). constructor. Qed.
Lemma e_grow_run : exists s, met e_heap e_dag e_grow
  (s, [PDone (OSet {["/logs GET"; "/doc GET"]}); PDone (OErr None); PDone OUnit; PDone (OSet {["/logs GET"; "/doc GET"]})]).
Proof.
  apply (g_after_met e_heap e_dag e_grow [0; 0; 0; 1; 1; 1; 1; 2; 2; 0; 0; 0; 0; 2; 0; 3; 3; 3; 2]). apply (bool_decide_unpack _). vm_compute. exact I.
Qed.
(** The write lock is held: a reader and a second writer wait. *)
Lemma e_waits : exists st, grun e_grow (gstart e_heap e_dag e_grow) [1] = Some st /\
  gstep e_grow st 0 = None /\ is_Some (gstep e_grow st 1).
Proof. eexists. split; [reflexivity|]. split; [reflexivity|]. by eexists. Qed.
(** Of two edges that would close a cycle together, one is refused. *)
Lemma e_cycle : exists s, met e_heap e_dag [CAddChild "lead" ["crew"]; CAddChild "crew" ["lead"]]
  (s, [PDone (OErr None); PDone (OErr (Some "circular role dependency detected: crew -> lead"))]).
Proof.
  apply (g_after_met e_heap e_dag _ [0; 0; 0; 0; 1; 1; 1]). apply (bool_decide_unpack _). vm_compute. exact I.
Qed.
Definition race_free_always : Prop := forall (h : list vrole) (d : dag) (calls : list gcall) st x i j,
  Forall (valid_call h) calls -> dag_wf h d -> met h d calls st -> ~ race calls st x i j.
Lemma race_free_false : ~ race_free_always.
Proof.
  intros H. destruct (race_roles e_heap e_dag 0 [] "lead") as (st & Hm & Hr). eapply H; [|exact e_wf|exact Hm|exact Hr].
  constructor; [|constructor; [done|constructor]]. intros l ->%elem_of_list_singleton. by eexists.
Qed.
