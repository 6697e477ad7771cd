(** Proofs about the slice helpers and ds.Link. *)
From Verif Require Export UtilsModel UtilsSpec.

Section slices.
  Context {A : Type} `{EqDecision A}.
  Implicit Types l : list A.

  Lemma contains_spec l x : contains l x = true <-> x ∈ l.
  Proof.
    induction l as [|y l IH]; simpl.
    - split; [done|intros H; by apply elem_of_nil in H].
    - destruct (decide (y = x)) as [->|Hne].
      + split; [intros _; left|done].
      + rewrite IH, elem_of_cons. split; [by right|]. intros [->|?]; done.
  Qed.
  Lemma contains_false l x : contains l x = false <-> x ∉ l.
  Proof. rewrite <-contains_spec. destruct (contains l x); split; done || (intros H; by destruct H) || done. Qed.

  Lemma compact_loop_spec keys acc l :
    exists r, compact_loop keys acc l = acc ++ r
      /\ NoDup r /\ r `sublist_of` l /\ (forall x, x ∈ r <-> x ∈ l /\ x ∉ keys)
      /\ (forall l1 x l2, l = l1 ++ x :: l2 -> x ∉ l1 -> x ∉ keys ->
            exists r1 r2, r = r1 ++ x :: r2 /\ (forall y, y ∈ r1 <-> y ∈ l1 /\ y ∉ keys)).
  Proof.
    revert keys acc. induction l as [|x l IH]; intros keys acc; simpl.
    - exists []. rewrite app_nil_r. split_and!; [done|constructor|constructor|set_solver|].
      intros [|] ? ?; done.
    - destruct (contains keys x) eqn:Hc.
      + apply contains_spec in Hc. destruct (IH keys acc) as (r & -> & Hnd & Hsub & Hin & Hfst).
        exists r. split_and!; [done|done|by apply sublist_cons|set_solver|].
        intros l1 z l2 Heq Hz1 Hzk. destruct l1 as [|w l1]; simplify_eq/=; [done|].
        destruct (Hfst l1 z l2) as (r1 & r2 & -> & Hr1); [done|set_solver|done|].
        exists r1, r2. split; [done|]. set_solver.
      + apply contains_false in Hc.
        destruct (IH (x :: keys) (acc ++ [x])) as (r & -> & Hnd & Hsub & Hin & Hfst).
        exists (x :: r). rewrite <-app_assoc. split_and!.
        * done.
        * constructor; [|done]. rewrite Hin. set_solver.
        * by apply sublist_skip.
        * intros y. rewrite !elem_of_cons, Hin. destruct (decide (y = x)); set_solver.
        * intros l1 z l2 Heq Hz1 Hzk. destruct l1 as [|w l1]; simplify_eq/=.
          { exists [], r. split; [done|]. set_solver. }
          destruct (Hfst l1 z l2) as (r1 & r2 & -> & Hr1); [done|set_solver|set_solver|].
          exists (w :: r1), r2. split; [done|].
          intros y. rewrite !elem_of_cons, Hr1. destruct (decide (y = w)); set_solver.
  Qed.

  Lemma compact_spec l :
    NoDup (compact l) /\ (forall x, x ∈ compact l <-> x ∈ l)
    /\ (forall l1 x l2, l = l1 ++ x :: l2 -> x ∉ l1 ->
          exists r1 r2, compact l = r1 ++ x :: r2 /\ (forall y, y ∈ r1 <-> y ∈ l1)).
  Proof.
    unfold compact. destruct (compact_loop_spec [] [] l) as (r & -> & Hnd & _ & Hin & Hfst).
    simpl. split_and!; [done|set_solver|].
    intros l1 x l2 Heq Hx. destruct (Hfst l1 x l2) as (r1 & r2 & -> & Hr); [done|done|set_solver|].
    exists r1, r2. set_solver.
  Qed.

  Lemma elem_of_compact l x : x ∈ compact l <-> x ∈ l.
  Proof. apply (compact_spec l). Qed.

  Lemma elem_of_compact_adjacent l x : x ∈ compact_adjacent l <-> x ∈ l.
  Proof.
    induction l as [|y l IH]; [done|]. destruct l as [|z l]; [done|].
    cbn [compact_adjacent]. destruct (decide (y = z)) as [->|].
    - rewrite IH. set_solver.
    - rewrite !(elem_of_cons _ _ y), IH. done.
  Qed.
  Lemma compact_adjacent_nil l : compact_adjacent l = [] <-> l = [].
  Proof.
    split; [|by intros ->]. intros H. destruct l as [|x l]; [done|].
    assert (Hx : x ∈ compact_adjacent (x :: l)) by (apply elem_of_compact_adjacent; left).
    rewrite H in Hx. by apply elem_of_nil in Hx.
  Qed.
End slices.

Lemma join_slices_spec {T U V} (left : list T) (right : list U) jf (cf : T -> U -> V) :
  join_slices left right jf cf =
    (fun p => cf p.1 p.2) <$> filter (fun p => jf p.1 p.2 = true)
        (l ← left; r ← right; [(l, r)]).
Proof.
  unfold join_slices. induction left as [|x l IH]; [done|].
  cbn [flat_map]. rewrite bind_cons, filter_app, fmap_app, IH. f_equal. clear IH.
  induction right as [|y r IH]; [done|].
  cbn [flat_map]. rewrite bind_cons, filter_app, fmap_app, IH. f_equal.
  rewrite filter_cons, filter_nil. simpl.
  destruct (jf x y) eqn:E; [rewrite decide_True by done|rewrite decide_False by congruence]; done.
Qed.

Lemma filter_by_fields_spec {T} (f row : T) fields :
  filter_by_fields f row fields = true <->
    (forall g, g ∈ fields -> g row <> ANil /\ g row = g f).
Proof.
  induction fields as [|g gs IH]; simpl.
  - split; [|done]. intros _ g Hg. by apply elem_of_nil in Hg.
  - destruct (is_nil (g row)) eqn:Hn; simpl.
    + split; [done|]. intros H. destruct (H g) as [H1 _]; [left|].
      destruct (g row); simpl in Hn; done.
    + unfold any_eq. case_bool_decide as He; simpl.
      * rewrite IH. split.
        -- intros H h [->|Hh]%elem_of_cons; [|by apply H]. split; [|done].
           intros E. by rewrite E in Hn.
        -- intros H h Hh. apply H. by right.
      * split; [done|]. intros H. destruct (H g) as [_ H2]; [left|done].
Qed.

Section link.
  Context {A : Type}.
  Implicit Types e : link_expr A.

  Lemma link_is_empty_spec (l : link A) : link_is_empty l = true <-> l = LEmpty.
  Proof. destruct l; done. Qed.

  Lemma link_eval_spec e :
    link_as_slice (link_eval e) = link_denote e
    /\ (link_is_empty (link_eval e) = true <-> link_denote e = []).
  Proof.
    induction e as [|e IH x|e1 IH1 e2 IH2]; simpl.
    - done.
    - destruct IH as [-> _]. split; [done|]. split; [done|]. intros H. by destruct (link_denote e).
    - destruct IH1 as [E1 N1], IH2 as [E2 N2]. split.
      + rewrite <-E1, <-E2. unfold link_concat.
        destruct (link_eval e1); [done| |];
        destruct (link_eval e2); simpl; by rewrite ?app_nil_r.
      + unfold link_concat. destruct (link_eval e1) eqn:E.
        * assert (link_denote e1 = []) as -> by by apply N1. done.
        * destruct (link_is_empty (link_eval e2)) eqn:F; simpl.
          -- assert (link_denote e2 = []) as -> by by apply N2. rewrite app_nil_r. apply N1.
          -- split; [done|]. intros [H _]%app_nil. by apply N1 in H.
        * destruct (link_is_empty (link_eval e2)) eqn:F; simpl.
          -- assert (link_denote e2 = []) as -> by by apply N2. rewrite app_nil_r. apply N1.
          -- split; [done|]. intros [H _]%app_nil. by apply N1 in H.
  Qed.
End link.

Lemma link_laws {A} (e1 e2 : link_expr A) (x : A) :
  let l1 := link_eval e1 in let l2 := link_eval e2 in
  link_as_slice (link_append l1 x) = link_as_slice l1 ++ [x]
  /\ link_as_slice (link_concat l1 l2) = link_as_slice l1 ++ link_as_slice l2
  /\ (link_is_empty l1 = true <-> link_as_slice l1 = [])
  /\ (link_is_empty (link_concat l1 l2) = true <-> link_is_empty l1 = true /\ link_is_empty l2 = true).
Proof.
  intros l1 l2. subst l1 l2.
  destruct (link_eval_spec e1) as [H1 N1], (link_eval_spec e2) as [H2 N2].
  destruct (link_eval_spec (EConcat e1 e2)) as [H3 N3]. cbn [link_eval link_denote] in H3, N3.
  split_and!; [done|congruence|by rewrite H1|]. rewrite N3, N1, N2. apply app_nil.
Qed.
