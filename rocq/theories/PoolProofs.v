(** Concurrent decisions: exclusive ownership, and what a goroutine reads. *)
From Verif Require Export PoolSpec.

Definition held (t : thread) : list nat :=
  match th_phase t with
  | PGotG g => [g]
  | PGot g s | PClear g s | PFill g s _ _ | PPut g s _ => s :: option_list g
  | PPutG g _ => [g]
  | PStart | PRead _ _ => []
  end.
Definition owned (M : machine) : list nat :=
  mc_scoped M ++ mc_global M ++ (mc_threads M ≫= held).

Lemma has_taken_held M i m : has_taken M i m <-> exists t, mc_threads M !! i = Some t /\ m ∈ held t.
Proof.
  unfold has_taken, held. split; intros (t & Ht & H); exists t; (split; [done|]); destruct (th_phase t) as [|g|g s|g s|g s ? ?|g s ?|g ?|? ?];
    try done; try (set_solver); destruct g; simpl in *; set_solver.
Qed.

(** ** Reachable machines with their traces *)
Inductive traced (ths : list (list job)) : list event -> machine -> Prop :=
| traced_start : traced ths [] (start ths)
| traced_step es M x M' es' : traced ths es M -> mstep M x = Some (M', es') -> traced ths (es ++ es') M'.
Lemma mrun_traced ths xs M es0 M' es :
  traced ths es0 M -> mrun M xs = Some (M', es) -> traced ths (es0 ++ es) M'.
Proof.
  revert M es0 es. induction xs as [|x xs IH]; intros M es0 es Ht H; simpl in H.
  - injection H as <- <-. by rewrite app_nil_r.
  - apply bind_Some in H as ([M1 es1] & H1 & H). apply bind_Some in H as ([M2 es2] & H2 & [= <- <-]).
    rewrite app_assoc. eapply IH; [|done]. by eapply traced_step.
Qed.
Lemma mrun_start ths xs M es : mrun (start ths) xs = Some (M, es) -> traced ths es M.
Proof. intros H. apply (mrun_traced ths xs _ [] _ _ (traced_start ths) H). Qed.

(** ** What one move does *)
Lemma pool_get_inv free heap c m free' heap' :
  pool_get free heap c = Some (m, free', heap') ->
  (exists k, free !! k = Some m /\ free' = delete k free /\ heap' = heap) \/
  (m = length heap /\ free' = free /\ heap' = heap ++ [∅]).
Proof.
  unfold pool_get. destruct c; try done.
  - intros [= <- <- <-]. by right.
  - intros (m' & Hm & [= <- <- <-])%bind_Some. left. by exists k.
Qed.
Lemma pool_get_perm free heap c m free' heap' :
  pool_get free heap c = Some (m, free', heap') ->
  (m :: free' ≡ₚ free /\ heap' = heap) \/ (m = length heap /\ free' = free /\ heap' = heap ++ [∅]).
Proof.
  intros [(k & Hk & -> & ->)|H]%pool_get_inv; [left|by right]. split; [|done].
  symmetry. by apply delete_Permutation.
Qed.
Lemma upd_map_inv heap m f heap' :
  upd_map heap m f = Some heap' -> exists x, heap !! m = Some x /\ heap' = <[m := f x]> heap.
Proof. unfold upd_map. intros (x & Hx & [= <-])%bind_Some. by exists x. Qed.

(** Case analysis of a move. *)
Ltac step_cases H :=
  unfold thread_step in H;
  match type of H with context [match th_answer ?t with _ => _ end] =>
    let Ha := fresh "Hans" in destruct (th_answer t) eqn:Ha; [discriminate H|];
    let Hj := fresh "Hjobs" in destruct (th_jobs t) as [|j js] eqn:Hj;
    [match type of H with context [match ?c with _ => _ end] => destruct c; try discriminate H; injection H as <- <- <- end
    |let Hp := fresh "Hph" in destruct (th_phase t) as [|g|g s|g s|g s ts tg|g s ret|g ret|[m|] visited] eqn:Hp]
  end.

Lemma thread_step_owned i M t c M' t' es :
  thread_step i M t c = Some (M', t', es) ->
  mc_threads M' = mc_threads M /\ length (mc_heap M) <= length (mc_heap M') /\
  (mc_scoped M' ++ mc_global M' ++ held t' ⊆+ mc_scoped M ++ mc_global M ++ held t \/
   length (mc_heap M) < length (mc_heap M') /\
   mc_scoped M' ++ mc_global M' ++ held t' ⊆+ length (mc_heap M) :: mc_scoped M ++ mc_global M ++ held t).
Proof.
  destruct M as [heap ps pg ths]. intros H. step_cases H; simpl.
  - split; [done|]. split; [done|]. left. unfold held at 1. simpl. 
    apply submseteq_skips_l, submseteq_skips_l, submseteq_nil_l.
  - destruct (j_uses_global j).
    + apply bind_Some in H as ([[m pg'] heap'] & Hg & [= <- <- <-]). simpl. unfold held. rewrite Hph. simpl.
      apply pool_get_perm in Hg as [[<- ->]|(-> & -> & ->)].
      * split; [done|]. split; [done|]. left. apply Permutation_submseteq. solve_Permutation.
      * rewrite app_length. simpl. split; [done|]. split; [lia|]. right. split; [lia|]. apply Permutation_submseteq. solve_Permutation.
    + apply bind_Some in H as ([[m ps'] heap'] & Hg & [= <- <- <-]). simpl. unfold held. rewrite Hph. simpl.
      apply pool_get_perm in Hg as [[<- ->]|(-> & -> & ->)].
      * split; [done|]. split; [done|]. left. apply Permutation_submseteq. solve_Permutation.
      * rewrite app_length. simpl. split; [done|]. split; [lia|]. right. split; [lia|]. apply Permutation_submseteq. solve_Permutation.
  - apply bind_Some in H as ([[m ps'] heap'] & Hg & [= <- <- <-]). simpl. unfold held. rewrite Hph. simpl.
    apply pool_get_perm in Hg as [[<- ->]|(-> & -> & ->)].
    * split; [done|]. split; [done|]. left. apply Permutation_submseteq. solve_Permutation.
    * rewrite app_length. simpl. split; [done|]. split; [lia|]. right. split; [lia|]. apply Permutation_submseteq. solve_Permutation.
  - destruct c; try done. apply bind_Some in H as (heap' & (x & Hx & ->)%upd_map_inv & [= <- <- <-]).
    simpl. rewrite insert_length. split; [done|]. split; [done|]. left. unfold held. by rewrite Hph.
  - destruct c; try done. apply bind_Some in H as (heap' & Hg & [= <- <- <-]). simpl. split; [done|].
    assert (length heap' = length heap) as ->.
    { destruct g as [g|]; [|by injection Hg as <-]. apply upd_map_inv in Hg as (x & _ & ->). by rewrite insert_length. }
    split; [done|]. left. unfold held. by rewrite Hph.
  - destruct c; try done.
    + case_bool_decide; [|done]. apply bind_Some in H as (heap' & (y & Hy & ->)%upd_map_inv & [= <- <- <-]).
      simpl. rewrite insert_length. split; [done|]. split; [done|]. left. unfold held. by rewrite Hph.
    + destruct g as [g|]; [|done]. case_bool_decide; [|done].
      apply bind_Some in H as (heap' & (y & Hy & ->)%upd_map_inv & [= <- <- <-]).
      simpl. rewrite insert_length. split; [done|]. split; [done|]. left. unfold held. by rewrite Hph.
    + case_bool_decide; [|done]. apply bind_Some in H as (ret & Hret & [= <- <- <-]). simpl.
      split; [done|]. split; [done|]. left. unfold held. by rewrite Hph.
  - destruct c; try done. injection H as <- <- <-. simpl. split; [done|]. split; [done|]. left.
    unfold held. rewrite Hph. destruct g as [g|]; simpl; apply Permutation_submseteq; solve_Permutation.
  - destruct c; try done. injection H as <- <- <-. simpl. split; [done|]. split; [done|]. left.
    unfold held. rewrite Hph. simpl. apply Permutation_submseteq; solve_Permutation.
  - apply bind_Some in H as (xs & Hxs & H). destruct c; try done.
    + case_bool_decide; [|done]. destruct (j_match j x); injection H as <- <- <-; simpl;
        (split; [done|]; split; [done|]; left; unfold held; by rewrite Hph).
    + case_bool_decide; [|done]. injection H as <- <- <-. simpl.
      split; [done|]. split; [done|]. left. unfold held. by rewrite Hph.
  - destruct c; try done. injection H as <- <- <-. simpl.
    split; [done|]. split; [done|]. left. unfold held. by rewrite Hph.
Qed.

(** What the others see of a move of [i]. *)
Lemma thread_step_frame i M t c M' t' es :
  thread_step i M t c = Some (M', t', es) ->
  (forall m xs, m ∉ held t -> mc_heap M !! m = Some xs -> mc_heap M' !! m = Some xs) /\
  (forall m, m ∈ held t' -> m ∈ held t \/ EGet i m ∈ es) /\
  (forall k, EEnd k ∈ es -> k = i).
Proof.
  destruct M as [heap ps pg ths]. intros H.
  assert (forall heap' m xs f s, upd_map heap s f = Some heap' -> m <> s -> heap !! m = Some xs -> heap' !! m = Some xs) as Hupd.
  { intros heap' m xs f s (x & Hx & ->)%upd_map_inv Hm Hxs. by rewrite list_lookup_insert_ne. }
  assert (forall free c' m free' heap' m' xs, pool_get free heap c' = Some (m, free', heap') ->
    heap !! m' = Some xs -> heap' !! m' = Some xs) as Hget.
  { intros free c' m free' heap' m' xs [[_ ->]|(-> & -> & ->)]%pool_get_perm Hxs; [done|]. by apply lookup_app_l_Some. }
  step_cases H; simpl.
  - split; [done|]. split; [|by intros k ?%elem_of_nil]. by intros m ?%elem_of_nil.
  - destruct (j_uses_global j).
    + apply bind_Some in H as ([[m pg'] heap'] & Hg & [= <- <- <-]). simpl.
      split; [|split].
      * intros. by eapply Hget.
      * unfold held. simpl. intros m' ->%elem_of_list_singleton. right. by left.
      * intros k [?|?%elem_of_nil]%elem_of_cons; done.
    + apply bind_Some in H as ([[m pg'] heap'] & Hg & [= <- <- <-]). simpl.
      split; [|split].
      * intros. by eapply Hget.
      * unfold held. simpl. intros m' ->%elem_of_list_singleton. right. by left.
      * intros k [?|?%elem_of_nil]%elem_of_cons; done.
  - apply bind_Some in H as ([[m ps'] heap'] & Hg & [= <- <- <-]). simpl.
    split; [|split].
    * intros. by eapply Hget.
    * unfold held. rewrite Hph. simpl. intros m' [->|?]%elem_of_cons; [right; by left|by left].
    * intros k [?|?%elem_of_nil]%elem_of_cons; done.
  - destruct c; try done. apply bind_Some in H as (heap' & Hg & [= <- <- <-]). simpl. unfold held. rewrite Hph. simpl.
    split; [|split]; [|by left|by intros k ?%elem_of_nil].
    intros m xs Hm. apply (Hupd _ _ _ _ _ Hg). intros ->. apply Hm. left.
  - destruct c; try done. apply bind_Some in H as (heap' & Hg & [= <- <- <-]). simpl. unfold held. rewrite Hph. simpl.
    split; [|split]; [|by left|by intros k ?%elem_of_nil].
    intros m xs Hm. destruct g as [g|]; [|by injection Hg as <-]. apply (Hupd _ _ _ _ _ Hg). intros ->. apply Hm. right. left.
  - destruct c; try done.
    + case_bool_decide; [|done]. apply bind_Some in H as (heap' & Hg & [= <- <- <-]). simpl. unfold held. rewrite Hph. simpl.
      split; [|split]; [|by left|by intros k ?%elem_of_nil].
      intros m xs Hm. apply (Hupd _ _ _ _ _ Hg). intros ->. apply Hm. left.
    + destruct g as [g|]; [|done]. case_bool_decide; [|done].
      apply bind_Some in H as (heap' & Hg & [= <- <- <-]). simpl. unfold held. rewrite Hph. simpl.
      split; [|split]; [|by left|by intros k ?%elem_of_nil].
      intros m xs Hm. apply (Hupd _ _ _ _ _ Hg). intros ->. apply Hm. right. left.
    + case_bool_decide; [|done]. apply bind_Some in H as (ret & Hret & [= <- <- <-]). simpl. unfold held. rewrite Hph. simpl.
      split; [done|]. split; [by left|]. destruct ret; [|by intros k ?%elem_of_nil].
      intros k [?|?%elem_of_nil]%elem_of_cons; done.
  - destruct c; try done. injection H as <- <- <-. simpl. unfold held. rewrite Hph.
    split; [done|]. split; [|by intros k ?%elem_of_nil]. intros m Hm. left. destruct g as [g|]; simpl in *; [by right|by apply elem_of_nil in Hm].
  - destruct c; try done. injection H as <- <- <-. simpl. unfold held. rewrite Hph.
    split; [done|]. split; [|by intros k ?%elem_of_nil]. by intros m ?%elem_of_nil.
  - apply bind_Some in H as (xs & Hxs & H). destruct c; try done.
    + case_bool_decide; [|done]. destruct (j_match j x); injection H as <- <- <-; simpl;
        (split; [done|]; split; [by intros m' ?%elem_of_nil|]).
      * by intros k ?%elem_of_list_singleton; simplify_eq.
      * by intros k ?%elem_of_nil.
    + case_bool_decide; [|done]. injection H as <- <- <-. simpl.
      split; [done|]. split; [by intros m' ?%elem_of_nil|]. by intros k ?%elem_of_list_singleton; simplify_eq.
  - destruct c; try done. injection H as <- <- <-. simpl.
    split; [done|]. split; [by intros m' ?%elem_of_nil|]. by intros k ?%elem_of_list_singleton; simplify_eq.
Qed.

(** ** Every map has at most one owner *)
Record owner_inv (M : machine) : Prop := {
  own_nodup : NoDup (owned M);
  own_lt : Forall (fun m => m < length (mc_heap M)) (owned M)
}.
Lemma threads_split (ths : list thread) i t :
  ths !! i = Some t -> exists l1 l2, ths = l1 ++ t :: l2 /\ length l1 = i /\
    forall t', <[i := t']> ths = l1 ++ t' :: l2.
Proof.
  intros H. apply elem_of_list_split_length in H as (l1 & l2 & -> & Hi).
  exists l1, l2. split; [done|]. split; [done|]. intros t'. subst i.
  by rewrite insert_app_r_alt, Nat.sub_diag by lia.
Qed.
Lemma submseteq_NoDup {A} (l k : list A) : l ⊆+ k -> NoDup k -> NoDup l.
Proof. intros [r E]%submseteq_Permutation H. rewrite E in H. by apply NoDup_app in H as [? _]. Qed.
Lemma submseteq_Forall {A} (P : A -> Prop) (l k : list A) : l ⊆+ k -> Forall P k -> Forall P l.
Proof. intros [r E]%submseteq_Permutation H. rewrite E in H. by apply Forall_app in H as [? _]. Qed.
Lemma mstep_owner M x M' es : owner_inv M -> mstep M x = Some (M', es) -> owner_inv M'.
Proof.
  intros [Hn Hl] H. destruct x as [i c|k|k]; simpl in H.
  - apply bind_Some in H as (t & Ht & H). apply bind_Some in H as ([[M1 t'] es'] & Hs & [= <- <-]).
    apply thread_step_owned in Hs as (Hths & Hlen & Hs).
    destruct (threads_split _ _ _ Ht) as (l1 & l2 & El & Hi & Hins).
    assert (owned (set_thread M1 i t') ≡ₚ (mc_scoped M1 ++ mc_global M1 ++ held t') ++ (l1 ≫= held) ++ (l2 ≫= held)) as E1.
    { unfold owned, set_thread. simpl. rewrite Hths, Hins, bind_app. simpl. solve_Permutation. }
    assert (owned M ≡ₚ (mc_scoped M ++ mc_global M ++ held t) ++ (l1 ≫= held) ++ (l2 ≫= held)) as E2.
    { unfold owned. rewrite El, bind_app. simpl. solve_Permutation. }
    rewrite E2 in Hn, Hl.
    destruct Hs as [Hs|[Hlt Hs]].
    + assert (owned (set_thread M1 i t') ⊆+ owned M) as Hsub.
      { rewrite E1, E2. by apply submseteq_app. }
      rewrite E2 in Hsub. split.
      * by eapply submseteq_NoDup.
      * simpl. eapply Forall_impl; [eapply submseteq_Forall; [exact Hsub|exact Hl]|]. simpl. lia.
    + assert (owned (set_thread M1 i t') ⊆+ length (mc_heap M) :: owned M) as Hsub.
      { rewrite E1, E2. by apply (submseteq_app _ (length (mc_heap M) :: mc_scoped M ++ mc_global M ++ held t)). }
      rewrite E2 in Hsub. split.
      * eapply submseteq_NoDup; [exact Hsub|]. constructor; [|done].
        intros Hin. rewrite Forall_forall in Hl. specialize (Hl _ Hin). simpl in Hl. lia.
      * simpl. eapply submseteq_Forall; [exact Hsub|]. constructor; [lia|]. eapply Forall_impl; [exact Hl|]. simpl. lia.
  - apply bind_Some in H as (m & Hm & [= <- <-]). apply delete_Permutation in Hm.
    unfold owned in Hn, Hl. rewrite Hm in Hn, Hl. split; [|simpl]; unfold owned; simpl.
    + by apply NoDup_cons_1_2 in Hn.
    + by apply Forall_cons_1 in Hl as [_ ?].
  - apply bind_Some in H as (m & Hm & [= <- <-]). apply delete_Permutation in Hm.
    unfold owned in Hn, Hl. rewrite Hm in Hn, Hl. split; [|simpl]; unfold owned; simpl.
    + apply NoDup_app in Hn as (H1 & H2 & H3). apply NoDup_app. simpl in *. 
      apply NoDup_cons_1_2 in H3. split; [done|]. split; [|done]. intros y Hy Hy'. apply (H2 y Hy). by right.
    + rewrite Forall_app in Hl |- *. destruct Hl as [? Hl]. split; [done|]. by apply Forall_cons_1 in Hl as [_ ?].
Qed.
Lemma traced_owner ths es M : traced ths es M -> owner_inv M.
Proof.
  induction 1 as [|es M x M' es' _ IH H]; [|by eapply mstep_owner].
  assert (owned (start ths) = []) as E.
  { unfold owned, start. simpl. induction ths as [|js ths IH]; [done|]. exact IH. }
  split; rewrite E; constructor.
Qed.
Lemma owner_exclusive M i k m : owner_inv M -> has_taken M i m -> has_taken M k m -> i = k.
Proof.
  intros [Hn _] (ti & Hi & Hmi)%has_taken_held (tk & Hk & Hmk)%has_taken_held.
  unfold owned in Hn. apply NoDup_app in Hn as (_ & _ & Hn). apply NoDup_app in Hn as (_ & _ & Hn).
  destruct (decide (i = k)) as [|Hne]; [done|exfalso].
  destruct (threads_split _ _ _ Hi) as (l1 & l2 & El & Hli & _). rewrite El in Hn, Hk. rewrite bind_app in Hn. simpl in Hn.
  assert (exists tk', tk' ∈ l1 ++ l2 /\ m ∈ held tk') as (tk' & Hin & Hm').
  { exists tk. split; [|done]. destruct (decide (k < i)).
    - rewrite lookup_app_l in Hk by lia. apply elem_of_app. left. by eapply elem_of_list_lookup_2.
    - rewrite lookup_app_r in Hk by lia. destruct (k - length l1) as [|n'] eqn:En; [lia|]. simpl in Hk.
      apply elem_of_app. right. by eapply elem_of_list_lookup_2. }
  assert ((l1 ≫= held) ++ held ti ++ (l2 ≫= held) ≡ₚ held ti ++ ((l1 ++ l2) ≫= held)) as E.
  { rewrite bind_app. solve_Permutation. }
  rewrite E in Hn. apply NoDup_app in Hn as (_ & Hn & _). apply (Hn m Hmi). apply elem_of_list_bind. by exists tk'.
Qed.
Lemma owner_not_free M i m : owner_inv M -> has_taken M i m -> m ∉ mc_scoped M /\ m ∉ mc_global M.
Proof.
  intros [Hn _] (ti & Hi & Hmi)%has_taken_held. unfold owned in Hn.
  apply NoDup_app in Hn as (_ & H1 & Hn). apply NoDup_app in Hn as (_ & H2 & _).
  assert (m ∈ mc_threads M ≫= held) as Hm. { apply elem_of_list_bind. exists ti. split; [done|]. by eapply elem_of_list_lookup_2. }
  split; intros H.
  - apply (H1 m H). apply elem_of_app. by right.
  - by apply (H2 m H).
Qed.
Lemma owner_lt M i m : owner_inv M -> has_taken M i m -> m < length (mc_heap M).
Proof.
  intros [_ Hl] (ti & Hi & Hmi)%has_taken_held. rewrite Forall_forall in Hl. apply Hl. unfold owned.
  rewrite !elem_of_app. right. right. apply elem_of_list_bind. exists ti. split; [done|]. by eapply elem_of_list_lookup_2.
Qed.
Lemma owner_pair M i t g s : owner_inv M -> mc_threads M !! i = Some t -> held t = [s; g] -> s <> g.
Proof.
  intros [Hn _] Hi Hh ->. unfold owned in Hn. apply NoDup_app in Hn as (_ & _ & Hn). apply NoDup_app in Hn as (_ & _ & Hn).
  destruct (threads_split _ _ _ Hi) as (l1 & l2 & El & _ & _). rewrite El, bind_app in Hn. simpl in Hn.
  apply NoDup_app in Hn as (_ & _ & Hn). rewrite Hh in Hn. simpl in Hn. apply NoDup_cons in Hn as [Hn _]. apply Hn. left.
Qed.
