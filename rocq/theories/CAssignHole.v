(** An addition that overlaps with a removal. *)
From Verif Require Import V2Trav V2Inv CAssignModel CAssignProofs CAssignSpec.

Lemma field_matches_spec a b : field_matches a b = true <-> a = "" \/ b = a.
Proof. unfold field_matches. rewrite orb_true_iff, !bool_decide_eq_true. done. Qed.
Lemma fits_spec tg pr : pr_matches tg pr = true <-> fits tg pr.
Proof. unfold pr_matches, fits. rewrite !andb_true_iff, !field_matches_spec. tauto. Qed.
Lemma blank_fits tg pr : blank tg = true -> fits tg pr.
Proof.
  unfold blank, fits. rewrite !andb_true_iff, !bool_decide_eq_true. intros [[[[H1 H2] H3] H4] H5].
  repeat split; by left.
Qed.
Lemma ptr_fits prs tg l pr :
  prs !! l = Some pr -> exists b : bool, ptr_matches prs tg (Some l) = Ok b /\ (b = true <-> row_fits prs tg l).
Proof.
  intros Hl. unfold ptr_matches. destruct (blank tg) eqn:Eb.
  - exists true. split; [done|]. split; [|done]. intros _. exists pr. split; [done|]. by apply blank_fits.
  - rewrite Hl. exists (pr_matches tg pr). split; [done|]. rewrite fits_spec. split.
    + intros H. by exists pr.
    + intros (pr' & H & Hf). congruence.
Qed.

Section hole.
  Context (prs : list prole) (ls : list nat) (tg : prole) (l : nat).
  Context (Hls : forall x, x ∈ ls -> is_Some (prs !! x)) (Hl : is_Some (prs !! l)).
  Context (Hfit : exists x, x ∈ ls /\ row_fits prs tg x) (Hnot : ~ row_fits prs tg l).

  Lemma loop_ok ks : (forall x, x ∈ ks -> is_Some (prs !! x)) ->
    exists u j, remove_loop prs tg (Some <$> ks) = Ok (u, j) /\
      ((exists x, x ∈ ks /\ row_fits prs tg x) -> j < length ks) /\
      remove_loop prs tg ((Some <$> ks) ++ [Some l]) = Ok (u ++ [Some l], S j).
  Proof.
    clear Hls Hfit. destruct Hl as [prl Hprl].
    destruct (ptr_fits prs tg l prl Hprl) as (bl & Hbl & Hbf).
    assert (bl = false) as -> by (destruct bl; [exfalso; apply Hnot; by apply Hbf|done]).
    induction ks as [|k ks IH]; intros Hks.
    - exists [], 0. split; [done|]. split.
      + intros (x & Hx & _). by apply elem_of_nil in Hx.
      + simpl. rewrite Hbl. done.
    - destruct IH as (u & j & Hr & Hlt & Hr'). { intros x Hx. apply Hks. by right. }
      pose proof (remove_loop_length _ _ _ _ _ Hr) as [_ Hle]. rewrite fmap_length in Hle.
      destruct (Hks k) as [prk Hk]; [left|]. destruct (ptr_fits prs tg k prk Hk) as (b & Hb & Hf).
      exists (if b then None :: u else Some k :: u), (if b then j else S j).
      rewrite fmap_cons. cbn [app remove_loop]. rewrite Hb. cbn [rbind]. rewrite Hr, Hr'. cbn [rbind fst snd].
      destruct b; (split; [done|]); (split; [|done]); simpl.
      + lia.
      + intros (x & [->|Hx]%elem_of_cons & Hxf); [by apply Hf in Hxf|].
        apply -> Nat.succ_lt_mono. apply Hlt. by exists x.
  Qed.

  Let old : list (option nat) := Some <$> ls.
  Lemma removals : exists new new1, length new < length ls /\ length new1 = S (length new) /\
    (forall x, Some x ∈ new -> x ∈ ls) /\
    remove_into prs tg (length old) old = Ok (Some new) /\
    remove_into prs tg (length (old ++ [Some l])) (old ++ [Some l]) = Ok (Some new1) /\
    remove_into prs tg (length old) (old ++ [Some l]) = Panic.
  Proof.
    destruct (loop_ok ls Hls) as (u & j & Hr & Hlt & Hr'). specialize (Hlt Hfit). fold old in Hr, Hr'.
    pose proof (remove_loop_length _ _ _ _ _ Hr) as [Hu _].
    assert (Hol : length old = length ls) by apply fmap_length.
    exists (take j u), (take (S j) (u ++ [Some l])).
    rewrite !take_length, app_length. cbn [length].
    split; [lia|]. split; [lia|]. split; [|split; [|split]].
    - intros x Hx. assert (Hx' : Some x ∈ u). { rewrite <-(take_drop j u). apply elem_of_app. by left. }
      apply (remove_loop_elem _ _ _ _ _ _ Hr) in Hx'. unfold old in Hx'.
      apply elem_of_list_fmap in Hx' as (y & [= ->] & Hy). done.
    - unfold remove_into. rewrite Hr. cbn [rbind fst snd]. rewrite drop_all. cbn [remove_loop rbind fst snd].
      rewrite bool_decide_true by done. rewrite bool_decide_false by lia.
      rewrite Nat.sub_diag. cbn [replicate]. rewrite app_nil_r, (take_ge u) by lia. done.
    - unfold remove_into. rewrite Hr'. cbn [rbind fst snd]. rewrite drop_all. cbn [remove_loop rbind fst snd].
      rewrite bool_decide_true by done. rewrite bool_decide_false by (rewrite app_length; simpl; lia).
      rewrite Nat.sub_diag. cbn [replicate]. rewrite app_nil_r.
      rewrite (take_ge (u ++ [Some l])) by (rewrite !app_length; simpl; lia). done.
    - unfold remove_into. rewrite Hr'. cbn [rbind fst snd]. rewrite drop_app_alt by done.
      destruct Hl as [prl Hprl]. destruct (ptr_fits prs tg l prl Hprl) as (bl & Hbl & Hbf).
      assert (bl = false) as -> by (destruct bl; [exfalso; apply Hnot; by apply Hbf|done]).
      cbn [remove_loop]. rewrite Hbl. cbn [rbind fst snd]. done.
  Qed.

  Let ts : list athread := [AWait [l]; XLen tg].
  (** One after the other: both return without error, and the number of assignments is the same in both orders. *)
  Lemma in_turn_length new new1 sched st' :
    remove_into prs tg (length old) old = Ok (Some new) ->
    remove_into prs tg (length (old ++ [Some l])) (old ++ [Some l]) = Ok (Some new1) ->
    length new1 = S (length new) ->
    one_by_one 2 sched -> finishes prs old ts sched st' ->
    as_threads st' = [ADone; XDone None] /\ length (as_list st') = S (length new).
  Proof.
    intros H1 H2 Hlen (order & ns & Hperm & ->) [Hrun He].
    assert (Hord : order = [0; 1] \/ order = [1; 0]).
    { apply Permutation_sym in Hperm. cbn [seq] in Hperm. by apply Permutation_length_2_inv in Hperm. }
    assert (Hne1 : ~ ended (XLen tg)) by (intros [H|[[e H]|H]]; discriminate).
    assert (Hne2 : ~ ended (AWait [l])) by (intros [H|[[e H]|H]]; discriminate).
    assert (Hne3 : forall x, ~ ended (AIn x)) by (intros x [H|[[e H]|H]]; discriminate).
    assert (Hne4 : forall x y z, ~ ended (AHave x y z)) by (intros x y z [H|[[e H]|H]]; discriminate).
    assert (Hne5 : forall x y, ~ ended (XRange x y)) by (intros x y [H|[[e H]|H]]; discriminate).
    assert (Hne6 : forall x, ~ ended (XWrite x)) by (intros x [H|[[e H]|H]]; discriminate).
    assert (Hx : forall us lk t n s st2, (exists w, remove_into prs tg (length us) us = Ok (Some w)) ->
        arun prs (AState us lk [t; XLen tg]) (replicate n 1 ++ s) = Some st2 ->
        (exists t1, arun prs (AState us lk [t; t1]) s = Some st2 /\ ~ ended t1) \/
        exists w, remove_into prs tg (length us) us = Ok (Some w) /\ arun prs (AState w lk [t; XDone None]) s = Some st2).
    { intros us lk t n s st2 [w Hw]. destruct n as [|[|[|n]]].
      - intros H. left. eauto.
      - intros H. left. exists (XRange tg (length us)). split; [exact H|apply Hne5].
      - cbn. rewrite Hw. intros H. left. exists (XWrite w). split; [exact H|apply Hne6].
      - cbn. rewrite Hw. cbn. intros H. destruct n as [|n]; [|discriminate]. right. exists w. split; [done|exact H]. }
    assert (Ha : forall us t n s st2, arun prs (AState us None [AWait [l]; t]) (replicate n 0 ++ s) = Some st2 ->
        (exists us1 lk t1, arun prs (AState us1 lk [t1; t]) s = Some st2 /\ ~ ended t1) \/
        arun prs (AState (us ++ [Some l]) None [ADone; t]) s = Some st2).
    { intros us t n s st2. destruct n as [|[|[|[|[|n]]]]]; cbn; intros H; try discriminate; try (right; exact H);
        left; eexists _, _, _; (split; [exact H|]); auto. }
    assert (Hkeep1 : forall n us lk t1 t2 st2, arun prs (AState us lk [t1; t2]) (replicate n 1) = Some st2 ->
              exists t2', as_threads st2 = [t1; t2']).
    { clear. induction n as [|n IH]; intros us lk t1 t2 st2; cbn [replicate arun].
      - intros [= <-]. by exists t2.
      - unfold astep. cbn [as_threads lookup list_lookup mbind option_bind].
        destruct (athread_step prs 1 _ t2) as [[[us' lk'] t2']|]; cbn; [apply IH|discriminate]. }
    assert (Hkeep0 : forall n us lk t1 t2 st2, arun prs (AState us lk [t1; t2]) (replicate n 0) = Some st2 ->
              exists t1', as_threads st2 = [t1'; t2]).
    { clear. induction n as [|n IH]; intros us lk t1 t2 st2; cbn [replicate arun].
      - intros [= <-]. by exists t1.
      - unfold astep. cbn [as_threads lookup list_lookup mbind option_bind].
        destruct (athread_step prs 0 _ t1) as [[[us' lk'] t1']|]; cbn; [apply IH|discriminate]. }
    (* the blocks *)
    destruct ns as [|n0 [|n1 ns]].
    { exfalso. destruct Hord as [-> | ->]; cbn in Hrun; injection Hrun as <-; cbn in He;
        apply Forall_cons in He as [He _]; by apply Hne2. }
    { exfalso. destruct Hord as [-> | ->]; cbn [zip_with concat] in Hrun; rewrite app_nil_r in Hrun.
      - destruct (Hkeep0 _ _ _ _ _ _ Hrun) as [t1 E]. rewrite E in He.
        apply Forall_cons in He as [_ He]. apply Forall_cons in He as [He _]. by apply Hne1.
      - destruct (Hkeep1 _ _ _ _ _ _ Hrun) as [t1 E]. rewrite E in He.
        apply Forall_cons in He as [He _]. by apply Hne2. }
    destruct Hord as [-> | ->]; cbn [zip_with concat] in Hrun; rewrite app_nil_r in Hrun; unfold ts in Hrun.
    - apply Ha in Hrun as [(us1 & lk & t1 & Hrun & Hn)|Hrun].
      + exfalso. destruct (Hkeep1 _ _ _ _ _ _ Hrun) as [t2 E]. rewrite E in He. by apply Forall_cons in He as [He _].
      + rewrite <-(app_nil_r (replicate n1 1)) in Hrun.
        apply Hx in Hrun as [(t1 & Hrun & Hn)|(w & Hw & Hrun)]; [| |by exists new1].
        * exfalso. injection Hrun as <-. apply Forall_cons in He as [_ He]. by apply Forall_cons in He as [He _].
        * injection Hrun as <-. rewrite H2 in Hw. injection Hw as <-. split; [done|exact Hlen].
    - apply Hx in Hrun as [(t1 & Hrun & Hn)|(w & Hw & Hrun)]; [| |by exists new].
      + exfalso. destruct (Hkeep0 _ _ _ _ _ _ Hrun) as [t2 E]. rewrite E in He.
        apply Forall_cons in He as [_ He]. by apply Forall_cons in He as [He _].
      + rewrite H1 in Hw. injection Hw as <-. rewrite <-(app_nil_r (replicate n1 0)) in Hrun.
        apply Ha in Hrun as [(us1 & lk & t1 & Hrun & Hn)|Hrun].
        * exfalso. injection Hrun as <-. by apply Forall_cons in He as [He _].
        * injection Hrun as <-. split; [done|]. cbn. rewrite app_length. simpl. lia.
  Qed.
  Lemma both_ended : Forall ended [ADone; XDone None].
  Proof. constructor; [by left|]. constructor; [right; left; by exists None|constructor]. Qed.

  Lemma hole_lost : exists sched st', finishes prs old ts sched st' /\ as_threads st' = [ADone; XDone None] /\
    (forall x, Some x ∈ as_list st' -> x ∈ ls) /\
    forall sched', one_by_one 2 sched' -> ~ finishes prs old ts sched' st'.
  Proof.
    destruct removals as (new & new1 & Hlt & Hlen & Hin & H1 & H2 & H3).
    exists [1; 1; 0; 0; 0; 0; 1], (AState new None [ADone; XDone None]). split; [|split; [done|split; [exact Hin|]]].
    - split; [|exact both_ended]. unfold ts. cbn. rewrite H1. done.
    - intros sched' Ho Hf. destruct (in_turn_length _ _ _ _ H1 H2 Hlen Ho Hf) as [_ E]. cbn in E. lia.
  Qed.
  Lemma hole_undone : exists sched st', finishes prs old ts sched st' /\ as_threads st' = [ADone; XDone None] /\
    as_list st' = old ++ [Some l] /\
    forall sched', one_by_one 2 sched' -> ~ finishes prs old ts sched' st'.
  Proof.
    destruct removals as (new & new1 & Hlt & Hlen & Hin & H1 & H2 & H3).
    exists [0; 0; 1; 1; 1; 0; 0], (AState (old ++ [Some l]) None [ADone; XDone None]).
    split; [|split; [done|split; [done|]]].
    - split; [|exact both_ended]. unfold ts. cbn. rewrite H1. done.
    - intros sched' Ho Hf. destruct (in_turn_length _ _ _ _ H1 H2 Hlen Ho Hf) as [_ E]. cbn in E.
      rewrite app_length in E. unfold old in E. rewrite fmap_length in E. simpl in E. lia.
  Qed.
  Lemma hole_panic : (exists sched st', finishes prs old ts sched st' /\ as_threads st' = [ADone; XPanic]) /\
    forall sched' st', one_by_one 2 sched' -> finishes prs old ts sched' st' -> as_threads st' = [ADone; XDone None].
  Proof.
    destruct removals as (new & new1 & Hlt & Hlen & Hin & H1 & H2 & H3). split.
    - exists [1; 0; 0; 0; 0; 1], (AState (old ++ [Some l]) None [ADone; XPanic]). split; [|done].
      split; [|constructor; [by left|constructor; [by right; right|constructor]]]. unfold ts. cbn. rewrite H3. done.
    - intros sched' st' Ho Hf. by destruct (in_turn_length _ _ _ _ H1 H2 Hlen Ho Hf).
  Qed.
End hole.
