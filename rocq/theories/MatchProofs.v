(** Proofs relating the model of MatchResource to its specification. *)
From Verif Require Export MatchModel MatchSpec.

(** ** Helpers *)
Lemma colon_not_star : ch_colon <> ch_star. Proof. discriminate. Qed.

Lemma seg_len_take l : ch_slash ∉ take (seg_len l) l.
Proof.
  induction l as [|x l IH]; simpl; [set_solver|].
  destruct (decide (x = ch_slash)) as [->|Hx]; simpl; set_solver.
Qed.
Lemma seg_len_drop l : at_boundary (drop (seg_len l) l).
Proof.
  induction l as [|x l IH]; simpl; [by left|].
  destruct (decide (x = ch_slash)) as [->|Hx]; simpl; [right; eauto|done].
Qed.
Lemma seg_len_app name rest : ch_slash ∉ name -> at_boundary rest ->
  seg_len (name ++ rest) = length name.
Proof.
  induction name as [|x name IH]; simpl; intros Hn Hb.
  - destruct Hb as [->|[l ->]]; done.
  - rewrite decide_False by set_solver. f_equal. apply IH; [set_solver|done].
Qed.
Lemma seg_len_le l : seg_len l <= length l.
Proof. induction l as [|x l IH]; simpl; [lia|]. destruct (decide _); lia. Qed.

Lemma index_byte_None c l : index_byte c l = None <-> c ∉ l.
Proof.
  induction l as [|x l IH]; simpl; [set_solver|].
  destruct (decide (x = c)) as [->|Hx]; [set_solver|].
  destruct (index_byte c l); simpl; [|set_solver].
  split; [done|]. intros H. assert (c ∉ l) as Hc by set_solver. apply IH in Hc. done.
Qed.
Lemma index_byte_Some c l k : index_byte c l = Some k ->
  c ∈ l /\ k < length l /\ index_byte c (drop k l) = Some 0.
Proof.
  revert k; induction l as [|x l IH]; simpl; intros k H; [done|].
  destruct (decide (x = c)) as [->|Hx].
  - injection H as <-. simpl. rewrite decide_True by done. split; [set_solver|]. split; [lia|done].
  - destruct (index_byte c l) as [j|]; simpl in H; [|done]. injection H as <-.
    destruct (IH j eq_refl) as (?&?&?). simpl. split; [set_solver|]. split; [lia|done].
Qed.

(** ** Inversion of the specification *)
Lemma Matches_nil_inv v : Matches [] v <-> v = [].
Proof. split; [by inversion 1|intros ->; constructor]. Qed.
Lemma Matches_lit_inv c p v : c <> ch_colon -> c <> ch_star ->
  Matches (c :: p) v <-> exists v', v = c :: v' /\ Matches p v'.
Proof. intros. split; [inversion 1; subst; naive_solver|intros (v'&->&?); by constructor]. Qed.
Lemma Matches_colon_inv p v : Matches (ch_colon :: p) v <->
  exists x v', v = x :: v' /\ Matches (drop (seg_len p) p) (drop (seg_len v') v').
Proof.
  split.
  - inversion 1; subst; [done|].
    exists x, (seg ++ v0). rewrite !seg_len_app, !drop_app by done. done.
  - intros (x&v'&->&H).
    rewrite <-(take_drop (seg_len p) p), <-(take_drop (seg_len v') v').
    apply M_param; auto using seg_len_take, seg_len_drop.
Qed.
Lemma Matches_stars_inv p v : Matches (ch_star :: ch_star :: p) v <-> Matches (ch_star :: p) v.
Proof. split; [inversion 1; subst; done|apply M_stars]. Qed.
Lemma Matches_star_inv c p v : c <> ch_star -> ~ Matches (ch_star :: c :: p) v.
Proof. intros ?. inversion 1; subst; done. Qed.

Lemma Loops_nil_inv v : ~ Loops [] v.
Proof. inversion 1. Qed.
Lemma Loops_lit_inv c p v : c <> ch_colon -> c <> ch_star ->
  Loops (c :: p) v <-> exists v', v = c :: v' /\ Loops p v'.
Proof. intros. split; [inversion 1; subst; naive_solver|intros (v'&->&?); by constructor]. Qed.
Lemma Loops_colon_inv p v : Loops (ch_colon :: p) v <->
  exists x v', v = x :: v' /\ Loops (drop (seg_len p) p) (drop (seg_len v') v').
Proof.
  split.
  - inversion 1; subst; [done|].
    exists x, (seg ++ v0). rewrite !seg_len_app, !drop_app by done. done.
  - intros (x&v'&->&H).
    rewrite <-(take_drop (seg_len p) p), <-(take_drop (seg_len v') v').
    apply L_param; auto using seg_len_take, seg_len_drop.
Qed.
Lemma Loops_stars_inv p v : Loops (ch_star :: ch_star :: p) v <-> Loops (ch_star :: p) v.
Proof. split; [inversion 1; subst; done|apply L_stars]. Qed.
Lemma Loops_star_end v : ~ Loops [ch_star] v.
Proof. inversion 1; subst; done. Qed.
Lemma Loops_star_inv c p v : c <> ch_star -> Loops (ch_star :: c :: p) v <-> c ∈ v.
Proof. intros ?. split; [inversion 1; subst; done|by constructor]. Qed.

(** ** The scanner *)
Lemma mr_run_stuck v p vi pi : mr_step v p vi pi = MNext vi pi -> forall n, mr_run n v p vi pi = None.
Proof. intros H n. induction n as [|n IH]; simpl; [done|]. by rewrite H. Qed.

Lemma drop_cons_lookup {A} (l : list A) i x l' : drop i l = x :: l' -> l !! i = Some x /\ drop (i + 1) l = l' /\ i < length l.
Proof.
  intros H. assert (l !! i = Some x) as Hl.
  { rewrite <-(Nat.add_0_r i), <-lookup_drop, H. done. }
  split; [done|]. split; [|by eapply lookup_lt_Some].
  rewrite <-drop_drop, H. done.
Qed.

Definition verdict (n : nat) (v p : list ascii) (vi pi : nat) : Prop :=
  (mr_run n v p vi pi = Some (Ok true) /\ Matches (drop pi p) (drop vi v) /\ ~ Loops (drop pi p) (drop vi v)) \/
  (mr_run n v p vi pi = Some (Ok false) /\ ~ Matches (drop pi p) (drop vi v) /\ ~ Loops (drop pi p) (drop vi v)) \/
  ((forall k, mr_run k v p vi pi = None) /\ ~ Matches (drop pi p) (drop vi v) /\ Loops (drop pi p) (drop vi v)).

Lemma verdict_step n v p vi pi vi' pi' :
  mr_step v p vi pi = MNext vi' pi' ->
  (Matches (drop pi p) (drop vi v) <-> Matches (drop pi' p) (drop vi' v)) ->
  (Loops (drop pi p) (drop vi v) <-> Loops (drop pi' p) (drop vi' v)) ->
  verdict n v p vi' pi' -> verdict (S n) v p vi pi.
Proof.
  intros Hs HM HL Hv. unfold verdict in *. simpl mr_run. rewrite Hs, HM, HL.
  destruct Hv as [?|[?|(Hr&?)]]; [tauto|tauto|].
  right; right. split; [|done]. intros [|k]; [done|]. simpl. rewrite Hs. apply Hr.
Qed.

Lemma mr_tri m v p vi pi : vi <= length v -> pi <= length p ->
  (length v - vi) + (length p - pi) <= m -> verdict (m + 1) v p vi pi.
Proof.
  revert vi pi. induction m as [m IHm] using lt_wf_ind. intros vi pi Hvi Hpi Hm.
  rewrite Nat.add_1_r.
  destruct (drop pi p) as [|c P] eqn:HP.
  - (* pattern exhausted *)
    assert (length p - pi = 0) as Hlen by (rewrite <-drop_length, HP; done).
    assert (p !! pi = None) as Hnone by (apply lookup_ge_None; lia).
    unfold verdict. rewrite HP. simpl mr_run. unfold mr_step. rewrite Hnone.
    rewrite (bool_decide_eq_true_2 (pi = length p)) by lia. rewrite andb_true_r.
    rewrite Matches_nil_inv.
    destruct (decide (vi = length v)) as [->|Hne].
    + left. rewrite bool_decide_eq_true_2 by done. rewrite drop_all. auto using Loops_nil_inv.
    + right; left. rewrite bool_decide_eq_false_2 by done. split; [done|].
      split; [|apply Loops_nil_inv]. intros Hd.
      assert (length (drop vi v) = 0) by (rewrite Hd; done). rewrite drop_length in *. lia.
  - destruct (drop_cons_lookup _ _ _ _ HP) as (Hpc&HP1&Hpi').
    destruct (decide (c = ch_star)) as [->|Hcs].
    + (* star *)
      destruct (decide (pi = length p - 1)) as [Hlast|Hlast].
      * (* final star *)
        assert (P = []) as ->.
        { rewrite <-HP1. apply drop_ge. lia. }
        left. simpl mr_run. unfold mr_step. rewrite Hpc, decide_True, decide_True by done.
        rewrite HP. split; [done|]. split; [constructor|apply Loops_star_end].
      * destruct P as [|next P].
        { exfalso. assert (length (drop (pi+1) p) = 0) by (rewrite HP1; done).
          rewrite drop_length in *. lia. }
        destruct (drop_cons_lookup _ _ _ _ HP1) as (Hpn&HP2&Hpi2).
        destruct (decide (next = ch_star)) as [->|Hns].
        -- apply (verdict_step m v p vi pi vi (pi + 1)).
           ++ unfold mr_step. rewrite Hpc, decide_True, decide_False, Hpn, decide_True by done. done.
           ++ rewrite HP, HP1. apply Matches_stars_inv.
           ++ rewrite HP, HP1. apply Loops_stars_inv.
           ++ replace m with (m - 1 + 1) by lia. apply IHm; lia.
        -- assert (mr_step v p vi pi = match index_byte next (drop vi v) with
                    | None => MDone (Ok false) | Some k => MNext (vi + k) pi end) as Hstep.
           { unfold mr_step. rewrite Hpc, decide_True, decide_False, Hpn, decide_False, decide_True by done. done. }
           destruct (index_byte next (drop vi v)) as [k|] eqn:Hk.
           ++ destruct (index_byte_Some _ _ _ Hk) as (Hin&Hkl&Hk0).
              right; right. rewrite HP. split; [|split].
              ** assert (mr_step v p (vi + k) pi = MNext (vi + k) pi) as Hst.
                 { unfold mr_step.
                   rewrite Hpc, decide_True, decide_False, Hpn, decide_False, decide_True by (done || (rewrite drop_length in Hkl; lia)).
                   rewrite drop_drop in Hk0. rewrite Hk0, Nat.add_0_r. done. }
                 intros [|n]; [done|]. simpl. rewrite Hstep. by apply mr_run_stuck.
              ** by apply Matches_star_inv.
              ** by apply Loops_star_inv.
           ++ right; left. rewrite HP. simpl mr_run. rewrite Hstep. split; [done|].
              split; [by apply Matches_star_inv|]. rewrite Loops_star_inv by done.
              by apply index_byte_None.
    + (* not a star *)
      destruct (drop vi v) as [|vc V] eqn:HV.
      * assert (v !! vi = None) as Hvn.
        { apply lookup_ge_None. assert (length (drop vi v) = 0) by (rewrite HV; done).
          rewrite drop_length in *. lia. }
        right; left. rewrite HP, HV. simpl mr_run. unfold mr_step. rewrite Hpc, decide_False, Hvn by done.
        split; [done|].
        destruct (decide (c = ch_colon)) as [->|Hcc].
        -- rewrite Matches_colon_inv, Loops_colon_inv. naive_solver.
        -- rewrite Matches_lit_inv, Loops_lit_inv by done. naive_solver.
      * destruct (drop_cons_lookup _ _ _ _ HV) as (Hvc&HV1&Hvi').
        destruct (decide (c = ch_colon)) as [->|Hcc].
        -- apply (verdict_step m v p vi pi (vi + 1 + seg_len V) (pi + 1 + seg_len P)).
           ++ unfold mr_step. rewrite Hpc, decide_False, Hvc by done.
              rewrite decide_True by auto. rewrite decide_True by done. rewrite HV1, HP1. done.
           ++ rewrite HP, HV, <-(drop_drop p _ (pi + 1)), <-(drop_drop v _ (vi + 1)), HP1, HV1, Matches_colon_inv. naive_solver.
           ++ rewrite HP, HV, <-(drop_drop p _ (pi + 1)), <-(drop_drop v _ (vi + 1)), HP1, HV1, Loops_colon_inv. naive_solver.
           ++ assert (seg_len V <= length v - (vi + 1)).
              { rewrite <-drop_length, HV1. apply seg_len_le. }
              assert (seg_len P <= length p - (pi + 1)).
              { rewrite <-drop_length, HP1. apply seg_len_le. }
              replace m with (m - 1 + 1) by lia. apply IHm; lia.
        -- destruct (decide (c = vc)) as [->|Hcv].
           ++ apply (verdict_step m v p vi pi (vi + 1) (pi + 1)).
              ** unfold mr_step. rewrite Hpc, decide_False, Hvc by done.
                 rewrite decide_True by auto. rewrite decide_False by done. done.
              ** rewrite HP, HV, HP1, HV1, Matches_lit_inv by done. naive_solver.
              ** rewrite HP, HV, HP1, HV1, Loops_lit_inv by done. naive_solver.
              ** replace m with (m - 1 + 1) by lia. apply IHm; lia.
           ++ right; left. rewrite HP, HV. simpl mr_run. unfold mr_step.
              rewrite Hpc, decide_False, Hvc by done. rewrite decide_False by naive_solver.
              split; [done|]. rewrite Matches_lit_inv, Loops_lit_inv by done. naive_solver.
Qed.

Lemma match_bytes_cases v p :
  (match_bytes v p = Ok true /\ Matches p v /\ ~ Loops p v) \/
  (match_bytes v p = Ok false /\ ~ Matches p v /\ ~ Loops p v) \/
  (match_bytes v p = Hang /\ ~ Matches p v /\ Loops p v).
Proof.
  unfold match_bytes.
  destruct (mr_tri (length v + length p) v p 0 0) as [(H&?&?)|[(H&?&?)|(H&?&?)]]; try lia;
    rewrite ?drop_0 in *; rewrite H; auto.
Qed.

(** The [Hang] answer really means that the Go loop never returns, and the other answers that
    it returns that value. *)
Lemma mr_run_mono n k v p vi pi r : n <= k -> mr_run n v p vi pi = Some r -> mr_run k v p vi pi = Some r.
Proof.
  revert k vi pi. induction n as [|n IH]; simpl; intros k vi pi Hk H; [done|].
  destruct k as [|k]; [lia|]. simpl. destruct (mr_step v p vi pi); [|done]. apply IH; [lia|done].
Qed.

Lemma match_bytes_hang v p : match_bytes v p = Hang <-> forall n, mr_run n v p 0 0 = None.
Proof.
  split.
  - intros H. unfold match_bytes in H.
    destruct (mr_tri (length v + length p) v p 0 0) as [(H'&_)|[(H'&_)|(H'&_)]]; try lia;
      [rewrite H' in H; done..|done].
  - intros H. unfold match_bytes. by rewrite H.
Qed.
Lemma match_bytes_ok v p b : match_bytes v p = Ok b <-> exists n, mr_run n v p 0 0 = Some (Ok b).
Proof.
  unfold match_bytes. split.
  - intros H. destruct (mr_run _ _ _ _ _) eqn:E; [|done]. exists (length v + length p + 1). by rewrite E, H.
  - intros [n Hn].
    destruct (mr_tri (length v + length p) v p 0 0) as [(H'&_)|[(H'&_)|(H'&_)]]; try lia.
    + rewrite H'. apply (mr_run_mono _ (n + (length v + length p + 1))) in H'; [|lia].
      apply (mr_run_mono _ (n + (length v + length p + 1))) in Hn; [|lia]. congruence.
    + rewrite H'. apply (mr_run_mono _ (n + (length v + length p + 1))) in H'; [|lia].
      apply (mr_run_mono _ (n + (length v + length p + 1))) in Hn; [|lia]. congruence.
    + rewrite H' in Hn. done.
Qed.

Lemma match_true v p : match_bytes v p = Ok true <-> Matches p v.
Proof. destruct (match_bytes_cases v p) as [(->&?&?)|[(->&?&?)|(->&?&?)]]; split; naive_solver. Qed.
Lemma match_false v p : match_bytes v p = Ok false <-> ~ Matches p v /\ ~ Loops p v.
Proof. destruct (match_bytes_cases v p) as [(->&?&?)|[(->&?&?)|(->&?&?)]]; split; naive_solver. Qed.
Lemma match_hang v p : match_bytes v p = Hang <-> Loops p v.
Proof. destruct (match_bytes_cases v p) as [(->&?&?)|[(->&?&?)|(->&?&?)]]; split; naive_solver. Qed.
Lemma match_no_panic v p : match_bytes v p <> Panic.
Proof. destruct (match_bytes_cases v p) as [(->&?&?)|[(->&?&?)|(->&?&?)]]; done. Qed.
