(** Consequences for users of MatchResource. *)
From Verif Require Export MatchProofs.

Lemma matches_literal p v : ch_colon ∉ p -> ch_star ∉ p -> (Matches p v <-> p = v).
Proof.
  revert v. induction p as [|c p IH]; intros v Hc Hs.
  - rewrite Matches_nil_inv. split; congruence.
  - rewrite Matches_lit_inv by set_solver. split.
    + intros (v'&->&H). f_equal. apply IH in H; set_solver.
    + intros <-. exists p. split; [done|]. apply IH; set_solver.
Qed.
Lemma loops_no_star p v : ch_star ∉ p -> ~ Loops p v.
Proof. intros Hs H. induction H; set_solver. Qed.

Lemma matches_lit_app r p v : ch_colon ∉ r -> ch_star ∉ r -> (Matches (r ++ p) (r ++ v) <-> Matches p v).
Proof.
  induction r as [|c r IH]; intros Hc Hs; [done|]. simpl.
  rewrite Matches_lit_inv by set_solver. rewrite <-IH by set_solver. naive_solver.
Qed.
Lemma loops_lit_app r p v : ch_colon ∉ r -> ch_star ∉ r -> (Loops (r ++ p) (r ++ v) <-> Loops p v).
Proof.
  induction r as [|c r IH]; intros Hc Hs; [done|]. simpl.
  rewrite Loops_lit_inv by set_solver. rewrite <-IH by set_solver. naive_solver.
Qed.

(** A star followed by something in the pattern text: termination fails, in general. *)
Lemma star_then_byte_hangs r c rest w : ch_colon ∉ r -> ch_star ∉ r -> c <> ch_star -> c ∈ w ->
  match_bytes (r ++ w) (r ++ ch_star :: c :: rest) = Hang.
Proof. intros. apply match_hang, loops_lit_app; [done..|]. by apply L_star. Qed.

Lemma loops_trailing_stars p n v : ch_star ∉ p -> ~ Loops (p ++ replicate n ch_star) v.
Proof.
  intros Hp H. remember (p ++ replicate n ch_star) as q eqn:Hq. revert p n Hp Hq.
  induction H as [c q v Hc Hin|q v H IH|c q v Hc Hs H IH|name q x seg v Hn Hb Hs Hb' H IH]; intros p n Hp Hq.
  - destruct p as [|y p].
    + destruct n as [|[|n]]; simpl in Hq; try done. naive_solver.
    + simpl in Hq. injection Hq as <- Hq. set_solver.
  - destruct p as [|y p].
    + destruct n as [|n]; simpl in Hq; [done|]. injection Hq as Hq. eapply (IH [] n); [set_solver|done].
    + simpl in Hq. injection Hq as <- Hq. set_solver.
  - destruct p as [|y p].
    + destruct n as [|n]; simpl in Hq; [done|]. naive_solver.
    + simpl in Hq. injection Hq as <- Hq. eapply IH; [|done]. set_solver.
  - destruct p as [|y p].
    + destruct n as [|n]; simpl in Hq; [done|]. naive_solver.
    + simpl in Hq. injection Hq as <- Hq.
      destruct Hb as [->|[l ->]].
      * eapply (IH [] 0); [set_solver|done].
      * (* the slash lies in p, because stars are not slashes *)
        assert (exists p', p = name ++ ch_slash :: p' /\ l = p' ++ replicate n ch_star) as (p'&->&->).
        { clear -Hq Hn. revert p Hq. induction name as [|z name IHn]; intros p Hq; simpl in Hq.
          - destruct p as [|y p]; simpl in Hq.
            + destruct n; simpl in Hq; [done|]. naive_solver.
            + injection Hq as <- ->. eauto.
          - destruct p as [|y p]; simpl in Hq.
            + (* name consists of stars, then slash inside replicate: impossible *)
              exfalso. assert (ch_slash ∈ replicate n ch_star) as Hin by (rewrite <-Hq; set_solver).
              apply elem_of_replicate in Hin as [? _]. done.
            + injection Hq as <- Hq. destruct (IHn ltac:(set_solver) p Hq) as (p'&->&->). eauto. }
        eapply (IH (ch_slash :: p') n); [set_solver|done].
Qed.

(** Suffix enforcement. *)
Lemma matches_suffix_aux p v : Matches p v -> forall pre l,
  ch_star ∉ p -> ch_colon ∉ l -> p = pre ++ ch_slash :: l ->
  exists v', v = v' ++ ch_slash :: l.
Proof.
  induction 1 as [|c p v Hc Hs H IH|name p x seg v Hn Hb Hsg Hb' H IH|v|p v H IH]; intros pre l Hst Hl Hp.
  - destruct pre; done.
  - destruct pre as [|y pre]; simpl in Hp.
    + injection Hp as -> ->. apply matches_literal in H; [|done|set_solver]. subst. by exists [].
    + injection Hp as <- ->. destruct (IH pre l) as [v' ->]; [set_solver|done..|]. by exists (c :: v').
  - destruct pre as [|y pre]; simpl in Hp; [done|]. injection Hp as <- Hp.
    assert (exists pre', p = pre' ++ ch_slash :: l) as [pre' ->].
    { clear -Hp Hn Hb. revert pre Hp. induction name as [|z name IHn]; intros pre Hp; simpl in Hp.
      - eauto.
      - destruct pre as [|y pre]; simpl in Hp; [set_solver|].
        injection Hp as <- Hp. eapply IHn; [set_solver|done]. }
    destruct (IH pre' l) as [v' ->]; [set_solver|done..|].
    exists (x :: seg ++ v'). simpl. by rewrite <-(assoc_L (++)).
  - set_solver.
  - set_solver.
Qed.

(** Segment-wise behaviour. *)
Lemma split_on_ne c l : split_on c l <> [].
Proof. destruct l as [|x l]; simpl; [done|]. destruct (decide _); [done|]. by destruct (split_on c l). Qed.

Lemma split_on_app_sep c s l : c ∉ s -> split_on c (s ++ c :: l) = s :: split_on c l.
Proof.
  induction s as [|x s IH]; intros Hs; simpl.
  - by rewrite decide_True.
  - rewrite decide_False by set_solver. by rewrite IH by set_solver.
Qed.
Lemma split_on_single c s : c ∉ s -> split_on c s = [s].
Proof.
  induction s as [|x s IH]; intros Hs; simpl; [done|].
  rewrite decide_False by set_solver. by rewrite IH by set_solver.
Qed.
Lemma split_on_cases c l :
  (c ∉ l /\ split_on c l = [l]) \/
  (exists s l', l = s ++ c :: l' /\ c ∉ s /\ split_on c l = s :: split_on c l').
Proof.
  destruct (decide (c ∈ l)) as [Hin|Hin].
  - right. induction l as [|x l IH]; [set_solver|].
    destruct (decide (x = c)) as [->|Hx].
    + exists [], l. split; [done|]. split; [set_solver|]. simpl. by rewrite decide_True.
    + destruct IH as (s&l'&->&Hs&E); [set_solver|].
      exists (x :: s), l'. split; [done|]. split; [set_solver|]. apply (split_on_app_sep c (x :: s)). set_solver.
  - left. split; [done|]. by apply split_on_single.
Qed.

Lemma matches_seg ps P vs V : seg_shaped ps -> ch_star ∉ ps -> ch_slash ∉ ps -> at_boundary P ->
  ch_slash ∉ vs -> at_boundary V ->
  (forall c ps', ps = c :: ps' -> c = ch_colon -> vs <> []) ->
  (Matches (ps ++ P) (vs ++ V) <-> seg_ok ps vs /\ Matches P V).
Proof.
  intros Hsh Hst Hsl HP Hvs HV Hne.
  assert ((exists ps', ps = ch_colon :: ps') \/ ~ (exists ps', ps = ch_colon :: ps')) as [[ps' ->]|Hnc].
  { destruct ps as [|c ps']; [right; naive_solver|]. destruct (decide (c = ch_colon)); naive_solver. }
  - simpl. rewrite Matches_colon_inv. destruct vs as [|x vs]; [naive_solver|].
    rewrite seg_len_app, drop_app by (done || set_solver). split.
    + intros (x'&v'&Heq&H). simpl in Heq. injection Heq as <- <-.
      rewrite seg_len_app, drop_app in H by (done || set_solver). done.
    + intros [_ H]. exists x, (vs ++ V). split; [done|].
      rewrite seg_len_app, drop_app by (done || set_solver). done.
  - assert (ch_colon ∉ ps) as Hc.
    { destruct ps as [|c ps']; [set_solver|]. simpl in Hsh. apply not_elem_of_cons. split; [|done].
      intros <-. naive_solver. }
    clear Hsh Hnc Hne.
    assert (seg_ok ps vs <-> ps = vs) as ->.
    { destruct ps as [|c ps']; simpl; [naive_solver|]. rewrite decide_False; [done|set_solver]. }
    revert vs Hvs. induction ps as [|c ps IH]; intros vs Hvs; simpl.
    + destruct vs as [|x vs]; simpl; [naive_solver|]. split; [|naive_solver]. intros H. exfalso.
      destruct HP as [->|[P' ->]]; [by apply Matches_nil_inv in H|].
      apply Matches_lit_inv in H as (v'&Heq&_); [|done..]. set_solver.
    + rewrite Matches_lit_inv by set_solver. destruct vs as [|x vs]; simpl.
      * split; [|naive_solver]. intros (v'&->&H). exfalso.
        destruct HV as [|[V' HV]]; [done|]. injection HV as -> ->. set_solver.
      * split.
        -- intros (v'&Heq&H). injection Heq as -> <-. apply IH in H; [|set_solver..]. naive_solver.
        -- intros [Heq H]. injection Heq as -> ->. exists (vs ++ V). split; [done|].
           apply IH; [set_solver..|]. done.
Qed.

Lemma matches_segments p v :
  ch_star ∉ p ->
  Forall seg_shaped (split_on ch_slash p) ->
  (forall i ps, split_on ch_slash p !! i = Some (ch_colon :: ps) -> split_on ch_slash v !! i <> Some []) ->
  (Matches p v <-> Forall2 seg_ok (split_on ch_slash p) (split_on ch_slash v)).
Proof.
  remember (length p) as n eqn:Hn. revert p v Hn. induction n as [n IHn] using lt_wf_ind.
  intros p v Hn Hst Hsh Hne.
  assert (forall ps (P : list ascii), split_on ch_slash p = ps :: split_on ch_slash P \/ split_on ch_slash p = [ps] ->
     forall vs ss, split_on ch_slash v = vs :: ss -> forall c ps', ps = c :: ps' -> c = ch_colon -> vs <> []) as Hhd.
  { intros ps P Hp vs ss Hv c ps' -> ->. intros ->. eapply (Hne 0 ps').
    - destruct Hp as [-> | ->]; done.
    - rewrite Hv. done. }
  destruct (split_on_cases ch_slash p) as [[Hp Ep]|(ps&P&->&Hp&Ep)];
  destruct (split_on_cases ch_slash v) as [[Hv Ev]|(vs&V&->&Hv&Ev)]; rewrite Ep, Ev in *.
  - pose proof (matches_seg p [] v []) as Hm. rewrite !app_nil_r in Hm. rewrite Hm.
    + rewrite Matches_nil_inv, Forall2_cons, Forall2_nil. naive_solver.
    + by inversion Hsh.
    + done.
    + done.
    + by left.
    + done.
    + by left.
    + eapply (Hhd p []); [by right|done].
  - pose proof (matches_seg p [] vs (ch_slash :: V)) as Hm. rewrite app_nil_r in Hm. rewrite Hm.
    + rewrite Matches_nil_inv, Forall2_cons. split; [naive_solver|].
      intros [_ H]. apply Forall2_nil_inv_l in H. by apply split_on_ne in H.
    + by inversion Hsh.
    + done.
    + done.
    + by left.
    + done.
    + right; eauto.
    + eapply (Hhd p []); [by right|done].
  - pose proof (matches_seg ps (ch_slash :: P) v []) as Hm. rewrite app_nil_r in Hm. rewrite Hm.
    + rewrite Matches_lit_inv, Forall2_cons by done. split; [naive_solver|].
      intros [_ H]. apply Forall2_nil_inv_r in H. by apply split_on_ne in H.
    + by inversion Hsh.
    + set_solver.
    + done.
    + right; eauto.
    + done.
    + by left.
    + eapply (Hhd ps P); [by left|done].
  - rewrite (matches_seg ps (ch_slash :: P) vs (ch_slash :: V)).
    + rewrite Matches_lit_inv, Forall2_cons by done.
      assert (Matches P V <-> Forall2 seg_ok (split_on ch_slash P) (split_on ch_slash V)) as HIH.
      { apply (IHn (length P)).
        - rewrite Hn, app_length. simpl. lia.
        - done.
        - set_solver.
        - by inversion Hsh.
        - intros i qs Hi. apply (Hne (S i) qs). done. }
      rewrite <-HIH. split.
      * intros [? (v'&Heq&?)]. injection Heq as <-. done.
      * intros [? ?]. split; [done|]. eauto.
    + by inversion Hsh.
    + set_solver.
    + done.
    + right; eauto.
    + done.
    + right; eauto.
    + eapply (Hhd ps P); [by left|done].
Qed.

(** ** String versions *)
Lemma bytes_res_act r a : bytes (res_act r a) = bytes r ++ ch_space :: bytes a.
Proof. unfold res_act. rewrite !bytes_app. done. Qed.

Lemma app_last_inj {A} (c : A) l1 l2 k1 k2 : c ∉ k1 -> c ∉ k2 ->
  l1 ++ c :: k1 = l2 ++ c :: k2 -> l1 = l2 /\ k1 = k2.
Proof.
  intros H1 H2. revert l2. induction l1 as [|x l1 IH]; intros [|y l2]; simpl; intros Heq.
  - by injection Heq.
  - injection Heq as -> ->. set_solver.
  - injection Heq as -> <-. set_solver.
  - injection Heq as -> Heq. destruct (IH _ Heq) as [-> ->]. done.
Qed.

Lemma action_enforced pre tail act res' act' :
  lacks ch_star pre -> literal tail -> literal act ->
  lacks ch_space act -> lacks ch_space act' ->
  match_resource (res_act res' act') (res_act (String.append pre (String.append "/" tail)) act) = Ok true ->
  act' = act.
Proof.
  unfold lacks, literal, lacks. intros Hp [Ht1 Ht2] [Ha1 Ha2] Hs Hs' H.
  unfold match_resource in H. apply match_true in H.
  rewrite !bytes_res_act, !bytes_app in H. simpl in H.
  eapply matches_suffix_aux with (pre := bytes pre) (l := bytes tail ++ ch_space :: bytes act) in H as [v' Hv].
  - apply (app_last_inj ch_space (bytes res') (v' ++ ch_slash :: bytes tail) (bytes act') (bytes act)) in Hs'; [|done|].
    + apply bytes_inj. tauto.
    + rewrite Hv, <-(assoc_L (++)). done.
  - set_solver.
  - set_solver.
  - rewrite <-(assoc_L (++)). done.
Qed.

Lemma action_enforced_flat res act res' act' :
  literal res -> literal act ->
  match_resource (res_act res' act') (res_act res act) = Ok true ->
  res_act res' act' = res_act res act.
Proof.
  intros [H1 H2] [H3 H4] H. apply match_true, matches_literal in H.
  - by apply bytes_inj.
  - rewrite bytes_res_act. unfold lacks in *. set_solver.
  - rewrite bytes_res_act. unfold lacks in *. set_solver.
Qed.

(** The action is ignored when the last segment is a parameter. *)
Lemma action_ignored r name act (x : ascii) (seg : string) :
  literal r -> lacks ch_slash name -> lacks ch_slash act -> lacks ch_slash seg ->
  match_resource (String.append r (String x seg))
                 (res_act (String.append r (String.append ":" name)) act) = Ok true.
Proof.
  intros [H1 H2] Hn Ha Hs. apply match_true.
  rewrite bytes_res_act, !bytes_app. simpl. rewrite <-(assoc_L (++)).
  apply matches_lit_app; [done..|]. simpl.
  pose proof (M_param (bytes name ++ ch_space :: bytes act) [] x (bytes seg) []) as HM.
  rewrite !app_nil_r in HM. apply HM; [|by left|done|by left|constructor].
  unfold lacks in *. set_solver.
Qed.

Lemma star_resource_hangs r rest act act' :
  literal r ->
  match_resource (res_act (String.append r rest) act')
                 (res_act (String.append r "*") act) = Hang.
Proof.
  intros [H1 H2]. unfold match_resource. rewrite !bytes_res_act, !bytes_app, <-!(assoc_L (++)).
  apply star_then_byte_hangs; [done..| |]; [done|set_solver].
Qed.
