(** What AsString prints is text, whatever bytes the names consist of. *)
From Verif Require Import JsonProofs.
Local Open Scope string_scope.
Local Arguments String.append _ _ : simpl nomatch.

Lemma all_app cs cs' : utf8_all (cs ++ cs')%list = utf8_all cs ++ utf8_all cs'.
Proof. induction cs as [|c cs IH]; [reflexivity|]. cbn [utf8_all app]. rewrite IH, sapp_assoc. reflexivity. Qed.
Lemma text_nil : is_text "".
Proof. exists []. split; [constructor|reflexivity]. Qed.
Lemma text_app x y : is_text x -> is_text y -> is_text (x ++ y).
Proof. intros (cs & H & ->) (cs' & H' & ->). exists (cs ++ cs')%list. split; [apply Forall_app; split; assumption|]. symmetry. apply all_app. Qed.
Lemma text_char c : scalar c -> is_text (utf8 c).
Proof. intros H. exists [c]. split; [constructor; [exact H|constructor]|]. cbn [utf8_all]. rewrite sapp_nil. reflexivity. Qed.
Fixpoint low (s : string) : Prop := match s with "" => True | String a s' => (byte_of a < 128)%N /\ low s' end.
Lemma text_one a : (byte_of a < 128)%N -> is_text (String a "").
Proof.
  intros H. assert (E : String a "" = utf8 (byte_of a)). { unfold utf8. rewrite (proj2 (N.ltb_lt _ _) H). rewrite <-(ascii_byte a _ eq_refl). reflexivity. }
  rewrite E. apply text_char. unfold scalar. lia.
Qed.
Lemma text_low s : low s -> is_text s.
Proof. induction s as [|a s IH]; [intros _; exact text_nil|]. intros [H1 H2]. exact (text_app (String a "") s (text_one a H1) (IH H2)). Qed.
Lemma text_two a b : two_bytes a b = true -> is_text (String a (String b "")).
Proof.
  unfold two_bytes, cont. rewrite andb_true_iff, !range_true. intros [Ha Hb]. set (c := ((byte_of a - 192) * 64 + (byte_of b - 128))%N).
  assert (E : String a (String b "") = utf8 c).
  { unfold utf8. rewrite (proj2 (N.ltb_ge c 128)) by lia. rewrite (proj2 (N.ltb_lt c 2048)) by lia. f_equal; [|f_equal]; apply ascii_byte; unfold c; euclid. }
  rewrite E. apply text_char. unfold scalar. lia.
Qed.
Lemma text_three a b d : three_bytes a b d = true -> is_text (String a (String b (String d ""))).
Proof.
  unfold three_bytes, cont. rewrite !andb_true_iff, !orb_true_iff, !andb_true_iff, !range_true. intros [H Hd]. set (c := ((byte_of a - 224) * 4096 + (byte_of b - 128) * 64 + (byte_of d - 128))%N).
  assert (E : String a (String b (String d "")) = utf8 c).
  { unfold utf8. rewrite (proj2 (N.ltb_ge c 128)) by lia. rewrite (proj2 (N.ltb_ge c 2048)) by lia. rewrite (proj2 (N.ltb_lt c 65536)) by lia.
    assert (Ha : (224 <= byte_of a <= 239)%N) by lia. assert (Hb : (128 <= byte_of b <= 191)%N) by lia. clear H. f_equal; [|f_equal; [|f_equal]]; apply ascii_byte; unfold c; euclid. }
  rewrite E. apply text_char. unfold scalar. lia.
Qed.
Lemma text_four a b d e : four_bytes a b d e = true -> is_text (String a (String b (String d (String e "")))).
Proof.
  unfold four_bytes, cont. rewrite !andb_true_iff, !orb_true_iff, !andb_true_iff, !range_true. intros [[H Hd] He]. set (c := ((byte_of a - 240) * 262144 + (byte_of b - 128) * 4096 + (byte_of d - 128) * 64 + (byte_of e - 128))%N).
  assert (E : String a (String b (String d (String e ""))) = utf8 c).
  { unfold utf8. rewrite (proj2 (N.ltb_ge c 128)) by lia. rewrite (proj2 (N.ltb_ge c 2048)) by lia. rewrite (proj2 (N.ltb_ge c 65536)) by lia.
    assert (Ha : (240 <= byte_of a <= 244)%N) by lia. assert (Hb : (128 <= byte_of b <= 191)%N) by lia. clear H. f_equal; [|f_equal; [|f_equal; [|f_equal]]]; apply ascii_byte; unfold c; euclid. }
  rewrite E. apply text_char. unfold scalar. lia.
Qed.
Lemma low_ascii a : (byte_of a < 128)%N -> low (print_ascii a).
Proof. intros H. destruct a as [[] [] [] [] [] [] [] []]; try (exfalso; vm_compute in H; discriminate H); vm_compute; repeat split. Qed.
Lemma text_bad : is_text bad_byte.
Proof. apply text_low. vm_compute. repeat split. Qed.
Lemma text_body n : forall s, String.length s <= n -> is_text (print_body s).
Proof.
  induction n as [|n IH]; intros s Hs.
  - destruct s as [|a s]; [exact text_nil|cbn [String.length] in Hs; lia].
  - destruct s as [|a s1]; [exact text_nil|]. cbn [String.length] in Hs. pose proof (IH s1 ltac:(lia)) as H1. pose proof (text_app _ _ text_bad H1) as Bad.
    cbn [print_body]. destruct (N.ltb_spec (byte_of a) 128) as [Ha|Ha]; [exact (text_app _ _ (text_low _ (low_ascii a Ha)) H1)|].
    destruct s1 as [|b s2]; [exact text_bad|]. cbn [String.length] in Hs. destruct (two_bytes a b) eqn:E2.
    { exact (text_app (String a (String b "")) _ (text_two a b E2) (IH s2 ltac:(lia))). }
    destruct s2 as [|c s3]; [exact Bad|]. cbn [String.length] in Hs. destruct (three_bytes a b c) eqn:E3.
    { pose proof (IH s3 ltac:(lia)) as H3. destruct (line_sep a b c) eqn:Es.
      - assert (Hl : low (escaped "u" ++ "202" ++ String (hexdigit (byte_of c - 160)) "")) by (apply sep_values in Es as (_ & _ & [Ec|Ec]); rewrite Ec; vm_compute; repeat split).
        exact (text_app _ _ (text_low _ Hl) H3).
      - exact (text_app (String a (String b (String c ""))) _ (text_three a b c E3) H3). }
    destruct s3 as [|d s4]; [exact Bad|]. cbn [String.length] in Hs. destruct (four_bytes a b c d) eqn:E4; [|exact Bad].
    exact (text_app (String a (String b (String c (String d "")))) _ (text_four a b c d E4) (IH s4 ltac:(lia))).
Qed.
Lemma low_go x : forall s, low s -> low (pretty_N_go x s).
Proof.
  induction (N.lt_wf_0 x) as [x _ IH]. intros s H. destruct (N.eq_0_gt_0_cases x) as [->|Hx]; [rewrite pretty_N_go_0; exact H|].
  rewrite pretty_N_go_step by exact Hx. apply IH; [apply N.div_lt; [exact Hx|reflexivity]|]. cbn [low]. split; [|exact H]. destruct (digit_char (x mod 10)) as [D _]; [apply N.mod_lt; discriminate|]. apply digit_range in D. lia.
Qed.
Lemma low_N (n : N) : low (pretty n).
Proof. unfold pretty, pretty_N. destruct (decide (n = 0%N)) as [->|H]; [vm_compute; repeat split|]. apply low_go. exact I. Qed.
Lemma text_any v : is_text (print_any v).
Proof.
  destruct v as [|s|[]|z]; [apply text_low; vm_compute; repeat split| |apply text_low; vm_compute; repeat split..|].
  - cbn [print_any]. unfold print_string. apply (text_app (String quote "")); [apply text_low; vm_compute; repeat split|]. apply text_app; [exact (text_body _ s (le_n _))|apply text_low; vm_compute; repeat split].
  - cbn [print_any]. apply text_low. destruct z as [|p|p]; [exact (low_N 0)|exact (low_N (Npos p))|]. change (pretty (Zneg p)) with (String "-" (pretty (Npos p))). split; [reflexivity|exact (low_N (Npos p))].
Qed.
Lemma text_data d : is_text (print_data d).
Proof. unfold print_data. repeat (apply text_app; [first [apply text_any|apply text_low; vm_compute; repeat split; fail]|]). apply text_low. vm_compute. repeat split. Qed.
Lemma text_rest l : is_text (print_rest l).
Proof. induction l as [|d l IH]; [apply text_low; vm_compute; repeat split|]. cbn [print_rest]. apply text_app; [apply text_low; vm_compute; repeat split|]. apply text_app; [apply text_data|exact IH]. Qed.
Lemma as_string_text o st : is_text (as_string o st).
Proof. unfold as_string. destruct (trie_data o (m_trie st)) as [|d l]; [apply text_low; vm_compute; repeat split|]. unfold print_rows. apply text_app; [apply text_low; vm_compute; repeat split|]. apply text_app; [apply text_data|apply text_rest]. Qed.
