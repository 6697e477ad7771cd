(** What the managers print can be read back. *)
From Verif Require Import RegProofs AuthProofs TrieProofs RootRows RowProofs.
From Verif Require Export JsonSpec.
Local Open Scope string_scope.
Local Arguments String.append _ _ : simpl nomatch.

Lemma sapp_assoc (x y z : string) : (x ++ y) ++ z = x ++ (y ++ z).
Proof. induction x as [|a x IH]; [reflexivity|]. cbn [String.append]. rewrite IH. reflexivity. Qed.
Lemma sapp_nil (x : string) : x ++ "" = x.
Proof. induction x as [|a x IH]; [reflexivity|]. cbn [String.append]. rewrite IH. reflexivity. Qed.
Lemma byte_ascii n : (n < 256)%N -> byte_of (ascii_of_N n) = n.
Proof. apply N_ascii_embedding. Qed.

(** ** Strings *)
Lemma before_before x y r : before x (before y r) = before (x ++ y) r.
Proof. destruct r as [[s t]|]; [|reflexivity]. cbn [before]. rewrite sapp_assoc. reflexivity. Qed.
Lemma before_nil r : before "" r = r.
Proof. destruct r as [[s t]|]; reflexivity. Qed.
(** [x] is read as [y], whatever follows. *)
Definition says (x y : string) : Prop := forall r, read_body (x ++ r) = before y (read_body r).
Lemma says_nil : says "" "".
Proof. intros r. rewrite before_nil. reflexivity. Qed.
Lemma says_app x y x' y' : says x y -> says x' y' -> says (x ++ x') (y ++ y').
Proof. intros H H' r. rewrite sapp_assoc, H, H', before_before. reflexivity. Qed.
Lemma says_ascii a : (byte_of a < 128)%N -> says (print_ascii a) (String a "").
Proof.
  intros H. destruct a as [[] [] [] [] [] [] [] []]; try (exfalso; vm_compute in H; discriminate H); intros r; reflexivity.
Qed.
Lemma says_high a : (128 <= byte_of a)%N -> says (String a "") (String a "").
Proof.
  intros H r. cbn [String.append read_body]. rewrite (proj2 (N.eqb_neq (byte_of a) 34)) by lia. rewrite (proj2 (N.eqb_neq (byte_of a) 92)) by lia. rewrite (proj2 (N.ltb_ge (byte_of a) 32)) by lia. reflexivity.
Qed.
Lemma says_bad : says bad_byte (utf8 65533).
Proof. intros r. reflexivity. Qed.
Lemma range_true lo hi a : in_range lo hi a = true <-> (lo <= byte_of a <= hi)%N.
Proof. unfold in_range. rewrite andb_true_iff, N.leb_le, N.leb_le. reflexivity. Qed.
Lemma range_in lo hi a : (lo <= byte_of a <= hi)%N -> in_range lo hi a = true.
Proof. intros H. apply range_true. exact H. Qed.
Lemma range_out lo hi a : ~ (lo <= byte_of a <= hi)%N -> in_range lo hi a = false.
Proof. intros H. apply not_true_iff_false. rewrite range_true. exact H. Qed.
Lemma two_high a b : two_bytes a b = true -> (128 <= byte_of a)%N /\ (128 <= byte_of b)%N.
Proof. unfold two_bytes, cont. rewrite andb_true_iff, !range_true. lia. Qed.
Lemma three_high a b c : three_bytes a b c = true -> (128 <= byte_of a)%N /\ (128 <= byte_of b)%N /\ (128 <= byte_of c)%N.
Proof. unfold three_bytes, cont. rewrite !andb_true_iff, !orb_true_iff, !andb_true_iff, !range_true. lia. Qed.
Lemma four_high a b c d : four_bytes a b c d = true -> (128 <= byte_of a)%N /\ (128 <= byte_of b)%N /\ (128 <= byte_of c)%N /\ (128 <= byte_of d)%N.
Proof. unfold four_bytes, cont. rewrite !andb_true_iff, !orb_true_iff, !andb_true_iff, !range_true. lia. Qed.
Lemma says_two a b : (128 <= byte_of a)%N -> (128 <= byte_of b)%N -> says (String a (String b "")) (String a (String b "")).
Proof. intros Ha Hb. exact (says_app (String a "") (String a "") (String b "") (String b "") (says_high a Ha) (says_high b Hb)). Qed.
Lemma says_three a b c : (128 <= byte_of a)%N -> (128 <= byte_of b)%N -> (128 <= byte_of c)%N -> says (String a (String b (String c ""))) (String a (String b (String c ""))).
Proof. intros Ha Hb Hc. exact (says_app (String a "") (String a "") _ _ (says_high a Ha) (says_two b c Hb Hc)). Qed.
Lemma says_four a b c d : (128 <= byte_of a)%N -> (128 <= byte_of b)%N -> (128 <= byte_of c)%N -> (128 <= byte_of d)%N ->
  says (String a (String b (String c (String d "")))) (String a (String b (String c (String d "")))).
Proof. intros Ha Hb Hc Hd. exact (says_app (String a "") (String a "") _ _ (says_high a Ha) (says_three b c d Hb Hc Hd)). Qed.
Lemma sep_values a b c : line_sep a b c = true -> byte_of a = 226%N /\ byte_of b = 128%N /\ (byte_of c = 168%N \/ byte_of c = 169%N).
Proof. unfold line_sep. rewrite !andb_true_iff, !range_true. lia. Qed.
Lemma ascii_byte a n : byte_of a = n -> a = ascii_of_N n.
Proof. intros <-. symmetry. apply ascii_N_embedding. Qed.
Lemma says_sep a b c : line_sep a b c = true -> says (escaped "u" ++ "202" ++ String (hexdigit (byte_of c - 160)) "") (String a (String b (String c ""))).
Proof.
  intros H. apply sep_values in H as (Ha & Hb & Hc). apply ascii_byte in Ha as ->. apply ascii_byte in Hb as ->. destruct Hc as [Hc|Hc]; apply ascii_byte in Hc as ->; intros r; reflexivity.
Qed.
(** Whatever the string, its text can be read. *)
Lemma print_says n : forall s, String.length s <= n -> exists y, says (print_body s) y.
Proof.
  induction n as [|n IH]; intros s Hs.
  - destruct s as [|a s]; [|cbn [String.length] in Hs; lia]. exists "". exact says_nil.
  - destruct s as [|a s1]; [exists ""; exact says_nil|]. cbn [String.length] in Hs. destruct (IH s1 ltac:(lia)) as [y1 H1].
    assert (Bad : exists y, says (bad_byte ++ print_body s1) y) by (exists (utf8 65533 ++ y1); exact (says_app _ _ _ _ says_bad H1)).
    cbn [print_body]. destruct (N.ltb_spec (byte_of a) 128) as [Ha|Ha]; [exists (String a "" ++ y1); exact (says_app _ _ _ _ (says_ascii a Ha) H1)|].
    destruct s1 as [|b s2]; [exists (utf8 65533); exact says_bad|]. cbn [String.length] in Hs. destruct (two_bytes a b) eqn:E2.
    { destruct (two_high _ _ E2) as [Ha' Hb]. destruct (IH s2 ltac:(lia)) as [y2 H2]. exists (String a (String b "") ++ y2). exact (says_app _ _ _ _ (says_two a b Ha' Hb) H2). }
    destruct s2 as [|c s3]; [exact Bad|]. cbn [String.length] in Hs. destruct (three_bytes a b c) eqn:E3.
    { destruct (three_high _ _ _ E3) as (Ha' & Hb & Hc). destruct (IH s3 ltac:(lia)) as [y3 H3]. exists (String a (String b (String c "")) ++ y3). destruct (line_sep a b c) eqn:Es.
      - exact (says_app _ _ _ _ (says_sep a b c Es) H3).
      - exact (says_app _ _ _ _ (says_three a b c Ha' Hb Hc) H3). }
    destruct s3 as [|d s4]; [exact Bad|]. cbn [String.length] in Hs. destruct (four_bytes a b c d) eqn:E4; [|exact Bad].
    destruct (four_high _ _ _ _ E4) as (Ha' & Hb & Hc & Hd). destruct (IH s4 ltac:(lia)) as [y4 H4]. exists (String a (String b (String c (String d ""))) ++ y4). exact (says_app _ _ _ _ (says_four a b c d Ha' Hb Hc Hd) H4).
Qed.
Ltac euclid := zify; Z.to_euclidean_division_equations; lia.
(** A character is printed and read back, whatever follows it. *)
Lemma print_char c t : scalar c -> exists x, print_body (utf8 c ++ t) = x ++ print_body t /\ says x (utf8 c).
Proof.
  intros Hc. unfold utf8. destruct (N.ltb_spec c 128) as [H1|H1].
  { assert (Hb : (byte_of (ascii_of_N c) < 128)%N) by (rewrite byte_ascii; lia). exists (print_ascii (ascii_of_N c)). cbn [String.append print_body]. rewrite (proj2 (N.ltb_lt _ _) Hb). split; [reflexivity|]. exact (says_ascii _ Hb). }
  destruct (N.ltb_spec c 2048) as [H2|H2].
  { set (a := ascii_of_N (192 + c / 64)). set (b := ascii_of_N (128 + c mod 64)).
    assert (Ea : byte_of a = (192 + c / 64)%N) by (apply byte_ascii; euclid). assert (Eb : byte_of b = (128 + c mod 64)%N) by (apply byte_ascii; euclid).
    assert (Ra : (194 <= byte_of a <= 223)%N) by (rewrite Ea; euclid). assert (Rb : (128 <= byte_of b <= 191)%N) by (rewrite Eb; euclid). clearbody a b. clear Ea Eb.
    exists (String a (String b "")). cbn [String.append print_body]. rewrite (proj2 (N.ltb_ge (byte_of a) 128)) by lia. unfold two_bytes, cont. rewrite (range_in _ _ a Ra), (range_in _ _ b Rb). cbn [andb]. split; [reflexivity|]. apply says_two; lia. }
  destruct (N.ltb_spec c 65536) as [H3|H3].
  { set (a := ascii_of_N (224 + c / 4096)). set (b := ascii_of_N (128 + (c / 64) mod 64)). set (d := ascii_of_N (128 + c mod 64)).
    assert (Ea : byte_of a = (224 + c / 4096)%N) by (apply byte_ascii; euclid). assert (Eb : byte_of b = (128 + (c / 64) mod 64)%N) by (apply byte_ascii; euclid). assert (Ed : byte_of d = (128 + c mod 64)%N) by (apply byte_ascii; euclid).
    assert (Ra : (224 <= byte_of a <= 239)%N) by (rewrite Ea; euclid). assert (Rb : (128 <= byte_of b <= 191)%N) by (rewrite Eb; euclid). assert (Rd : (128 <= byte_of d <= 191)%N) by (rewrite Ed; euclid).
    assert (R1 : (byte_of a = 224 -> 160 <= byte_of b)%N) by (rewrite Ea, Eb; euclid).
    assert (R2 : (byte_of a = 237 -> byte_of b <= 159)%N) by (rewrite Ea, Eb; unfold scalar in Hc; euclid).
    assert (T : three_bytes a b d = true).
    { unfold three_bytes, cont. rewrite !andb_true_iff, !orb_true_iff, !andb_true_iff, !range_true. lia. }
    cbn [String.append print_body]. rewrite (proj2 (N.ltb_ge (byte_of a) 128)) by lia. assert (N2 : two_bytes a b = false) by (unfold two_bytes; rewrite (range_out 194 223 a) by lia; reflexivity). rewrite N2, T.
    destruct (line_sep a b d) eqn:Es.
    - exists (escaped "u" ++ "202" ++ String (hexdigit (byte_of d - 160)) ""). split; [reflexivity|]. exact (says_sep a b d Es).
    - exists (String a (String b (String d ""))). split; [reflexivity|]. apply says_three; lia. }
  set (a := ascii_of_N (240 + c / 262144)). set (b := ascii_of_N (128 + (c / 4096) mod 64)). set (d := ascii_of_N (128 + (c / 64) mod 64)). set (e := ascii_of_N (128 + c mod 64)).
  assert (Hl : (c < 1114112)%N) by (unfold scalar in Hc; lia).
  assert (Ea : byte_of a = (240 + c / 262144)%N) by (apply byte_ascii; euclid). assert (Eb : byte_of b = (128 + (c / 4096) mod 64)%N) by (apply byte_ascii; euclid).
  assert (Ed : byte_of d = (128 + (c / 64) mod 64)%N) by (apply byte_ascii; euclid). assert (Ee : byte_of e = (128 + c mod 64)%N) by (apply byte_ascii; euclid).
  assert (Ra : (240 <= byte_of a <= 244)%N) by (rewrite Ea; euclid). assert (Rb : (128 <= byte_of b <= 191)%N) by (rewrite Eb; euclid). assert (Rd : (128 <= byte_of d <= 191)%N) by (rewrite Ed; euclid). assert (Re : (128 <= byte_of e <= 191)%N) by (rewrite Ee; euclid).
  assert (R1 : (byte_of a = 240 -> 144 <= byte_of b)%N) by (rewrite Ea, Eb; euclid). assert (R2 : (byte_of a = 244 -> byte_of b <= 143)%N) by (rewrite Ea, Eb; euclid).
  assert (T : four_bytes a b d e = true). { unfold four_bytes, cont. rewrite !andb_true_iff, !orb_true_iff, !andb_true_iff, !range_true. lia. }
  assert (N2 : two_bytes a b = false) by (unfold two_bytes; rewrite (range_out 194 223 a) by lia; reflexivity).
  assert (N3 : three_bytes a b d = false). { apply not_true_iff_false. unfold three_bytes. rewrite !andb_true_iff, !orb_true_iff, !andb_true_iff, !range_true. lia. }
  cbn [String.append print_body]. rewrite (proj2 (N.ltb_ge (byte_of a) 128)) by lia. rewrite N2, N3, T. exists (String a (String b (String d (String e "")))). split; [reflexivity|]. apply says_four; lia.
Qed.
Lemma print_text cs : Forall scalar cs -> says (print_body (utf8_all cs)) (utf8_all cs).
Proof.
  induction 1 as [|c cs Hc _ IH]; [exact says_nil|]. cbn [utf8_all]. destruct (print_char c (utf8_all cs) Hc) as (x & -> & Hx). exact (says_app _ _ _ _ Hx IH).
Qed.
Lemma read_string s : exists s', (is_text s -> s' = s) /\ forall r, read_body (print_body s ++ String quote r) = Some (s', r).
Proof.
  destruct (print_says _ s (le_n _)) as [y Hy]. exists y. assert (Hr : forall r, read_body (print_body s ++ String quote r) = Some (y, r)).
  { intros r. rewrite Hy. change (read_body (String quote r)) with (Some ("", r)). cbn [before]. rewrite sapp_nil. reflexivity. }
  split; [|exact Hr]. intros (cs & Hcs & ->). pose proof (print_text cs Hcs (String quote "")) as H. rewrite Hr in H. change (read_body (String quote "")) with (Some ("", "")) in H. cbn [before] in H. rewrite sapp_nil in H. injection H as H. exact H.
Qed.

(** ** Numbers *)
Lemma digit_char x : (x < 10)%N -> is_digit (pretty_N_char x) = true /\ (byte_of (pretty_N_char x) - 48)%N = x.
Proof.
  intros H. assert (x = 0 \/ x = 1 \/ x = 2 \/ x = 3 \/ x = 4 \/ x = 5 \/ x = 6 \/ x = 7 \/ x = 8 \/ x = 9)%N as Hx by lia.
  repeat (destruct Hx as [->|Hx]; [split; reflexivity|]). rewrite Hx. split; reflexivity.
Qed.
Lemma digits_go x : forall s r, read_digits 0 (pretty_N_go x s ++ r) = read_digits x (s ++ r).
Proof.
  induction (N.lt_wf_0 x) as [x _ IH]. intros s r. destruct (N.eq_0_gt_0_cases x) as [->|Hx]; [rewrite pretty_N_go_0; reflexivity|].
  rewrite pretty_N_go_step by exact Hx. rewrite IH by (apply N.div_lt; [exact Hx|reflexivity]). cbn [String.append read_digits].
  destruct (digit_char (x mod 10)) as [D1 D2]; [apply N.mod_lt; discriminate|]. rewrite D1, D2. f_equal. symmetry. apply N.div_mod. discriminate.
Qed.
Definition begins_digit (s : string) : Prop := match s with String a _ => is_digit a = true | "" => False end.
Lemma begins_go x : forall s, (0 < x)%N \/ begins_digit s -> begins_digit (pretty_N_go x s).
Proof.
  induction (N.lt_wf_0 x) as [x _ IH]. intros s H. destruct (N.eq_0_gt_0_cases x) as [->|Hx].
  - rewrite pretty_N_go_0. destruct H as [H|H]; [lia|exact H].
  - rewrite pretty_N_go_step by exact Hx. apply IH; [apply N.div_lt; [exact Hx|reflexivity]|]. right. cbn [begins_digit]. apply digit_char. apply N.mod_lt. discriminate.
Qed.
Lemma begins_pretty (n : N) : begins_digit (pretty n).
Proof. unfold pretty, pretty_N. destruct (decide (n = 0%N)) as [->|H]; [reflexivity|]. apply begins_go. left. lia. Qed.
Definition no_digit (r : string) : Prop := match r with String a _ => is_digit a = false | "" => True end.
Lemma read_digits_stop n r : no_digit r -> read_digits n r = (n, r).
Proof. destruct r as [|a r]; [reflexivity|]. cbn [no_digit read_digits]. intros ->. reflexivity. Qed.
Lemma read_pretty (n : N) r : no_digit r -> read_number (pretty n ++ r) = Some (n, r).
Proof.
  intros H. assert (E : read_digits 0 (pretty n ++ r) = (n, r)).
  { unfold pretty, pretty_N. destruct (decide (n = 0%N)) as [->|Hn]; [cbn [String.append read_digits]; change (is_digit "0") with true; cbn [byte_of]; exact (read_digits_stop _ _ H)|]. rewrite digits_go. exact (read_digits_stop _ _ H). }
  pose proof (begins_pretty n) as B. destruct (pretty n) as [|a s]; [destruct B|]. cbn [begins_digit] in B. cbn [String.append read_number]. rewrite B. cbn [String.append] in E. rewrite E. reflexivity.
Qed.
Lemma digit_range a : is_digit a = true -> (48 <= byte_of a <= 57)%N.
Proof. unfold is_digit. rewrite andb_true_iff, !N.leb_le. tauto. Qed.
Lemma read_int (z : Z) r : no_digit r -> read_any (pretty z ++ r) = Some (AInt z, r).
Proof.
  intros H. assert (P : forall n : N, read_any (pretty n ++ r) = Some (AInt (Z.of_N n), r)).
  { intros n. pose proof (read_pretty n r H) as E. pose proof (begins_pretty n) as B. destruct (pretty n) as [|a s]; [destruct B|]. cbn [begins_digit] in B. apply digit_range in B. cbn [String.append] in *. unfold read_any.
    rewrite (proj2 (N.eqb_neq (byte_of a) 34)) by lia. rewrite (proj2 (N.eqb_neq (byte_of a) 110)) by lia. rewrite (proj2 (N.eqb_neq (byte_of a) 116)) by lia. rewrite (proj2 (N.eqb_neq (byte_of a) 102)) by lia. rewrite (proj2 (N.eqb_neq (byte_of a) 45)) by lia. rewrite E. reflexivity. }
  destruct z as [|p|p].
  - exact (P 0%N).
  - exact (P (Npos p)).
  - change (pretty (Zneg p)) with (String "-" (pretty (Npos p))). cbn [String.append]. unfold read_any. change (byte_of "-") with 45%N. cbn [N.eqb Pos.eqb]. rewrite (read_pretty (Npos p) r H). reflexivity.
Qed.

(** ** Rows *)
Lemma read_value v : exists v', (text_value v -> v' = v) /\ forall r, no_digit r -> read_any (print_any v ++ r) = Some (v', r).
Proof.
  destruct v as [|s|[]|z].
  - exists ANil. split; [reflexivity|]. intros r _. reflexivity.
  - destruct (read_string s) as (s' & H1 & H2). exists (AStr s'). split; [intros H; rewrite (H1 H); reflexivity|]. intros r _. cbn [print_any]. unfold print_string. cbn [String.append]. rewrite sapp_assoc. unfold read_any.
    change (byte_of quote =? 34)%N with true. cbn beta iota. change (String quote "" ++ r) with (String quote r). rewrite H2. reflexivity.
  - exists (ABool true). split; [reflexivity|]. intros r _. reflexivity.
  - exists (ABool false). split; [reflexivity|]. intros r _. reflexivity.
  - exists (AInt z). split; [reflexivity|]. intros r H. exact (read_int z r H).
Qed.
Lemma read_this_app x r : read_this x (x ++ r) = Some r.
Proof. induction x as [|a x IH]; [reflexivity|]. cbn [String.append read_this]. destruct (ascii_dec a a) as [_|N]; [exact IH|destruct (N eq_refl)]. Qed.
Lemma read_field_app {A} (read : string -> option (A * string)) k x r : read_field read k ((print_key k ++ x) ++ r) = read (x ++ r).
Proof. unfold read_field, print_key. rewrite sapp_assoc, read_this_app. reflexivity. Qed.
Lemma read_field_eq {A} (read : string -> option (A * string)) k r : read_field read k (print_key k ++ r) = read r.
Proof. unfold read_field, print_key. rewrite read_this_app. reflexivity. Qed.
Lemma read_row d : exists d', (text_row d -> d' = d) /\ forall r, read_data (print_data d ++ r) = Some (d', r).
Proof.
  destruct d as [t n s p ro m]. destruct (read_value t) as (t' & Ht & Rt). destruct (read_value n) as (n' & Hn & Rn). destruct (read_value s) as (s' & Hs & Rs).
  destruct (read_value p) as (p' & Hp & Rp). destruct (read_value ro) as (r' & Hr & Rr). destruct (read_value m) as (m' & Hm & Rm).
  exists (Data t' n' s' p' r' m'). split.
  - intros (H1 & H2 & H3 & H4 & H5 & H6). cbn [tenant namespace scope principal role manage] in *. rewrite (Ht H1), (Hn H2), (Hs H3), (Hp H4), (Hr H5), (Hm H6). reflexivity.
  - intros r. unfold print_data, read_data. cbn [tenant namespace scope principal role manage]. rewrite !sapp_assoc.
    rewrite read_this_app. cbn [mbind option_bind]. rewrite read_field_eq, Rt by reflexivity. cbn [mbind option_bind].
    rewrite read_this_app. cbn [mbind option_bind]. rewrite read_field_eq, Rn by reflexivity. cbn [mbind option_bind].
    rewrite read_this_app. cbn [mbind option_bind]. rewrite read_field_eq, Rs by reflexivity. cbn [mbind option_bind].
    rewrite read_this_app. cbn [mbind option_bind]. rewrite read_field_eq, Rp by reflexivity. cbn [mbind option_bind].
    rewrite read_this_app. cbn [mbind option_bind]. rewrite read_field_eq, Rr by reflexivity. cbn [mbind option_bind].
    rewrite read_this_app. cbn [mbind option_bind]. rewrite read_field_eq, Rm by reflexivity. cbn [mbind option_bind].
    rewrite read_this_app. reflexivity.
Qed.
Lemma slength_app x y : String.length (x ++ y) = String.length x + String.length y.
Proof. induction x as [|a x IH]; [reflexivity|]. cbn [String.append String.length]. rewrite IH. reflexivity. Qed.
Definition like (d d' : data) : Prop := text_row d -> d' = d.
Lemma read_more l : exists l', Forall2 like l l' /\ forall n, String.length (print_rest l) <= S n -> read_rest n (print_rest l) = Some l'.
Proof.
  induction l as [|d l (l' & F & IH)].
  - exists []. split; [constructor|]. intros n _. destruct n; reflexivity.
  - destruct (read_row d) as (d' & Hd & Rd). exists (d' :: l'). split; [constructor; [exact Hd|exact F]|]. intros n Hn. cbn [print_rest] in *. destruct n as [|n].
    + exfalso. cbn [String.append String.length] in Hn. rewrite slength_app in Hn. assert (1 <= String.length (print_data d)) by (unfold print_data; cbn [String.append String.length]; lia). lia.
    + change (read_rest (S n) ("," ++ print_data d ++ print_rest l)) with ('(d, s) ← read_data (print_data d ++ print_rest l); l ← read_rest n s; Some (d :: l)).
      rewrite Rd. cbn [mbind option_bind]. rewrite IH; [reflexivity|]. cbn [String.append String.length] in Hn. rewrite slength_app in Hn. assert (1 <= String.length (print_data d)) by (unfold print_data; cbn [String.append String.length]; lia). lia.
Qed.
Lemma read_printed l : exists l', Forall2 like l l' /\ read_rows (print_rows l) = Some l'.
Proof.
  destruct l as [|d l]; [exists []; split; [constructor|reflexivity]|]. destruct (read_row d) as (d' & Hd & Rd). destruct (read_more l) as (l' & F & Rl). exists (d' :: l'). split; [constructor; [exact Hd|exact F]|].
  unfold print_rows, read_rows. destruct (decide _) as [E|_]; [unfold print_data in E; cbn [String.append] in E; discriminate E|]. rewrite read_this_app. cbn [mbind option_bind]. rewrite Rd. cbn [mbind option_bind]. rewrite Rl; [reflexivity|]. rewrite slength_app. lia.
Qed.
Lemma like_same l l' : Forall2 like l l' -> Forall text_row l -> l' = l.
Proof. induction 1 as [|d d' l l' H F IH]; intros T; [reflexivity|]. apply Forall_cons in T as [T1 T2]. rewrite (H T1), (IH T2). reflexivity. Qed.
Lemma data_stored o st d : d ∈ trie_data o (m_trie st) <-> stored st d.
Proof. unfold stored, trie_data, trie_search. rewrite !dfs_all, !elem_of_list_filter. tauto. Qed.
Lemma data_perm o o2 st : trie_data o (m_trie st) ≡ₚ trie_data o2 (m_trie st).
Proof. unfold trie_data, trie_search. rewrite !dfs_all. reflexivity. Qed.
Lemma as_string_rows o st : (forall d, stored st d -> text_row d) -> exists l, read_rows (as_string o st) = Some l /\ l ≡ₚ trie_data id_oracle (m_trie st).
Proof.
  intros H. destruct (read_printed (trie_data o (m_trie st))) as (l & F & R). exists l. split; [exact R|]. rewrite (like_same _ _ F); [apply data_perm|]. apply Forall_forall. intros d Hd. apply H. apply (data_stored o). exact Hd.
Qed.
Lemma as_string_always o st : exists l l0, read_rows (as_string o st) = Some l /\ l0 ≡ₚ trie_data id_oracle (m_trie st) /\ Forall2 (fun d d' => text_row d -> d' = d) l0 l.
Proof.
  destruct (read_printed (trie_data o (m_trie st))) as (l & F & R). exists l, (trie_data o (m_trie st)). split; [exact R|]. split; [apply data_perm|exact F].
Qed.

(** Rows read and added to a new manager *)
Lemma run_adds o l : forall i st st' outs, run o i st (OAddData <$> l) = Ok (st', outs) -> m_trie st' = foldl (trie_insert data_keys) (m_trie st) l.
Proof.
  induction l as [|d l IH]; intros i st st' outs H.
  - injection H as <- _. reflexivity.
  - cbn [fmap list_fmap run step] in H. apply rbind_ok in H as (s1 & E1 & H). injection E1 as <-. cbn [fst snd] in H. apply rbind_ok in H as ([s2 o2] & E2 & H). injection H as <- _. exact (IH _ _ _ _ E2).
Qed.
Lemma restored st l o i st' outs : reachable st -> l ≡ₚ trie_data id_oracle (m_trie st) -> run o i init_state (OAddData <$> l) = Ok (st', outs) -> trie_data id_oracle (m_trie st') ≡ₚ trie_data id_oracle (m_trie st).
Proof.
  intros Hr Hl H. apply run_adds in H. change (m_trie init_state) with (@new_node data) in H. change (m_trie st' = trie_of data_keys l) in H. rewrite H, trie_data_spec.
  destruct (reachable_logged st Hr) as [log E]. unfold logged in E. rewrite E in Hl. rewrite E, trie_data_spec in *. rewrite survivors_all; [exact Hl|]. rewrite Hl. apply survivors_nodup.
Qed.
Lemma as_string_restored st o l o' i st' outs : reachable st -> (forall d, stored st d -> text_row d) -> read_rows (as_string o st) = Some l -> run o' i init_state (OAddData <$> l) = Ok (st', outs) ->
  forall d, stored st' d <-> stored st d.
Proof.
  intros Hr Ht R H d. destruct (as_string_rows o st Ht) as (l' & R' & P). rewrite R in R'. injection R' as <-. unfold stored. rewrite (restored st l o' i st' outs Hr P H). reflexivity.
Qed.

(** ** Counts *)
Lemma counts_read a b c d e f g : read_counts true counted (print_counts a b c d e f g) = Some [N.of_nat a; N.of_nat b; N.of_nat c; N.of_nat d; N.of_nat e; N.of_nat f; N.of_nat g].
Proof.
  unfold print_counts, counted. cbn [read_counts]. repeat (rewrite read_this_app; cbn [mbind option_bind]; rewrite read_field_eq, read_pretty by reflexivity; cbn [mbind option_bind read_counts]). reflexivity.
Qed.

(** ** One line *)
Lemma line_app x y : on_one_line x -> on_one_line y -> on_one_line (x ++ y).
Proof. induction x as [|a x IH]; [intros _ H; exact H|]. cbn [String.append on_one_line]. intros [H1 H2] H. exact (conj H1 (IH H2 H)). Qed.
Lemma line_ascii a : (byte_of a < 128)%N -> on_one_line (print_ascii a).
Proof. intros H. destruct a as [[] [] [] [] [] [] [] []]; try (exfalso; vm_compute in H; discriminate H); vm_compute; repeat split; discriminate. Qed.
Lemma line_bad : on_one_line bad_byte.
Proof. vm_compute. repeat split; discriminate. Qed.
Lemma line_body n : forall s, String.length s <= n -> on_one_line (print_body s).
Proof.
  induction n as [|n IH]; intros s Hs.
  - destruct s as [|a s]; [exact I|cbn [String.length] in Hs; lia].
  - destruct s as [|a s1]; [exact I|]. cbn [String.length] in Hs. pose proof (IH s1 ltac:(lia)) as H1. pose proof (line_app _ _ line_bad H1) as Bad.
    cbn [print_body]. destruct (N.ltb_spec (byte_of a) 128) as [Ha|Ha]; [exact (line_app _ _ (line_ascii a Ha) H1)|].
    destruct s1 as [|b s2]; [exact line_bad|]. cbn [String.length] in Hs. destruct (two_bytes a b) eqn:E2.
    { destruct (two_high _ _ E2) as [Ha' Hb]. cbn [on_one_line]. split; [lia|]. split; [lia|]. apply IH. lia. }
    destruct s2 as [|c s3]; [exact Bad|]. cbn [String.length] in Hs. destruct (three_bytes a b c) eqn:E3.
    { destruct (three_high _ _ _ E3) as (Ha' & Hb & Hc). pose proof (IH s3 ltac:(lia)) as H3. destruct (line_sep a b c) eqn:Es.
      - apply sep_values in Es as (_ & _ & [Ec|Ec]); rewrite Ec; (split; [vm_compute; discriminate|]); repeat (split; [vm_compute; discriminate|]); exact H3.
      - cbn [on_one_line]. split; [lia|]. split; [lia|]. split; [lia|]. exact H3. }
    destruct s3 as [|d s4]; [exact Bad|]. cbn [String.length] in Hs. destruct (four_bytes a b c d) eqn:E4; [|exact Bad].
    destruct (four_high _ _ _ _ E4) as (Ha' & Hb & Hc & Hd). cbn [on_one_line]. split; [lia|]. split; [lia|]. split; [lia|]. split; [lia|]. apply IH. lia.
Qed.
Lemma line_go x : forall s, on_one_line s -> on_one_line (pretty_N_go x s).
Proof.
  induction (N.lt_wf_0 x) as [x _ IH]. intros s H. destruct (N.eq_0_gt_0_cases x) as [->|Hx]; [rewrite pretty_N_go_0; exact H|].
  rewrite pretty_N_go_step by exact Hx. apply IH; [apply N.div_lt; [exact Hx|reflexivity]|]. cbn [on_one_line]. split; [|exact H]. destruct (digit_char (x mod 10)) as [D _]; [apply N.mod_lt; discriminate|]. apply digit_range in D. lia.
Qed.
Lemma line_N (n : N) : on_one_line (pretty n).
Proof. unfold pretty, pretty_N. destruct (decide (n = 0%N)) as [->|H]; [vm_compute; split; [discriminate|exact I]|]. apply line_go. exact I. Qed.
Lemma line_any v : on_one_line (print_any v).
Proof.
  destruct v as [|s|[]|z]; [vm_compute; repeat split; discriminate| |vm_compute; repeat split; discriminate..|].
  - cbn [print_any]. unfold print_string. split; [vm_compute; discriminate|]. apply line_app; [exact (line_body _ s (le_n _))|vm_compute; split; [discriminate|exact I]].
  - cbn [print_any]. destruct z as [|p|p]; [exact (line_N 0)|exact (line_N (Npos p))|]. change (pretty (Zneg p)) with (String "-" (pretty (Npos p))). split; [vm_compute; discriminate|exact (line_N (Npos p))].
Qed.
Lemma line_data d : on_one_line (print_data d).
Proof. unfold print_data. repeat (apply line_app; [first [apply line_any|vm_compute; repeat split; discriminate]|]). vm_compute. repeat split. discriminate. Qed.
Lemma line_rest l : on_one_line (print_rest l).
Proof. induction l as [|d l IH]; [vm_compute; repeat split; discriminate|]. cbn [print_rest]. apply line_app; [vm_compute; repeat split; discriminate|]. apply line_app; [apply line_data|exact IH]. Qed.
Lemma as_string_line o st : on_one_line (as_string o st).
Proof. unfold as_string. destruct (trie_data o (m_trie st)) as [|d l]; [vm_compute; repeat split; discriminate|]. unfold print_rows. apply line_app; [vm_compute; repeat split; discriminate|]. apply line_app; [apply line_data|apply line_rest]. Qed.
