(** Proofs about Serialize, Intersection, Union and ToInt64. *)
From Coq Require Import ZArith Znumtheory Lia.
From stdpp Require Import gmap sorting.
From Verif Require Import RoleProofs StrSpec.

(** ** The order of strings *)
Lemma ascii_cmp a b : Ascii.compare a b = N.compare (Ascii.N_of_ascii a) (Ascii.N_of_ascii b).
Proof. reflexivity. Qed.
Lemma go_le_trans : Transitive go_le.
Proof.
  unfold go_le, String.leb. intros x. induction x as [|a x IH]; intros [|b y] [|c z]; cbn; try discriminate; try done.
  rewrite !ascii_cmp.
  destruct (N.compare_spec (Ascii.N_of_ascii a) (Ascii.N_of_ascii b)) as [E1|E1|E1];
  destruct (N.compare_spec (Ascii.N_of_ascii b) (Ascii.N_of_ascii c)) as [E2|E2|E2]; try discriminate;
  destruct (N.compare_spec (Ascii.N_of_ascii a) (Ascii.N_of_ascii c)) as [E3|E3|E3]; try lia; try reflexivity.
  intros H1 H2. exact (IH y z H1 H2).
Qed.
Lemma go_le_total : Total go_le.
Proof. intros x y. exact (String.leb_total x y). Qed.
Lemma go_le_anti : AntiSymm (=) go_le.
Proof. intros x y. exact (String.leb_antisym x y). Qed.
Lemma sorted_keys (o o' : oracle) (l : list string) : merge_sort go_le (ordered o l) = merge_sort go_le (ordered o' l).
Proof.
  pose proof go_le_trans. pose proof go_le_total. pose proof go_le_anti.
  apply (StronglySorted_unique go_le); [apply StronglySorted_merge_sort; assumption..|].
  rewrite !merge_sort_Permutation, !ordered_perm. reflexivity.
Qed.

(** ** Cutting a text at a separator *)
Lemma app_inj (x y z : string) : (x ++ y = x ++ z)%string -> y = z.
Proof. induction x as [|c x IH]; cbn; [done|]. intros [= H]. exact (IH H). Qed.
Lemma app_assoc (x y z : string) : ((x ++ y) ++ z = x ++ (y ++ z))%string.
Proof. induction x as [|c x IH]; [reflexivity|]. exact (f_equal (String c) IH). Qed.
Lemma cut (c : ascii) (x y r r' : string) : ~ mentions c x -> ~ mentions c y ->
  (x ++ String c r = y ++ String c r')%string -> x = y /\ r = r'.
Proof.
  revert y. induction x as [|a x IH]; intros [|b y]; cbn; intros Hx Hy H.
  - injection H. intros ->. split; reflexivity.
  - injection H. intros _ ->. tauto.
  - injection H. intros _ ->. tauto.
  - injection H. intros H' ->. destruct (IH y) as [-> ->]; [tauto..|exact H'|]. split; reflexivity.
Qed.
Lemma piece_app (k v r : string) : (piece k v ++ r = k ++ String ":" (v ++ String "|" r))%string.
Proof. unfold piece. rewrite !app_assoc. reflexivity. Qed.

(** ** One text stands for one element *)
Lemma fields_inj (fs fs' : list field) (s : string) :
  f_name <$> fs = f_name <$> fs' -> Forall (fun f => f_exported f = true) fs -> Forall (fun f => f_exported f = true) fs' ->
  Forall (fun f => ~ mentions "|" (f_text f)) fs -> Forall (fun f => ~ mentions "|" (f_text f)) fs' ->
  serialize_fields fs = Ok s -> serialize_fields fs' = Ok s -> fs = fs'.
Proof.
  revert fs' s. induction fs as [|f fs IH]; intros [|f' fs'] s; cbn; try discriminate; [done|].
  intros [= Hn Hns] E E' B B' H H'.
  apply Forall_cons in E as [Ef E]. apply Forall_cons in E' as [Ef' E']. apply Forall_cons in B as [Bf B]. apply Forall_cons in B' as [Bf' B'].
  rewrite Ef in H. rewrite Ef' in H'.
  apply rbind_ok in H as (r & Hr & H). apply rbind_ok in H' as (r' & Hr' & H').
  injection H as <-. injection H' as H'. rewrite !piece_app, Hn in H'. apply app_inj in H'. injection H' as H'.
  apply cut in H' as [Ht ->]; [|assumption..].
  destruct f, f'; cbn in *; subst. f_equal. exact (IH fs' r Hns E E' B B' Hr Hr').
Qed.
Lemma concat_cons (x : string) (l : list string) : String.concat "" (x :: l) = (x ++ String.concat "" l)%string.
Proof.
  destruct l; [|reflexivity]. induction x as [|c x IH]; [reflexivity|]. exact (f_equal (String c) IH).
Qed.
Lemma entries_inj (t t' : string -> option string) (ks ks' : list string) :
  (forall k, k ∈ ks -> ~ mentions ":" k /\ is_Some (t k) /\ ~ mentions "|" (default "" (t k))) ->
  (forall k, k ∈ ks' -> ~ mentions ":" k /\ is_Some (t' k) /\ ~ mentions "|" (default "" (t' k))) ->
  serialize_entries t (fun k => k) ks = serialize_entries t' (fun k => k) ks' ->
  ks = ks' /\ forall k, k ∈ ks -> t k = t' k.
Proof.
  unfold serialize_entries. revert ks'. induction ks as [|k ks IH]; intros [|k' ks'] H H'.
  - intros _. split; [reflexivity|]. intros k Hk. apply elem_of_nil in Hk. contradiction.
  - cbn [fmap list_fmap]. rewrite concat_cons, piece_app. cbn. destruct k'; discriminate.
  - cbn [fmap list_fmap]. rewrite concat_cons, piece_app. cbn. destruct k; discriminate.
  - cbn [fmap list_fmap]. rewrite !concat_cons, !piece_app. intros E.
    destruct (H k (elem_of_list_here _ _)) as (Hk & [v Hv] & Hb). destruct (H' k' (elem_of_list_here _ _)) as (Hk' & [v' Hv'] & Hb').
    apply cut in E as [-> E]; [|assumption..]. apply cut in E as [Ev E]; [|assumption..].
    destruct (IH ks') as [-> IHt]; [intros x Hx; apply H; right; exact Hx|intros x Hx; apply H'; right; exact Hx|exact E|].
    split; [reflexivity|]. intros x Hx. apply elem_of_cons in Hx as [->|Hx]; [|exact (IHt x Hx)].
    rewrite Hv, Hv' in *. cbn in Ev. rewrite Ev. reflexivity.
Qed.
Lemma keys_in (o : oracle) (m : gmap string string) (k : string) :
  k ∈ merge_sort go_le (ordered o (map_to_list m).*1) <-> is_Some (m !! k).
Proof.
  rewrite merge_sort_Permutation, ordered_perm. rewrite elem_of_list_fmap. split.
  - intros ([x v] & -> & H). apply elem_of_map_to_list in H. exists v. exact H.
  - intros [v H]. exists (k, v). split; [reflexivity|]. apply elem_of_map_to_list. exact H.
Qed.
Lemma map_inj (o o' : oracle) (m m' : gmap string string) (s : string) :
  no_bar (IMapStr m) -> no_bar (IMapStr m') ->
  serialize o (IMapStr m) = Ok s -> serialize o' (IMapStr m') = Ok s -> m = m'.
Proof.
  cbn. intros B B' [= <-] [= H]. symmetry in H.
  assert (G : forall (o : oracle) (m : gmap string string), map_Forall (fun k v => ~ mentions ":" k /\ ~ mentions "|" v) m ->
    forall k, k ∈ merge_sort go_le (ordered o (map_to_list m).*1) -> ~ mentions ":" k /\ is_Some (m !! k) /\ ~ mentions "|" (default "" (m !! k))).
  { clear. intros o m B k Hk. apply keys_in in Hk. destruct Hk as [v Hv]. destruct (B k v Hv) as [B1 B2]. rewrite Hv. cbn.
    split; [exact B1|]. split; [exists v; reflexivity|exact B2]. }
  apply entries_inj in H as [Hk Ht]; [|exact (G o m B)|exact (G o' m' B')].
  apply map_eq. intros k. destruct (m !! k) as [v|] eqn:E.
  - rewrite <- E. apply Ht. apply keys_in. exists v. exact E.
  - destruct (m' !! k) as [v'|] eqn:E'; [|reflexivity]. exfalso.
    assert (Hi : k ∈ merge_sort go_le (ordered o' (map_to_list m').*1)) by (apply keys_in; exists v'; exact E').
    rewrite <- Hk in Hi. apply keys_in in Hi as [w Hw]. rewrite E in Hw. discriminate.
Qed.
Lemma serialize_same (o o' : oracle) (i : item) : (exists names, of_struct_type names i) \/ is_str_map i -> serialize o i = serialize o' i.
Proof.
  destruct i as [fs|m|m|]; cbn; intros H; [reflexivity| |destruct H as [[? []]|[]]|destruct H as [[? []]|[]]].
  rewrite (sorted_keys o o'). reflexivity.
Qed.
Lemma serialize_fields_ok (fs : list field) : Forall (fun f => f_exported f = true) fs -> exists s, serialize_fields fs = Ok s.
Proof.
  induction 1 as [|f fs E _ [s Hs]]; cbn; [eexists; reflexivity|]. rewrite E, Hs. eexists. reflexivity.
Qed.
Lemma serialize_ok (o : oracle) (i : item) : (exists names, of_struct_type names i) \/ is_str_map i -> exists s, serialize o i = Ok s.
Proof.
  destruct i as [fs|m|m|]; cbn; intros H.
  - destruct H as [[names [_ H]]|[]]. apply serialize_fields_ok. exact H.
  - eexists. reflexivity.
  - eexists. reflexivity.
  - destruct H as [[? []]|[]].
Qed.
Lemma separable_kind (l : list item) (i : item) : separable l -> i ∈ l -> (exists names, of_struct_type names i) \/ is_str_map i.
Proof.
  intros [_ [[names H]|H]] Hi; rewrite Forall_forall in H; [left; exists names|right]; exact (H i Hi).
Qed.
Lemma separable_inj (o o' : oracle) (l : list item) (i j : item) (s : string) : separable l -> i ∈ l -> j ∈ l ->
  serialize o i = Ok s -> serialize o' j = Ok s -> i = j.
Proof.
  intros [B K] Hi Hj. rewrite Forall_forall in B. pose proof (B i Hi) as Bi. pose proof (B j Hj) as Bj.
  destruct K as [[names K]|K]; rewrite Forall_forall in K; pose proof (K i Hi) as Ki; pose proof (K j Hj) as Kj.
  - destruct i as [fs| | |]; [|contradiction..]. destruct j as [fs'| | |]; [|contradiction..]. cbn in *.
    destruct Ki as [N E], Kj as [N' E']. intros S S'. f_equal. exact (fields_inj fs fs' s (eq_trans N (eq_sym N')) E E' Bi Bj S S').
  - destruct i as [|m| |]; [contradiction| |contradiction..]. destruct j as [|m'| |]; [contradiction| |contradiction..].
    intros S S'. f_equal. exact (map_inj o o' m m' s Bi Bj S S').
Qed.

(** ** The loops *)
Lemma texts_ok (o : oracle) (a : list item) : forall n, (forall i, i ∈ a -> exists s, serialize id_oracle i = Ok s /\ forall o', serialize o' i = Ok s) ->
  exists l, texts o n a = Ok l /\ forall s, s ∈ l <-> exists i, i ∈ a /\ serialize id_oracle i = Ok s.
Proof.
  induction a as [|i a IH]; intros n H; cbn.
  - exists []. split; [reflexivity|]. intros s. split; [intros E; apply elem_of_nil in E; contradiction|].
    intros (i & E & _). apply elem_of_nil in E. contradiction.
  - destruct (H i (elem_of_list_here _ _)) as (s & Hs & Ho). destruct (IH (S n)) as (l & Hl & Hin); [intros j Hj; apply H; right; exact Hj|].
    rewrite Ho, Hl. cbn. exists (s :: l). split; [reflexivity|]. intros t. rewrite elem_of_cons, Hin. split.
    + intros [->|(j & Hj & E)]; [exists i; split; [left|exact Hs]|exists j; split; [right; exact Hj|exact E]].
    + intros (j & Hj & E). apply elem_of_cons in Hj as [->|Hj]; [left; congruence|right; exists j; split; assumption].
Qed.
Lemma pick_ok (o : oracle) (want : bool) (set : list string) (P : item -> Prop) `{forall i, Decision (P i)} (b : list item) : forall n,
  (forall i, i ∈ b -> exists s, (forall o', serialize o' i = Ok s) /\ (s ∈ set <-> P i)) ->
  pick o n want set b = Ok (filter (fun i => bool_decide (P i) = want) b).
Proof.
  induction b as [|i b IH]; intros n Hb; [reflexivity|]. cbn [pick].
  destruct (Hb i (elem_of_list_here _ _)) as (s & Ho & Hs). rewrite Ho. cbn [rbind]. rewrite (IH (S n)); [|intros j Hj; apply Hb; right; exact Hj].
  cbn [rbind]. f_equal. rewrite (bool_decide_ext (s ∈ set) (P i) Hs).
  rewrite filter_cons. destruct (decide (bool_decide (P i) = want)) as [E|E]; [rewrite E, Bool.eqb_reflx; reflexivity|].
  destruct (bool_decide (P i)), want; try reflexivity; contradiction.
Qed.
Lemma picked (o : oracle) (a b : list item) (want : bool) (n : nat) : separable (a ++ b) ->
  exists set, texts o 0 a = Ok set /\ pick o n want set b = Ok (filter (fun i => bool_decide (i ∈ a) = want) b).
Proof.
  intros S.
  assert (K : forall i, i ∈ a ++ b -> exists s, serialize id_oracle i = Ok s /\ forall o', serialize o' i = Ok s).
  { intros i Hi. destruct (serialize_ok id_oracle i (separable_kind _ i S Hi)) as [s Hs]. exists s. split; [exact Hs|].
    intros o'. rewrite <- Hs. apply serialize_same. exact (separable_kind _ i S Hi). }
  destruct (texts_ok o a 0) as (set & Hset & Hin); [intros i Hi; apply K; apply elem_of_app; left; exact Hi|].
  exists set. split; [exact Hset|]. apply (pick_ok o want set (fun i => i ∈ a)). intros i Hi.
  destruct (K i) as (s & Hs & Ho); [apply elem_of_app; right; exact Hi|]. exists s. split; [exact Ho|]. rewrite Hin. split.
  - intros (j & Hj & E). replace i with j; [exact Hj|].
    apply (separable_inj id_oracle id_oracle (a ++ b) j i s S); [apply elem_of_app; left; exact Hj|apply elem_of_app; right; exact Hi|exact E|exact Hs].
  - intros Ha. exists i. split; [exact Ha|exact Hs].
Qed.
Lemma filter_same (P Q : item -> Prop) `{forall i, Decision (P i)} `{forall i, Decision (Q i)} (l : list item) :
  (forall i, P i <-> Q i) -> filter P l = filter Q l.
Proof. intros E. apply list_filter_iff. exact E. Qed.
Lemma intersection_exact (o : oracle) (a b : list item) : separable (a ++ b) -> intersection o a b = Ok (common a b).
Proof.
  intros S. destruct (picked o a b true (length a) S) as (set & Ht & Hp). unfold intersection. rewrite Ht. cbn. rewrite Hp. f_equal.
  apply filter_same. intros i. rewrite bool_decide_eq_true. reflexivity.
Qed.
Lemma union_exact (o : oracle) (a b : list item) : separable (a ++ b) -> union_of o a b = Ok (a ++ missing a b).
Proof.
  intros S. destruct (picked o a b false (length a) S) as (set & Ht & Hp). unfold union_of. rewrite Ht. cbn. rewrite Hp. cbn. f_equal. f_equal.
  apply filter_same. intros i. rewrite bool_decide_eq_false. reflexivity.
Qed.

(** ** Panics *)
Lemma fields_panic (fs : list field) : Exists (fun f => f_exported f = false) fs -> serialize_fields fs = Panic.
Proof.
  induction 1 as [f fs E|f fs _ IH]; cbn; [rewrite E; reflexivity|]. rewrite IH. destruct (f_exported f); reflexivity.
Qed.
Lemma fields_cases (fs : list field) : Exists (fun f => f_exported f = false) fs \/ Forall (fun f => f_exported f = true) fs.
Proof.
  induction fs as [|f fs [IH|IH]]; [right; constructor|left; right; exact IH|].
  destruct (f_exported f) eqn:E; [right; constructor; assumption|left; left; exact E].
Qed.
Lemma serialize_cases (o : oracle) (i : item) :
  (unserializable i /\ serialize o i = Panic) \/ (~ unserializable i /\ exists s, serialize o i = Ok s).
Proof.
  destruct i as [fs|m|m|]; cbn.
  - destruct (fields_cases fs) as [H|H]; [left; split; [exact H|exact (fields_panic fs H)]|right].
    split; [|exact (serialize_fields_ok fs H)]. intros E. apply Exists_exists in E as (f & Hf & E). rewrite Forall_forall in H.
    rewrite (H f Hf) in E. discriminate.
  - right. split; [tauto|eexists; reflexivity].
  - right. split; [tauto|eexists; reflexivity].
  - left. split; [exact I|reflexivity].
Qed.
Lemma texts_cases (o : oracle) (a : list item) : forall n,
  (Exists unserializable a /\ texts o n a = Panic) \/ (~ Exists unserializable a /\ exists l, texts o n a = Ok l).
Proof.
  induction a as [|i a IH]; intros n; cbn; [right; split; [intros H; inversion H|eexists; reflexivity]|].
  destruct (serialize_cases (sub o n) i) as [[U ->]|[U [s ->]]]; cbn; [left; split; [left; exact U|reflexivity]|].
  destruct (IH (S n)) as [[E ->]|[E [l ->]]]; cbn; [left; split; [right; exact E|reflexivity]|].
  right. split; [|eexists; reflexivity]. intros H. inversion H; contradiction.
Qed.
Lemma pick_cases (o : oracle) (want : bool) (set : list string) (b : list item) : forall n,
  (Exists unserializable b /\ pick o n want set b = Panic) \/ (~ Exists unserializable b /\ exists l, pick o n want set b = Ok l).
Proof.
  induction b as [|i b IH]; intros n; cbn; [right; split; [intros H; inversion H|eexists; reflexivity]|].
  destruct (serialize_cases (sub o n) i) as [[U ->]|[U [s ->]]]; cbn; [left; split; [left; exact U|reflexivity]|].
  destruct (IH (S n)) as [[E ->]|[E [l ->]]]; cbn; [left; split; [right; exact E|reflexivity]|].
  right. split; [|eexists; reflexivity]. intros H. inversion H; contradiction.
Qed.
Lemma setops_panic (o : oracle) (a b : list item) :
  (intersection o a b = Panic <-> Exists unserializable (a ++ b)) /\ (union_of o a b = Panic <-> Exists unserializable (a ++ b)).
Proof.
  unfold intersection, union_of. rewrite Exists_app.
  destruct (texts_cases o a 0) as [[E ->]|[E [l ->]]]; cbn; [split; split; intros; [left|reflexivity|left|reflexivity]; exact E|].
  split.
  - destruct (pick_cases o true l b (length a)) as [[E' ->]|[E' [r ->]]]; cbn; split; intros H; try reflexivity; try discriminate; [right; exact E'|tauto].
  - destruct (pick_cases o false l b (length a)) as [[E' ->]|[E' [r ->]]]; cbn; split; intros H; try reflexivity; try discriminate; [right; exact E'|tauto].
Qed.

(** ** ToInt64 *)
Lemma lxor_range (a b : Z) (n : Z) : (0 <= n -> 0 <= a < 2 ^ n -> 0 <= b < 2 ^ n -> 0 <= Z.lxor a b < 2 ^ n)%Z.
Proof.
  intros Hn Ha Hb. assert (H0 : (0 <= Z.lxor a b)%Z) by (apply Z.lxor_nonneg; lia). split; [exact H0|].
  destruct (Z.eq_dec (Z.lxor a b) 0%Z) as [->|Hz]; [lia|].
  apply Z.log2_lt_pow2; [lia|]. apply (Z.le_lt_trans _ (Z.max (Z.log2 a) (Z.log2 b))); [apply Z.log2_lxor; lia|].
  assert (L : forall x, (0 <= x < 2 ^ n -> Z.log2 x < n \/ n = 0)%Z).
  { intros x Hx. destruct (Z.eq_dec x 0%Z) as [->|]; [cbn; lia|]. left. apply Z.log2_lt_pow2; lia. }
  destruct (L a Ha) as [La| ->]; [|cbn in *; replace a with 0%Z in * by lia; replace b with 0%Z in * by lia; contradiction].
  destruct (L b Hb) as [Lb| ->]; [|cbn in *; replace a with 0%Z in * by lia; replace b with 0%Z in * by lia; contradiction]. lia.
Qed.
Lemma byte_range (c : ascii) : (0 <= Z.of_nat (nat_of_ascii c) < 2 ^ 8)%Z.
Proof. pose proof (nat_ascii_bounded c). change (2 ^ 8)%Z with 256%Z. lia. Qed.
Lemma fnv_byte_range (h : Z) (c : ascii) : (0 <= fnv_byte h c < 2 ^ 64)%Z.
Proof.
  unfold fnv_byte. apply lxor_range; [lia|apply Z.mod_pos_bound; lia|]. pose proof (byte_range c).
  split; [lia|]. apply (Z.lt_trans _ (2 ^ 8)%Z); [lia|]. apply Z.pow_lt_mono_r; lia.
Qed.
Lemma lxor_inj_l (a b c : Z) : Z.lxor a c = Z.lxor b c -> a = b.
Proof.
  intros H. assert (G : Z.lxor (Z.lxor a c) c = Z.lxor (Z.lxor b c) c) by (rewrite H; reflexivity).
  rewrite !Z.lxor_assoc, !Z.lxor_nilpotent, !Z.lxor_0_r in G. exact G.
Qed.
Lemma lxor_inj_r (a b c : Z) : Z.lxor c a = Z.lxor c b -> a = b.
Proof. rewrite !(Z.lxor_comm c). apply lxor_inj_l. Qed.
Definition fnv_inverse : Z := 14886173955864302971.
Lemma times_prime_inj (g h : Z) : (0 <= g < 2 ^ 64)%Z -> (0 <= h < 2 ^ 64)%Z ->
  (g * 1099511628211 mod 2 ^ 64 = h * 1099511628211 mod 2 ^ 64)%Z -> g = h.
Proof.
  intros Hg Hh H.
  assert (E : forall x, (0 <= x < 2 ^ 64 -> (x * 1099511628211 mod 2 ^ 64) * fnv_inverse mod 2 ^ 64 = x)%Z).
  { intros x Hx. rewrite Zmult_mod_idemp_l. rewrite <- Z.mul_assoc.
    rewrite <- Zmult_mod_idemp_r. replace ((1099511628211 * fnv_inverse) mod 2 ^ 64)%Z with 1%Z by (vm_compute; reflexivity).
    rewrite Z.mul_1_r. apply Z.mod_small. exact Hx. }
  rewrite <- (E g Hg), <- (E h Hh), H. reflexivity.
Qed.
Lemma fnv_byte_inj (g h : Z) (c : ascii) : (0 <= g < 2 ^ 64)%Z -> (0 <= h < 2 ^ 64)%Z -> fnv_byte g c = fnv_byte h c -> g = h.
Proof. intros Hg Hh H. apply lxor_inj_l in H. exact (times_prime_inj g h Hg Hh H). Qed.
Lemma fnv_from_inj (s : string) : forall g h, (0 <= g < 2 ^ 64)%Z -> (0 <= h < 2 ^ 64)%Z -> fnv_from g s = fnv_from h s -> g = h.
Proof.
  induction s as [|c s IH]; cbn; intros g h Hg Hh H; [exact H|].
  apply (fnv_byte_inj g h c Hg Hh). exact (IH _ _ (fnv_byte_range g c) (fnv_byte_range h c) H).
Qed.
Lemma fnv_from_range (s : string) : forall h, (0 <= h < 2 ^ 64)%Z -> (0 <= fnv_from h s < 2 ^ 64)%Z.
Proof. induction s as [|c s IH]; cbn; intros h Hh; [exact Hh|]. apply IH. apply fnv_byte_range. Qed.
Lemma to_int64_range (s : string) : (0 <= to_int64 s < 2 ^ 64)%Z.
Proof. apply fnv_from_range. split; [lia|vm_compute; reflexivity]. Qed.
Lemma fnv_from_app (s t : string) : forall h, fnv_from h (s ++ t) = fnv_from (fnv_from h s) t.
Proof. induction s as [|c s IH]; cbn; intros h; [reflexivity|]. apply IH. Qed.
Lemma to_int64_suffix (s s' t : string) : to_int64 (s ++ t) = to_int64 (s' ++ t) <-> to_int64 s = to_int64 s'.
Proof.
  unfold to_int64. rewrite !fnv_from_app. split; [|intros ->; reflexivity].
  apply fnv_from_inj; apply to_int64_range.
Qed.
Lemma to_int64_one_byte (s t : string) (c d : ascii) : to_int64 (s ++ String c t) = to_int64 (s ++ String d t) -> c = d.
Proof.
  unfold to_int64. rewrite !fnv_from_app. cbn. intros H.
  apply fnv_from_inj in H; [|apply fnv_byte_range..]. apply lxor_inj_r in H. apply Nat2Z.inj in H.
  rewrite <- (ascii_nat_embedding c), <- (ascii_nat_embedding d), H. reflexivity.
Qed.
