(** Rows that the caller keeps pointers to: proofs. *)
From Verif Require Export TrieProofs HandSpec.

Definition rows_of_run (ops : list hop) : list data := h_rows (hrun ops).

Lemma hrun_snoc ops x : hrun (ops ++ [x]) = hstep (hrun ops) x.
Proof. unfold hrun. by rewrite foldl_app. Qed.
Lemma news_snoc ops x : news (ops ++ [x]) = news ops + (if decide (is_new x) then 1 else 0).
Proof. unfold news. rewrite filter_app, app_length. f_equal. rewrite filter_cons. by destruct (decide (is_new x)). Qed.
Lemma h_add_rows h p : h_rows (h_add h p) = h_rows h.
Proof. unfold h_add. by destruct (h_rows h !! p). Qed.
Lemma rows_length ops : length (h_rows (hrun ops)) = news ops.
Proof.
  induction ops as [|x ops IH] using rev_ind; [done|]. rewrite hrun_snoc, news_snoc. destruct x as [d|p|p d]; cbn [hstep h_rows].
  - rewrite app_length, IH. rewrite decide_True by exact I. done.
  - rewrite h_add_rows, IH. rewrite decide_False by (intros []). lia.
  - rewrite insert_length, IH. rewrite decide_False by (intros []). lia.
Qed.

Lemma snoc_split {A} (l l1 l2 : list A) x y : l ++ [x] = l1 ++ y :: l2 ->
  (l2 = [] /\ l1 = l /\ y = x) \/ exists l2', l2 = l2' ++ [x] /\ l = l1 ++ y :: l2'.
Proof.
  destruct l2 as [|z l2 _] using rev_ind.
  - intros H. apply app_inj_tail in H as [-> ->]. by left.
  - rewrite app_comm_cons, app_assoc. intros H. apply app_inj_tail in H as [-> ->]. right. by exists l2.
Qed.

Lemma holds_snoc ops x p d : holds (ops ++ [x]) p d <->
  (x = HNew d /\ news ops = p) \/ (x = HSet p d /\ p < news ops) \/ (holds ops p d /\ forall d', x <> HSet p d').
Proof.
  split.
  - intros (l1 & y & l2 & E & K & N). apply snoc_split in E as [(-> & -> & ->)|(l2' & -> & ->)].
    + destruct K as [K|K]; auto.
    + right. right. split.
      * exists l1, y, l2'. split_and!; [done|done|]. intros d' H. apply (N d'). apply elem_of_app. by left.
      * intros d' ->. apply (N d'). apply elem_of_app. right. by left.
  - intros [[-> <-]|[[-> L]|[(l1 & y & l2 & -> & K & N) M]]].
    + exists ops, (HNew d), []. split_and!; auto. intros d' H. by apply not_elem_of_nil in H.
    + exists ops, (HSet p d), []. split_and!; auto. intros d' H. by apply not_elem_of_nil in H.
    + exists l1, y, (l2 ++ [x]). rewrite <- app_assoc. split_and!; [done|done|]. intros d' H.
      apply elem_of_app in H as [H|H]; [exact (N d' H)|]. apply elem_of_list_singleton in H. exact (M d' (eq_sym H)).
Qed.

Lemma holds_lookup ops p d : holds ops p d <-> h_rows (hrun ops) !! p = Some d.
Proof.
  revert d. induction ops as [|x ops IH] using rev_ind; intros d.
  - split; [intros (l1 & y & l2 & E & _); by destruct l1|done].
  - rewrite holds_snoc, hrun_snoc, IH. pose proof (rows_length ops) as L. destruct x as [e|q|q e]; cbn [hstep h_rows].
    + rewrite lookup_app_Some. split.
      * intros [[[= ->] E]|[[[=] _]|[H _]]].
        -- right. rewrite L, E. split; [lia|]. by rewrite Nat.sub_diag.
        -- by left.
      * intros [H|[H1 H2]]; [right; right; split; [done|by intros]|]. rewrite L in H1, H2.
        destruct (p - news ops) as [|k] eqn:E; [|done]. left. simpl in H2. injection H2 as ->. split; [done|lia].
    + rewrite h_add_rows. split.
      * intros [[[=] _]|[[[=] _]|[H _]]]. done.
      * intros H. right. right. by split.
    + destruct (decide (p = q)) as [->|Hn].
      * split.
        -- intros [[[=] _]|[[[= ->] K]|[_ K]]]; [|by destruct (K e)]. apply list_lookup_insert. lia.
        -- intros H. apply list_lookup_insert_Some in H as [(_ & <- & K)|([] & _)]; [|done]. right. left. split; [done|lia].
      * rewrite list_lookup_insert_ne by done. split.
        -- intros [[[=] _]|[[[= ? ?] _]|[H _]]]; [done|done].
        -- intros H. right. right. split; [done|]. by intros d' [= ? ?].
Qed.

(** ** The insertions *)
Definition add_of (h : hstate) (x : hop) : list (list any * nat) :=
  match x with HAdd p => match h_rows h !! p with Some d => [(data_keys d, p)] | None => [] end | _ => [] end.
Fixpoint hlog (h : hstate) (ops : list hop) : list (list any * nat) :=
  match ops with [] => [] | x :: ops' => add_of h x ++ hlog (hstep h x) ops' end.
Lemma hlog_app h l1 l2 : hlog h (l1 ++ l2) = hlog h l1 ++ hlog (foldl hstep h l1) l2.
Proof. revert h. induction l1 as [|x l1 IH]; intros h; [done|]. simpl. by rewrite IH, app_assoc. Qed.
Lemma hlog_snoc ops x : hlog h_start (ops ++ [x]) = hlog h_start ops ++ add_of (hrun ops) x.
Proof. rewrite hlog_app. simpl. by rewrite app_nil_r. Qed.
Lemma hrun_trie ops : h_trie (hrun ops) = trie_of fst (hlog h_start ops).
Proof.
  induction ops as [|x ops IH] using rev_ind; [done|]. rewrite hrun_snoc, hlog_snoc. destruct x as [d|p|p d]; cbn [hstep h_trie add_of].
  - by rewrite app_nil_r.
  - unfold h_add. destruct (h_rows (hrun ops) !! p); simpl; [|by rewrite app_nil_r]. by rewrite trie_of_snoc, IH.
  - by rewrite app_nil_r.
Qed.

Lemma hlog_elem h ops ks p : (ks, p) ∈ hlog h ops <->
  exists l1 l2 d, ops = l1 ++ HAdd p :: l2 /\ h_rows (foldl hstep h l1) !! p = Some d /\ ks = data_keys d.
Proof.
  revert h. induction ops as [|x ops IH]; intros h; simpl.
  - split; [intros H; by apply not_elem_of_nil in H|intros (l1 & l2 & d & E & _); by destruct l1].
  - rewrite elem_of_app, IH. split.
    + intros [H|(l1 & l2 & d & -> & H & ->)].
      * destruct x as [e|q|q e]; cbn [add_of] in H; try by apply not_elem_of_nil in H.
        destruct (h_rows h !! q) as [d|] eqn:E; [|by apply not_elem_of_nil in H]. apply elem_of_list_singleton in H.
        injection H as -> ->. by exists [], ops, d.
      * by exists (x :: l1), l2, d.
    + intros (l1 & l2 & d & E & H & ->). destruct l1 as [|y l1]; simpl in E; injection E as -> ->.
      * left. simpl in *. rewrite H. by left.
      * right. by exists l1, l2, d.
Qed.

(** An entry of the log and where it comes from *)
Lemma hlog_split h ops L1 ks p L2 : hlog h ops = L1 ++ (ks, p) :: L2 ->
  exists l1 l2 d, ops = l1 ++ HAdd p :: l2 /\ h_rows (foldl hstep h l1) !! p = Some d /\ ks = data_keys d
    /\ L2 = hlog (foldl hstep h (l1 ++ [HAdd p])) l2.
Proof.
  revert h L1. induction ops as [|x ops IH]; intros h L1 E; simpl in E; [by destruct L1|].
  assert (K : add_of h x = [] \/ exists q d, x = HAdd q /\ h_rows h !! q = Some d /\ add_of h x = [(data_keys d, q)]).
  { destruct x as [e|q|q e]; cbn [add_of]; auto. destruct (h_rows h !! q) as [d|] eqn:H; [right; by exists q, d|by left]. }
  destruct K as [K|(q & d & -> & H & K)]; rewrite K in E; simpl in E.
  - destruct (IH _ _ E) as (l1 & l2 & d & -> & H & -> & ->). by exists (x :: l1), l2, d.
  - destruct L1 as [|y L1]; simpl in E.
    + injection E as <- -> <-. by exists [], ops, d.
    + injection E as _ E. destruct (IH _ _ E) as (l1 & l2 & d' & -> & H' & -> & ->). by exists (HAdd q :: l1), l2, d'.
Qed.

Lemma filed_survivor ops ks p :
  filed ops ks p <-> exists x, x ∈ survivors fst (hlog h_start ops) /\ row_path fst x = ks /\ x.2 = p.
Proof.
  split.
  - intros (l1 & l2 & d & -> & H & <- & N). exists (data_keys d, p). split; [|done]. apply elem_of_survivors.
    exists (hlog h_start l1), (hlog (hrun (l1 ++ [HAdd p])) l2). split.
    + rewrite hlog_app. f_equal. apply holds_lookup in H. simpl. change (foldl hstep h_start l1) with (hrun l1). rewrite H. simpl. by rewrite hrun_snoc.
    + apply Forall_forall. intros [ks' p'] Hin. apply hlog_elem in Hin as (m1 & m2 & d' & E & H' & ->).
      apply (N m1 m2 p' d' E). apply holds_lookup. rewrite (cons_middle (HAdd p) l1 m1), app_assoc. unfold hrun in *. by rewrite foldl_app.
  - intros ([ks' p'] & H & <- & E). simpl in E. subst p'. apply elem_of_survivors in H as (L1 & L2 & E & N).
    apply hlog_split in E as (l1 & l2 & d & -> & H & -> & ->). exists l1, l2, d. split; [done|]. split; [by apply holds_lookup|]. split; [done|].
    intros m1 m2 p' d' -> H' E'. apply holds_lookup in H'. assert (Q := proj1 (Forall_forall _ _) N). apply (Q (data_keys d', p')); [|exact E'].
    apply hlog_elem. exists m1, m2, d'. split; [done|]. split; [|done].
    rewrite (cons_middle (HAdd p) l1 m1), app_assoc in H'. unfold hrun in H'. by rewrite foldl_app in H'.
Qed.

Definition reads (ops : list hop) (cb : data -> bool) (x : list any * nat) : bool :=
  match h_rows (hrun ops) !! x.2 with Some d => cb d | None => false end.
Lemma h_search_spec o ops cb : h_search o (hrun ops) cb ≡ₚ (filter (fun x => reads ops cb x = true) (survivors fst (hlog h_start ops))).*2.
Proof. unfold h_search. rewrite hrun_trie. apply fmap_Permutation. exact (trie_search_spec fst o (hlog h_start ops) (reads ops cb)). Qed.
Lemma reads_true ops cb x : reads ops cb x = true <-> exists d, holds ops x.2 d /\ cb d = true.
Proof.
  unfold reads. split.
  - destruct (h_rows (hrun ops) !! x.2) as [d|] eqn:E; [|done]. intros H. exists d. split; [by apply holds_lookup|done].
  - intros (d & H & K). apply holds_lookup in H. by rewrite H.
Qed.

Lemma filter_nodup_fmap {A B} (f : A -> B) (P : A -> Prop) `{!forall x, Decision (P x)} l : NoDup (f <$> l) -> NoDup (f <$> filter P l).
Proof.
  induction l as [|a l IH]; [done|]. rewrite fmap_cons. intros K. apply NoDup_cons in K as [H1 H2]. rewrite filter_cons. destruct (decide (P a)); [|auto].
  rewrite fmap_cons. apply NoDup_cons. split; [|auto]. intros K. apply H1. apply elem_of_list_fmap in K as (y & E & K). apply elem_of_list_filter in K as [_ K].
  rewrite E. by apply elem_of_list_fmap_1.
Qed.

Lemma c124_search o ops cb : exists L : list (list any * nat), NoDup L
  /\ (forall ks p, (ks, p) ∈ L <-> filed ops ks p /\ exists d, holds ops p d /\ cb d = true)
  /\ h_search o (hrun ops) cb ≡ₚ L.*2.
Proof.
  exists ((fun x => (row_path fst x, x.2)) <$> filter (fun x => reads ops cb x = true) (survivors fst (hlog h_start ops))). split_and!.
  - apply (NoDup_fmap_1 fst). rewrite <- list_fmap_compose. apply filter_nodup_fmap. apply survivors_nodup.
  - intros ks p. rewrite elem_of_list_fmap, filed_survivor. split.
    + intros (x & E & H). injection E as -> ->. apply elem_of_list_filter in H as [H1 H2]. apply reads_true in H1. split; [by exists x|exact H1].
    + intros [(x & H & <- & <-) K]. exists x. split; [done|]. apply elem_of_list_filter. split; [by apply reads_true|done].
  - rewrite <- list_fmap_compose. rewrite h_search_spec. done.
Qed.
Lemma c124_found o ops cb p : p ∈ h_search o (hrun ops) cb <-> (exists ks, filed ops ks p) /\ exists d, holds ops p d /\ cb d = true.
Proof.
  destruct (c124_search o ops cb) as (L & _ & H & E). rewrite E, elem_of_list_fmap. split.
  - intros ([ks p'] & -> & K). apply H in K as [K1 K2]. split; [by exists ks|done].
  - intros [[ks K1] K2]. exists (ks, p). split; [done|]. by apply H.
Qed.

(** ** A write *)
Lemma filed_set ops p d ks p' : filed (ops ++ [HSet p d]) ks p' <-> filed ops ks p'.
Proof.
  rewrite !filed_survivor. rewrite hlog_snoc. simpl. by rewrite app_nil_r.
Qed.
Lemma holds_fun ops p d d' : holds ops p d -> holds ops p d' -> d = d'.
Proof. rewrite !holds_lookup. congruence. Qed.
Lemma filed_made ops ks p : filed ops ks p -> exists d, holds ops p d.
Proof.
  intros (l1 & l2 & d & -> & H & _). apply holds_lookup, lookup_lt_Some in H. rewrite rows_length in H.
  assert (L : p < length (h_rows (hrun (l1 ++ HAdd p :: l2)))).
  { rewrite rows_length. unfold news in *. rewrite filter_app, app_length. lia. }
  apply lookup_lt_is_Some_2 in L as [d' L]. exists d'. by apply holds_lookup.
Qed.
Lemma c124_write o o' o'' ops p d cb p' : p' ∈ h_search o (hrun (ops ++ [HSet p d])) cb <->
  (p' = p /\ p ∈ h_search o' (hrun ops) (fun _ => true) /\ cb d = true) \/ (p' <> p /\ p' ∈ h_search o'' (hrun ops) cb).
Proof.
  rewrite !c124_found. split.
  - intros [[ks F] (d' & H & K)]. pose proof (proj1 (filed_set ops p d ks p') F) as F0. clear F. rename F0 into F. destruct (filed_made _ _ _ F) as [e He]. apply holds_snoc in H as [[[=] _]|[[E L]|[H N]]].
    + injection E as -> ->. left. split; [done|]. split; [|done]. split; [by exists ks|by exists e].
    + right. split; [by intros ->; destruct (N d)|]. split; [by exists ks|by exists d'].
  - intros [(-> & [[ks F] (e & He & _)] & K)|(N & [[ks F] (e & He & K)])].
    + split; [exists ks; apply (proj2 (filed_set ops p d ks _)); done|]. exists d. split; [|done]. apply holds_snoc. right. left. split; [done|].
      apply holds_lookup, lookup_lt_Some in He. by rewrite rows_length in He.
    + split; [exists ks; apply (proj2 (filed_set ops p d ks _)); done|]. exists e. split; [|done]. apply holds_snoc. right. right. split; [done|]. by intros d' [= ? ?].
Qed.

(** ** Nobody writes *)
Lemma survivors_like {A B} (R : A -> B -> Prop) (ka : A -> list any) (kb : B -> list any) l m :
  (forall a b, R a b -> ka a = kb b) -> Forall2 R l m -> Forall2 R (survivors ka l) (survivors kb m).
Proof.
  intros HR H. induction H as [|a b l m Hab H IH]; [constructor|]. cbn [survivors].
  assert (E : Exists (fun d' => row_path ka d' = row_path ka a) l <-> Exists (fun d' => row_path kb d' = row_path kb b) m).
  { clear IH. assert (Hp : forall a b, R a b -> row_path ka a = row_path kb b) by (intros x y Q; unfold row_path; by rewrite (HR x y Q)).
    rewrite <- (Hp a b Hab). induction H as [|a' b' l m Hab' H IH]; [by rewrite !Exists_nil|]. rewrite !Exists_cons, (Hp a' b' Hab'), IH. done. }
  destruct (decide (Exists (fun d' => row_path ka d' = row_path ka a) l)) as [D|D].
  - rewrite decide_True by by apply E. done.
  - rewrite decide_False by by rewrite <- E. by constructor.
Qed.
Lemma filter_like {A B} (R : A -> B -> Prop) (P : A -> Prop) (Q : B -> Prop) `{!forall x, Decision (P x), !forall x, Decision (Q x)} l m :
  (forall a b, R a b -> (P a <-> Q b)) -> Forall2 R l m -> Forall2 R (filter P l) (filter Q m).
Proof.
  intros HR F. induction F as [|a b l m Hab F IH]; [constructor|]. rewrite !filter_cons. destruct (decide (P a)) as [D|D].
  - rewrite decide_True by by apply (HR a b Hab). by constructor.
  - rewrite decide_False by by rewrite <- (HR a b Hab). done.
Qed.
Lemma left_alone_snoc ops x : left_alone (ops ++ [x]) -> left_alone ops /\ forall p d ks, x = HSet p d -> (ks, p) ∉ hlog h_start ops.
Proof.
  intros H. split.
  - intros l1 l2 p d -> K. apply (H l1 (l2 ++ [x]) p d). { by rewrite <- app_assoc. } apply elem_of_app. by left.
  - intros p d ks -> K. apply hlog_elem in K as (l1 & l2 & e & -> & _). apply (H l1 (l2 ++ [HSet p d]) p d). { by rewrite <- app_assoc. } apply elem_of_app. right. by left.
Qed.
Definition still (ops : list hop) (x : list any * nat) (d : data) : Prop := x.1 = data_keys d /\ holds ops x.2 d.
Lemma entered_log ops : left_alone ops -> exists log, entered ops log /\ Forall2 (still ops) (hlog h_start ops) log.
Proof.
  induction ops as [|x ops IH] using rev_ind; intros H.
  - exists []. split; constructor.
  - apply left_alone_snoc in H as [H N]. destruct (IH H) as (log & E & F).
    assert (S : Forall2 (still (ops ++ [x])) (hlog h_start ops) log).
    { assert (G : forall e d, e ∈ hlog h_start ops -> still ops e d -> still (ops ++ [x]) e d).
      { intros [ks p] d Hin [K1 K2]. split; [done|]. apply holds_snoc. right. right. split; [done|]. intros d' ->. exact (N p d' ks eq_refl Hin). }
      clear -F G. induction F as [|a b l m Hab F IH]; constructor; [apply G; [left|done]|]. apply IH. intros e d Hin. apply G. by right. }
    rewrite hlog_snoc. destruct x as [e|p|p e]; cbn [add_of].
    + exists log. split; [by apply entered_other|]. by rewrite app_nil_r.
    + destruct (h_rows (hrun ops) !! p) as [d|] eqn:K.
      * apply holds_lookup in K. exists (log ++ [d]). split; [by apply entered_add|]. apply Forall2_app; [done|]. constructor; [|constructor]. split; [done|].
        apply holds_snoc. right. right. by split.
      * exists log. split; [|by rewrite app_nil_r]. apply entered_nil; [done|]. intros d Hd. apply holds_lookup in Hd. congruence.
    + exists log. split; [by apply entered_other|]. by rewrite app_nil_r.
Qed.
Lemma entered_fun ops log log' : entered ops log -> entered ops log' -> log = log'.
Proof.
  intros H. revert log'. induction H as [|ops log p d H IH Hd|ops log p H IH Hd|ops log x H IH Hx]; intros log' H'.
  - inversion H' as [|? ? ? ? ? ? E|? ? ? ? ? E|? ? ? ? ? E]; subst; [done| | |]; by destruct ops.
  - inversion H' as [E|? ? ? ? H1 H2 E|? ? ? H1 H2 E|? ? ? H1 H2 E]; subst.
    + by destruct ops.
    + apply app_inj_tail in E as [-> [= ->]]. by rewrite (IH _ H1), (holds_fun _ _ _ _ Hd H2).
    + apply app_inj_tail in E as [-> [= ->]]. by destruct (H2 d).
    + apply app_inj_tail in E as [-> ->]. by destruct (H2 p).
  - inversion H' as [E|? ? ? ? H1 H2 E|? ? ? H1 H2 E|? ? ? H1 H2 E]; subst.
    + by destruct ops.
    + apply app_inj_tail in E as [-> [= ->]]. by destruct (Hd d).
    + apply app_inj_tail in E as [-> [= ->]]. by rewrite (IH _ H1).
    + apply app_inj_tail in E as [-> ->]. by destruct (H2 p).
  - inversion H' as [E|? ? ? ? H1 H2 E|? ? ? H1 H2 E|? ? ? H1 H2 E]; subst.
    + by destruct ops.
    + apply app_inj_tail in E as [-> E]. by destruct (Hx p).
    + apply app_inj_tail in E as [-> E]. by destruct (Hx p).
    + apply app_inj_tail in E as [-> ->]. by rewrite (IH _ H1).
Qed.
Lemma perm_forall2 {A B} (R : A -> B -> Prop) l l' m : l ≡ₚ l' -> Forall2 R l' m -> exists m', Forall2 R l m' /\ m' ≡ₚ m.
Proof.
  intros H. revert m. induction H as [|a l l' H IH|a b l|l l' l'' H1 IH1 H2 IH2]; intros m F.
  - inversion F; subst. by exists [].
  - inversion F as [|? c ? m' Hac F']; subst. destruct (IH _ F') as (m'' & G & E). exists (c :: m''). split; [by constructor|by constructor].
  - inversion F as [|? c ? m' Hac F']; subst. inversion F' as [|? d ? m'' Had F'']; subst. exists (d :: c :: m''). split; [by repeat constructor|by constructor].
  - destruct (IH2 _ F) as (m' & G & E). destruct (IH1 _ G) as (m'' & G' & E'). exists m''. split; [done|]. by rewrite E', E.
Qed.
Lemma c124_untouched o o' ops log cb : left_alone ops -> entered ops log ->
  exists ds, Forall2 (holds ops) (h_search o (hrun ops) cb) ds /\ ds ≡ₚ trie_search o' (trie_of data_keys log) cb.
Proof.
  intros H E. destruct (entered_log ops H) as (log' & E' & F). rewrite (entered_fun _ _ _ E E'). clear E E' log.
  pose proof (survivors_like (still ops) fst data_keys _ _ (fun a b Q => proj1 Q) F) as S.
  pose proof (filter_like (still ops) (fun x => reads ops cb x = true) (fun d => cb d = true) _ _
    (fun a b Q => ltac:(destruct Q as [_ Q]; rewrite reads_true; split; [intros (d & H1 & H2); by rewrite (holds_fun _ _ _ _ Q H1)|intros K; by exists b])) S) as G.
  assert (G' : Forall2 (holds ops) ((filter (fun x => reads ops cb x = true) (survivors fst (hlog h_start ops))).*2) (filter (fun d => cb d = true) (survivors data_keys log'))).
  { apply Forall2_fmap_l. eapply Forall2_impl; [exact G|]. by intros a b [_ Q]. }
  destruct (perm_forall2 _ _ _ _ (h_search_spec o ops cb) G') as (ds & Q1 & Q2). exists ds. split; [done|]. rewrite Q2. symmetry. apply trie_search_spec.
Qed.
