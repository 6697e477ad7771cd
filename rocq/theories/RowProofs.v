(** Proofs about rows stored as pointers. *)
From Verif Require Import TrieProofs RowModel RowSpec.

Section map.
  Context {T U : Type} (f : T -> U).
  Fixpoint node_map (n : node T) : node U :=
    match n with Node e x c => Node e (f <$> x) ((fun km => (km.1, node_map km.2)) <$> c) end.
  Lemma map_get k c : assoc_get k ((fun km => (km.1, node_map km.2)) <$> c) = node_map <$> assoc_get k c.
  Proof. induction c as [|[k' n] c IH]; [done|]. cbn. by destruct (decide (k' = k)). Qed.
  Lemma map_set k n c : assoc_set k (node_map n) ((fun km => (km.1, node_map km.2)) <$> c) =
    (fun km => (km.1, node_map km.2)) <$> assoc_set k n c.
  Proof. induction c as [|[k' m] c IH]; [done|]. cbn. destruct (decide (k' = k)); [done|]. cbn. by f_equal. Qed.
  Lemma map_insert d ks n : insert_at (f d) ks (node_map n) = node_map (insert_at d ks n).
  Proof.
    revert n. induction ks as [|k ks IH]; intros [e x c]; [done|]. cbn [insert_at]. destruct (is_nil k); [apply (IH (Node e x c))|].
    cbn [node_map]. f_equal. rewrite map_get, <-map_set, <-IH. f_equal. by destruct (assoc_get k c).
  Qed.
  Lemma map_prows n : (prows (node_map n)).*2 = f <$> (prows n).*2.
  Proof.
    induction n as [e x c IH] using node_ind_deep. cbn [node_map prows]. rewrite !fmap_app. f_equal.
    - destruct x as [d|]; [|done]. by destruct e.
    - change ((under ((fun km => (km.1, node_map km.2)) <$> c)).*2 = f <$> (under c).*2). rewrite !snd_under.
      induction IH as [|[k m] c Hm _ IHc]; [done|]. cbn [fmap list_fmap concat snd]. rewrite fmap_app. f_equal; [exact Hm|exact IHc].
  Qed.
End map.

Definition pair_keys (ld : nat * data) : list any := data_keys ld.2.
Lemma run_trie ops : forall s s' T, rw_trie s = node_map fst T -> row_run s ops = Some s' ->
  rw_trie s' = node_map fst (foldl (trie_insert pair_keys) T (adds (rw_cells s) ops)).
Proof.
  induction ops as [|x ops IH]; intros s s' T Ht; cbn [row_run adds]; [by intros [= <-]|].
  destruct x as [d|l|l d]; cbn [row_step].
  - intros H. by apply (IH (Rows (rw_cells s ++ [d]) (rw_trie s)) s' T Ht).
  - destruct (rw_cells s !! l) as [d|] eqn:Hd; [|done]. cbn [mbind option_bind]. intros H.
    apply (IH (Rows (rw_cells s) (insert_at l (data_keys d) (rw_trie s))) s' (insert_at (l, d) (data_keys d) T)); [|done].
    cbn. rewrite Ht. exact (map_insert fst (l, d) (data_keys d) T).
  - destruct (rw_cells s !! l) as [d0|]; [|done]. cbn [mbind option_bind]. intros H.
    by apply (IH (Rows (<[l:=d]> (rw_cells s)) (rw_trie s)) s' T Ht).
Qed.
Lemma run_trie0 ops s : row_run no_rows ops = Some s -> rw_trie s = node_map fst (trie_of pair_keys (added ops)).
Proof. intros H. exact (run_trie ops no_rows s new_node eq_refl H). Qed.
Lemma remaining_rows ops : (prows (trie_of pair_keys (added ops))).*2 ≡ₚ remaining ops.
Proof.
  destruct (trie_of_rows pair_keys (added ops)) as [_ ->]. rewrite <-list_fmap_compose. unfold compose. cbn. by rewrite list_fmap_id.
Qed.
Lemma pointers ops s : row_run no_rows ops = Some s -> (prows (rw_trie s)).*2 ≡ₚ (remaining ops).*1.
Proof. intros ->%run_trie0. rewrite map_prows. by rewrite remaining_rows. Qed.
Lemma omap_filter {B} (g : B -> option data) (cb : data -> bool) (ls : list B) :
  omap g (filter (fun l => match g l with Some d => cb d | None => false end = true) ls) =
  filter (fun d => cb d = true) (omap g ls).
Proof.
  induction ls as [|l ls IH]; [done|]. rewrite filter_cons. cbn [omap list_omap].
  destruct (g l) as [d|] eqn:Hl.
  - rewrite filter_cons. destruct (decide (cb d = true)); [|done]. cbn. rewrite Hl. by f_equal.
  - rewrite decide_False by done. done.
Qed.
Lemma listing_exact ops s o cb : row_run no_rows ops = Some s ->
  contents s (row_search o s cb) ≡ₚ filter (fun d => cb d = true) (omap (fun ld => rw_cells s !! ld.1) (remaining ops)).
Proof.
  intros Hr. unfold contents, row_search, trie_search. rewrite dfs_all, omap_filter.
  rewrite (pointers ops s Hr). f_equiv. clear. induction (remaining ops) as [|x l IH]; [done|]. cbn.
  destruct (rw_cells s !! x.1); [by rewrite IH|done].
Qed.
(** ** The rows of the manager *)
Lemma seen_prows cells n : (prows (seen_trie cells n)).*2 = omap (fun l => cells !! l) (prows n).*2.
Proof.
  induction n as [e x c IH] using node_ind_deep. cbn [seen_trie prows]. rewrite !fmap_app, omap_app. f_equal.
  - destruct x as [l|]; [|done]. cbn. destruct (cells !! l) as [d|] eqn:Hl, e; cbn; rewrite ?Hl; done.
  - change ((under ((fun km => (km.1, seen_trie cells km.2)) <$> c)).*2 = omap (fun l => cells !! l) (under c).*2).
    rewrite !snd_under. induction IH as [|[k m] c Hm _ IHc]; [done|]. cbn [fmap list_fmap concat snd]. rewrite omap_app.
    f_equal; [exact Hm|exact IHc].
Qed.
Lemma stored_seen ops s st d : row_run no_rows ops = Some s ->
  stored (seen_state st s) d <-> exists ld, ld ∈ remaining ops /\ rw_cells s !! ld.1 = Some d.
Proof.
  intros Hr. unfold stored, trie_data, trie_search. rewrite dfs_all, elem_of_list_filter. cbn. rewrite seen_prows, elem_of_list_omap.
  assert (Hp : forall l, l ∈ (prows (rw_trie s)).*2 <-> l ∈ (remaining ops).*1) by (intros l; by rewrite (pointers ops s Hr)).
  split.
  - intros [_ (l & Hl & Hd)]. apply Hp in Hl. apply elem_of_list_fmap in Hl as (ld & -> & Hld). by exists ld.
  - intros (ld & Hld & Hd). split; [done|]. exists ld.1. split; [|done]. apply Hp. apply elem_of_list_fmap. by exists ld.
Qed.

(** ** Rows left alone *)
Lemma cell_stays ops : forall s s' l d, row_run s ops = Some s' -> rw_cells s !! l = Some d ->
  (forall d', RowWrite l d' ∉ ops) -> rw_cells s' !! l = Some d.
Proof.
  induction ops as [|x ops IH]; intros s s' l d; cbn [row_run]; [by intros [= <-]|]. intros Hr Hl Hno.
  destruct (row_step s x) as [s1|] eqn:Hs; [|done]. cbn in Hr. apply (IH s1); [done| |].
  - destruct x as [d0|l0|l0 d0]; cbn in Hs.
    + injection Hs as <-. cbn. by apply lookup_app_l_Some.
    + destruct (rw_cells s !! l0) as [x|]; [|done]. by injection Hs as <-.
    + destruct (rw_cells s !! l0) as [x|]; [|done]. injection Hs as <-. cbn. rewrite list_lookup_insert_ne; [done|].
      intros ->. apply (Hno d0). left.
  - intros d' Hd'. apply (Hno d'). by right.
Qed.
Lemma adds_split ops : forall s s' l d, row_run s ops = Some s' -> (l, d) ∈ adds (rw_cells s) ops ->
  exists ops1 s1 ops2, ops = ops1 ++ RowAdd l :: ops2 /\ row_run s1 ops2 = Some s' /\ rw_cells s1 !! l = Some d.
Proof.
  induction ops as [|x ops IH]; intros s s' l d; cbn [row_run adds]; [by intros _ ?%elem_of_nil|]. intros Hr Hl.
  destruct (row_step s x) as [s1|] eqn:Hs; [|done]. cbn in Hr.
  assert (Hgo : (l, d) ∈ adds (rw_cells s1) ops -> exists ops1 s2 ops2, x :: ops = ops1 ++ RowAdd l :: ops2 /\
    row_run s2 ops2 = Some s' /\ rw_cells s2 !! l = Some d).
  { intros H. destruct (IH s1 s' l d Hr H) as (ops1 & s2 & ops2 & -> & ? & ?). by exists (x :: ops1), s2, ops2. }
  destruct x as [d0|l0|l0 d0]; cbn in Hs.
  - injection Hs as <-. by apply Hgo.
  - destruct (rw_cells s !! l0) as [x|] eqn:Hx; [|done]. injection Hs as <-. cbn in Hl.
    apply elem_of_cons in Hl as [[= -> ->]|Hl]; [|by apply Hgo].
    eexists [], _, ops. split; [done|]. split; [exact Hr|]. exact Hx.
  - destruct (rw_cells s !! l0) as [x|]; [|done]. injection Hs as <-. by apply Hgo.
Qed.
Lemma left_alone_cells ops s l d : row_run no_rows ops = Some s -> left_alone ops -> (l, d) ∈ added ops ->
  rw_cells s !! l = Some d.
Proof.
  intros Hr Hla Hld. destruct (adds_split ops no_rows s l d Hr Hld) as (ops1 & s1 & ops2 & -> & Hr2 & Hc).
  apply (cell_stays ops2 s1); [done|done|]. intros d' (a & b & ->)%elem_of_list_split.
  apply (Hla (ops1 ++ RowAdd l :: a) l d' b); [by rewrite <-app_assoc|]. apply elem_of_app. right. left.
Qed.
Lemma remaining_added ops ld : ld ∈ remaining ops -> ld ∈ added ops.
Proof. intros (l1 & l2 & -> & _)%elem_of_survivors. apply elem_of_app. right. left. Qed.
Lemma shown_left_alone ops s : row_run no_rows ops = Some s -> left_alone ops -> shown_as_added ops s.
Proof.
  intros Hr Hla o cb. rewrite (listing_exact ops s o cb Hr). f_equiv.
  assert (H : forall ld, ld ∈ remaining ops -> rw_cells s !! ld.1 = Some ld.2).
  { intros [l d] Hld. apply (left_alone_cells ops s l d Hr Hla), remaining_added, Hld. }
  induction (remaining ops) as [|x l IH]; [done|]. cbn. rewrite (H x) by left. f_equiv. apply IH. intros ld Hld. apply H. by right.
Qed.
(** Then RootModel's view of the rows is right. *)
Fixpoint all_data {T} (P : T -> Prop) (n : node T) : Prop :=
  match n with Node e x c => (forall d, x = Some d -> P d) /\ (fix go c := match c with [] => True | (_, m) :: c' => all_data P m /\ go c' end) c end.
Lemma all_data_unfold {T} (P : T -> Prop) e x c :
  all_data P (Node e x c) <-> (forall d, x = Some d -> P d) /\ Forall (fun km => all_data P km.2) c.
Proof.
  cbn. split; intros [Hx Hc]; (split; [done|]).
  - induction c as [|[k m] c IH]; constructor; [by destruct Hc|apply IH; by destruct Hc].
  - induction Hc as [|[k m] c Hm _ IH]; [done|by split].
Qed.
Lemma insert_all_data {T} (P : T -> Prop) d ks n : P d -> all_data P n -> all_data P (insert_at d ks n).
Proof.
  intros Hd. revert n. induction ks as [|k ks IH]; intros [e x c] Hn.
  - apply all_data_unfold in Hn as [_ Hc]. apply all_data_unfold. split; [|done]. by intros ? [= <-].
  - cbn [insert_at]. destruct (is_nil k); [by apply IH|]. apply all_data_unfold in Hn as [Hx Hc]. apply all_data_unfold. split; [done|].
    apply (assoc_set_forall (all_data P)); [|done]. apply IH. destruct (assoc_get k c) as [m|] eqn:Hm; [|done].
    by eapply (assoc_get_forall (all_data P)).
Qed.
Lemma trie_of_all_data {T} (P : T -> Prop) (keys : T -> list any) log : Forall P log -> all_data P (trie_of keys log).
Proof.
  induction log as [|d log IH] using rev_ind; [done|]. intros [Hl Hd]%Forall_app. rewrite trie_of_snoc.
  apply insert_all_data; [by inversion Hd|by apply IH].
Qed.
Lemma seen_map cells n : all_data (fun ld : nat * data => cells !! ld.1 = Some ld.2) n ->
  seen_trie cells (node_map fst n) = node_map snd n.
Proof.
  induction n as [e x c IH] using node_ind_deep. intros [Hx Hc]%all_data_unfold. cbn [node_map seen_trie]. f_equal.
  - destruct x as [ld|]; [|done]. cbn. exact (Hx ld eq_refl).
  - rewrite <-list_fmap_compose. clear Hx. induction c as [|[k m] c IHc]; [done|].
    inversion IH; inversion Hc; subst. cbn. f_equal; [f_equal; auto|]. apply IHc; assumption.
Qed.
Lemma trie_of_map log : node_map snd (trie_of pair_keys log) = trie_of data_keys log.*2.
Proof.
  induction log as [|[l d] log IH] using rev_ind; [done|]. rewrite fmap_app. cbn. rewrite !trie_of_snoc, <-IH.
  unfold trie_insert. symmetry. exact (map_insert snd (l, d) (data_keys d) _).
Qed.
Lemma seen_left_alone ops s st : row_run no_rows ops = Some s -> left_alone ops ->
  seen_state st s = with_trie st (trie_of data_keys (added ops).*2).
Proof.
  intros Hr Hla. unfold seen_state. f_equal. rewrite (run_trie0 ops s Hr), <-trie_of_map. apply seen_map, trie_of_all_data.
  apply Forall_forall. intros [l d] Hld. by apply (left_alone_cells ops).
Qed.

(** ** One struct for several rows *)
Lemma through_cells l ds : forall s d, rw_cells s !! l = Some d ->
  exists s', row_run s (through_one l ds) = Some s' /\ rw_cells s' !! l = Some (List.last ds d) /\
  adds (rw_cells s) (through_one l ds) = pair l <$> ds.
Proof.
  induction ds as [|x ds IH]; intros s d Hd; [by exists s|]. cbn [through_one row_run row_step adds]. rewrite Hd. cbn [mbind option_bind].
  assert (Hl : l < length (rw_cells s)) by by eapply lookup_lt_Some.
  assert (Hx : <[l:=x]> (rw_cells s) !! l = Some x) by by apply list_lookup_insert.
  cbn [rw_cells rw_trie]. rewrite Hx. cbn [mbind option_bind].
  destruct (IH (Rows (<[l:=x]> (rw_cells s)) (insert_at l (data_keys x) (rw_trie s))) x Hx) as (s' & Hr & Hc & Ha).
  exists s'. split; [exact Hr|]. split.
  - rewrite Hc. f_equal. destruct ds as [|y ds]; [done|]. clear. change (List.last (x :: y :: ds) d) with (List.last (y :: ds) d).
    revert y. induction ds as [|z ds IHd]; intros y; [done|]. exact (IHd z).
  - cbn. f_equal. exact Ha.
Qed.
Lemma survivors_all {T} (keys : T -> list any) log : NoDup (row_path keys <$> log) -> survivors keys log = log.
Proof.
  induction log as [|d log IH]; [done|]. cbn. intros [Hn Hnd]%NoDup_cons. rewrite decide_False; [by rewrite IH|].
  intros (d' & Hd' & E)%Exists_exists. apply Hn. apply elem_of_list_fmap. by exists d'.
Qed.
Lemma through_one_lists d0 ds s o cb : NoDup (row_path data_keys <$> ds) -> row_run no_rows (RowAlloc d0 :: through_one 0 ds) = Some s ->
  contents s (row_search o s cb) ≡ₚ filter (fun d => cb d = true) (replicate (length ds) (List.last ds d0)).
Proof.
  intros Hn Hr. rewrite (listing_exact _ s o cb Hr). f_equiv.
  cbn [row_run row_step mbind option_bind] in Hr.
  destruct (through_cells 0 ds (Rows ([] ++ [d0]) new_node) d0 eq_refl) as (s' & Hr' & Hc & Ha).
  assert (s' = s) as -> by (cbn in *; congruence).
  unfold remaining, added. cbn [adds]. cbn [rw_cells] in Ha. rewrite Ha, survivors_all.
  - clear Hn Hr Hr' Ha. generalize (List.last ds d0) as x, Hc. clear. intros x Hc. induction ds as [|d ds IH]; [done|]. cbn. rewrite Hc. by rewrite IH.
  - rewrite <-list_fmap_compose. exact Hn.
Qed.

(** ** Writing *)
Lemma run_app ops1 : forall s ops2, row_run s (ops1 ++ ops2) = row_run s ops1 ≫= fun s1 => row_run s1 ops2.
Proof. induction ops1 as [|x ops1 IH]; intros s ops2; [done|]. cbn. destruct (row_step s x); [|done]. apply IH. Qed.
Lemma adds_app ops1 : forall s s1 ops2, row_run s ops1 = Some s1 ->
  adds (rw_cells s) (ops1 ++ ops2) = adds (rw_cells s) ops1 ++ adds (rw_cells s1) ops2.
Proof.
  induction ops1 as [|x ops1 IH]; intros s s1 ops2; cbn [row_run]; [by intros [= <-]|].
  destruct (row_step s x) as [s2|] eqn:Hs; [|done]. cbn [mbind option_bind app adds]. intros Hr.
  destruct x as [d0|l0|l0 d0]; cbn in Hs.
  - injection Hs as <-. apply (IH _ s1 ops2 Hr).
  - destruct (rw_cells s !! l0) as [x|] eqn:Hx; [|done]. injection Hs as <-. cbn. f_equal. apply (IH _ s1 ops2 Hr).
  - destruct (rw_cells s !! l0) as [x|]; [|done]. injection Hs as <-. apply (IH _ s1 ops2 Hr).
Qed.
Lemma write_listed ops s l d d' o cb : row_run no_rows ops = Some s -> (l, d) ∈ remaining ops -> cb d' = true ->
  exists s', row_run no_rows (ops ++ [RowWrite l d']) = Some s' /\ added (ops ++ [RowWrite l d']) = added ops /\
  d' ∈ contents s' (row_search o s' cb).
Proof.
  intros Hr Hl Hcb.
  assert (Hex : exists x, rw_cells s !! l = Some x).
  { pose proof (remaining_added ops _ Hl) as Ha. destruct (adds_split ops no_rows s l d Hr Ha) as (a & s1 & b & -> & Hb & Hc).
    clear -Hb Hc. revert s1 d Hb Hc. induction b as [|x b IH]; intros s1 d; cbn [row_run]; [intros [= <-]; by exists d|].
    destruct (row_step s1 x) as [s2|] eqn:Hs; [|done]. cbn. intros Hb Hc.
    assert (exists d2, rw_cells s2 !! l = Some d2) as [d2 Hd2]; [|by apply (IH s2 d2)].
    destruct x as [d0|l0|l0 d0]; cbn in Hs.
    - injection Hs as <-. exists d. cbn. by apply lookup_app_l_Some.
    - destruct (rw_cells s1 !! l0) as [y|]; [|done]. injection Hs as <-. by exists d.
    - destruct (rw_cells s1 !! l0) as [y|]; [|done]. injection Hs as <-. cbn. destruct (decide (l0 = l)) as [->|Hne].
      + exists d0. apply list_lookup_insert. by eapply lookup_lt_Some.
      + exists d. by rewrite list_lookup_insert_ne. }
  destruct Hex as [x Hx].
  assert (Hr' : row_run no_rows (ops ++ [RowWrite l d']) = Some (Rows (<[l:=d']> (rw_cells s)) (rw_trie s))).
  { rewrite run_app, Hr. cbn. by rewrite Hx. }
  assert (Ha : added (ops ++ [RowWrite l d']) = added ops).
  { unfold added. change (adds [] (ops ++ [RowWrite l d'])) with (adds (rw_cells no_rows) (ops ++ [RowWrite l d'])).
    rewrite (adds_app ops no_rows s _ Hr). cbn. by rewrite app_nil_r. }
  exists (Rows (<[l:=d']> (rw_cells s)) (rw_trie s)). split; [exact Hr'|]. split; [exact Ha|].
  rewrite (listing_exact _ _ o cb Hr'). apply elem_of_list_filter. split; [done|]. apply elem_of_list_omap. exists (l, d).
  unfold remaining. rewrite Ha. split; [exact Hl|]. cbn. apply list_lookup_insert. by eapply lookup_lt_Some.
Qed.
