(** Proofs about the trie. *)
From Verif Require Export TrieModel TrieSpec.

Section trie.
  Context {T : Type}.
  Variable keys_of : T -> list any.
  Implicit Types n m : node T.
  Implicit Types d : T.
  Implicit Types p : list any.

  Lemma node_ind_deep (P : node T -> Prop) :
    (forall e x c, Forall (fun km => P km.2) c -> P (Node e x c)) -> forall n, P n.
  Proof.
    intros H. fix IH 1. intros [e x c]. apply H.
    induction c as [|[k m] c IHc]; constructor; [apply IH|done].
  Qed.

  (** The stored rows with their paths. *)
  Definition own_row (e : bool) (x : option T) : list T :=
    match x with Some d => if e then [d] else [] | None => [] end.
  Fixpoint prows n : list (list any * T) :=
    match n with
    | Node e x c =>
        (pair [] <$> own_row e x)
        ++ flat_map (fun km => (fun pd => (km.1 :: pd.1, pd.2)) <$> prows km.2) c
    end.
  Definition under (c : list (any * node T)) : list (list any * T) :=
    flat_map (fun km => (fun pd => (km.1 :: pd.1, pd.2)) <$> prows km.2) c.
  Arguments under : simpl never.

  Fixpoint wf_node n : Prop :=
    match n with
    | Node e x c => NoDup (c.*1) /\
        (fix go (c : list (any * node T)) : Prop :=
           match c with [] => True | (_, m) :: c' => wf_node m /\ go c' end) c
    end.
  Lemma wf_node_unfold e x c :
    wf_node (Node e x c) <-> NoDup (c.*1) /\ Forall (fun km => wf_node km.2) c.
  Proof.
    simpl. apply and_iff_compat_l.
    induction c as [|[k m] c IH]; [by rewrite Forall_nil|]. by rewrite Forall_cons, IH.
  Qed.

  Lemma under_cons k m c : under ((k, m) :: c) = ((fun pd => (k :: pd.1, pd.2)) <$> prows m) ++ under c.
  Proof. done. Qed.
  Lemma elem_of_under c pd : pd ∈ under c ->
    exists k m q, (k, m) ∈ c /\ pd.1 = k :: q /\ (q, pd.2) ∈ prows m.
  Proof.
    induction c as [|[k m] c IH]; [by intros H%elem_of_nil|].
    rewrite under_cons, elem_of_app, elem_of_list_fmap. intros [([q d] & -> & Hq)|H].
    - exists k, m, q. split_and!; [left|done|done].
    - destruct (IH H) as (k' & m' & q & ? & ? & ?). exists k', m', q. split_and!; [by right|done|done].
  Qed.

  Lemma assoc_set_fst k m c : forall y, y ∈ (assoc_set k m c).*1 <-> y = k \/ y ∈ c.*1.
  Proof.
    intros y. induction c as [|[k' m'] c IH]; simpl; [set_solver|].
    destruct (decide (k' = k)) as [->|]; simpl; [set_solver|]. rewrite !elem_of_cons, IH. set_solver.
  Qed.
  Lemma assoc_set_nodup k m c : NoDup (c.*1) -> NoDup ((assoc_set k m c).*1).
  Proof.
    induction c as [|[k' m'] c IH]; simpl; intros Hnd.
    - constructor; [set_solver|constructor].
    - apply NoDup_cons in Hnd as [Hk Hnd]. destruct (decide (k' = k)) as [->|]; simpl.
      + by constructor.
      + constructor; [|by apply IH]. rewrite assoc_set_fst. set_solver.
  Qed.
  Lemma assoc_set_forall (P : node T -> Prop) k m c :
    P m -> Forall (fun km => P km.2) c -> Forall (fun km => P km.2) (assoc_set k m c).
  Proof.
    intros Hm. induction 1 as [|[k' m'] c Hk Hc IH]; simpl; [by repeat constructor|].
    destruct (decide (k' = k)); constructor; done.
  Qed.
  Lemma assoc_get_forall (P : node T -> Prop) k m c :
    assoc_get k c = Some m -> Forall (fun km => P km.2) c -> P m.
  Proof.
    intros Hg. induction 1 as [|[k' m'] c Hk Hc IH]; simpl in *; [done|].
    destruct (decide (k' = k)); simplify_eq; auto.
  Qed.

  Lemma insert_at_filter d ks n :
    insert_at d ks n = insert_at d (filter (fun k => k <> ANil) ks) n.
  Proof.
    revert n. induction ks as [|k ks IH]; intros n; [done|]. rewrite filter_cons. simpl.
    destruct (decide (k <> ANil)) as [Hk|Hk].
    - simpl. assert (is_nil k = false) as -> by by destruct k.
      destruct n as [e x c]. by rewrite IH.
    - assert (k = ANil) as -> by by destruct (decide (k = ANil)). simpl. apply IH.
  Qed.

  Lemma filter_none {B} (P : B -> Prop) `{!forall x, Decision (P x)} (l : list B) :
    (forall x, x ∈ l -> ~ P x) -> filter P l = [].
  Proof.
    induction l as [|x l IH]; intros Hf; [done|].
    rewrite filter_cons_False; [|apply Hf; left]. apply IH. intros y Hy. apply Hf. by right.
  Qed.
  Lemma filter_all {B} (P : B -> Prop) `{!forall x, Decision (P x)} (l : list B) :
    (forall x, x ∈ l -> P x) -> filter P l = l.
  Proof.
    induction l as [|x l IH]; intros Hf; [done|].
    rewrite filter_cons_True; [|apply Hf; left]. f_equal. apply IH. intros y Hy. apply Hf. by right.
  Qed.

  Lemma under_filter_absent k ps c :
    k ∉ c.*1 -> filter (fun pd => pd.1 <> k :: ps) (under c) = under c.
  Proof.
    intros Hk. apply filter_all. intros pd Hpd.
    destruct (elem_of_under _ _ Hpd) as (k' & m & q & Hin & E & _). rewrite E.
    intros [= -> ->]. apply Hk. apply elem_of_list_fmap. by exists (k, m).
  Qed.
  Lemma prows_filter_cons k ps m :
    filter (fun pd => pd.1 <> k :: ps) ((fun pd => (k :: pd.1, pd.2)) <$> prows m)
    = (fun pd => (k :: pd.1, pd.2)) <$> filter (fun pd => pd.1 <> ps) (prows m).
  Proof.
    induction (prows m) as [|[q d] l IH]; [done|]. rewrite fmap_cons, !filter_cons. simpl.
    destruct (decide (q <> ps)) as [H|H].
    - rewrite decide_True by congruence. by rewrite IH.
    - rewrite decide_False; [by rewrite IH|]. destruct (decide (q = ps)); [congruence|done].
  Qed.
  Lemma prows_filter_other k k' ps m :
    k' <> k ->
    filter (fun pd => pd.1 <> k :: ps) ((fun pd => (k' :: pd.1, pd.2)) <$> prows m)
    = (fun pd => (k' :: pd.1, pd.2)) <$> prows m.
  Proof.
    intros Hne. apply filter_all. intros pd Hpd.
    apply elem_of_list_fmap in Hpd as ([q d] & -> & _). simpl. congruence.
  Qed.

  Lemma under_assoc_set k ps d c :
    NoDup (c.*1) ->
    (forall m, assoc_get k c = Some m \/ (assoc_get k c = None /\ m = new_node) ->
       prows (insert_at d ps m) ≡ₚ (ps, d) :: filter (fun pd => pd.1 <> ps) (prows m)) ->
    under (assoc_set k (insert_at d ps (default new_node (assoc_get k c))) c)
      ≡ₚ (k :: ps, d) :: filter (fun pd => pd.1 <> k :: ps) (under c).
  Proof.
    induction c as [|[k' m'] c IH]; simpl; intros Hnd Hm.
    - rewrite under_cons. rewrite (Hm new_node) by by right. simpl. done.
    - apply NoDup_cons in Hnd as [Hk Hnd]. destruct (decide (k' = k)) as [->|Hne]; simpl.
      + rewrite !under_cons, filter_app, prows_filter_cons, under_filter_absent by done.
        rewrite (Hm m') by by left. simpl. done.
      + rewrite !under_cons, filter_app, prows_filter_other by done.
        rewrite IH; [|done|done]. by rewrite <-Permutation_middle.
  Qed.

  Lemma insert_at_prows d ps n :
    wf_node n -> Forall (fun k => k <> ANil) ps ->
    prows (insert_at d ps n) ≡ₚ (ps, d) :: filter (fun pd => pd.1 <> ps) (prows n)
    /\ wf_node (insert_at d ps n).
  Proof.
    intros Hwf Hps. revert n Hwf. induction Hps as [|k ps Hk Hps IH]; intros [e x c] Hwf.
    - simpl. split; [|done]. fold (under c). rewrite filter_app.
      rewrite filter_none; [|intros pd Hpd; apply elem_of_list_fmap in Hpd as (? & -> & _); simpl; tauto].
      rewrite filter_all; [done|]. intros pd Hpd.
      destruct (elem_of_under _ _ Hpd) as (k' & m & q & _ & E & _). by rewrite E.
    - cbn [insert_at]. assert (is_nil k = false) as -> by by destruct k.
      apply wf_node_unfold in Hwf as [Hnd Hc].
      assert (Hget : forall m, assoc_get k c = Some m \/ (assoc_get k c = None /\ m = new_node) -> wf_node m).
      { intros m [Hm|[_ ->]]; [by eapply assoc_get_forall in Hc|]. simpl. split; [constructor|done]. }
      change (match assoc_get k c with Some m => m | None => new_node end)
        with (default new_node (assoc_get k c)).
      split.
      + cbn [prows]. fold (under c). fold (under (assoc_set k (insert_at d ps (default new_node (assoc_get k c))) c)).
        rewrite filter_app.
        rewrite (filter_all _ (pair [] <$> own_row e x)).
        2:{ intros pd Hpd. apply elem_of_list_fmap in Hpd as (? & -> & _). done. }
        rewrite under_assoc_set; [by rewrite <-Permutation_middle|done|].
        intros m Hm. apply IH. by apply Hget.
      + apply wf_node_unfold. split; [by apply assoc_set_nodup|]. apply assoc_set_forall; [|done].
        apply IH, Hget. destruct (assoc_get k c); [by left|by right].
  Qed.

  (** ** Search *)
  Lemma collect_false (ls : list (list T)) : collect false ls = concat ls.
  Proof. induction ls as [|[|x l] ls IH]; simpl; [done|done|by rewrite IH]. Qed.
  Lemma collect_true_in (ls : list (list T)) x :
    x ∈ collect true ls -> x ∈ concat ls.
  Proof. induction ls as [|[|y l] ls IH]; simpl; set_solver. Qed.
  Lemma collect_true_nil (ls : list (list T)) : collect true ls = [] <-> concat ls = [].
  Proof. induction ls as [|[|y l] ls IH]; simpl; done. Qed.

  Definition children_results (o : oracle) (stop : bool) (cb : T -> bool) :=
    fix go (i : nat) (c : list (any * node T)) : list (list T) :=
      match c with
      | [] => []
      | (_, m) :: c' => dfs (sub o (S i)) stop cb m :: go (S i) c'
      end.

  Lemma concat_perm (l1 l2 : list (list T)) : l1 ≡ₚ l2 -> concat l1 ≡ₚ concat l2.
  Proof.
    induction 1; simpl; [done|by f_equiv| |by etrans].
    rewrite !app_assoc. f_equiv. apply Permutation_app_comm.
  Qed.

  Lemma snd_under c : (under c).*2 = concat ((fun km => (prows km.2).*2) <$> c).
  Proof.
    induction c as [|[k m] c IH]; [done|]. rewrite under_cons, fmap_app, IH. simpl. f_equal.
    rewrite <-list_fmap_compose. done.
  Qed.

  Lemma dfs_all o cb n :
    dfs o false cb n ≡ₚ filter (fun d => cb d = true) (prows n).*2.
  Proof.
    revert o. induction n as [e x c IH] using node_ind_deep. intros o.
    cbn [dfs prows]. fold (under c). fold (children_results o false cb 0 c).
    rewrite fmap_app, filter_app, snd_under.
    assert (Hc : concat (children_results o false cb 0 c)
                 ≡ₚ filter (fun d => cb d = true) (concat ((fun km => (prows km.2).*2) <$> c))).
    { generalize 0. induction IH as [|[k m] c Hm Hc IHc]; intros i; [done|].
      cbn [children_results concat fmap list_fmap]. rewrite filter_app.
      rewrite IHc. f_equiv. apply Hm. }
    assert (Hcoll : collect false (ordered (sub o 0) (children_results o false cb 0 c))
                 ≡ₚ filter (fun d => cb d = true) (concat ((fun km => (prows km.2).*2) <$> c))).
    { rewrite collect_false, <-Hc. apply concat_perm, ordered_perm. }
    destruct x as [d|]; simpl; [|done].
    destruct e; simpl; [|done].
    rewrite filter_cons, filter_nil. destruct (cb d) eqn:E.
    - rewrite decide_True by done. simpl. by f_equiv.
    - rewrite decide_False by done. done.
  Qed.

  Lemma dfs_stop o cb n :
    (forall d, d ∈ dfs o true cb n -> d ∈ (prows n).*2 /\ cb d = true)
    /\ (dfs o true cb n = [] -> forall d, d ∈ (prows n).*2 -> cb d = false).
  Proof.
    revert o. induction n as [e x c IH] using node_ind_deep. intros o.
    cbn [dfs prows]. fold (under c). fold (children_results o true cb 0 c).
    rewrite fmap_app, snd_under.
    assert (Hc : (forall d, d ∈ concat (children_results o true cb 0 c) ->
                    d ∈ concat ((fun km => (prows km.2).*2) <$> c) /\ cb d = true)
                 /\ (concat (children_results o true cb 0 c) = [] ->
                     forall d, d ∈ concat ((fun km => (prows km.2).*2) <$> c) -> cb d = false)).
    { generalize 0. induction IH as [|[k m] c Hm Hc IHc]; intros i; [set_solver|].
      cbn [children_results concat fmap list_fmap]. destruct (Hm (sub o (S i))) as [Hm1 Hm2].
      destruct (IHc (S i)) as [Hc1 Hc2]. split.
      - intros d [Hd|Hd]%elem_of_app; rewrite elem_of_app; [apply Hm1 in Hd|apply Hc1 in Hd]; tauto.
      - intros [E1 E2]%app_nil d [Hd|Hd]%elem_of_app; [by apply Hm2|by apply Hc2]. }
    assert (Hcoll : let r := collect true (ordered (sub o 0) (children_results o true cb 0 c)) in
                 (forall d, d ∈ r -> d ∈ concat ((fun km => (prows km.2).*2) <$> c) /\ cb d = true)
                 /\ (r = [] -> forall d, d ∈ concat ((fun km => (prows km.2).*2) <$> c) -> cb d = false)).
    { assert (Hp := concat_perm _ _ (ordered_perm (sub o 0) (children_results o true cb 0 c))).
      split.
      - intros d Hd%collect_true_in. rewrite Hp in Hd. by apply Hc.
      - intros E%collect_true_nil. apply Hc. rewrite E in Hp. symmetry. by apply Permutation_nil_l. }
    simpl in Hcoll. destruct Hcoll as [H1 H2].
    destruct x as [d|]; simpl; [|done].
    destruct e; simpl; [|done].
    destruct (cb d) eqn:E; simpl.
    - split; [|done]. intros d' ->%elem_of_list_singleton. split; [left|done].
    - split.
      + intros d' Hd'. apply H1 in Hd' as [? ?]. split; [by right|done].
      + intros Hr d' [->|Hd']%elem_of_cons; [done|by apply H2].
  Qed.

  (** ** Histories *)
  Notation trie_of := (trie_of keys_of).

  Lemma trie_of_snoc log d : trie_of (log ++ [d]) = trie_insert keys_of (trie_of log) d.
  Proof. unfold trie_of. by rewrite foldl_app. Qed.

  Lemma survivors_snoc log d :
    survivors keys_of (log ++ [d]) =
      filter (fun d' => row_path keys_of d' <> row_path keys_of d) (survivors keys_of log) ++ [d].
  Proof.
    induction log as [|x log IH]; [done|]. simpl.
    destruct (decide (Exists (fun d' => row_path keys_of d' = row_path keys_of x) log)) as [H|H].
    - rewrite decide_True; [done|]. apply Exists_app. by left.
    - destruct (decide (row_path keys_of d = row_path keys_of x)) as [E|E].
      + rewrite decide_True; [|apply Exists_app; right; by constructor].
        rewrite filter_cons_False by congruence. done.
      + rewrite decide_False; [|rewrite Exists_app, Exists_cons, Exists_nil; tauto].
        rewrite filter_cons_True by congruence. by rewrite IH.
  Qed.

  Lemma row_path_not_nil d : Forall (fun k => k <> ANil) (row_path keys_of d).
  Proof. apply Forall_forall. unfold row_path. intros k Hk%elem_of_list_filter. tauto. Qed.

  Lemma trie_of_rows log :
    wf_node (trie_of log)
    /\ prows (trie_of log) ≡ₚ (fun d => (row_path keys_of d, d)) <$> survivors keys_of log.
  Proof.
    induction log as [|d log [Hwf IH]] using rev_ind.
    - simpl. split; [split; [constructor|done]|done].
    - rewrite trie_of_snoc, survivors_snoc. unfold trie_insert. rewrite insert_at_filter.
      fold (row_path keys_of d).
      destruct (insert_at_prows d (row_path keys_of d) (trie_of log)) as [Hp Hw];
        [done|apply row_path_not_nil|]. split; [done|]. rewrite Hp, IH.
      rewrite fmap_app. simpl. rewrite <-Permutation_cons_append. f_equiv.
      clear. induction (survivors keys_of log) as [|x l IHl]; [done|].
      rewrite fmap_cons, !filter_cons. simpl.
      destruct (decide (row_path keys_of x <> row_path keys_of d)); [rewrite fmap_cons|]; by rewrite IHl.
  Qed.

  Lemma trie_search_spec o log cb :
    trie_search o (trie_of log) cb ≡ₚ filter (fun d => cb d = true) (survivors keys_of log).
  Proof.
    unfold trie_search. rewrite dfs_all. destruct (trie_of_rows log) as [_ H]. rewrite H.
    rewrite <-list_fmap_compose. unfold compose. simpl. by rewrite list_fmap_id.
  Qed.

  Lemma trie_first_spec o log cb :
    match trie_first o (trie_of log) cb with
    | Some d => d ∈ survivors keys_of log /\ cb d = true
    | None => forall d, d ∈ survivors keys_of log -> cb d = false
    end.
  Proof.
    unfold trie_first. destruct (trie_of_rows log) as [_ H].
    assert (Hs : (prows (trie_of log)).*2 ≡ₚ survivors keys_of log).
    { rewrite H, <-list_fmap_compose. unfold compose. simpl. by rewrite list_fmap_id. }
    destruct (dfs_stop o cb (trie_of log)) as [H1 H2].
    destruct (dfs o true cb (trie_of log)) as [|d l].
    - intros d Hd. apply H2; [done|]. by rewrite Hs.
    - rewrite <-Hs. apply H1. left.
  Qed.

  (** Survivors, without the recursion. *)
  Lemma elem_of_survivors log d :
    d ∈ survivors keys_of log <->
      exists l1 l2, log = l1 ++ d :: l2 /\ Forall (fun d' => row_path keys_of d' <> row_path keys_of d) l2.
  Proof.
    induction log as [|x log IH]; simpl.
    - split; [by intros H%elem_of_nil|]. intros ([|] & ? & ? & _); done.
    - destruct (decide (Exists _ log)) as [H|H].
      + rewrite IH. split.
        * intros (l1 & l2 & -> & Hl2). by exists (x :: l1), l2.
        * intros ([|y l1] & l2 & E & Hl2); simplify_eq/=; [|by exists l1, l2].
          exfalso. apply Exists_exists in H as (d' & Hin & E).
          rewrite Forall_forall in Hl2. by eapply Hl2.
      + rewrite elem_of_cons, IH. split.
        * intros [->|(l1 & l2 & -> & Hl2)].
          -- exists [], log. split; [done|]. apply not_Exists_Forall in H; [|solve_decision]. done.
          -- by exists (x :: l1), l2.
        * intros ([|y l1] & l2 & E & Hl2); simplify_eq/=; [by left|right]. by exists l1, l2.
  Qed.
End trie.

Section more.
  Context {T : Type}.
  Variable keys_of : T -> list any.

  Lemma survivors_nodup log : NoDup (row_path keys_of <$> survivors keys_of log).
  Proof.
    induction log as [|x log IH]; simpl; [constructor|].
    destruct (decide (Exists _ log)) as [H|H]; [done|]. rewrite fmap_cons. constructor; [|done].
    rewrite elem_of_list_fmap. intros (d & E & Hd). apply H. apply Exists_exists.
    apply elem_of_survivors in Hd as (l1 & l2 & -> & _). exists d. split; [set_solver|done].
  Qed.
  Lemma trie_data_spec o log : trie_data o (trie_of keys_of log) ≡ₚ survivors keys_of log.
  Proof. unfold trie_data. rewrite trie_search_spec. by rewrite filter_all. Qed.
  Lemma trie_first_search o1 o2 log cb :
    (trie_first o1 (trie_of keys_of log) cb = None <-> trie_search o2 (trie_of keys_of log) cb = [])
    /\ (forall d, trie_first o1 (trie_of keys_of log) cb = Some d ->
          d ∈ trie_search o2 (trie_of keys_of log) cb).
  Proof.
    pose proof (trie_first_spec keys_of o1 log cb) as H1.
    pose proof (trie_search_spec keys_of o2 log cb) as H2.
    destruct (trie_first o1 (trie_of keys_of log) cb) as [d|].
    - assert (Hin : d ∈ trie_search o2 (trie_of keys_of log) cb).
      { rewrite H2, elem_of_list_filter. tauto. }
      split; [|by intros ? [= <-]]. split; [done|]. intros E. rewrite E in Hin. by apply elem_of_nil in Hin.
    - split; [|done]. split; [|done]. intros _. apply Permutation_nil_r. rewrite H2.
      rewrite filter_none; [done|]. intros x Hx. rewrite H1; done.
  Qed.
End more.
