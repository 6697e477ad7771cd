(** Rows that the caller keeps pointers to: a write seen from the trie of rows. *)
From Verif Require Export HandProofs.

Section write.
  Variable d : data.
  Implicit Types (n m : node data) (ps : list any).
  Definition put_at ps (pd : list any * data) : list any * data := (pd.1, if decide (pd.1 = ps) then d else pd.2).
  Lemma put_at_other ps (l : list (list any * data)) : (forall pd, pd ∈ l -> pd.1 <> ps) -> put_at ps <$> l = l.
  Proof.
    induction l as [|[q x] l IH]; intros H; [done|]. rewrite fmap_cons, IH by (intros pd K; apply H; by right). f_equal.
    unfold put_at. simpl. rewrite decide_False; [done|]. exact (H (q, x) (elem_of_list_here _ _)).
  Qed.
  Lemma put_at_under k ps (l : list (list any * data)) : put_at (k :: ps) <$> ((fun pd => (k :: pd.1, pd.2)) <$> l) = (fun pd => (k :: pd.1, pd.2)) <$> (put_at ps <$> l).
  Proof.
    rewrite <- !list_fmap_compose. apply list_fmap_ext. intros i [q x] _. unfold put_at, compose. simpl. f_equal.
    destruct (decide (q = ps)) as [->|H]; [by rewrite decide_True|]. rewrite decide_False; [done|congruence].
  Qed.
  Lemma under_absent k ps c : k ∉ c.*1 -> put_at (k :: ps) <$> under c = under c.
  Proof.
    intros H. apply put_at_other. intros pd K. destruct (elem_of_under _ _ K) as (k' & m & q & Hin & E & _). rewrite E. intros [= -> ->].
    apply H. apply elem_of_list_fmap. by exists (k, m).
  Qed.
  Lemma assoc_get_none k (c : list (any * node data)) : assoc_get k c = None -> k ∉ c.*1.
  Proof.
    induction c as [|[k' m'] c IH]; simpl; intros H; [apply not_elem_of_nil|]. destruct (decide (k' = k)); [done|]. rewrite elem_of_cons. intros [E|E]; [congruence|]. by apply IH.
  Qed.
  Lemma under_write k ps m c : NoDup (c.*1) -> assoc_get k c = Some m -> prows (write_at ps d m) = put_at ps <$> prows m ->
    under (assoc_set k (write_at ps d m) c) = put_at (k :: ps) <$> under c.
  Proof.
    intros N G E. induction c as [|[k' m'] c IH]; [done|]. simpl in N. apply NoDup_cons in N as [Hk N]. simpl in G |- *.
    destruct (decide (k' = k)) as [->|Hne].
    - injection G as ->. rewrite !under_cons, E, fmap_app, put_at_under, under_absent by done. done.
    - rewrite !under_cons, fmap_app, (IH N G). f_equal. symmetry. apply put_at_other. intros pd K. apply elem_of_list_fmap in K as ([q x] & -> & _). simpl. congruence.
  Qed.
  Lemma write_at_prows ps n : wf_node n -> Forall (fun k => k <> ANil) ps -> prows (write_at ps d n) = put_at ps <$> prows n.
  Proof.
    intros W H. revert n W. induction H as [|k ps Hk H IH]; intros [e x c] W.
    - cbn [write_at prows]. fold (under c). rewrite fmap_app. rewrite (put_at_other [] (under c)).
      2:{ intros pd K. destruct (elem_of_under _ _ K) as (k' & m & q & _ & E & _). by rewrite E. }
      f_equal. destruct x as [y|]; [|done]. by destruct e.
    - cbn [write_at]. assert (is_nil k = false) as -> by by destruct k. apply wf_node_unfold in W as [N W].
      destruct (assoc_get k c) as [m|] eqn:G.
      + cbn [prows]. fold (under c). fold (under (assoc_set k (write_at ps d m) c)). rewrite fmap_app. f_equal.
        * symmetry. apply put_at_other. intros pd K. apply elem_of_list_fmap in K as (y & -> & _). done.
        * apply under_write; [done|done|]. apply IH. by eapply assoc_get_forall in W.
      + cbn [prows]. fold (under c). rewrite fmap_app, under_absent by by apply assoc_get_none. f_equal.
        symmetry. apply put_at_other. intros pd K. apply elem_of_list_fmap in K as (y & -> & _). done.
  Qed.
  Lemma write_at_filter ks n : write_at ks d n = write_at (filter (fun k => k <> ANil) ks) d n.
  Proof.
    revert n. induction ks as [|k ks IH]; intros n; [done|]. rewrite filter_cons. simpl. destruct (decide (k <> ANil)) as [Hk|Hk].
    - simpl. assert (is_nil k = false) as -> by by destruct k. destruct n as [e x c]. destruct (assoc_get k c); [by rewrite IH|done].
    - assert (k = ANil) as -> by by destruct (decide (k = ANil)). simpl. apply IH.
  Qed.
End write.

Lemma c124_written o log old new cb :
  trie_search o (write_at (data_keys old) new (trie_of data_keys log)) cb
  ≡ₚ filter (fun r => cb r = true) ((fun r => if decide (path r = path old) then new else r) <$> survivors data_keys log).
Proof.
  unfold trie_search. rewrite dfs_all, write_at_filter. fold (row_path data_keys old). fold (path old).
  destruct (trie_of_rows data_keys log) as [W H]. rewrite write_at_prows; [|done|apply row_path_not_nil]. rewrite H.
  rewrite <- !list_fmap_compose. done.
Qed.
