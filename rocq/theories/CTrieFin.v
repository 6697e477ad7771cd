(** Concurrent insertions: what holds once all have returned, and what may be lost. *)
From Verif Require Export TrieProofs CTrieProofs.

Section fin.
  Context {T : Type}.
  Variable keys_of : T -> list any.
  Notation heap := (list (cnode T)).
  Notation path := (row_path keys_of).

  (** ** Tries between batches *)
  Record cgood (h : heap) : Prop := {
    cg_tree : ctree h;
    cg_ended : forall m c, h !! m = Some c -> cn_data c <> None -> cn_end c = true;
    cg_half : forall m c, h !! m = Some c -> cn_end c = true -> cn_data c <> None
  }.
  Lemma cgood_new : cgood (@ctrie_new T).
  Proof.
    assert (Hn : forall m c, @ctrie_new T !! m = Some c -> c = new_cnode).
    { intros [|m] c; simpl; [by intros [= <-]|]. done. }
    split.
    - split; simpl; [lia| |].
      + intros n k m (c & Hc & Hk). apply Hn in Hc as ->. done.
      + intros n k n2 k2 m (c & Hc & Hk). apply Hn in Hc as ->. done.
    - intros m c ->%Hn. done.
    - intros m c ->%Hn. done.
  Qed.
  Lemma cinv_start (h : heap) ds : cgood h -> cinv keys_of h ds (h, cinsert keys_of <$> ds).
  Proof.
    intros G. pose proof (cg_tree _ G) as W. split; simpl; try done.
    - apply fmap_length.
    - intros i t d Hi Hd. rewrite list_lookup_fmap, Hd in Hi. injection Hi as <-. simpl. split; [done|]. split; [apply W|].
      intros p Hp. assert (p = []) as ->; [|done]. eapply leads_inj; [done|done|]. constructor.
    - intros p m c d Hl Hc Hd. left. exists m, c. split_and!; try done. apply (cg_ended _ G m c Hc). by rewrite Hd.
    - intros p m c d Hl Hc He Hd _. by exists c.
    - apply G.
    - intros m c Hc He Hd. by destruct (cg_half _ G m c Hc He).
  Qed.
  Lemma cthere_start (h : heap) ds : cthere keys_of ds (h, cinsert keys_of <$> ds).
  Proof.
    intros i t Hi. simpl in Hi. rewrite list_lookup_fmap in Hi. destruct (ds !! i) as [d|]; [|done]. injection Hi as <-. simpl.
    exists []. constructor.
  Qed.
  Lemma done_lookup (ds : list T) i t : (CDone <$> ds) !! i = Some t -> exists d, t = CDone d /\ ds !! i = Some d.
  Proof. rewrite list_lookup_fmap. destruct (ds !! i) as [d|]; [|done]. intros [= <-]. by exists d. Qed.
  Lemma cgood_inserted (h : heap) ds h' : cgood h -> inserted keys_of h ds h' -> cgood h'.
  Proof.
    intros G [sched Hr]. pose proof (cinv_start h ds G) as I. apply (cinv_run _ _ _ _ _ _ I) in Hr as I'. split.
    - apply (ci_tree _ _ _ _ I').
    - apply (ci_ended _ _ _ _ I').
    - intros m c Hc He Hd. destruct (ci_half _ _ _ _ I' m c Hc He Hd) as (i & d & Hi). simpl in Hi.
      apply done_lookup in Hi as (? & ? & _). done.
  Qed.
  Lemma ctrie_good (h : heap) : ctrie_reachable keys_of h -> cgood h.
  Proof. induction 1; [apply cgood_new|by eapply cgood_inserted]. Qed.

  Lemma row_at_fun (h : heap) p d1 d2 : row_at h p d1 -> row_at h p d2 -> d1 = d2.
  Proof.
    intros (m1 & c1 & L1 & H1 & _ & D1) (m2 & c2 & L2 & H2 & _ & D2).
    assert (m1 = m2) as -> by (by eapply leads_fun). congruence.
  Qed.

  (** ** What is always true *)
  Lemma only_inserted (h : heap) ds sched h' ths p d : ctrie_reachable keys_of h ->
    crun (h, cinsert keys_of <$> ds) sched = Some (h', ths) -> row_at h' p d -> row_at h p d \/ d ∈ ds /\ path d = p.
  Proof.
    intros G%ctrie_good Hr (m & c & Hl & Hc & He & Hd).
    apply (cinv_run _ _ _ _ _ _ (cinv_start h ds G)) in Hr as I. by apply (ci_rows _ _ _ _ I p m c).
  Qed.
  Lemma old_stay (h : heap) ds sched h' ths p d : ctrie_reachable keys_of h ->
    crun (h, cinsert keys_of <$> ds) sched = Some (h', ths) -> row_at h p d -> (forall d', d' ∈ ds -> path d' <> p) -> row_at h' p d.
  Proof.
    intros G%ctrie_good Hr (m & c & Hl & Hc & He & Hd) Hno.
    apply (cinv_run _ _ _ _ _ _ (cinv_start h ds G)) in Hr as I.
    destruct (ci_old _ _ _ _ I p m c d Hl Hc He Hd Hno) as (c' & Hc' & He' & Hd'). exists m, c'. split; [|done].
    eapply leads_mono; [|exact Hl]. apply (ci_links _ _ _ _ I).
  Qed.
  Lemma half_running (h : heap) ds sched h' ths p m c : ctrie_reachable keys_of h ->
    crun (h, cinsert keys_of <$> ds) sched = Some (h', ths) ->
    leads h' 0 p m -> h' !! m = Some c -> cn_end c = true -> cn_data c = None ->
    exists i d, ds !! i = Some d /\ ths !! i = Some (CEnd d m) /\ path d = p.
  Proof.
    intros G%ctrie_good Hr Hl Hc He Hd. apply (cinv_run _ _ _ _ _ _ (cinv_start h ds G)) in Hr as I.
    destruct (ci_half _ _ _ _ I m c Hc He Hd) as (i & d & Hi). simpl in Hi.
    assert (i < length ds) as [d0 Hd0]%lookup_lt_is_Some by (rewrite <-(ci_len _ _ _ _ I); by eapply lookup_lt_Some).
    destruct (ci_threads _ _ _ _ I i _ _ Hi Hd0) as (-> & Hp & _). exists i, d0. split_and!; try done. symmetry. by apply Hp.
  Qed.
  Lemma never_half (h : heap) : ctrie_reachable keys_of h -> ~ half_written h.
  Proof. intros G%ctrie_good (p & m & c & _ & Hc & He & Hd). by apply (cg_half _ G m c Hc He). Qed.

  (** ** Everything is found when the rows part ways in the old trie *)
  Lemma all_found (h : heap) ds h' d : ctrie_reachable keys_of h -> part_ways keys_of h ds -> inserted keys_of h ds h' -> d ∈ ds ->
    exists d', d' ∈ ds /\ path d' = path d /\ row_at h' (path d) d'.
  Proof.
    intros G%ctrie_good Hp [sched Hr] [i Hi]%elem_of_list_lookup. pose proof (cinv_start h ds G) as I.
    pose proof (cthere_run _ _ _ Hp _ _ _ I (cthere_start h ds) Hr) as B. specialize (B i (CDone d)). simpl in B.
    destruct B as (m & c & d' & H1 & H2 & H3 & H4 & H5 & H6); [by rewrite list_lookup_fmap, Hi|].
    exists d'. split_and!; try done. by exists m, c.
  Qed.
  Lemma all_found_nodup (h : heap) ds h' d : ctrie_reachable keys_of h -> NoDup (path <$> ds) -> part_ways keys_of h ds ->
    inserted keys_of h ds h' -> d ∈ ds -> row_at h' (path d) d.
  Proof.
    intros G Hnd Hp Hi Hd. destruct (all_found h ds h' d G Hp Hi Hd) as (d' & Hd' & E & Hr).
    assert (d' = d) as ->; [|done].
    apply elem_of_list_lookup in Hd as [a Ha]. apply elem_of_list_lookup in Hd' as [b Hb].
    assert (b = a) as ->.
    { eapply (NoDup_lookup _ _ _ (path d)); [exact Hnd| |]; rewrite list_lookup_fmap; [rewrite Hb|rewrite Ha]; simpl; congruence. }
    congruence.
  Qed.

  (** ** Goroutines return *)
  Definition csteps (t : cthread T) : nat :=
    match t with
    | CWalk _ ks _ => 2 * length ks + 2
    | CMiss _ _ ks _ => 2 * length ks + 3
    | CEnd _ _ => 1
    | CDone _ => 0
    end.
  Lemma cstep_less (st : cstate T) i st' : cstep st i = Some st' ->
    exists t t', st.2 !! i = Some t /\ st'.2 = <[i := t']> st.2 /\ csteps t' < csteps t.
  Proof.
    destruct st as [h ths]. unfold cstep. simpl. destruct (ths !! i) as [t|]; [|done]. simpl.
    destruct t as [d ks n|d k ks n|d n|d]; simpl; try done.
    - destruct ks as [|k ks].
      + destruct (h !! n); simpl; [|done]. intros [= <-]. eexists _, _. split; [done|]. simpl. split; [done|]. simpl. lia.
      + destruct (is_nil k).
        * intros [= <-]. eexists _, _. split; [done|]. simpl. split; [done|]. simpl. lia.
        * destruct (h !! n) as [c|]; simpl; [|done]. intros [= <-]. eexists _, _. split; [done|]. simpl. split; [done|].
          destruct (kid k (cn_child c)); simpl; lia.
    - destruct (h !! n); simpl; [|done]. intros [= <-]. eexists _, _. split; [done|]. simpl. split; [done|]. simpl. lia.
    - destruct (h !! n); simpl; [|done]. intros [= <-]. eexists _, _. split; [done|]. simpl. split; [done|]. simpl. lia.
  Qed.
  (** However the others are scheduled, a goroutine makes at most so many steps. *)
  Lemma wait_free_run (st : cstate T) sched st' i t : crun st sched = Some st' -> st.2 !! i = Some t ->
    length (filter (fun j => j = i) sched) <= csteps t.
  Proof.
    revert st t. induction sched as [|j sched IH]; intros st t Hr Ht; [simpl; lia|].
    simpl in Hr. destruct (cstep st j) as [st1|] eqn:E; [|done]. simpl in Hr.
    apply cstep_less in E as (t1 & t2 & H1 & H2 & Hlt). rewrite filter_cons. case_decide as Hj.
    - subst j. assert (t1 = t) as -> by congruence. simpl.
      apply (IH _ t2) in Hr; [lia|]. rewrite H2. apply list_lookup_insert. by eapply lookup_lt_Some.
    - apply (IH _ t) in Hr; [done|]. rewrite H2. by rewrite list_lookup_insert_ne.
  Qed.
  Lemma wait_free (h : heap) ds sched st' i d : crun (h, cinsert keys_of <$> ds) sched = Some st' -> ds !! i = Some d ->
    length (filter (fun j => j = i) sched) <= 2 * length (keys_of d) + 2.
  Proof.
    intros Hr Hd. eapply (wait_free_run _ _ _ i (cinsert keys_of d)) in Hr; [exact Hr|]. simpl. by rewrite list_lookup_fmap, Hd.
  Qed.

  Lemma cstep_live (h0 : heap) ds st i t : cinv keys_of h0 ds st -> st.2 !! i = Some t -> (forall d, t <> CDone d) -> exists st', cstep st i = Some st'.
  Proof.
    destruct st as [h ths]. simpl. intros I Hi Hnd. unfold cstep. simpl. rewrite Hi. simpl.
    assert (i < length ds) as [d Hd]%lookup_lt_is_Some by (rewrite <-(ci_len _ _ _ _ I); by eapply lookup_lt_Some).
    pose proof (ci_threads _ _ _ _ I _ _ _ Hi Hd) as Ht.
    destruct t as [d' ks n|d' k ks n|d' n|d']; simpl in *.
    - destruct Ht as (_ & [c Hc]%lookup_lt_is_Some & _). destruct ks as [|k ks]; [rewrite Hc; by eexists|].
      destruct (is_nil k); [by eexists|]. rewrite Hc. by eexists.
    - destruct Ht as (_ & [c Hc]%lookup_lt_is_Some & _). rewrite Hc. by eexists.
    - destruct Ht as (_ & _ & c & Hc & _). rewrite Hc. by eexists.
    - by destruct (Hnd d').
  Qed.
  Lemma can_move (h : heap) ds sched st i t : ctrie_reachable keys_of h -> crun (h, cinsert keys_of <$> ds) sched = Some st ->
    st.2 !! i = Some t -> (forall d, t <> CDone d) -> exists st', cstep st i = Some st'.
  Proof.
    intros G%ctrie_good Hr. apply (cinv_run _ _ _ _ _ _ (cinv_start h ds G)) in Hr as I. by apply (cstep_live _ _ _ _ _ I).
  Qed.
  (** A goroutine left alone returns; the others stay where they are. *)
  Lemma finish_one (h0 : heap) ds i d : forall n st t, cinv keys_of h0 ds st -> ds !! i = Some d -> st.2 !! i = Some t -> csteps t <= n ->
    exists sched st', crun st sched = Some st' /\ st'.2 = <[i := CDone d]> st.2.
  Proof.
    induction n as [|n IH]; intros st t I Hd Hi Hn.
    - destruct t as [d' ks m|d' k ks m|d' m|d']; simpl in Hn; try lia. exists [], st. split; [done|].
      assert (d' = d) as -> by (apply (ci_threads _ _ _ _ I _ _ _ Hi Hd)). by rewrite list_insert_id.
    - destruct (decide (csteps t = 0)) as [E|E].
      + destruct t as [d' ks m|d' k ks m|d' m|d']; simpl in E; try lia. exists [], st. split; [done|].
        assert (d' = d) as -> by (apply (ci_threads _ _ _ _ I _ _ _ Hi Hd)). by rewrite list_insert_id.
      + destruct (cstep_live _ _ _ _ _ I Hi) as [st1 H1]; [intros ? ->; done|].
        pose proof H1 as (t1 & t2 & Ht1 & E2 & Hlt)%cstep_less. assert (t1 = t) as -> by congruence.
        assert (st1.2 !! i = Some t2) as Hi2 by (rewrite E2; apply list_lookup_insert; by eapply lookup_lt_Some).
        destruct (IH st1 t2) as (sched & st' & Hr & Est); [by eapply cinv_step|done|done|lia|].
        exists (i :: sched), st'. simpl. rewrite H1. split; [done|]. rewrite Est, E2. apply list_insert_insert.
  Qed.
  Lemma crun_app (st : cstate T) s1 s2 : crun st (s1 ++ s2) = st1 ← crun st s1; crun st1 s2.
  Proof. revert st. induction s1 as [|i s1 IH]; intros st; simpl; [done|]. destruct (cstep st i); simpl; [apply IH|done]. Qed.
  Lemma finish_all (h0 : heap) ds : forall n st, cinv keys_of h0 ds st -> n <= length ds ->
    (forall i d, i < n -> ds !! i = Some d -> st.2 !! i = Some (CDone d)) ->
    exists sched st', crun st sched = Some st' /\ st'.2 = CDone <$> ds.
  Proof.
    intros n. remember (length ds - n) as k eqn:Ek. revert n Ek. induction k as [|k IH]; intros n Ek st I Hn Hd.
    - exists [], st. split; [done|]. apply list_eq. intros i. rewrite list_lookup_fmap. destruct (ds !! i) as [d|] eqn:E.
      + apply Hd; [|done]. apply lookup_lt_Some in E. lia.
      + apply lookup_ge_None in E. apply lookup_ge_None. by rewrite (ci_len _ _ _ _ I).
    - assert (n < length ds) as [d Hdn]%lookup_lt_is_Some by lia.
      assert (n < length st.2) as [t Ht]%lookup_lt_is_Some by (rewrite (ci_len _ _ _ _ I); lia).
      destruct (finish_one h0 ds n d (csteps t) st t) as (s1 & st1 & H1 & E1); [done|done|done|done|].
      destruct (IH (S n)) with (st := st1) as (s2 & st2 & H2 & E2); [lia|by eapply cinv_run|lia| |].
      + intros i di Hi Hdi. rewrite E1. destruct (decide (i = n)) as [->|Hne].
        * assert (di = d) as -> by congruence. apply list_lookup_insert. by eapply lookup_lt_Some.
        * rewrite list_lookup_insert_ne by done. apply Hd; [lia|done].
      + exists (s1 ++ s2), st2. split; [|done]. rewrite crun_app, H1. done.
  Qed.
  (** Whatever has happened so far, the batch can be completed. *)
  Lemma can_finish (h : heap) ds sched st : ctrie_reachable keys_of h -> crun (h, cinsert keys_of <$> ds) sched = Some st ->
    exists sched' h', crun st sched' = Some (h', CDone <$> ds).
  Proof.
    intros G%ctrie_good Hr. apply (cinv_run _ _ _ _ _ _ (cinv_start h ds G)) in Hr as I.
    destruct (finish_all h ds 0 st) as (s & [h' ths] & H1 & E); [done|lia|intros; lia|]. simpl in E. subst ths. by exists s, h'.
  Qed.

  (** ** Rows are lost when they do not part ways there *)
  (** A goroutine walks down what is there. *)
  Lemma walk_down (h : heap) ths i d p : forall ks n m, ths !! i = Some (CWalk d ks n) ->
    (exists r, nonnil ks = p ++ r) -> leads h n p m ->
    exists sched ks', crun (h, ths) sched = Some (h, <[i := CWalk d ks' m]> ths) /\ nonnil ks = p ++ nonnil ks'.
  Proof.
    intros ks. revert ths p. induction ks as [|k ks IH]; intros ths p n m Hi [r Er] Hl.
    - unfold nonnil in Er. simpl in Er. symmetry in Er. apply app_eq_nil in Er as [-> ->]. inversion Hl; subst.
      exists [], []. simpl. by rewrite list_insert_id.
    - destruct p as [|a p].
      { inversion Hl; subst. exists [], (k :: ks). simpl. by rewrite list_insert_id. }
      destruct (is_nil k) eqn:Hk.
      + assert (nonnil (k :: ks) = nonnil ks) as E by (by destruct k). rewrite E in *.
        destruct (IH (<[i := CWalk d ks n]> ths) (a :: p) n m) as (s & ks' & Hr & Ek).
        { apply list_lookup_insert. by eapply lookup_lt_Some. } { by exists r. } { done. }
        exists (i :: s), ks'. split; [|done]. simpl. unfold cstep. simpl. rewrite Hi. simpl. rewrite Hk. simpl.
        rewrite Hr. by rewrite list_insert_insert.
      + assert (k <> ANil) as Hkn by (by intros ->).
        assert (nonnil (k :: ks) = k :: nonnil ks) as E by (unfold nonnil; rewrite filter_cons; by rewrite decide_True by done).
        rewrite E in *. simpl in Er. injection Er as <- Er. inversion Hl as [|? ? x ? ? Hlx Hr]; subst.
        destruct (IH (<[i := CWalk d ks x]> ths) p x m) as (s & ks' & Hrun & Ek).
        { apply list_lookup_insert. by eapply lookup_lt_Some. } { by exists r. } { done. }
        exists (i :: s), ks'. split; [|simpl; by rewrite Ek]. simpl. unfold cstep. simpl. rewrite Hi. simpl. rewrite Hk.
        destruct Hlx as (c & Hc & Hkid). rewrite Hc. simpl. rewrite Hkid. simpl. rewrite Hrun. by rewrite list_insert_insert.
  Qed.
  (** ... and finds the next key missing. *)
  Lemma walk_miss (h : heap) ths i d ks n k r : ths !! i = Some (CWalk d ks n) -> nonnil ks = k :: r -> n < length h ->
    (forall m, ~ linked h n k m) ->
    exists sched ks', crun (h, ths) sched = Some (h, <[i := CMiss d k ks' n]> ths) /\ nonnil ks' = r.
  Proof.
    intros Hi Er Hn Hno. revert ths Hi Er. induction ks as [|a ks IH]; intros ths Hi Er; [done|].
    destruct (is_nil a) eqn:Ha.
    - assert (nonnil (a :: ks) = nonnil ks) as E by (by destruct a). rewrite E in *.
      destruct (IH (<[i := CWalk d ks n]> ths)) as (s & ks' & Hr & Ek).
      { apply list_lookup_insert. by eapply lookup_lt_Some. } { done. }
      exists (i :: s), ks'. split; [|done]. simpl. unfold cstep. simpl. rewrite Hi. simpl. rewrite Ha. simpl.
      rewrite Hr. by rewrite list_insert_insert.
    - assert (a <> ANil) as Hkn by (by intros ->).
      assert (nonnil (a :: ks) = a :: nonnil ks) as E by (unfold nonnil; rewrite filter_cons; by rewrite decide_True by done).
      rewrite E in Er. injection Er as -> Er. exists [i], ks. split; [|done]. simpl. unfold cstep. simpl. rewrite Hi. simpl. rewrite Ha.
      apply lookup_lt_is_Some in Hn as [c Hc]. rewrite Hc. simpl. destruct (kid k (cn_child c)) as [m|] eqn:Hk; [|done].
      exfalso. apply (Hno m). by exists c.
  Qed.
  (** The first key of a path that is missing. *)
  Lemma first_missing (h : heap) p : (forall m, ~ leads h 0 p m) ->
    exists q k n, q ++ [k] `prefix_of` p /\ leads h 0 q n /\ forall m, ~ linked h n k m.
  Proof.
    induction p as [|k p IH] using rev_ind; intros Hno.
    - exfalso. apply (Hno 0). constructor.
    - destruct (leads_dec h 0 p) as [[n Hn]|Hn].
      + exists p, k, n. split; [done|]. split; [done|]. intros m Hm. apply (Hno m). apply leads_snoc. by exists n.
      + destruct (IH Hn) as (q & k' & n & Hq & Hl & Hm). exists q, k', n. split; [|done]. etrans; [exact Hq|]. by exists [k].
  Qed.
  (** A row that has been lost stays lost. *)
  Lemma lost_stays (h0 : heap) ds i d st sched st' : cinv keys_of h0 ds st -> ds !! i = Some d ->
    (forall j dj, j <> i -> ds !! j = Some dj -> path dj <> path d) ->
    st.2 !! i = Some (CDone d) -> ~ row_at st.1 (path d) d -> crun st sched = Some st' -> ~ row_at st'.1 (path d) d.
  Proof.
    intros I Hd Hdist. revert st I. induction sched as [|j sched IH]; intros st I Hi Hno Hr; simpl in Hr; [by injection Hr as <-|].
    destruct (cstep st j) as [st1|] eqn:E; [|done]. simpl in Hr. pose proof E as (t & t' & Ht & E2 & Hlt)%cstep_less.
    assert (j <> i) as Hji by (intros ->; assert (t = CDone d) as -> by congruence; simpl in Hlt; lia).
    eapply IH; [by eapply cinv_step| | |exact Hr].
    { rewrite E2. by rewrite list_lookup_insert_ne. }
    intros (m & x & Hl & Hx & Hxe & Hxd). apply Hno. clear IH Hr. destruct st as [h ths]. simpl in *.
    pose proof (ci_tree _ _ _ _ I) as W. simpl in W.
    assert (j < length ds) as [dj Hdj]%lookup_lt_is_Some by (rewrite <-(ci_len _ _ _ _ I); by eapply lookup_lt_Some).
    pose proof (ci_threads _ _ _ _ I _ _ _ Ht Hdj) as Htj. simpl in Htj.
    unfold cstep in E. simpl in E. rewrite Ht in E. simpl in E.
    destruct t as [d' ks n|d' k ks n|d' n|d']; simpl in E, Htj.
    - destruct ks as [|k ks].
      + destruct (h !! n) as [c|] eqn:Hc; [|done]. simpl in E. injection E as <-. simpl in *.
        apply (leads_field h n c) in Hl; [|done|done]. destruct (decide (m = n)) as [->|Hne].
        * rewrite list_lookup_insert in Hx by (by eapply lookup_lt). injection Hx as <-. exists n, c. split_and!; try done.
          apply (ci_ended _ _ _ _ I n c); [done|]. simpl in Hxd. by rewrite Hxd.
        * rewrite list_lookup_insert_ne in Hx by done. by exists m, x.
      + destruct (is_nil k); [injection E as <-; by exists m, x|].
        destruct (h !! n) as [c|] eqn:Hc; [|done]. simpl in E. injection E as <-. by exists m, x.
    - destruct (h !! n) as [c|] eqn:Hc; [|done]. simpl in E. injection E as <-. simpl in *.
      change (<[n:=_]> h ++ [new_cnode]) with (grown h n k c) in *.
      pose proof (ct_root _ W).
      apply leads_grown in Hl as [[-> _]|[Hm Hl]]; [| |done|done|done].
      + rewrite grown_new in Hx. injection Hx as <-. done.
      + destruct (decide (m = n)) as [->|Hne].
        * rewrite grown_at in Hx by done. injection Hx as <-. by exists n, c.
        * rewrite grown_old in Hx; [by exists m, x|done|done|]. by eapply leads_bound.
    - destruct Htj as (-> & Hp & _). destruct (h !! n) as [c|] eqn:Hc; [|done]. simpl in E. injection E as <-. simpl in *.
      apply (leads_field h n c) in Hl; [|done|done]. destruct (decide (m = n)) as [->|Hne].
      + rewrite list_lookup_insert in Hx by (by eapply lookup_lt). injection Hx as <-. simpl in Hxd. injection Hxd as <-.
        exfalso. by apply (Hdist j dj).
      + rewrite list_lookup_insert_ne in Hx by done. by exists m, x.
    - done.
  Qed.

  (** Two goroutines meet at a missing key: the first one's row goes. *)
  Lemma collide (h : heap) ds i j di dj p : ctrie_reachable keys_of h -> i <> j -> ds !! i = Some di -> ds !! j = Some dj ->
    p `prefix_of` path di -> p `prefix_of` path dj -> (forall m, ~ leads h 0 p m) ->
    (forall l dl, l <> i -> ds !! l = Some dl -> path dl <> path di) ->
    exists h', inserted keys_of h ds h' /\ ~ row_at h' (path di) di.
  Proof.
    intros G0 Hij Hi Hj [ri Ei] [rj Ej] Hno Hdist. pose proof (ctrie_good _ G0) as G. pose proof (cg_tree _ G) as W.
    destruct (first_missing h p Hno) as (q & k & n & [r Er] & Hq & Hmiss). subst p.
    pose proof (cinv_start h ds G) as I0. set (ths0 := cinsert keys_of <$> ds) in *.
    assert (Hlen : length ths0 = length ds) by apply fmap_length.
    assert (Hni : n < length h) by (eapply leads_bound; [done|apply W|exact Hq]).
    assert (Hil : i < length ths0) by (rewrite Hlen; by eapply lookup_lt_Some).
    assert (Hjl : j < length ths0) by (rewrite Hlen; by eapply lookup_lt_Some).
    destruct (walk_down h ths0 i di q (keys_of di) 0 n) as (s1 & k1 & R1 & K1).
    { unfold ths0. by rewrite list_lookup_fmap, Hi. }
    { exists ([k] ++ r ++ ri). change (nonnil (keys_of di)) with (path di). rewrite Ei. by rewrite <-!app_assoc. }
    { done. }
    assert (nonnil k1 = k :: r ++ ri) as E1.
    { change (nonnil (keys_of di)) with (path di) in K1. rewrite Ei in K1. rewrite <-!app_assoc in K1. simpl in K1. by apply app_inv_head in K1. }
    set (ths1 := <[i := CWalk di k1 n]> ths0) in *.
    destruct (walk_miss h ths1 i di k1 n k (r ++ ri)) as (s2 & k2 & R2 & E2).
    { by apply list_lookup_insert. } { done. } { done. } { done. }
    set (ths2 := <[i := CMiss di k k2 n]> ths1) in *.
    destruct (walk_down h ths2 j dj q (keys_of dj) 0 n) as (s3 & k3 & R3 & K3).
    { unfold ths2, ths1. rewrite !list_lookup_insert_ne by done. unfold ths0. by rewrite list_lookup_fmap, Hj. }
    { exists ([k] ++ r ++ rj). change (nonnil (keys_of dj)) with (path dj). rewrite Ej. by rewrite <-!app_assoc. }
    { done. }
    assert (nonnil k3 = k :: r ++ rj) as E3.
    { change (nonnil (keys_of dj)) with (path dj) in K3. rewrite Ej in K3. rewrite <-!app_assoc in K3. simpl in K3. by apply app_inv_head in K3. }
    set (ths3 := <[j := CWalk dj k3 n]> ths2) in *.
    destruct (walk_miss h ths3 j dj k3 n k (r ++ rj)) as (s4 & k4 & R4 & E4).
    { apply list_lookup_insert. unfold ths2, ths1. by rewrite !insert_length. } { done. } { done. } { done. }
    set (ths4 := <[j := CMiss dj k k4 n]> ths3) in *.
    assert (R : crun (h, ths0) (s1 ++ s2 ++ s3 ++ s4) = Some (h, ths4)).
    { rewrite crun_app, R1. simpl. rewrite crun_app, R2. simpl. by rewrite crun_app, R3. }
    pose proof (cinv_run _ _ _ _ _ _ I0 R) as I4.
    destruct (finish_one h ds i di (csteps (CMiss di k k2 n)) (h, ths4) (CMiss di k k2 n)) as (s5 & [h5 ths5] & R5 & E5); [done|done| |done|].
    { simpl. unfold ths4, ths3. rewrite !list_lookup_insert_ne by done. unfold ths2. apply list_lookup_insert.
      unfold ths1. by rewrite insert_length. }
    simpl in E5. pose proof (cinv_run _ _ _ _ _ _ I4 R5) as I5. pose proof (ci_tree _ _ _ _ I5) as W5. simpl in W5.
    assert (Hj5 : ths5 !! j = Some (CMiss dj k k4 n)).
    { rewrite E5, list_lookup_insert_ne by done. unfold ths4. apply list_lookup_insert. unfold ths3, ths2, ths1. by rewrite !insert_length. }
    assert (Hi5 : ths5 !! i = Some (CDone di)).
    { rewrite E5. apply list_lookup_insert. unfold ths4, ths3, ths2, ths1. by rewrite !insert_length. }
    destruct (cstep_live _ _ _ _ _ I5 Hj5) as [st6 R6]; [done|].
    pose proof (cinv_step _ _ _ _ _ _ I5 R6) as I6.
    assert (Hq5 : leads h5 0 q n) by (eapply leads_mono; [apply (ci_links _ _ _ _ I5)|exact Hq]).
    assert (Hn5 : n < length h5) by (eapply leads_bound; [done|apply W5|exact Hq5]).
    apply lookup_lt_is_Some in Hn5 as [c Hc]. pose proof (ct_root _ W5) as Hr5.
    assert (E6 : st6 = (grown h5 n k c, <[j := CWalk dj k4 (length h5)]> ths5)).
    { unfold cstep in R6. simpl in R6. rewrite Hj5 in R6. simpl in R6. rewrite Hc in R6. simpl in R6. by injection R6 as <-. }
    assert (Hlost : ~ row_at st6.1 (path di) di).
    { rewrite E6. simpl. intros (m & x & Hl & Hx & Hxe & Hxd). rewrite Ei, <-!app_assoc in Hl. apply leads_app in Hl as (y & Hy & Hl).
      apply leads_grown in Hy as [[-> (p' & Ep & Hp')]|[_ Hy]]; [| |done|done|done].
      - subst q. apply leads_snoc in Hq5 as (z & Hz & Hlz).
        assert (length (p' ++ [k]) = length p') as Hbad; [|rewrite app_length in Hbad; simpl in Hbad; lia].
        f_equal. eapply (leads_inj h5); [done| |exact Hp']. apply leads_snoc. by exists z.
      - assert (y = n) as -> by (by eapply leads_fun). inversion Hl as [|? ? w ? ? Hlw Hw]; subst.
        apply linked_grown in Hlw; [|done]. destruct Hlw as [(_ & _ & ->)|[Hbad _]]; [|by destruct Hbad].
        inversion Hw as [|? ? v ? ? Hlv Hv]; subst.
        + rewrite grown_new in Hx. by injection Hx as <-.
        + destruct Hlv as (z & Hz & Hk). rewrite grown_new in Hz. by injection Hz as <-. }
    destruct (finish_all h ds 0 st6) as (s7 & [h7 ths7] & R7 & E7); [done|lia|intros; lia|]. simpl in E7. subst ths7.
    exists h7. split.
    - exists ((s1 ++ s2 ++ s3 ++ s4) ++ s5 ++ j :: s7). fold ths0. rewrite crun_app, R. simpl. rewrite crun_app, R5. simpl. by rewrite R6.
    - change h7 with (h7, CDone <$> ds).1. eapply lost_stays; [exact I6|exact Hi|exact Hdist| |exact Hlost|exact R7].
      rewrite E6. simpl. by rewrite list_lookup_insert_ne.
  Qed.
  (** Exactly the batches that part ways are safe. *)
  Lemma exact_batch (h : heap) ds : ctrie_reachable keys_of h -> NoDup (path <$> ds) ->
    (forall h', inserted keys_of h ds h' -> forall d, d ∈ ds -> row_at h' (path d) d) <-> part_ways keys_of h ds.
  Proof.
    intros G Hnd. split.
    - intros Hall i j di dj p Hij Hi Hj Hpi Hpj. destruct (leads_dec h 0 p) as [?|Hno]; [done|]. exfalso.
      destruct (collide h ds i j di dj p) as (h' & Hins & Hlost); try done.
      + intros l dl Hl Hdl E. apply Hl. eapply (NoDup_lookup _ _ _ (path di)); [exact Hnd| |]; rewrite list_lookup_fmap.
        * rewrite Hdl. simpl. congruence.
        * by rewrite Hi.
      + apply Hlost, (Hall h' Hins). by eapply elem_of_list_lookup_2.
    - intros Hp h' Hi d Hd. by eapply all_found_nodup.
  Qed.

  (** ** One after the other *)
  Lemma part_ways_one (h : heap) d : part_ways keys_of h [d].
  Proof. intros [|i] [|j] di dj p Hij Hi Hj; simpl in Hi, Hj; done. Qed.
  Lemma obo_reachable log (h : heap) : one_by_one keys_of log h -> ctrie_reachable keys_of h.
  Proof. induction 1; [constructor|by econstructor]. Qed.
  Lemma obo_rows log (h : heap) p d : one_by_one keys_of log h -> row_at h p d <-> d ∈ survivors keys_of log /\ path d = p.
  Proof.
    intros H. revert p d. induction H as [|log h x h' H IH Hi]; intros p d.
    - split; [|by intros [?%elem_of_nil _]]. intros (m & c & _ & Hc & He & _). destruct m as [|m]; [|done].
      injection Hc as <-. done.
    - pose proof (obo_reachable _ _ H) as G. rewrite (survivors_snoc keys_of), elem_of_app, elem_of_list_filter, elem_of_list_singleton.
      destruct (all_found h [x] h' x) as (x' & Hx' & _ & Hx); [done|apply part_ways_one|done|by apply elem_of_list_singleton|].
      apply elem_of_list_singleton in Hx' as ->. split.
      + intros Hr. destruct Hi as [sched Hs]. destruct (only_inserted _ _ _ _ _ _ _ G Hs Hr) as [Ho|[->%elem_of_list_singleton <-]].
        * destruct (decide (path x = p)) as [E|E].
          -- rewrite E in Hx. rewrite (row_at_fun _ _ _ _ Hr Hx). by split; [right|].
          -- apply IH in Ho as [Hd <-]. split; [left; split; [congruence|done]|done].
        * by split; [right|].
      + intros [[[Hne Hd]| ->] <-]; [|done]. destruct Hi as [sched Hs]. eapply old_stay; [done|exact Hs|by apply IH|].
        intros d' ->%elem_of_list_singleton. congruence.
  Qed.
End fin.

(** ** Reading a heap *)
Section read.
  Context {T : Type}.
  Fixpoint goes (h : list (cnode T)) (n : nat) (ks : list any) : option nat :=
    match ks with
    | [] => Some n
    | k :: ks' => c ← h !! n; m ← kid k (cn_child c); goes h m ks'
    end.
  Definition find_row (h : list (cnode T)) (ks : list any) : option (bool * option T) :=
    m ← goes h 0 ks; c ← h !! m; Some (cn_end c, cn_data c).
  Lemma leads_goes (h : list (cnode T)) n ks m : leads h n ks m <-> goes h n ks = Some m.
  Proof.
    revert n. induction ks as [|k ks IH]; intros n; simpl.
    - split; [intros H; inversion H; by subst|intros [= <-]; constructor].
    - split.
      + intros H. inversion H as [|? ? ? ? ? (c & Hc & Hk) Hr]; subst. rewrite Hc. simpl. rewrite Hk. simpl. by apply IH.
      + destruct (h !! n) as [c|] eqn:Hc; [|done]. simpl. destruct (kid k (cn_child c)) as [x|] eqn:Hk; [|done]. simpl.
        intros H%IH. econstructor; [by exists c|exact H].
  Qed.
  Lemma row_at_find (h : list (cnode T)) ks d : row_at h ks d <-> find_row h ks = Some (true, Some d).
  Proof.
    unfold find_row. split.
    - intros (m & c & Hl%leads_goes & Hc & He & Hd). rewrite Hl. simpl. rewrite Hc. simpl. by rewrite He, Hd.
    - destruct (goes h 0 ks) as [m|] eqn:Hl; [|done]. simpl. destruct (h !! m) as [c|] eqn:Hc; [|done]. simpl. intros [= He Hd].
      exists m, c. split_and!; try done. by apply leads_goes.
  Qed.
  Lemma half_find (h : list (cnode T)) ks : find_row h ks = Some (true, None) -> half_written h.
  Proof.
    unfold find_row. destruct (goes h 0 ks) as [m|] eqn:Hl; [|done]. simpl. destruct (h !! m) as [c|] eqn:Hc; [|done]. simpl. intros [= He Hd].
    exists ks, m, c. split_and!; try done. by apply leads_goes.
  Qed.
End read.
