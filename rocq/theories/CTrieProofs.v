(** Concurrent insertions: invariants of every interleaving. *)
From Verif Require Export CTrieSpec.

Section proofs.
  Context {T : Type}.
  Variable keys_of : T -> list any.
  Notation heap := (list (cnode T)).
  Notation path := (row_path keys_of).
  Definition nonnil (ks : list any) : list any := filter (fun k => k <> ANil) ks.

  Lemma kid_filter k k' c : k <> k' -> kid k' (filter (fun x : any * nat => x.1 <> k) c) = kid k' c.
  Proof.
    intros Hn. induction c as [|[a m] c IH]; [done|]. rewrite filter_cons. simpl.
    destruct (decide (a = k)) as [->|Ha].
    - rewrite decide_False by (intros ?; done). rewrite IH. by rewrite decide_False by done.
    - rewrite decide_True by done. simpl. by rewrite IH.
  Qed.
  Lemma kid_set k k' m c : kid k' (set_kid k m c) = if decide (k = k') then Some m else kid k' c.
  Proof. unfold set_kid. simpl. case_decide; [done|]. by apply kid_filter. Qed.

  (** ** Links and paths *)
  Lemma linked_fun (h : heap) n k m1 m2 : linked h n k m1 -> linked h n k m2 -> m1 = m2.
  Proof. intros (c1 & H1 & E1) (c2 & H2 & E2). congruence. Qed.
  Lemma linked_dec (h : heap) n k : (exists m, linked h n k m) \/ forall m, ~ linked h n k m.
  Proof.
    destruct (h !! n) as [c|] eqn:E.
    - destruct (kid k (cn_child c)) as [m|] eqn:Ek; [left; by exists m, c|].
      right. intros m (c' & Hc' & Hk). congruence.
    - right. intros m (c' & Hc' & _). congruence.
  Qed.
  Lemma leads_snoc (h : heap) n ks k m : leads h n (ks ++ [k]) m <-> exists x, leads h n ks x /\ linked h x k m.
  Proof.
    revert n. induction ks as [|a ks IH]; intros n; simpl.
    - split.
      + intros H. inversion H as [|? ? ? ? ? Hl Hr]; subst. inversion Hr; subst. exists n. split; [constructor|done].
      + intros (x & Hx & Hl). inversion Hx; subst. econstructor; [exact Hl|constructor].
    - split.
      + intros H. inversion H as [|? ? ? ? ? Hl Hr]; subst. apply IH in Hr as (x & Hx & Hk).
        exists x. split; [by econstructor|done].
      + intros (x & Hx & Hk). inversion Hx as [|? ? ? ? ? Hl Hr]; subst. econstructor; [exact Hl|]. apply IH. by exists x.
  Qed.
  Lemma leads_app (h : heap) n ks1 ks2 m : leads h n (ks1 ++ ks2) m <-> exists x, leads h n ks1 x /\ leads h x ks2 m.
  Proof.
    revert n. induction ks1 as [|a ks IH]; intros n; simpl.
    - split; [intros H; exists n; split; [constructor|done]|]. intros (x & Hx & H). by inversion Hx; subst.
    - split.
      + intros H. inversion H as [|? ? ? ? ? Hl Hr]; subst. apply IH in Hr as (x & Hx & Hk).
        exists x. split; [by econstructor|done].
      + intros (x & Hx & Hk). inversion Hx as [|? ? ? ? ? Hl Hr]; subst. econstructor; [exact Hl|]. apply IH. by exists x.
  Qed.
  Lemma leads_fun (h : heap) n ks m1 m2 : leads h n ks m1 -> leads h n ks m2 -> m1 = m2.
  Proof.
    intros H1. revert m2. induction H1 as [|n k m ks m' Hl Hr IH]; intros m2 H2; inversion H2 as [|? ? ? ? ? Hl2 Hr2]; subst; [done|].
    assert (m = m0) as -> by (by eapply linked_fun). by apply IH.
  Qed.
  Lemma leads_dec (h : heap) n ks : (exists m, leads h n ks m) \/ forall m, ~ leads h n ks m.
  Proof.
    revert n. induction ks as [|k ks IH]; intros n; [left; exists n; constructor|].
    destruct (linked_dec h n k) as [[m Hm]|Hn].
    - destruct (IH m) as [[m' Hm']|Hn']; [left; exists m'; by econstructor|]. right. intros m' H.
      inversion H as [|? ? ? ? ? Hl Hr]; subst. assert (m0 = m) as -> by (by eapply linked_fun). by eapply Hn'.
    - right. intros m H. inversion H as [|? ? ? ? ? Hl Hr]; subst. by eapply Hn.
  Qed.
  Lemma leads_mono (h h' : heap) n ks m : (forall x k y, linked h x k y -> linked h' x k y) -> leads h n ks m -> leads h' n ks m.
  Proof. intros Hs. induction 1; econstructor; eauto. Qed.

  (** The heap is a tree hanging from location 0, plus detached trees. *)
  Record ctree (h : heap) : Prop := {
    ct_root : 0 < length h;
    ct_bound : forall n k m, linked h n k m -> 0 < m < length h;
    ct_inj : forall n1 k1 n2 k2 m, linked h n1 k1 m -> linked h n2 k2 m -> n1 = n2 /\ k1 = k2
  }.
  Lemma leads_bound (h : heap) n ks m : ctree h -> n < length h -> leads h n ks m -> m < length h.
  Proof. intros W Hn. induction 1 as [|n k m ks m' Hl Hr IH]; [done|]. apply IH. by apply (ct_bound _ W) in Hl as [_ ?]. Qed.
  Lemma leads_inj (h : heap) ks1 ks2 m : ctree h -> leads h 0 ks1 m -> leads h 0 ks2 m -> ks1 = ks2.
  Proof.
    intros W. revert ks2 m. induction ks1 as [|k ks IH] using rev_ind; intros ks2 m H1 H2.
    - inversion H1; subst. destruct ks2 as [|k2 ks2 _] using rev_ind; [done|]. apply leads_snoc in H2 as (x & _ & Hl).
      apply (ct_bound _ W) in Hl. lia.
    - apply leads_snoc in H1 as (x & Hx & Hl). destruct ks2 as [|k2 ks2 _] using rev_ind.
      + inversion H2; subst. apply (ct_bound _ W) in Hl. lia.
      + apply leads_snoc in H2 as (y & Hy & Hl2). destruct (ct_inj _ W _ _ _ _ _ Hl Hl2) as [-> ->].
        by rewrite (IH _ _ Hx Hy).
  Qed.
  Lemma lookup_lt (h : heap) n c : h !! n = Some c -> n < length h.
  Proof. apply lookup_lt_Some. Qed.

  (** Writing the fields of a node leaves the links alone. *)
  Lemma linked_field (h : heap) n c c' x k m : h !! n = Some c -> cn_child c' = cn_child c ->
    linked (<[n := c']> h) x k m <-> linked h x k m.
  Proof.
    intros Hn E. unfold linked. destruct (decide (x = n)) as [->|Hx].
    - rewrite list_lookup_insert by (by eapply lookup_lt). split; intros (y & Hy & Hk).
      + injection Hy as <-. exists c. by rewrite <-E.
      + exists c'. split; [done|]. rewrite E. congruence.
    - by rewrite list_lookup_insert_ne by done.
  Qed.
  Lemma leads_field (h : heap) n c c' x ks m : h !! n = Some c -> cn_child c' = cn_child c ->
    leads (<[n := c']> h) x ks m <-> leads h x ks m.
  Proof. intros Hn E. split; apply leads_mono; intros a k b; apply (linked_field _ _ _ _ _ _ _ Hn E). Qed.
  Lemma ctree_field (h : heap) n c c' : h !! n = Some c -> cn_child c' = cn_child c -> ctree h -> ctree (<[n := c']> h).
  Proof.
    intros Hn E W. pose proof (linked_field h n c c') as L. split.
    - rewrite insert_length. apply W.
    - intros a k b. rewrite insert_length, L by done. apply W.
    - intros a k b k' m. rewrite !L by done. apply W.
  Qed.
  (** Setting a child to a new node. *)
  Definition grown (h : heap) (n : nat) (k : any) (c : cnode T) : heap :=
    <[n := CNode (cn_end c) (cn_data c) (set_kid k (length h) (cn_child c))]> h ++ [new_cnode].
  Lemma grown_old (h : heap) n k c x : h !! n = Some c -> x <> n -> x < length h -> grown h n k c !! x = h !! x.
  Proof. intros Hn Hx Hl. unfold grown. rewrite lookup_app_l by (by rewrite insert_length). by rewrite list_lookup_insert_ne by done. Qed.
  Lemma grown_at (h : heap) n k c : h !! n = Some c ->
    grown h n k c !! n = Some (CNode (cn_end c) (cn_data c) (set_kid k (length h) (cn_child c))).
  Proof.
    intros Hn. pose proof (lookup_lt _ _ _ Hn). unfold grown. rewrite lookup_app_l by (by rewrite insert_length).
    by rewrite list_lookup_insert.
  Qed.
  Lemma grown_new (h : heap) n k c : grown h n k c !! length h = Some new_cnode.
  Proof.
    unfold grown. rewrite lookup_app_r by (rewrite insert_length; lia).
    by rewrite insert_length, Nat.sub_diag.
  Qed.
  Lemma grown_length (h : heap) n k c : length (grown h n k c) = S (length h).
  Proof. unfold grown. rewrite app_length, insert_length. simpl. lia. Qed.
  Lemma grown_out (h : heap) n k c x : length h < x -> grown h n k c !! x = None.
  Proof. intros H. apply lookup_ge_None_2. rewrite grown_length. lia. Qed.
  Lemma linked_grown (h : heap) n k c x k' m : h !! n = Some c ->
    linked (grown h n k c) x k' m <-> x = n /\ k' = k /\ m = length h \/ ~ (x = n /\ k' = k) /\ linked h x k' m.
  Proof.
    intros Hn. pose proof (lookup_lt _ _ _ Hn) as Hlt. unfold linked. destruct (decide (x = n)) as [->|Hx].
    - rewrite grown_at by done. split.
      + intros (y & [= <-] & Hk). cbn [cn_child] in Hk. rewrite kid_set in Hk. case_decide as E; subst.
        * left. by injection Hk as <-.
        * right. split; [intros [_ ->]; done|]. by exists c.
      + intros [(_ & -> & ->)|(Hne & y & Hy & Hk)]; (eexists; split; [done|]); cbn [cn_child]; rewrite kid_set.
        * by rewrite decide_True.
        * rewrite decide_False by (intros ->; by apply Hne). congruence.
    - destruct (decide (x < length h)) as [Hl|Hl].
      + rewrite grown_old by done. split; [intros H; right; split; [by intros [? _]|done]|].
        intros [(? & _)|[_ H]]; done.
      + assert (h !! x = None) as -> by (apply lookup_ge_None_2; lia). split.
        * intros (y & Hy & Hk). destruct (decide (x = length h)) as [->|].
          -- rewrite grown_new in Hy. injection Hy as <-. done.
          -- rewrite grown_out in Hy by lia. done.
        * intros [(? & _)|(_ & y & Hy & _)]; done.
  Qed.
  Lemma leads_grown (h : heap) n k c a p x : ctree h -> h !! n = Some c -> a < length h -> leads (grown h n k c) a p x ->
    x = length h /\ (exists p', p = p' ++ [k] /\ leads h a p' n) \/ x <> length h /\ leads h a p x.
  Proof.
    intros W Hn Ha. revert x. induction p as [|k' p IH] using rev_ind; intros x H.
    - inversion H; subst. right. split; [lia|constructor].
    - apply leads_snoc in H as (y & Hy & Hl). apply (linked_grown _ _ _ _ _ _ _ Hn) in Hl.
      pose proof (lookup_lt _ _ _ Hn) as Hlt. apply IH in Hy as [[-> _]|[_ Hy]].
      + exfalso. destruct Hl as [(E & _)|(_ & z & Hz & _)]; [lia|]. apply lookup_lt in Hz. lia.
      + destruct Hl as [(-> & -> & ->)|[_ Hl]].
        * left. split; [done|]. by exists p.
        * right. apply (ct_bound _ W) in Hl as Hb. split; [lia|]. apply leads_snoc. by exists y.
  Qed.
  Lemma ctree_grown (h : heap) n k c : ctree h -> h !! n = Some c -> ctree (grown h n k c).
  Proof.
    intros W Hn. pose proof (ct_root _ W). split.
    - rewrite grown_length. lia.
    - intros a k' b. rewrite grown_length, linked_grown by done. intros [(-> & -> & ->)|[_ H']]; [lia|].
      apply (ct_bound _ W) in H'. lia.
    - intros a k1 b k2 m. rewrite !linked_grown by done.
      intros [(-> & -> & ->)|[_ H1]] [(-> & -> & Hm)|[_ H2]].
      + done.
      + apply (ct_bound _ W) in H2. lia.
      + subst. apply (ct_bound _ W) in H1. lia.
      + by apply (ct_inj _ W _ _ _ _ _ H1 H2).
  Qed.

  (** ** The invariant of a batch: [h0] is the trie it started from, [ds] the rows. *)
  Section batch.
    Variable h0 : heap.
    Variable ds : list T.
    Hypothesis W0 : ctree h0.

    Definition tgood (h : heap) (d : T) (t : cthread T) : Prop :=
      match t with
      | CWalk d' ks n => d' = d /\ n < length h /\ forall p, leads h 0 p n -> p ++ nonnil ks = path d
      | CMiss d' k ks n => d' = d /\ n < length h /\ k <> ANil /\ (forall p, leads h 0 p n -> p ++ k :: nonnil ks = path d)
                           /\ forall m, ~ linked h0 n k m
      | CEnd d' n => d' = d /\ (forall p, leads h 0 p n -> p = path d) /\ exists c, h !! n = Some c /\ cn_end c = true
      | CDone d' => d' = d
      end.
    Record cinv (st : cstate T) : Prop := {
      ci_tree : ctree st.1;
      ci_links : forall n k m, linked h0 n k m -> linked st.1 n k m;
      ci_len : length st.2 = length ds;
      ci_threads : forall i t d, st.2 !! i = Some t -> ds !! i = Some d -> tgood st.1 d t;
      ci_rows : forall p m c d, leads st.1 0 p m -> st.1 !! m = Some c -> cn_data c = Some d ->
        row_at h0 p d \/ d ∈ ds /\ path d = p;
      ci_old : forall p m c0 d, leads h0 0 p m -> h0 !! m = Some c0 -> cn_end c0 = true -> cn_data c0 = Some d ->
        (forall d', d' ∈ ds -> path d' <> p) -> exists c, st.1 !! m = Some c /\ cn_end c = true /\ cn_data c = Some d;
      ci_ended : forall m c, st.1 !! m = Some c -> cn_data c <> None -> cn_end c = true;
      ci_half : forall m c, st.1 !! m = Some c -> cn_end c = true -> cn_data c = None ->
        exists i d, st.2 !! i = Some (CEnd d m)
    }.

    Lemma tgood_field (h : heap) n c c' d t : h !! n = Some c -> cn_child c' = cn_child c -> (cn_end c = true -> cn_end c' = true) ->
      tgood h d t -> tgood (<[n := c']> h) d t.
    Proof.
      intros Hn E He. pose proof (leads_field h n c c') as L. destruct t; simpl; rewrite ?insert_length; try done.
      - intros (? & ? & Hp). split_and!; try done. intros p Hl. apply Hp. by apply L in Hl.
      - intros (? & ? & ? & Hp & ?). split_and!; try done. intros p Hl. apply Hp. by apply L in Hl.
      - intros (? & Hp & c0 & Hc0 & Hce). split_and!; try done.
        + intros p Hl. apply Hp. by apply L in Hl.
        + destruct (decide (n0 = n)) as [->|Hne].
          * rewrite list_lookup_insert by (by eapply lookup_lt). exists c'. split; [done|]. apply He. congruence.
          * rewrite list_lookup_insert_ne by done. by exists c0.
    Qed.
    Lemma tgood_grown (h : heap) n k c d t : ctree h -> h !! n = Some c -> tgood h d t -> tgood (grown h n k c) d t.
    Proof.
      intros W Hn. assert (L : forall p x, x < length h -> leads (grown h n k c) 0 p x -> leads h 0 p x).
      { intros p x Hx H. apply leads_grown in H as [[-> _]|[_ H]]; [lia|done|done|done|apply W]. }
      destruct t; simpl; rewrite ?grown_length; try done.
      - intros (? & ? & Hp). split_and!; [done|lia|]. intros p Hl. apply Hp. by apply L in Hl.
      - intros (? & ? & ? & Hp & ?). split_and!; try done; [lia|]. intros p Hl. apply Hp. by apply L in Hl.
      - intros (? & Hp & c0 & Hc0 & Hce). pose proof (lookup_lt _ _ _ Hc0) as Hlt. split_and!; try done.
        + intros p Hl. apply Hp. by apply L in Hl.
        + destruct (decide (n0 = n)) as [->|Hne].
          * rewrite grown_at by done. eexists. split; [done|]. simpl. congruence.
          * rewrite grown_old by done. by exists c0.
    Qed.
    (** The other goroutines do not mind a step. *)
    Lemma threads_step (h h' : heap) ths i t' : length ths = length ds ->
      (forall j t d, ths !! j = Some t -> ds !! j = Some d -> tgood h d t) ->
      (forall d t, tgood h d t -> tgood h' d t) ->
      (forall d, ds !! i = Some d -> tgood h' d t') ->
      length (<[i := t']> ths) = length ds /\
      forall j t d, <[i := t']> ths !! j = Some t -> ds !! j = Some d -> tgood h' d t.
    Proof.
      intros Hlen Ht Hother Hi. rewrite insert_length. split; [done|]. intros j t d Hj Hd.
      destruct (decide (j = i)) as [->|Hne].
      - assert (i < length ths) as Hlt by (rewrite Hlen; by eapply lookup_lt_Some).
        rewrite list_lookup_insert in Hj by done. injection Hj as <-. by apply Hi.
      - rewrite list_lookup_insert_ne in Hj by done. by eapply Hother, Ht.
    Qed.

    Lemma cinv_step st i st' : cinv st -> cstep st i = Some st' -> cinv st'.
    Proof.
      destruct st as [h ths]. intros I. unfold cstep; simpl. destruct (ths !! i) as [t|] eqn:Hi; [|done]. simpl.
      assert (i < length ds) as [d Hd]%lookup_lt_is_Some by (rewrite <-(ci_len _ I); by eapply lookup_lt_Some).
      pose proof (ci_threads _ I _ _ _ Hi Hd) as Ht. simpl in Ht.
      pose proof (ci_tree _ I) as W. simpl in W.
      destruct t as [d' ks n|d' k ks n|d' n|d']; simpl; simpl in Ht.
      - destruct Ht as (-> & Hn & Hp). destruct ks as [|k ks].
        + apply lookup_lt_is_Some in Hn as [c Hc]. rewrite Hc. simpl. intros [= <-].
          set (c' := CNode true (cn_data c) (cn_child c)).
          pose proof (leads_field h n c c') as L.
          assert (Hnode : forall m x, <[n := c']> h !! m = Some x -> exists y, h !! m = Some y /\ cn_data y = cn_data x
                    /\ (cn_end y = true -> cn_end x = true) /\ (m = n \/ y = x)).
          { intros m x Hx. destruct (decide (m = n)) as [->|Hne].
            - rewrite list_lookup_insert in Hx by (by eapply lookup_lt). injection Hx as <-. exists c. split_and!; try done. by left.
            - rewrite list_lookup_insert_ne in Hx by done. exists x. split_and!; try done. by right. }
          destruct (threads_step h (<[n := c']> h) ths i (CEnd d n)) as [Hlen Hth].
          { apply (ci_len _ I). } { apply (ci_threads _ I). }
          { intros d0 t. by apply tgood_field with c. }
          { intros d0 Hd0. assert (d0 = d) as -> by congruence. split; [done|]. split.
            - intros p Hl. apply L in Hl; [|done|done]. apply Hp in Hl. by rewrite app_nil_r in Hl.
            - exists c'. split; [|done]. by rewrite list_lookup_insert by (by eapply lookup_lt). }
          split; simpl; try done.
          * by apply ctree_field with c.
          * intros a k b Hab. apply linked_field with c; [done|done|]. by apply (ci_links _ I).
          * intros p m x d0 Hl Hx Hdx. apply Hnode in Hx as (y & Hy & Ey & _).
            apply (ci_rows _ I p m y d0); [by apply L in Hl|done|congruence].
          * intros p m c0 d0 Hl Hc0 He Hdt Hno. destruct (ci_old _ I _ _ _ _ Hl Hc0 He Hdt Hno) as (x & Hx & Hxe & Hxd).
            simpl in Hx. destruct (decide (m = n)) as [->|Hne].
            -- exists c'. rewrite list_lookup_insert by (by eapply lookup_lt). split_and!; try done. simpl. congruence.
            -- exists x. by rewrite list_lookup_insert_ne by done.
          * intros m x Hx Hdt. destruct (Hnode _ _ Hx) as (y & Hy & Ey & He & _). apply He.
            apply (ci_ended _ I m y); [done|congruence].
          * intros m x Hx He Hdt. destruct (decide (m = n)) as [->|Hne].
            -- exists i, d. rewrite list_lookup_insert; [done|]. by eapply lookup_lt_Some.
            -- rewrite list_lookup_insert_ne in Hx by done. destruct (ci_half _ I _ _ Hx He Hdt) as (j & dj & Hj).
               exists j, dj. simpl in Hj. rewrite list_lookup_insert_ne; [done|]. intros ->. congruence.
        + assert (Hsame : forall t', tgood h d t' -> (forall d0 m, CWalk d (k :: ks) n <> CEnd d0 m) -> cinv (h, <[i := t']> ths)).
          { intros t' Ht' _. destruct (threads_step h h ths i t') as [Hlen Hth].
            { apply (ci_len _ I). } { apply (ci_threads _ I). } { done. }
            { intros d0 Hd0. by assert (d0 = d) as -> by congruence. }
            destruct I as [? ? ? ? ? ? ? I8]. split; simpl; try done.
            intros m c Hc He Hdt. destruct (I8 m c Hc He Hdt) as (j & dj & Hj). exists j, dj. simpl in Hj.
            rewrite list_lookup_insert_ne; [done|]. intros ->. congruence. }
          destruct (is_nil k) eqn:Hk.
          * intros [= <-]. apply Hsame; [|done]. split; [done|]. split; [done|]. intros p Hl. rewrite <-(Hp p Hl).
            by destruct k.
          * assert (k <> ANil) as Hkn by (by intros ->).
            assert (nonnil (k :: ks) = k :: nonnil ks) as Ek by (unfold nonnil; rewrite filter_cons; by rewrite decide_True by done).
            apply lookup_lt_is_Some in Hn as [c Hc]. rewrite Hc. simpl. intros [= <-].
            destruct (kid k (cn_child c)) as [m|] eqn:Hm.
            -- assert (linked h n k m) as Hl by (by exists c). apply Hsame; [|done]. split; [done|].
               split; [by apply (ct_bound _ W) in Hl as [_ ?]|]. intros p Hpm.
               destruct p as [|k2 p _] using rev_ind.
               { inversion Hpm; subst. apply (ct_bound _ W) in Hl. lia. }
               apply leads_snoc in Hpm as (x & Hx & Hlx). destruct (ct_inj _ W _ _ _ _ _ Hl Hlx) as [<- <-].
               rewrite <-(Hp p Hx), Ek. by rewrite <-app_assoc.
            -- apply Hsame; [|done]. split; [done|]. split; [by eapply lookup_lt|]. split; [done|]. split.
               ++ intros p Hl. rewrite <-Ek. by apply Hp.
               ++ intros m Hl%(ci_links _ I). destruct Hl as (c1 & Hc1 & E1). simpl in Hc1. congruence.
      - destruct Ht as (-> & Hn & Hk & Hp & Habs). apply lookup_lt_is_Some in Hn as [c Hc]. rewrite Hc. simpl. intros [= <-].
        change (<[n:=_]> h ++ [new_cnode]) with (grown h n k c).
        pose proof (ct_root _ W) as Hr.
        assert (Hnode : forall m x, grown h n k c !! m = Some x -> x = new_cnode \/ exists y, h !! m = Some y /\ cn_data y = cn_data x /\ cn_end y = cn_end x).
        { intros m x Hx. destruct (decide (m = n)) as [->|Hne].
          - rewrite grown_at in Hx by done. injection Hx as <-. right. by exists c.
          - destruct (decide (m < length h)); [rewrite grown_old in Hx by done; right; by exists x|].
            destruct (decide (m = length h)) as [->|]; [rewrite grown_new in Hx; injection Hx as <-; by left|].
            rewrite grown_out in Hx by lia. done. }
        destruct (threads_step h (grown h n k c) ths i (CWalk d ks (length h))) as [Hlen Hth].
        { apply (ci_len _ I). } { apply (ci_threads _ I). } { intros d0 t. by apply tgood_grown. }
        { intros d0 Hd0. assert (d0 = d) as -> by congruence. split; [done|]. rewrite grown_length. split; [lia|].
          intros p Hl. apply leads_grown in Hl as [(_ & p' & -> & Hl)|[Hl _]]; [|done|done|done|done].
          rewrite <-(Hp _ Hl). by rewrite <-app_assoc. }
        split; simpl; try done.
        + by apply ctree_grown.
        + intros a k' b Hab. apply linked_grown; [done|]. right. split; [|by apply (ci_links _ I)].
          intros [-> ->]. by eapply Habs.
        + intros p m x d0 Hl Hx Hdx. apply leads_grown in Hl as [[-> _]|[Hm Hl]]; [| |done|done|done].
          * rewrite grown_new in Hx. injection Hx as <-. done.
          * apply Hnode in Hx as [->|(y & Hy & Ey & _)]; [done|]. apply (ci_rows _ I p m y d0); [done|done|congruence].
        + intros p m c0 d0 Hl Hc0 He Hdt Hno. destruct (ci_old _ I _ _ _ _ Hl Hc0 He Hdt Hno) as (x & Hx & Hxe & Hxd).
          simpl in Hx. destruct (decide (m = n)) as [->|Hne].
          * rewrite grown_at by done. eexists. split; [done|]. simpl. assert (x = c) as -> by congruence. done.
          * exists x. rewrite grown_old; [done|done|done|by eapply lookup_lt].
        + intros m x Hx Hdt. apply Hnode in Hx as [->|(y & Hy & Ey & E2)]; [done|]. rewrite <-E2.
          apply (ci_ended _ I m y); [done|congruence].
        + intros m x Hx He Hdt. apply Hnode in Hx as [->|(y & Hy & Ey & E2)]; [done|].
          destruct (ci_half _ I m y Hy) as (j & dj & Hj); [congruence|congruence|].
          exists j, dj. simpl in Hj. rewrite list_lookup_insert_ne; [done|]. intros ->. congruence.
      - destruct Ht as (-> & Hp & c & Hc & Hce). rewrite Hc. simpl. intros [= <-].
        set (c' := CNode (cn_end c) (Some d) (cn_child c)).
        pose proof (leads_field h n c c') as L.
        destruct (threads_step h (<[n := c']> h) ths i (CDone d)) as [Hlen Hth].
        { apply (ci_len _ I). } { apply (ci_threads _ I). }
        { intros d0 t. by apply tgood_field with c. }
        { intros d0 Hd0. simpl. congruence. }
        split; simpl; try done.
        + by apply ctree_field with c.
        + intros a k b Hab. apply linked_field with c; [done|done|]. by apply (ci_links _ I).
        + intros p m x d0 Hl Hx Hdx. apply L in Hl; [|done|done]. destruct (decide (m = n)) as [->|Hne].
          * rewrite list_lookup_insert in Hx by (by eapply lookup_lt). injection Hx as <-. simpl in Hdx. injection Hdx as <-.
            right. split; [by eapply elem_of_list_lookup_2|]. by rewrite (Hp _ Hl).
          * rewrite list_lookup_insert_ne in Hx by done. by eapply (ci_rows _ I).
        + intros p m c0 d0 Hl Hc0 He Hdt Hno. destruct (ci_old _ I _ _ _ _ Hl Hc0 He Hdt Hno) as (x & Hx & Hxe & Hxd).
          simpl in Hx. destruct (decide (m = n)) as [->|Hne].
          * exfalso. apply (Hno d); [by eapply elem_of_list_lookup_2|]. symmetry. apply Hp.
            eapply leads_mono; [|exact Hl]. apply (ci_links _ I).
          * exists x. by rewrite list_lookup_insert_ne by done.
        + intros m x Hx Hdt. destruct (decide (m = n)) as [->|Hne].
          * rewrite list_lookup_insert in Hx by (by eapply lookup_lt). by injection Hx as <-.
          * rewrite list_lookup_insert_ne in Hx by done. by apply (ci_ended _ I m x).
        + intros m x Hx He Hdt. destruct (decide (m = n)) as [->|Hne].
          * rewrite list_lookup_insert in Hx by (by eapply lookup_lt). by injection Hx as <-.
          * rewrite list_lookup_insert_ne in Hx by done. destruct (ci_half _ I _ _ Hx He Hdt) as (j & dj & Hj).
            exists j, dj. simpl in Hj. rewrite list_lookup_insert_ne; [done|]. intros ->. congruence.
      - done.
    Qed.
    Lemma cinv_run st sched st' : cinv st -> crun st sched = Some st' -> cinv st'.
    Proof.
      revert st. induction sched as [|i sched IH]; intros st I; simpl; [by intros [= <-]|].
      destruct (cstep st i) as [st1|] eqn:E; [|done]. simpl. apply IH. by eapply cinv_step.
    Qed.

    (** ** When the rows part ways in the old trie, nothing is lost. *)
    Section apart.
      Hypothesis Hapart : part_ways keys_of h0 ds.
      Definition tthere (h : heap) (t : cthread T) : Prop :=
        match t with
        | CWalk d ks n => exists p, leads h 0 p n
        | CMiss d k ks n => (exists p, leads h 0 p n) /\ forall m, ~ linked h n k m
        | CEnd d n => exists p, leads h 0 p n
        | CDone d => exists m c d', leads h 0 (path d) m /\ h !! m = Some c /\ cn_end c = true /\ cn_data c = Some d'
                       /\ d' ∈ ds /\ path d' = path d
        end.
      Definition cthere (st : cstate T) : Prop := forall i t, st.2 !! i = Some t -> tthere st.1 t.

      Lemma cthere_step st i st' : cinv st -> cthere st -> cstep st i = Some st' -> cthere st'.
      Proof.
        destruct st as [h ths]. intros I B. unfold cstep; simpl. destruct (ths !! i) as [t|] eqn:Hi; [|done]. simpl.
        assert (i < length ds) as [d Hd]%lookup_lt_is_Some by (rewrite <-(ci_len _ I); by eapply lookup_lt_Some).
        pose proof (ci_threads _ I _ _ _ Hi Hd) as Ht. simpl in Ht.
        pose proof (ci_tree _ I) as W. simpl in W. pose proof (B i t Hi) as Bt. simpl in Bt.
        assert (Hcase : forall h' t', tthere h' t' -> (forall j tj, j <> i -> ths !! j = Some tj -> tthere h' tj) ->
                          cthere (h', <[i := t']> ths)).
        { intros h' t' H1 H2 j tj. simpl. intros Hj. destruct (decide (j = i)) as [->|Hne].
          - rewrite list_lookup_insert in Hj by (by eapply lookup_lt_Some). by injection Hj as <-.
          - rewrite list_lookup_insert_ne in Hj by done. by eapply H2. }
        destruct t as [d' ks n|d' k ks n|d' n|d']; simpl; simpl in Ht, Bt.
        - destruct Ht as (-> & Hn & Hp). destruct Bt as [p Hpn]. destruct ks as [|k ks].
          + apply lookup_lt_is_Some in Hn as [c Hc]. rewrite Hc. simpl. intros [= <-].
            pose proof (leads_field h n c (CNode true (cn_data c) (cn_child c))) as L.
            pose proof (linked_field h n c (CNode true (cn_data c) (cn_child c))) as K.
            apply Hcase; [exists p; by apply L|]. intros j tj Hj Hthj. specialize (B j tj Hthj). simpl in B.
            destruct tj as [dj ksj nj|dj kj ksj nj|dj nj|dj]; simpl in *.
            * destruct B as [pj Hpj]. exists pj. by apply L.
            * destruct B as [[pj Hpj] Hno]. split; [exists pj; by apply L|]. intros m Hm. apply K in Hm; [|done|done]. by eapply Hno.
            * destruct B as [pj Hpj]. exists pj. by apply L.
            * destruct B as (m & x & d2 & Hl & Hx & He & Hdt & H1 & H2). destruct (decide (m = n)) as [->|Hne].
              -- exists n, (CNode true (cn_data c) (cn_child c)), d2.
                 rewrite list_lookup_insert by (by eapply lookup_lt). assert (x = c) as -> by congruence.
                 split_and!; try done. by apply L.
              -- exists m, x, d2. rewrite list_lookup_insert_ne by done. split_and!; try done. by apply L.
          + destruct (is_nil k) eqn:Hk.
            * intros [= <-]. apply Hcase; [by exists p|]. intros j tj _ Hj. by apply B in Hj.
            * apply lookup_lt_is_Some in Hn as [c Hc]. rewrite Hc. simpl. intros [= <-].
              apply Hcase; [|intros j tj _ Hj; by apply B in Hj].
              destruct (kid k (cn_child c)) as [m|] eqn:Hm; simpl.
              -- exists (p ++ [k]). apply leads_snoc. exists n. split; [done|]. by exists c.
              -- split; [by exists p|]. intros m (c1 & Hc1 & E1). congruence.
        - destruct Ht as (-> & Hn & Hk & Hp & Habs). destruct Bt as [[p Hpn] Hno].
          apply lookup_lt_is_Some in Hn as [c Hc]. rewrite Hc. simpl. intros [= <-].
          change (<[n:=_]> h ++ [new_cnode]) with (grown h n k c).
          assert (M : forall x k' y, linked h x k' y -> linked (grown h n k c) x k' y).
          { intros x k' y Hl. apply linked_grown; [done|]. right. split; [|done]. intros [-> ->]. by eapply Hno. }
          assert (L : forall q x, leads h 0 q x -> leads (grown h n k c) 0 q x) by (intros q x; by apply leads_mono).
          apply Hcase.
          { exists (p ++ [k]). apply leads_snoc. exists n. split; [by apply L|]. apply linked_grown; [done|]. by left. }
          intros j tj Hj Hthj. pose proof (B j tj Hthj) as Bj. simpl in Bj.
          assert (j < length ds) as [dj0 Hdj]%lookup_lt_is_Some by (rewrite <-(ci_len _ I); by eapply lookup_lt_Some).
          pose proof (ci_threads _ I _ _ _ Hthj Hdj) as Htj. simpl in Htj.
          destruct tj as [dj ksj nj|dj kj ksj nj|dj nj|dj]; simpl in *.
          + destruct Bj as [pj Hpj]. exists pj. by apply L.
          + destruct Bj as [[pj Hpj] Hnoj]. destruct Htj as (-> & _ & _ & Hpj' & Habsj).
            split; [exists pj; by apply L|]. intros m Hm. apply linked_grown in Hm; [|done].
            destruct Hm as [(-> & -> & ->)|[_ Hm]]; [|by eapply Hnoj].
            assert (pj = p) as -> by (by eapply leads_inj).
            destruct (Hapart i j d dj0 (p ++ [k])) as [y Hy]; try done.
            { rewrite <-(Hp p Hpn). exists (nonnil ks). by rewrite <-app_assoc. }
            { rewrite <-(Hpj' p Hpn). exists (nonnil ksj). by rewrite <-app_assoc. }
            apply leads_snoc in Hy as (x & Hx & Hl).
            assert (x = n) as ->.
            { eapply leads_fun; [|exact Hpn]. eapply leads_mono; [|exact Hx]. apply (ci_links _ I). }
            by eapply Habs.
          + destruct Bj as [pj Hpj]. exists pj. by apply L.
          + destruct Bj as (m & x & d2 & Hl & Hx & He & Hdt & H1 & H2). destruct (decide (m = n)) as [->|Hne].
            * eexists n, _, d2. split; [by apply L|]. rewrite grown_at by done. split; [done|]. simpl.
              by assert (x = c) as -> by congruence.
            * exists m, x, d2. split; [by apply L|]. rewrite grown_old; [done|done|done|by eapply lookup_lt].
        - destruct Ht as (-> & Hp & c & Hc & Hce). destruct Bt as [p Hpn]. rewrite Hc. simpl. intros [= <-].
          set (c' := CNode (cn_end c) (Some d) (cn_child c)).
          pose proof (leads_field h n c c') as L. pose proof (linked_field h n c c') as K.
          pose proof (Hp _ Hpn) as ->.
          apply Hcase.
          { exists n, c', d. split; [by apply L|]. rewrite list_lookup_insert by (by eapply lookup_lt).
            split_and!; try done. by eapply elem_of_list_lookup_2. }
          intros j tj Hj Hthj. specialize (B j tj Hthj). simpl in B.
          destruct tj as [dj ksj nj|dj kj ksj nj|dj nj|dj]; simpl in *.
          + destruct B as [pj Hpj]. exists pj. by apply L.
          + destruct B as [[pj Hpj] Hno]. split; [exists pj; by apply L|]. intros m Hm. apply K in Hm; [|done|done]. by eapply Hno.
          + destruct B as [pj Hpj]. exists pj. by apply L.
          + destruct B as (m & x & d2 & Hl & Hx & He & Hdt & H1 & H2). destruct (decide (m = n)) as [->|Hne].
            * exists n, c', d. split; [by apply L|]. rewrite list_lookup_insert by (by eapply lookup_lt).
              split_and!; try done; [by eapply elem_of_list_lookup_2|]. symmetry. by eapply leads_inj.
            * exists m, x, d2. rewrite list_lookup_insert_ne by done. split_and!; try done. by apply L.
        - done.
      Qed.
      Lemma cthere_run st sched st' : cinv st -> cthere st -> crun st sched = Some st' -> cthere st'.
      Proof.
        revert st. induction sched as [|i sched IH]; intros st I B; simpl; [by intros [= <-]|].
        destruct (cstep st i) as [st1|] eqn:E; [|done]. simpl. apply IH; [by eapply cinv_step|by eapply cthere_step].
      Qed.
    End apart.
  End batch.
End proofs.
