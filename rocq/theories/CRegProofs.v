(** Concurrent registration: invariants of every interleaving. *)
From Verif Require Export CRegSpec.

Section proofs.
  Context {V : Type}.
  Variable id_of : V -> string.
  Notation reg := (gmap string V).

  Record rinv (reg0 : reg) (xs : list V) (st : rgstate V) : Prop := {
    ri_len : length st.2 = length xs;
    ri_thread : forall i t x, st.2 !! i = Some t -> xs !! i = Some x ->
      match t with
      | RGet y => y = x
      | RSet y => y = x /\ reg0 !! id_of x = None
      | RDone y r => y = x /\ id_of r = id_of x /\ (reg0 !! id_of x = Some r \/ reg0 !! id_of x = None /\ r ∈ xs) /\ is_Some (st.1 !! id_of x)
      end;
    ri_old : forall id y, reg0 !! id = Some y -> st.1 !! id = Some y;
    ri_new : forall id y, st.1 !! id = Some y -> reg0 !! id = Some y \/ reg0 !! id = None /\ y ∈ xs /\ id_of y = id
  }.

  Lemma rinv_start reg0 xs : rinv reg0 xs (reg0, RGet <$> xs).
  Proof.
    split; simpl.
    - apply fmap_length.
    - intros i t x Hi Hx. rewrite list_lookup_fmap, Hx in Hi. by injection Hi as <-.
    - done.
    - intros id y H. by left.
  Qed.
  Lemma rinv_step reg0 xs st i st' : keyed id_of reg0 -> rinv reg0 xs st -> rgstep id_of st i = Some st' -> rinv reg0 xs st'.
  Proof.
    intros K I. destruct st as [rg ths]. unfold rgstep. simpl. destruct (ths !! i) as [t|] eqn:Hi; [|done]. simpl.
    assert (i < length xs) as [x Hx]%lookup_lt_is_Some by (rewrite <-(ri_len _ _ _ I); by eapply lookup_lt_Some).
    pose proof (ri_thread _ _ _ I _ _ _ Hi Hx) as Ht. simpl in Ht.
    assert (Hil : i < length ths) by (by eapply lookup_lt_Some).
    destruct t as [y|y|y r]; simpl; [| |done].
    - subst y. intros [= <-]. split; simpl.
      + rewrite insert_length. apply (ri_len _ _ _ I).
      + intros j t' z Hj Hz. destruct (decide (j = i)) as [->|Hne].
        * rewrite list_lookup_insert in Hj by done. assert (z = x) as -> by congruence. injection Hj as <-.
          destruct (rg !! id_of x) as [r|] eqn:E.
          -- split; [done|]. pose proof (ri_new _ _ _ I _ _ E) as [H|(H1 & H2 & H3)].
             ++ split; [by apply K|]. split; [by left|done].
             ++ split; [done|]. split; [by right|done].
          -- split; [done|]. destruct (reg0 !! id_of x) as [y|] eqn:E0; [|done]. apply (ri_old _ _ _ I) in E0. simpl in E0. congruence.
        * rewrite list_lookup_insert_ne in Hj by done. by apply (ri_thread _ _ _ I j).
      + apply (ri_old _ _ _ I).
      + apply (ri_new _ _ _ I).
    - destruct Ht as [-> Hno]. intros [= <-]. split; simpl.
      + rewrite insert_length. apply (ri_len _ _ _ I).
      + intros j t' z Hj Hz. destruct (decide (j = i)) as [->|Hne].
        * rewrite list_lookup_insert in Hj by done. assert (z = x) as -> by congruence. injection Hj as <-.
          split; [done|]. split; [done|]. split; [|by rewrite lookup_insert]. right. split; [done|]. by eapply elem_of_list_lookup_2.
        * rewrite list_lookup_insert_ne in Hj by done. pose proof (ri_thread _ _ _ I _ _ _ Hj Hz) as H. destruct t' as [y|y|y r]; try done.
          destruct H as (? & ? & ? & Hs). split_and!; try done. simpl in Hs. destruct (decide (id_of x = id_of z)) as [->|E].
          -- by rewrite lookup_insert.
          -- by rewrite lookup_insert_ne.
      + intros id y Hy. rewrite lookup_insert_ne by congruence. by apply (ri_old _ _ _ I).
      + intros id y Hy. destruct (decide (id_of x = id)) as [<-|E].
        * rewrite lookup_insert in Hy. injection Hy as <-. right. split_and!; try done. by eapply elem_of_list_lookup_2.
        * rewrite lookup_insert_ne in Hy by done. by apply (ri_new _ _ _ I).
  Qed.
  Lemma rinv_run reg0 xs st sched st' : keyed id_of reg0 -> rinv reg0 xs st -> rgrun id_of st sched = Some st' -> rinv reg0 xs st'.
  Proof.
    intros K. revert st. induction sched as [|i sched IH]; intros st I; simpl; [by intros [= <-]|].
    destruct (rgstep id_of st i) as [st1|] eqn:E; [|done]. simpl. apply IH. by eapply rinv_step.
  Qed.
  Lemma zip_done (xs rs : list V) i x r : length rs = length xs -> xs !! i = Some x -> rs !! i = Some r ->
    zip_with RDone xs rs !! i = Some (RDone x r).
  Proof. intros Hl Hx Hr. rewrite lookup_zip_with. rewrite Hx. simpl. by rewrite Hr. Qed.
  Lemma registered_inv reg0 xs rs reg' : keyed id_of reg0 -> registered id_of reg0 xs rs reg' ->
    rinv reg0 xs (reg', zip_with RDone xs rs).
  Proof. intros K [_ [sched Hr]]. by eapply rinv_run, Hr; [|apply rinv_start]. Qed.

  (** ** What always holds *)
  Lemma reg_keyed reg0 xs rs reg' : keyed id_of reg0 -> registered id_of reg0 xs rs reg' -> keyed id_of reg'.
  Proof.
    intros K I%registered_inv id y Hy; [|done]. destruct (ri_new _ _ _ I id y Hy) as [H|(_ & _ & H)]; [by apply K|done].
  Qed.
  Lemma reg_returns reg0 xs rs reg' i x r : keyed id_of reg0 -> registered id_of reg0 xs rs reg' -> xs !! i = Some x -> rs !! i = Some r ->
    id_of r = id_of x /\ (reg0 !! id_of x = Some r \/ reg0 !! id_of x = None /\ r ∈ xs).
  Proof.
    intros K H Hx Hr. pose proof (registered_inv _ _ _ _ K H) as I. destruct H as [Hl _].
    pose proof (ri_thread _ _ _ I i _ x (zip_done _ _ _ _ _ Hl Hx Hr) Hx) as (_ & ? & ? & _). done.
  Qed.
  Lemma reg_result reg0 xs rs reg' id y : keyed id_of reg0 -> registered id_of reg0 xs rs reg' -> reg' !! id = Some y ->
    reg0 !! id = Some y \/ reg0 !! id = None /\ y ∈ xs /\ id_of y = id.
  Proof. intros K H. apply (ri_new _ _ _ (registered_inv _ _ _ _ K H)). Qed.
  Lemma reg_old reg0 xs rs reg' id y : keyed id_of reg0 -> registered id_of reg0 xs rs reg' -> reg0 !! id = Some y -> reg' !! id = Some y.
  Proof. intros K H. apply (ri_old _ _ _ (registered_inv _ _ _ _ K H)). Qed.
  Lemma reg_dom reg0 xs rs reg' : keyed id_of reg0 -> registered id_of reg0 xs rs reg' -> dom reg' = dom reg0 ∪ list_to_set (id_of <$> xs).
  Proof.
    intros K H. pose proof (registered_inv _ _ _ _ K H) as I. apply leibniz_equiv. intros id.
    rewrite elem_of_union, elem_of_list_to_set, !elem_of_dom, elem_of_list_fmap. split.
    - intros [y Hy]. destruct (reg_result _ _ _ _ _ _ K H Hy) as [E|(_ & Hin & <-)]; [left; by exists y|right; by exists y].
    - intros [[y Hy]|(x & -> & [i Hx]%elem_of_list_lookup)]; [exists y; by apply (ri_old _ _ _ I)|].
      assert (i < length rs) as [r Hr]%lookup_lt_is_Some by (rewrite (proj1 H); by eapply lookup_lt_Some).
      pose proof (ri_thread _ _ _ I i _ x (zip_done _ _ _ _ _ (proj1 H) Hx Hr) Hx) as (_ & _ & _ & ?). done.
  Qed.

  (** ** Running a goroutine to its end *)
  Lemma rgrun_app st s1 s2 : rgrun id_of st (s1 ++ s2) = st1 ← rgrun id_of st s1; rgrun id_of st1 s2.
  Proof. revert st. induction s1 as [|i s1 IH]; intros st; simpl; [done|]. destruct (rgstep id_of st i); simpl; [apply IH|done]. Qed.
  (** From a state where nobody is between Get and Set, the remaining goroutines run one after the other and keep what
      is registered. *)
  Lemma finish_rest : forall n (xs : list V) (rg : reg) (ths : list (rthread V)), length ths = length xs -> n <= length xs ->
    (forall i t x, ths !! i = Some t -> xs !! i = Some x -> t = RGet x \/ exists r, t = RDone x r) ->
    (forall i t x, i < n -> ths !! i = Some t -> xs !! i = Some x -> exists r, t = RDone x r) ->
    exists sched reg' rs, rgrun id_of (rg, ths) sched = Some (reg', zip_with RDone xs rs) /\ length rs = length xs
      /\ (forall id y, rg !! id = Some y -> reg' !! id = Some y)
      /\ (forall i x r, ths !! i = Some (RDone x r) -> rs !! i = Some r).
  Proof.
    intros n xs. remember (length xs - n) as k eqn:Ek. revert n Ek. induction k as [|k IH]; intros n Ek rg ths Hl Hn Hall Hd.
    - set (rs := omap (fun t => match t with RDone _ r => Some r | _ => None end) ths).
      assert (Hrs : forall (ys : list V) l, length l = length ys ->
        (forall i t x, l !! i = Some t -> ys !! i = Some x -> exists r, t = RDone x r) ->
        l = zip_with RDone ys (omap (fun t => match t with RDone _ r => Some r | _ => None end) l)
        /\ length (omap (fun t => match t with RDone _ r => Some r | _ => None end) l) = length ys
        /\ forall i x r, l !! i = Some (RDone x r) -> omap (fun t => match t with RDone _ r => Some r | _ => None end) l !! i = Some r).
      { intros ys. induction ys as [|y ys IHy]; intros [|t l] Hll Hdd; simpl in Hll; try done.
        destruct (Hdd 0 t y eq_refl eq_refl) as [r ->]. simpl. destruct (IHy l) as (E1 & E2 & E3); [lia| |].
        { intros i t' x Hi Hx. apply (Hdd (S i)); done. }
        split_and!.
        - f_equal. exact E1.
        - simpl. f_equal. exact E2.
        - intros [|i] x r' Hi; simpl in *; [by injection Hi as _ <-|]. by eapply E3. }
      destruct (Hrs xs ths Hl) as (E1 & E2 & E3).
      { intros i t x Hi Hx. apply (Hd i); try done. apply lookup_lt_Some in Hx. lia. }
      exists [], rg, rs. split; [simpl; do 2 f_equal; exact E1|]. split; [done|]. split; [done|]. done.
    - assert (n < length xs) as [x Hx]%lookup_lt_is_Some by lia.
      assert (n < length ths) as [t Ht]%lookup_lt_is_Some by lia.
      assert (exists s1 rg1 r1, rgrun id_of (rg, ths) s1 = Some (rg1, <[n := RDone x r1]> ths) /\ (forall id y, rg !! id = Some y -> rg1 !! id = Some y)
              /\ (forall r, t = RDone x r -> r1 = r)) as (s1 & rg1 & r1 & R1 & Hk & Hr1).
      { destruct (Hall n t x Ht Hx) as [->|[r ->]].
        - destruct (rg !! id_of x) as [r|] eqn:E.
          + exists [n], rg, r. split; [|done]. simpl. unfold rgstep. simpl. rewrite Ht. simpl. by rewrite E.
          + exists [n; n], (<[id_of x := x]> rg), x. split.
            * simpl. unfold rgstep. simpl. rewrite Ht. simpl. rewrite E. simpl.
              rewrite list_lookup_insert by lia. simpl. by rewrite list_insert_insert.
            * split; [|done]. intros id y Hy. rewrite lookup_insert_ne; [done|]. congruence.
        - exists [], rg, r. split; [simpl; by rewrite list_insert_id|]. split; [done|]. by intros ? [= ->]. }
      destruct (IH (S n)) with (rg := rg1) (ths := <[n := RDone x r1]> ths) as (s2 & reg' & rs & R2 & L2 & K2 & D2).
      { lia. } { by rewrite insert_length. } { lia. }
      { intros i t' y Hi Hy. destruct (decide (i = n)) as [->|Hne].
        - rewrite list_lookup_insert in Hi by lia. injection Hi as <-. assert (y = x) as -> by congruence. right. by exists r1.
        - rewrite list_lookup_insert_ne in Hi by done. by apply (Hall i). }
      { intros i t' y Hi Ht' Hy. destruct (decide (i = n)) as [->|Hne].
        - rewrite list_lookup_insert in Ht' by lia. injection Ht' as <-. assert (y = x) as -> by congruence. by exists r1.
        - rewrite list_lookup_insert_ne in Ht' by done. apply (Hd i); try done. lia. }
      exists (s1 ++ s2), reg', rs. split; [rewrite rgrun_app, R1; done|]. split; [done|]. split.
      + intros id y Hy. by apply K2, Hk.
      + intros i y r Hi. destruct (decide (i = n)) as [->|Hne].
        * assert (t = RDone y r) as -> by congruence. destruct (Hall n _ x Ht Hx) as [?|[r' [= -> <-]]]; [done|].
          rewrite <-(Hr1 r eq_refl). apply (D2 n x r1). rewrite list_lookup_insert by lia. done.
        * apply (D2 i y r). by rewrite list_lookup_insert_ne.
  Qed.
  Lemma can_register reg0 xs : exists rs reg', registered id_of reg0 xs rs reg'.
  Proof.
    destruct (finish_rest 0 xs reg0 (RGet <$> xs)) as (s & reg' & rs & Hr & Hl & _).
    - apply fmap_length.
    - lia.
    - intros i t x Hi Hx. rewrite list_lookup_fmap, Hx in Hi. injection Hi as <-. by left.
    - intros; lia.
    - exists rs, reg'. split; [done|]. by exists s.
  Qed.

  (** ** Agreement, exactly when nobody offers a second object under a new id *)
  Lemma agreed_norivals reg0 xs rs reg' : keyed id_of reg0 -> no_rivals id_of reg0 xs -> registered id_of reg0 xs rs reg' -> agreed id_of xs rs reg'.
  Proof.
    intros K N H i x r Hx Hr. pose proof (registered_inv _ _ _ _ K H) as I.
    pose proof (ri_thread _ _ _ I i _ x (zip_done _ _ _ _ _ (proj1 H) Hx Hr) Hx) as (_ & Hid & [Ho|[Hn Hin]] & [z Hz]).
    - by apply (ri_old _ _ _ I).
    - simpl in Hz. rewrite Hz. f_equal. destruct (reg_result _ _ _ _ _ _ K H Hz) as [E|(_ & Hzin & Ez)]; [congruence|].
      apply (N z r); try done; congruence.
  Qed.
  Lemma rival_split reg0 xs i j x y : xs !! i = Some x -> xs !! j = Some y -> id_of x = id_of y -> reg0 !! id_of x = None -> x <> y ->
    exists rs reg', registered id_of reg0 xs rs reg' /\ rs !! i = Some x /\ rs !! j = Some y /\ reg' !! id_of x = Some y.
  Proof.
    intros Hx Hy Hid Hno Hxy. assert (i <> j) as Hij by (intros ->; congruence).
    set (ths0 := RGet <$> xs).
    assert (Hlen : length ths0 = length xs) by apply fmap_length.
    assert (Hil : i < length ths0) by (rewrite Hlen; by eapply lookup_lt_Some).
    assert (Hjl : j < length ths0) by (rewrite Hlen; by eapply lookup_lt_Some).
    assert (Hi0 : ths0 !! i = Some (RGet x)) by (unfold ths0; by rewrite list_lookup_fmap, Hx).
    assert (Hj0 : ths0 !! j = Some (RGet y)) by (unfold ths0; by rewrite list_lookup_fmap, Hy).
    set (ths4 := <[j := RDone y y]> (<[i := RDone x x]> (<[j := RSet y]> (<[i := RSet x]> ths0)))).
    set (rg4 := <[id_of y := y]> (<[id_of x := x]> reg0)).
    assert (R4 : rgrun id_of (reg0, ths0) [i; j; i; j] = Some (rg4, ths4)).
    { simpl. unfold rgstep. simpl. rewrite Hi0. simpl. rewrite Hno. simpl.
      rewrite list_lookup_insert_ne by done. rewrite Hj0. simpl. assert (reg0 !! id_of y = None) as -> by congruence. simpl.
      rewrite list_lookup_insert_ne by done. rewrite list_lookup_insert by done. simpl.
      rewrite list_lookup_insert_ne by done. rewrite list_lookup_insert by (by rewrite insert_length). simpl. done. }
    assert (L4 : forall l t, ths4 !! l = Some t -> l = j /\ t = RDone y y \/ l = i /\ t = RDone x x \/ l <> i /\ l <> j /\ ths0 !! l = Some t).
    { intros l t Hl. unfold ths4 in Hl. destruct (decide (l = j)) as [->|Hj].
      - rewrite list_lookup_insert in Hl by (by rewrite !insert_length). left. by injection Hl as <-.
      - rewrite list_lookup_insert_ne in Hl by done. destruct (decide (l = i)) as [->|Hi].
        + rewrite list_lookup_insert in Hl by (by rewrite !insert_length). right. left. by injection Hl as <-.
        + rewrite !list_lookup_insert_ne in Hl by done. right. right. done. }
    destruct (finish_rest 0 xs rg4 ths4) as (s & reg' & rs & Hr & Hl & Hk & Hd).
    - unfold ths4. by rewrite !insert_length.
    - lia.
    - intros l t z Ht Hz. apply L4 in Ht as [[-> ->]|[[-> ->]|(_ & _ & Ht)]].
      + right. exists y. congruence.
      + right. exists x. congruence.
      + left. unfold ths0 in Ht. rewrite list_lookup_fmap, Hz in Ht. by injection Ht as <-.
    - intros; lia.
    - exists rs, reg'. split; [|split_and!].
      + split; [done|]. exists ([i; j; i; j] ++ s). fold ths0. rewrite rgrun_app, R4. done.
      + apply (Hd i x x). unfold ths4. rewrite list_lookup_insert_ne by done. apply list_lookup_insert. by rewrite !insert_length.
      + apply (Hd j y y). unfold ths4. apply list_lookup_insert. by rewrite !insert_length.
      + apply Hk. rewrite Hid. apply lookup_insert.
  Qed.
  Lemma agreed_exact `{EqDecision V} reg0 xs : keyed id_of reg0 ->
    (forall rs reg', registered id_of reg0 xs rs reg' -> agreed id_of xs rs reg') <-> no_rivals id_of reg0 xs.
  Proof.
    intros K. split.
    - intros H x y [i Hx]%elem_of_list_lookup [j Hy]%elem_of_list_lookup Hid Hno. destruct (decide (x = y)) as [|Hxy]; [done|]. exfalso.
      destruct (rival_split reg0 xs i j x y Hx Hy Hid Hno Hxy) as (rs & reg' & Hr & Hi & _ & Hreg).
      specialize (H rs reg' Hr i x x Hx Hi). congruence.
    - intros N rs reg'. by apply agreed_norivals.
  Qed.
End proofs.
