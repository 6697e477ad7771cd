(** Several v1 Authorize calls at the same time: the invariant, and what follows. *)
From Verif Require Import UtilsProofs RoleProofs V1Auth V1Dec V1SliceProofs V1Inv.
From Verif Require Export V1PoolProofs.

(** ** Events *)
Definition take_step (l : nat) (a : option nat) (e : xevent) : option nat := match e with XTake i l' => if Nat.eqb l' l then Some i else a | _ => a end.
Lemma last_taker_app es es' l : last_taker (es ++ es') l = foldl (take_step l) (last_taker es l) es'.
Proof. apply foldl_app. Qed.
Lemma last_take es i l l' : last_taker (es ++ [XTake i l]) l' = if Nat.eqb l l' then Some i else last_taker es l'.
Proof. rewrite last_taker_app. reflexivity. Qed.
Lemma last_back es i l l' : last_taker (es ++ [XBack i l]) l' = last_taker es l'.
Proof. rewrite last_taker_app. reflexivity. Qed.
Lemma last_look es i l l' : last_taker (es ++ [XLook i l]) l' = last_taker es l'.
Proof. rewrite last_taker_app. reflexivity. Qed.
Lemma undisturbed_app i es es' : x_undisturbed i (es ++ es') -> x_undisturbed i es.
Proof. intros U es1 l es2 ->. apply (U es1 l (es2 ++ es')). rewrite <- app_assoc. reflexivity. Qed.
Lemma undisturbed_last i es l : x_undisturbed i (es ++ [XLook i l]) -> last_taker es l = Some i.
Proof. intros U. exact (U es l [] eq_refl). Qed.

Lemma last_taker_in es l i : last_taker es l = Some i -> XTake i l ∈ es.
Proof.
  induction es as [|e es IH] using rev_ind; [discriminate|]. rewrite last_taker_app. cbn [foldl]. intros H. apply elem_of_app. destruct e as [j l'|j l'|j l']; cbn [take_step] in H; [|left; exact (IH H)..].
  destruct (Nat.eqb_spec l' l) as [->|_]; [injection H as ->; right; left|left; exact (IH H)].
Qed.
Lemma no_take es l a : (forall j, XTake j l ∉ es) -> foldl (take_step l) a es = a.
Proof.
  revert a. induction es as [|e es IH]; intros a H; [reflexivity|]. cbn [foldl].
  assert (E : take_step l a e = a). { destruct e as [j l'|j l'|j l']; [|reflexivity..]. cbn [take_step]. destruct (Nat.eqb_spec l' l) as [->|_]; [|reflexivity]. destruct (H j). left. }
  rewrite E. apply IH. intros j Hj. apply (H j). right. exact Hj.
Qed.
Lemma snoc_split {A} (es es1 es2 : list A) e x : es ++ [e] = es1 ++ x :: es2 -> es = es1 /\ e = x \/ exists es3, es = es1 ++ x :: es3.
Proof.
  destruct es2 as [|z es3 _] using rev_ind.
  - intros H. apply app_inj_tail in H as [H1 H2]. left. exact (conj H1 H2).
  - intros H. right. rewrite app_comm_cons, app_assoc in H. apply app_inj_tail in H as [H _]. exists es3. exact H.
Qed.

(** ** The invariant *)
Definition upd (f : nat -> mem) (i : nat) (m : mem) : nat -> mem := fun j => if Nat.eqb j i then m else f j.
Lemma upd_same f i m : upd f i m i = m.
Proof. unfold upd. rewrite Nat.eqb_refl. reflexivity. Qed.
Lemma upd_other f i m j : j <> i -> upd f i m j = f j.
Proof. intros N. unfold upd. rewrite (proj2 (Nat.eqb_neq _ _) N). reflexivity. Qed.
(** [l] lies in the pool: its last taker has given it back. *)
Definition back_since (es : list xevent) (l : nat) : Prop :=
  exists es1 es2 i, es = es1 ++ XBack i l :: es2 /\ last_taker es1 l = Some i /\ forall j, XTake j l ∉ es2.
Section inv.
  Context (Q : string -> Prop) (P R : nat -> res bool -> Prop) (N : nat).
  Record xinv (M : xmachine) (es : list xevent) (own old : nat -> mem) : Prop := {
    xi_nodup : NoDup (sl_pool (x_mem M));
    xi_pool : forall l, l ∈ sl_pool (x_mem M) -> l < length (sl_arrays (x_mem M)) /\ back_since es l;
    xi_own : forall i l arr, own i !! l = Some arr -> sl_arrays (x_mem M) !! l = Some arr /\ l ∉ sl_pool (x_mem M) /\ last_taker es l = Some i /\ old i !! l = None;
    xi_old : forall i l arr, old i !! l = Some arr -> XTake i l ∈ es
               /\ exists arr', sl_arrays (x_mem M) !! l = Some arr' /\ length arr' = length arr /\ (last_taker es l = Some i -> arr' = arr);
    xi_names : forall l arr, sl_arrays (x_mem M) !! l = Some arr -> Forall Q arr;
    xi_looks : forall es1 i l es2, es = es1 ++ XLook i l :: es2 -> XTake i l ∈ es1;
    xi_excl : forall es1 i l es2, es = es1 ++ XTake i l :: es2 -> is_Some (last_taker es1 l) -> back_since es1 l;
    xi_takers : forall l i, last_taker es l = Some i -> i < N /\ l < length (sl_arrays (x_mem M));
    xi_size : length (x_codes M) = N;
    xi_codes : forall i c, x_codes M !! i = Some c ->
      good false Q (P i) (own i) (old i) c /\ (x_undisturbed i es -> good true (fun _ => True) (R i) (own i) (old i) c)
  }.
  Context (Q0 : Q "").
  Lemma xinv_start cs : length cs = N ->
    (forall i c, cs !! i = Some c -> good false Q (P i) ∅ ∅ c /\ good true (fun _ => True) (R i) ∅ ∅ c) -> xinv (XM sl_init cs) [] (fun _ => ∅) (fun _ => ∅).
  Proof.
    intros HN H. split; cbn [x_mem x_codes sl_init sl_pool sl_arrays].
    - apply NoDup_nil_2.
    - intros l Hl. destruct (not_elem_of_nil _ Hl).
    - intros i l arr Hl. rewrite lookup_empty in Hl. discriminate.
    - intros i l arr Hl. rewrite lookup_empty in Hl. discriminate.
    - intros l arr Hl. rewrite lookup_nil in Hl. discriminate.
    - intros es1 i l es2 E. destruct (app_cons_not_nil _ _ _ E).
    - intros es1 i l es2 E. destruct (app_cons_not_nil _ _ _ E).
    - intros l i Hl. discriminate.
    - exact HN.
    - intros i c Hc. destruct (H i c Hc) as [H1 H2]. split; [exact H1|intros _; exact H2].
  Qed.
  Lemma back_take es l i l' : l <> l' -> back_since es l -> back_since (es ++ [XTake i l']) l.
  Proof.
    intros D (es1 & es2 & k & -> & L & T). exists es1, (es2 ++ [XTake i l']), k. split; [rewrite <- app_assoc; reflexivity|]. split; [exact L|].
    intros j Hj. apply elem_of_app in Hj as [Hj|Hj]; [exact (T j Hj)|]. apply elem_of_list_singleton in Hj. injection Hj as _ E. exact (D E).
  Qed.
  Lemma back_quiet es l e : (forall i l', e <> XTake i l') -> back_since es l -> back_since (es ++ [e]) l.
  Proof.
    intros D (es1 & es2 & k & -> & L & T). exists es1, (es2 ++ [e]), k. split; [rewrite <- app_assoc; reflexivity|]. split; [exact L|].
    intros j Hj. apply elem_of_app in Hj as [Hj|Hj]; [exact (T j Hj)|]. apply elem_of_list_singleton in Hj. exact (D _ _ (eq_sym Hj)).
  Qed.
  (** Goroutine [i] takes [l], free or new. *)
  Lemma xinv_take M es own old i l arr arrs pool c c' :
    xinv M es own old -> x_codes M !! i = Some c ->
    (sl_arrays (x_mem M) !! l = Some arr /\ arrs = sl_arrays (x_mem M) /\ l ∈ sl_pool (x_mem M) /\ l ∉ pool \/ l = length (sl_arrays (x_mem M)) /\ arrs = sl_arrays (x_mem M) ++ [arr]) ->
    (forall x, x ∈ pool -> x ∈ sl_pool (x_mem M)) -> NoDup pool -> Forall Q arr ->
    good false Q (P i) (<[l := arr]> (own i)) (delete l (old i)) c' -> (x_undisturbed i es -> good true (fun _ => True) (R i) (<[l := arr]> (own i)) (delete l (old i)) c') ->
    xinv (XM (SL arrs pool) (<[i := c']> (x_codes M))) (es ++ [XTake i l]) (upd own i (<[l := arr]> (own i))) (upd old i (delete l (old i))).
  Proof.
    intros V Hc D HP ND HQ G1 G2.
    assert (Hn : forall j x a, own j !! x = Some a -> x <> l).
    { intros j x a Hx ->. destruct (xi_own _ _ _ _ V _ _ _ Hx) as (H1 & H2 & _). destruct D as [(_ & _ & D & _)|(-> & _)]; [exact (H2 D)|]. apply lookup_lt_Some in H1. lia. }
    assert (Ha : forall x a, sl_arrays (x_mem M) !! x = Some a -> arrs !! x = Some a).
    { intros x a Hx. destruct D as [(_ & -> & _)|(_ & ->)]; [exact Hx|]. apply lookup_app_l_Some. exact Hx. }
    assert (Hl : arrs !! l = Some arr).
    { destruct D as [(H & -> & _)|(-> & ->)]; [exact H|]. rewrite lookup_app_r, Nat.sub_diag by lia. reflexivity. }
    assert (HL : length (sl_arrays (x_mem M)) <= length arrs) by (destruct D as [(_ & -> & _)|(_ & ->)]; [lia|rewrite app_length; lia]).
    split; cbn [x_mem x_codes sl_pool sl_arrays].
    - exact ND.
    - intros x Hx. destruct (xi_pool _ _ _ _ V x (HP x Hx)) as [H1 H2]. split; [lia|]. apply back_take; [|exact H2].
      intros ->. destruct D as [(_ & _ & _ & D)|(-> & _)]; [exact (D Hx)|lia].
    - intros j x a. rewrite last_take. destruct (decide (j = i)) as [->|Nj].
      + rewrite !upd_same. destruct (decide (x = l)) as [->|Nx].
        * rewrite lookup_insert. intros [= <-]. split; [exact Hl|]. split; [|split; [rewrite Nat.eqb_refl; reflexivity|apply lookup_delete]].
          intros Hx. destruct D as [(_ & _ & _ & D)|(-> & _)]; [exact (D Hx)|]. apply HP, (xi_pool _ _ _ _ V) in Hx as [Hx _]. lia.
        * rewrite lookup_insert_ne by congruence. intros Hx. destruct (xi_own _ _ _ _ V _ _ _ Hx) as (H1 & H2 & H3 & H4). split; [apply Ha; exact H1|]. split; [intros F; exact (H2 (HP x F))|].
          rewrite (proj2 (Nat.eqb_neq l x)) by congruence. split; [exact H3|]. rewrite lookup_delete_ne by congruence. exact H4.
      + rewrite !upd_other by exact Nj. intros Hx. pose proof (Hn _ _ _ Hx) as Nx. destruct (xi_own _ _ _ _ V _ _ _ Hx) as (H1 & H2 & H3 & H4). split; [apply Ha; exact H1|]. split; [intros F; exact (H2 (HP x F))|].
        rewrite (proj2 (Nat.eqb_neq l x)) by congruence. split; [exact H3|exact H4].
    - intros j x a. rewrite last_take. destruct (decide (j = i)) as [->|Nj].
      + rewrite upd_same. destruct (decide (x = l)) as [->|Nx]; [rewrite lookup_delete; discriminate|]. rewrite lookup_delete_ne by congruence. intros Hx.
        destruct (xi_old _ _ _ _ V _ _ _ Hx) as (H1 & a' & H2 & H3 & H4). rewrite (proj2 (Nat.eqb_neq l x)) by congruence. split; [apply elem_of_app; left; exact H1|]. exists a'. split; [apply Ha; exact H2|]. split; assumption.
      + rewrite upd_other by exact Nj. intros Hx. destruct (xi_old _ _ _ _ V _ _ _ Hx) as (H1 & a' & H2 & H3 & H4). destruct (Nat.eqb l x).
        * split; [apply elem_of_app; left; exact H1|]. exists a'. split; [apply Ha; exact H2|]. split; [exact H3|]. intros [= E]. destruct (Nj (eq_sym E)).
        * split; [apply elem_of_app; left; exact H1|]. exists a'. split; [apply Ha; exact H2|]. split; assumption.
    - intros x a Hx. destruct D as [(_ & -> & _)|(_ & ->)]; [exact (xi_names _ _ _ _ V _ _ Hx)|].
      apply lookup_app_Some in Hx as [Hx|[_ Hx]]; [exact (xi_names _ _ _ _ V _ _ Hx)|]. apply list_lookup_singleton_Some in Hx as [_ <-]. exact HQ.
    - intros es1 j x es2 E. apply snoc_split in E as [[_ E]|(es3 & E)]; [discriminate|]. exact (xi_looks _ _ _ _ V _ _ _ _ E).
    - intros es1 j x es2 E Hs. apply snoc_split in E as [[<- E]|(es3 & E)]; [|exact (xi_excl _ _ _ _ V _ _ _ _ E Hs)]. injection E as <- <-.
      destruct D as [(_ & _ & D & _)|(-> & _)]; [exact (proj2 (xi_pool _ _ _ _ V l D))|]. destruct Hs as [z Hz]. destruct (xi_takers _ _ _ _ V _ _ Hz). lia.
    - intros x j. rewrite last_take. destruct (Nat.eqb_spec l x) as [<-|_].
      + intros [= <-]. split; [|apply lookup_lt_Some in Hl; exact Hl]. rewrite <- (xi_size _ _ _ _ V). apply lookup_lt_Some in Hc. exact Hc.
      + intros Hx. destruct (xi_takers _ _ _ _ V _ _ Hx) as [H1 H2]. split; [exact H1|lia].
    - rewrite insert_length. exact (xi_size _ _ _ _ V).
    - intros j c0 Hj. destruct (decide (j = i)) as [->|Nj].
      + rewrite list_lookup_insert in Hj by (apply lookup_lt_Some in Hc; exact Hc). injection Hj as <-. rewrite !upd_same. split; [exact G1|]. intros U. apply G2, (undisturbed_app _ _ _ U).
      + rewrite list_lookup_insert_ne in Hj by congruence. rewrite !upd_other by exact Nj. destruct (xi_codes _ _ _ _ V _ _ Hj) as [H1 H2]. split; [exact H1|]. intros U. apply H2, (undisturbed_app _ _ _ U).
  Qed.
  (** Goroutine [i] writes into an array it holds. *)
  Lemma xinv_write M es own old i l arr arr' c c' :
    xinv M es own old -> x_codes M !! i = Some c -> own i !! l = Some arr -> length arr' = length arr -> Forall Q arr' ->
    good false Q (P i) (<[l := arr']> (own i)) (old i) c' -> (x_undisturbed i es -> good true (fun _ => True) (R i) (<[l := arr']> (own i)) (old i) c') ->
    xinv (XM (SL (<[l := arr']> (sl_arrays (x_mem M))) (sl_pool (x_mem M))) (<[i := c']> (x_codes M))) es (upd own i (<[l := arr']> (own i))) old.
  Proof.
    intros V Hc Ho HL HQ G1 G2. destruct (xi_own _ _ _ _ V _ _ _ Ho) as (O1 & O2 & O3 & O4). pose proof (lookup_lt_Some _ _ _ O1) as Lt.
    split; cbn [x_mem x_codes sl_pool sl_arrays].
    - exact (xi_nodup _ _ _ _ V).
    - intros x Hx. rewrite insert_length. exact (xi_pool _ _ _ _ V x Hx).
    - intros j x a. destruct (decide (j = i)) as [->|Nj].
      + rewrite upd_same. destruct (decide (x = l)) as [->|Nx].
        * rewrite lookup_insert. intros [= <-]. rewrite list_lookup_insert by exact Lt. exact (conj eq_refl (conj O2 (conj O3 O4))).
        * rewrite lookup_insert_ne by congruence. rewrite list_lookup_insert_ne by congruence. exact (xi_own _ _ _ _ V i x a).
      + rewrite upd_other by exact Nj. intros Hx. pose proof (xi_own _ _ _ _ V _ _ _ Hx) as H. rewrite list_lookup_insert_ne; [exact H|].
        intros <-. destruct H as (_ & _ & H & _). rewrite O3 in H. injection H as E. exact (Nj (eq_sym E)).
    - intros j x a Hx. destruct (xi_old _ _ _ _ V _ _ _ Hx) as (H1 & a' & H2 & H3 & H4). split; [exact H1|]. destruct (decide (x = l)) as [->|Nx].
      + exists arr'. rewrite list_lookup_insert by exact Lt. split; [reflexivity|]. rewrite O1 in H2. injection H2 as <-. split; [lia|].
        intros E. rewrite O3 in E. injection E as ->. rewrite O4 in Hx. discriminate.
      + exists a'. rewrite list_lookup_insert_ne by congruence. split; [exact H2|split; assumption].
    - intros x a Hx. destruct (decide (x = l)) as [->|Nx].
      + rewrite list_lookup_insert in Hx by exact Lt. injection Hx as <-. exact HQ.
      + rewrite list_lookup_insert_ne in Hx by congruence. exact (xi_names _ _ _ _ V _ _ Hx).
    - exact (xi_looks _ _ _ _ V).
    - exact (xi_excl _ _ _ _ V).
    - intros x j Hx. rewrite insert_length. exact (xi_takers _ _ _ _ V _ _ Hx).
    - rewrite insert_length. exact (xi_size _ _ _ _ V).
    - intros j c0 Hj. destruct (decide (j = i)) as [->|Nj].
      + rewrite list_lookup_insert in Hj by (apply lookup_lt_Some in Hc; exact Hc). injection Hj as <-. rewrite upd_same. split; [exact G1|exact G2].
      + rewrite list_lookup_insert_ne in Hj by congruence. rewrite upd_other by exact Nj. exact (xi_codes _ _ _ _ V _ _ Hj).
  Qed.
  Lemma xinv_step M es own old x M' es' : xinv M es own old -> xstep M x = Some (M', es') -> exists own' old', xinv M' (es ++ es') own' old'.
  Proof.
    destruct x as [i pick]. unfold xstep. cbn [fst snd]. intros V H. apply bind_Some in H as (c & Hc & H). apply bind_Some in H as ([[m c'] es1] & H & E). injection E as <- <-.
    destruct (xi_codes _ _ _ _ V _ _ Hc) as [G1 G2]. destruct c as [r|k|l k|l n w k|l j w k|l j k]; cbn [xcode_step good] in *; [discriminate| | | | |].
    - unfold sl_get in H.
      assert (Fresh : forall m0, m0 = SL (sl_arrays (x_mem M) ++ [replicate sl_cap ""]) (sl_pool (x_mem M)) ->
        exists own' old', xinv (XM m0 (<[i := k (length (sl_arrays (x_mem M)))]> (x_codes M))) (es ++ [XTake i (length (sl_arrays (x_mem M)))]) own' old').
      { intros m0 ->. assert (Hn : own i !! length (sl_arrays (x_mem M)) = None).
        { apply eq_None_not_Some. intros [a Ha]. destruct (xi_own _ _ _ _ V _ _ _ Ha) as (H1 & _). apply lookup_lt_Some in H1. lia. }
        eexists. eexists. apply (xinv_take M es own old i _ (replicate sl_cap "") _ _ (XGet k)); [exact V|exact Hc|right; split; reflexivity|intros x Hx; exact Hx|exact (xi_nodup _ _ _ _ V)|apply Forall_replicate; exact Q0| |].
        - apply G1. exact Hn.
        - intros U. apply (G2 U). exact Hn. }
      destruct pick as [pk|]; [destruct (sl_pool (x_mem M) !! pk) as [l|] eqn:Epk|].
      + injection H as <- <- <-. pose proof (elem_of_list_lookup_2 _ _ _ Epk) as Hin. destruct (xi_pool _ _ _ _ V l Hin) as [Hlt _]. apply lookup_lt_is_Some_2 in Hlt as [arr Harr].
        assert (Hn : own i !! l = None). { apply eq_None_not_Some. intros [a Ha]. destruct (xi_own _ _ _ _ V _ _ _ Ha) as (_ & H2 & _). exact (H2 Hin). }
        pose proof (xi_nodup _ _ _ _ V) as ND. pose proof (delete_Permutation _ _ _ Epk) as Pm.
        assert (ND2 : NoDup (l :: delete pk (sl_pool (x_mem M)))) by (rewrite <- Pm; exact ND). apply NoDup_cons in ND2 as [ND1 ND2].
        eexists. eexists. apply (xinv_take M es own old i l arr _ _ (XGet k)); [exact V|exact Hc|left; split; [exact Harr|split; [reflexivity|split; [exact Hin|exact ND1]]]| |exact ND2|exact (xi_names _ _ _ _ V _ _ Harr)| |].
        * intros x Hx. rewrite Pm. right. exact Hx.
        * apply G1. exact Hn.
        * intros U. apply (G2 U). exact Hn.
      + injection H as <- <- <-. apply Fresh. reflexivity.
      + injection H as <- <- <-. apply Fresh. reflexivity.
    - injection H as <- <- <-. destruct G1 as (arr & Ho & G1). destruct (xi_own _ _ _ _ V _ _ _ Ho) as (O1 & O2 & O3 & O4).
      exists (upd own i (delete l (own i))), (upd old i (<[l := arr]> (old i))). split; cbn [x_mem x_codes sl_pool sl_arrays sl_put].
      + apply NoDup_cons. split; [exact O2|exact (xi_nodup _ _ _ _ V)].
      + intros x Hx. apply elem_of_cons in Hx as [->|Hx].
        * split; [apply lookup_lt_Some in O1; exact O1|]. exists es, [], i. split; [reflexivity|]. split; [exact O3|]. intros j Hj. destruct (not_elem_of_nil _ Hj).
        * destruct (xi_pool _ _ _ _ V x Hx) as [H1 H2]. split; [exact H1|]. apply back_quiet; [discriminate|exact H2].
      + intros j x a. rewrite last_back. destruct (decide (j = i)) as [->|Nj].
        * rewrite !upd_same. destruct (decide (x = l)) as [->|Nx]; [rewrite lookup_delete; discriminate|]. rewrite lookup_delete_ne, lookup_insert_ne by congruence. intros Hx.
          destruct (xi_own _ _ _ _ V _ _ _ Hx) as (H1 & H2 & H3 & H4). split; [exact H1|]. split; [|split; assumption]. intros F. apply elem_of_cons in F as [F|F]; [exact (Nx F)|exact (H2 F)].
        * rewrite !upd_other by exact Nj. intros Hx. destruct (xi_own _ _ _ _ V _ _ _ Hx) as (H1 & H2 & H3 & H4). split; [exact H1|]. split; [|split; assumption].
          intros F. apply elem_of_cons in F as [->|F]; [|exact (H2 F)]. rewrite O3 in H3. injection H3 as E. exact (Nj (eq_sym E)).
      + intros j x a. rewrite last_back. destruct (decide (j = i)) as [->|Nj].
        * rewrite upd_same. destruct (decide (x = l)) as [->|Nx].
          -- rewrite lookup_insert. intros [= <-]. split; [apply elem_of_app; left; exact (last_taker_in _ _ _ O3)|]. exists arr. split; [exact O1|split; reflexivity].
          -- rewrite lookup_insert_ne by congruence. intros Hx. destruct (xi_old _ _ _ _ V _ _ _ Hx) as [H1 H2]. split; [apply elem_of_app; left; exact H1|exact H2].
        * rewrite upd_other by exact Nj. intros Hx. destruct (xi_old _ _ _ _ V _ _ _ Hx) as [H1 H2]. split; [apply elem_of_app; left; exact H1|exact H2].
      + exact (xi_names _ _ _ _ V).
      + intros es1 j x es2 E. apply snoc_split in E as [[_ E]|(es3 & E)]; [discriminate|]. exact (xi_looks _ _ _ _ V _ _ _ _ E).
      + intros es1 j x es2 E. apply snoc_split in E as [[_ E]|(es3 & E)]; [discriminate|]. exact (xi_excl _ _ _ _ V _ _ _ _ E).
      + intros x j. rewrite last_back. exact (xi_takers _ _ _ _ V x j).
      + rewrite insert_length. exact (xi_size _ _ _ _ V).
      + intros j c0 Hj. destruct (decide (j = i)) as [->|Nj].
        * rewrite list_lookup_insert in Hj by (apply lookup_lt_Some in Hc; exact Hc). injection Hj as <-. rewrite !upd_same. split; [exact G1|]. intros U.
          destruct (G2 (undisturbed_app _ _ _ U)) as (arr2 & Ho2 & G3). rewrite Ho in Ho2. injection Ho2 as <-. exact G3.
        * rewrite list_lookup_insert_ne in Hj by congruence. rewrite !upd_other by exact Nj. destruct (xi_codes _ _ _ _ V _ _ Hj) as [H1 H2]. split; [exact H1|]. intros U. apply H2, (undisturbed_app _ _ _ U).
    - destruct G1 as (Qw & arr & Ho & Hn & Ga & Gb). destruct (xi_own _ _ _ _ V _ _ _ Ho) as (O1 & O2 & O3 & O4). unfold x_append in H. rewrite O1 in H. cbn [default id] in H.
      pose proof (xi_names _ _ _ _ V _ _ O1) as QA. destruct (Nat.ltb_spec n (length arr)) as [Hlt|Hge].
      + rewrite Nat.eqb_refl in H. injection H as <- <- <-. rewrite app_nil_r. eexists. eexists. apply (xinv_write M es own old i l arr _ (XApp l n w k)); [exact V|exact Hc|exact Ho|apply insert_length| |exact (Ga Hlt)|].
        * apply Forall_insert; assumption.
        * intros U. destruct (G2 U) as (_ & arr2 & Ho2 & _ & G3 & _). rewrite Ho in Ho2. injection Ho2 as <-. exact (G3 Hlt).
      + assert (n = length arr) as -> by lia. pose proof (lookup_lt_Some _ _ _ O1) as Lt. rewrite (proj2 (Nat.eqb_neq (length (sl_arrays (x_mem M))) l)) in H by lia. injection H as <- <- <-.
        rewrite (take_ge arr) by lia.
        assert (Hno : own i !! length (sl_arrays (x_mem M)) = None).
        { apply eq_None_not_Some. intros [a Ha]. destruct (xi_own _ _ _ _ V _ _ _ Ha) as (H1 & _). apply lookup_lt_Some in H1. lia. }
        eexists. eexists. apply (xinv_take M es own old i _ (arr ++ w :: replicate (default 0 pick) "") _ _ (XApp l (length arr) w k));
          [exact V|exact Hc|right; split; reflexivity|intros x Hx; exact Hx|exact (xi_nodup _ _ _ _ V)| | |].
        * apply Forall_app. split; [exact QA|]. apply Forall_cons. split; [exact Qw|apply Forall_replicate; exact Q0].
        * apply (Gb eq_refl). exact Hno.
        * intros U. destruct (G2 U) as (_ & arr2 & Ho2 & _ & _ & G3). rewrite Ho in Ho2. injection Ho2 as <-. apply (G3 eq_refl). exact Hno.
    - injection H as <- <- <-. rewrite app_nil_r. destruct G1 as (Qw & arr & Ho & Hj & G1). destruct (xi_own _ _ _ _ V _ _ _ Ho) as (O1 & O2 & O3 & O4). unfold x_set.
      assert (E : alter (fun a => <[j := w]> a) l (sl_arrays (x_mem M)) = <[l := <[j := w]> arr]> (sl_arrays (x_mem M))).
      { apply list_eq. intros x. destruct (decide (x = l)) as [->|Nx].
        - rewrite list_lookup_alter, O1. rewrite list_lookup_insert by (apply lookup_lt_Some in O1; exact O1). reflexivity.
        - rewrite list_lookup_alter_ne, list_lookup_insert_ne by congruence. reflexivity. }
      rewrite E. eexists. eexists. apply (xinv_write M es own old i l arr _ (XSet l j w k)); [exact V|exact Hc|exact Ho|apply insert_length| |exact G1|].
      + apply Forall_insert; [exact (xi_names _ _ _ _ V _ _ O1)|exact Qw].
      + intros U. destruct (G2 U) as (_ & arr2 & Ho2 & _ & G3). rewrite Ho in Ho2. injection Ho2 as <-. exact G3.
    - apply bind_Some in H as (arr0 & Ha & H). apply bind_Some in H as (v0 & Hv & H). injection H as <- <- <-. destruct G1 as (arr & v & Ho & Hj & G1).
      destruct (xi_old _ _ _ _ V _ _ _ Ho) as (L1 & arr' & O1 & O2 & O3). rewrite Ha in O1. injection O1 as <-. exists own, old. split; cbn [x_mem x_codes].
      + exact (xi_nodup _ _ _ _ V).
      + intros x Hx. destruct (xi_pool _ _ _ _ V x Hx) as [H1 H2]. split; [exact H1|]. apply back_quiet; [discriminate|exact H2].
      + intros i' x a. rewrite last_look. exact (xi_own _ _ _ _ V i' x a).
      + intros i' x a. rewrite last_look. intros Hx. destruct (xi_old _ _ _ _ V _ _ _ Hx) as [H1 H2]. split; [apply elem_of_app; left; exact H1|exact H2].
      + exact (xi_names _ _ _ _ V).
      + intros es1 i' x es2 E. apply snoc_split in E as [[<- E]|(es3 & E)]; [|exact (xi_looks _ _ _ _ V _ _ _ _ E)]. injection E as <- <-. exact L1.
      + intros es1 i' x es2 E. apply snoc_split in E as [[_ E]|(es3 & E)]; [discriminate|]. exact (xi_excl _ _ _ _ V _ _ _ _ E).
      + intros x i'. rewrite last_look. exact (xi_takers _ _ _ _ V x i').
      + rewrite insert_length. exact (xi_size _ _ _ _ V).
      + intros i' c0 Hi. destruct (decide (i' = i)) as [->|Nj].
        * rewrite list_lookup_insert in Hi by (apply lookup_lt_Some in Hc; exact Hc). injection Hi as <-. split.
          -- apply G1. pose proof (xi_names _ _ _ _ V _ _ Ha) as QA. rewrite Forall_lookup in QA. exact (QA _ _ Hv).
          -- intros U. pose proof (O3 (undisturbed_last _ _ _ U)) as ->. destruct (G2 (undisturbed_app _ _ _ U)) as (arr2 & v2 & Ho2 & Hj2 & G3). rewrite Ho in Ho2. injection Ho2 as <-.
             rewrite Hv in Hj2. injection Hj2 as <-. exact G3.
        * rewrite list_lookup_insert_ne in Hi by congruence. destruct (xi_codes _ _ _ _ V _ _ Hi) as [H1 H2]. split; [exact H1|]. intros U. apply H2, (undisturbed_app _ _ _ U).
  Qed.
  Lemma xinv_run xs : forall M es own old M' es', xinv M es own old -> xrun M xs = Some (M', es') -> exists own' old', xinv M' (es ++ es') own' old'.
  Proof.
    induction xs as [|x xs IH]; intros M es own old M' es' V H; cbn [xrun] in H.
    - injection H as <- <-. rewrite app_nil_r. exists own, old. exact V.
    - apply bind_Some in H as ([M1 es1] & H1 & H). apply bind_Some in H as ([M2 es2] & H2 & H). injection H as <- <-.
      destruct (xinv_step _ _ _ _ _ _ _ V H1) as (own1 & old1 & V1). rewrite app_assoc. exact (IH _ _ _ _ _ _ V1 H2).
  Qed.
End inv.
