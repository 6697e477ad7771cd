(** How often Has is called, and how often a permission is listed. *)
From Verif Require Export CostSpec RoleHas.
From Verif Require Import RoleOps.

Definition kids (h : rheap) (l : nat) : list (string * nat) := match h_roles h !! l with Some r => map_to_list (r_desc r) | None => [] end.
Lemma kids_child h l k c : (k, c) ∈ kids h l <-> child h l k = Some c.
Proof. unfold kids, child. destruct (h_roles h !! l) as [r|]; [apply elem_of_map_to_list|]. split; [intros H; destruct (not_elem_of_nil _ H)|discriminate]. Qed.
Lemma kids_edge h l k c : (k, c) ∈ kids h l -> role_edge h l c.
Proof.
  rewrite kids_child. unfold child. destruct (h_roles h !! l) as [r|] eqn:E; [|discriminate]. intros H. exists (r_desc r), k. split; [unfold role_children; rewrite E; reflexivity|exact H].
Qed.
Lemma kids_nodup h l : NoDup (kids h l).*1.
Proof. unfold kids. destruct (h_roles h !! l); [apply NoDup_fst_map_to_list|constructor]. Qed.
Lemma sum_ext {A} (f g : A -> nat) l : (forall x, x ∈ l -> f x = g x) -> sum_list_with f l = sum_list_with g l.
Proof. induction l as [|x l IH]; intros H; [reflexivity|]. cbn [sum_list_with]. rewrite (H x), IH; [reflexivity| |left]. intros y Hy. apply H. right. exact Hy. Qed.
Lemma sum_perm {A} (f : A -> nat) l l' : l ≡ₚ l' -> sum_list_with f l = sum_list_with f l'.
Proof. induction 1; cbn [sum_list_with]; lia. Qed.
Lemma sum_map {A B} (f : B -> nat) (g : A -> B) l : sum_list_with f (g <$> l) = sum_list_with (fun x => f (g x)) l.
Proof. induction l as [|x l IH]; [reflexivity|]. cbn. rewrite IH. reflexivity. Qed.
Lemma sum_plus {A} (f g : A -> nat) l : sum_list_with (fun x => f x + g x) l = sum_list_with f l + sum_list_with g l.
Proof. induction l as [|x l IH]; [reflexivity|]. cbn [sum_list_with]. rewrite IH. lia. Qed.
Lemma sum_scale {A} (f : A -> nat) n l : sum_list_with (fun x => n * f x) l = n * sum_list_with f l.
Proof. induction l as [|x l IH]; cbn [sum_list_with]; [lia|]. rewrite IH. lia. Qed.
Lemma sum_zero {A} (l : list A) : sum_list_with (fun _ => 0) l = 0.
Proof. induction l; [reflexivity|assumption]. Qed.
Lemma sum_filter {A} (P : A -> Prop) `{!forall x, Decision (P x)} (f : A -> nat) l : sum_list_with (fun x => if decide (P x) then f x else 0) l = sum_list_with f (filter P l).
Proof. induction l as [|x l IH]; [reflexivity|]. cbn [sum_list_with]. rewrite IH, filter_cons. destruct (decide (P x)); reflexivity. Qed.
Lemma sum_elem {A} (f : A -> nat) x l : x ∈ l -> f x <= sum_list_with f l.
Proof. induction 1 as [x l|x y l _ IH]; cbn [sum_list_with]; lia. Qed.

Definition below (n : nat) (h : rheap) (l : nat) : Prop := forall m x, nsteps (role_edge h) m l x -> m < n.
Lemma below_child n h l c : below (S n) h l -> role_edge h l c -> below n h c.
Proof. intros B E m x H. specialize (B (S m) x (nsteps_l _ _ _ _ _ E H)). lia. Qed.
Lemma below_pos n h l : below n h l -> exists n', n = S n'.
Proof. intros B. specialize (B 0 l (nsteps_O _ _)). destruct n as [|n]; [lia|eauto]. Qed.
Lemma below_down n h l d : below n h l -> rtc (role_edge h) l d -> below n h d.
Proof. intros B R m x H. apply rtc_nsteps in R as [a Ha]. specialize (B (a + m) x (nsteps_trans _ _ _ _ _ Ha H)). lia. Qed.

Section sums.
  Context (h : rheap).
  (** Sum over the list of all descendants *)
  Fixpoint over_desc (n : nat) (f : nat -> nat) (l : nat) : nat :=
    match n with 0 => 0 | S n' => sum_list_with (fun kc => f kc.2 + over_desc n' f kc.2) (kids h l) end.
  Lemma visit_sum rec (f : nat -> nat) (g : nat -> nat) o i l r : visit rec o i l = Ok r ->
    (forall j kc b, kc ∈ l -> rec (sub o j) kc.2 = Ok b -> sum_list_with f b.*2 = g kc.2) -> sum_list_with f r.*2 = sum_list_with (fun kc => f kc.2 + g kc.2) l.
  Proof.
    revert i r. induction l as [|[k c] l IH]; intros i r; cbn [visit]; [intros [= <-] _; reflexivity|].
    intros (b & Hb & H)%rbind_ok G. apply rbind_ok in H as (rest & Hr & [= <-]). cbn. rewrite fmap_app, sum_list_with_app.
    rewrite (G i (k, c) b (elem_of_list_here _ _) Hb), (IH _ _ Hr); [cbn; lia|]. intros j kc b' Hin. apply G. right. exact Hin.
  Qed.
  Lemma descend_sum n' o l ds f n : descend (role_children h) n' o l = Ok ds -> below n h l -> sum_list_with f ds.*2 = over_desc n f l.
  Proof.
    revert o l ds n. induction n' as [|n' IH]; intros o l ds n; [discriminate|]. cbn [descend]. unfold role_children at 1. intros H B. destruct (below_pos _ _ _ B) as [m ->].
    destruct (h_roles h !! l) as [r|] eqn:E; [|discriminate]. cbn [fmap option_fmap option_map] in H. cbn [over_desc]. unfold kids. rewrite E.
    rewrite (visit_sum _ f (over_desc m f) _ _ _ _ H).
    - apply sum_perm. apply ordered_perm.
    - intros j [k c] b Hin Hb. apply elem_of_ordered in Hin. apply (IH _ _ _ _ Hb). apply (below_child m h l c B). apply (kids_edge h l k c). unfold kids. rewrite E. exact Hin.
  Qed.
  Lemma over_desc_ext n f g l : (forall d, descends h l d -> f d = g d) -> over_desc n f l = over_desc n g l.
  Proof.
    revert l. induction n as [|n IH]; intros l H; [reflexivity|]. cbn [over_desc]. apply sum_ext. intros [k c] Hc. apply kids_edge in Hc. cbn [snd]. rewrite (H c), (IH c); [reflexivity| |apply tc_once; exact Hc].
    intros d Hd. apply H. eapply tc_l; [exact Hc|exact Hd].
  Qed.

  (** Every open role on the way doubles. *)
  Context (u : nat -> nat) (op : nat -> bool).
  Fixpoint gains (n : nat) (l : nat) : nat :=
    match n with 0 => 0 | S n' => sum_list_with (fun kc => u kc.2 + (if op kc.2 then 2 else 1) * gains n' kc.2) (kids h l) end.
  Lemma gains_more n n' l : below n h l -> n <= n' -> gains n' l = gains n l.
  Proof.
    revert n' l. induction n as [|n IH]; intros n' l B L; [destruct (below_pos _ _ _ B); discriminate|]. destruct n' as [|n']; [lia|]. cbn [gains]. apply sum_ext. intros [k c] Hc.
    cbn [snd]. rewrite (IH n' c); [reflexivity| |lia]. apply (below_child n h l c B). exact (kids_edge _ _ _ _ Hc).
  Qed.
  Lemma gains_desc N n l : below n h l -> n <= N -> gains n l = over_desc n (fun d => u d + (if op d then gains N d else 0)) l.
  Proof.
    revert l. induction n as [|n IH]; intros l B L; [reflexivity|]. cbn [gains over_desc]. apply sum_ext. intros [k c] Hc. cbn [snd]. apply kids_edge in Hc. pose proof (below_child n h l c B Hc) as Bc.
    rewrite <- (IH c Bc) by lia. rewrite (gains_more n N c Bc) by lia. destruct (op c); lia.
  Qed.

  (** The ways of one or more steps *)
  Fixpoint ways (n : nat) (l : nat) : list (list string) :=
    match n with 0 => [] | S n' => mjoin ((fun kc => [kc.1] :: (cons kc.1 <$> ways n' kc.2)) <$> kids h l) end.
  Lemma elem_of_ways n l w : below n h l -> w ∈ ways n l <-> w <> [] /\ is_Some (leads h l w).
  Proof.
    revert l w. induction n as [|n IH]; intros l w B; [destruct (below_pos _ _ _ B); discriminate|]. cbn [ways]. rewrite elem_of_list_join. setoid_rewrite elem_of_list_fmap. split.
    - intros (ws & Hw & [k c] & -> & Hc). pose proof (below_child n h l c B (kids_edge _ _ _ _ Hc)) as Bc. apply kids_child in Hc. cbn [fst snd] in Hw. apply elem_of_cons in Hw as [->|Hw].
      + split; [discriminate|]. cbn [leads]. rewrite Hc. exists c. reflexivity.
      + apply elem_of_list_fmap in Hw as (w' & -> & Hw'). split; [discriminate|]. cbn [leads]. rewrite Hc. apply (IH c w' Bc). exact Hw'.
    - intros [N [d Hd]]. destruct w as [|k w]; [destruct (N eq_refl)|]. cbn [leads] in Hd. destruct (child h l k) as [c|] eqn:Hc; [|discriminate]. apply kids_child in Hc.
      exists ([k] :: (cons k <$> ways n c)). split; [|exists (k, c); split; [reflexivity|exact Hc]]. destruct w as [|k' w]; [left|right]. apply elem_of_list_fmap. exists (k' :: w). split; [reflexivity|].
      apply (IH c (k' :: w) (below_child n h l c B (kids_edge _ _ _ _ Hc))). split; [discriminate|exists d; exact Hd].
  Qed.
  Lemma cons_inj_ways (k : string) (ws : list (list string)) : NoDup ws -> NoDup (cons k <$> ws).
  Proof. apply NoDup_fmap_2. intros x y [= ->]. reflexivity. Qed.
  Lemma ways_nonempty n l w : w ∈ ways n l -> w <> [].
  Proof. destruct n as [|n]; cbn [ways]; [intros H; destruct (not_elem_of_nil _ H)|]. rewrite elem_of_list_join. intros (ws & Hw & H). apply elem_of_list_fmap in H as (kc & -> & _). apply elem_of_cons in Hw as [->|Hw]; [discriminate|]. apply elem_of_list_fmap in Hw as (w' & -> & _). discriminate. Qed.
  Lemma ways_nodup n l : NoDup (ways n l).
  Proof.
    revert l. induction n as [|n IH]; intros l; cbn [ways]; [constructor|]. pose proof (kids_nodup h l) as N. revert N. generalize (kids h l). intros ks. induction ks as [|[k c] ks IK]; intros N; [constructor|].
    cbn [fmap list_fmap fst] in N. apply NoDup_cons in N as [N1 N2]. change (NoDup (([k] :: (cons k <$> ways n c)) ++ mjoin ((fun kc => [kc.1] :: (cons kc.1 <$> ways n kc.2)) <$> ks))).
    apply NoDup_app. split; [|split; [|exact (IK N2)]].
    - apply NoDup_cons. split; [|apply cons_inj_ways, IH]. intros (w & E & Hw)%elem_of_list_fmap. injection E as <-. destruct (ways_nonempty _ _ _ Hw eq_refl).
    - intros w Hw Hw'. assert (E : exists w', w = k :: w'). { apply elem_of_cons in Hw as [->|Hw]; [exists []; reflexivity|]. apply elem_of_list_fmap in Hw as (w' & -> & _). exists w'. reflexivity. }
      destruct E as (w' & ->). apply elem_of_list_join in Hw' as (ws & Hw' & Hin). apply elem_of_list_fmap in Hin as ([k' c'] & -> & Hin). cbn [fst snd] in Hw'.
      assert (k' = k). { apply elem_of_cons in Hw' as [E|Hw']; [injection E as -> _; reflexivity|]. apply elem_of_list_fmap in Hw' as (w'' & E & _). injection E as -> _. reflexivity. }
      subst k'. apply N1. apply elem_of_list_fmap. exists (k, c'). split; [reflexivity|exact Hin].
  Qed.
  Definition open_stops (l : nat) (w : list string) : nat := 2 ^ length (filter (fun d => op d = true) (stops h l w)).
  Definition value (l : nat) (w : list string) : nat := match leads h l w with Some d => u d | None => 0 end.
  Lemma gains_ways n l : gains n l = sum_list_with (fun w => value l w * open_stops l w) (ways n l).
  Proof.
    revert l. induction n as [|n IH]; intros l; [reflexivity|]. cbn [gains ways]. assert (G : forall k c, (k, c) ∈ kids h l -> child h l k = Some c) by (intros k c; apply kids_child).
    revert G. generalize (kids h l). intros ks. induction ks as [|[k c] ks IK]; intros G; [reflexivity|].
    change (mjoin ((fun kc => [kc.1] :: (cons kc.1 <$> ways n kc.2)) <$> ((k, c) :: ks))) with (([k] :: (cons k <$> ways n c)) ++ mjoin ((fun kc => [kc.1] :: (cons kc.1 <$> ways n kc.2)) <$> ks)).
    rewrite sum_list_with_app, <- IK by (intros k' c' Hin; apply G; right; exact Hin). cbn [sum_list_with fst snd]. rewrite sum_map, IH. pose proof (G k c (elem_of_list_here _ _)) as E.
    assert (V1 : value l [k] * open_stops l [k] = u c). { unfold value, open_stops. cbn [leads stops]. rewrite E. cbn. lia. }
    rewrite V1. f_equal. f_equal. rewrite <- sum_scale. apply sum_ext. intros w Hw. apply ways_nonempty in Hw. unfold value, open_stops. cbn [leads]. rewrite E.
    destruct w as [|k' w]; [destruct (Hw eq_refl)|]. cbn [stops]. rewrite E. rewrite filter_cons. destruct (decide (op c = true)) as [O|O].
    - rewrite O. cbn [length]. rewrite Nat.pow_succ_r'. lia.
    - apply not_true_is_false in O. rewrite O. lia.
  Qed.
End sums.

(** ** Has *)
Lemma counted_loop_same rec rec' h allowed o i ds : (forall j d, d ∈ ds -> (let! x := rec (sub o j) d in Ok x.1) = rec' (sub o j) d) ->
  (let! x := counted_loop rec h allowed o i ds in Ok x.1) = has_loop rec' h allowed o i ds.
Proof.
  revert i. induction ds as [|d ds IH]; intros i H; [reflexivity|]. cbn [counted_loop has_loop]. assert (G : forall i, (let! x := counted_loop rec h allowed o i ds in Ok x.1) = has_loop rec' h allowed o i ds).
  { intros j. apply IH. intros j' d' Hd'. apply H. right. exact Hd'. }
  destruct (h_roles h !! d) as [r|]; [|reflexivity]. destruct (Nat.ltb 0 (length allowed) && negb (contains allowed (r_id r))); [apply G|].
  rewrite <- (H i d (elem_of_list_here _ _)), <- (G (S i)). destruct (rec (sub o i) d) as [[[] n]| |]; cbn [rbind fst]; [reflexivity| |reflexivity|reflexivity].
  destruct (counted_loop rec h allowed o (S i) ds) as [[b m]| |]; reflexivity.
Qed.
Lemma counted_fuel_same n o h l grp perm allowed : (let! x := counted_fuel n o h l grp perm allowed in Ok x.1) = has_fuel n o h l grp perm allowed.
Proof.
  revert o l. induction n as [|n IH]; intros o l; [reflexivity|]. cbn [counted_fuel has_fuel]. destruct (h_roles h !! l) as [r|]; [|reflexivity]. destruct (r_perms r !! grp) as [gl|]; [|reflexivity].
  destruct (h_groups h !! gl) as [g|]; [|reflexivity]. destruct (g_perms g !! perm); [reflexivity|]. destruct (any_match perm _) as [[]| |]; cbn [rbind]; try reflexivity.
  destruct (get_descendant_roles (sub o 1) h l) as [ds| |]; cbn [rbind]; try reflexivity.
  rewrite <- (counted_loop_same (fun o' d => counted_fuel n o' h d grp perm allowed) (fun o' d => has_fuel n o' h d grp perm allowed) h allowed (sub o 2) 0 ds (fun j d _ => IH _ _)).
  destruct (counted_loop _ h allowed (sub o 2) 0 ds) as [[b m]| |]; reflexivity.
Qed.
Lemma counted_same o h l grp perm allowed : (let! x := counted_has o h l grp perm allowed in Ok x.1) = role_has o h l grp perm allowed.
Proof. apply counted_fuel_same. Qed.
Lemma counts_skip h allowed d r : h_roles h !! d = Some r -> Nat.ltb 0 (length allowed) && negb (contains allowed (r_id r)) = negb (counts h allowed d).
Proof.
  intros E. unfold counts. rewrite E. destruct allowed as [|x al].
  - reflexivity.
  - rewrite (bool_decide_eq_false_2 (x :: al = [])) by discriminate. cbn [length orb]. change (Nat.ltb 0 (S (length al))) with true. cbn [andb]. f_equal.
    destruct (contains (x :: al) (r_id r)) eqn:C; symmetry.
    + apply bool_decide_eq_true. apply contains_spec. exact C.
    + apply bool_decide_eq_false. apply contains_false. exact C.
Qed.
Lemma counted_loop_sum rec h allowed o i ds m (v : nat -> nat) : counted_loop rec h allowed o i ds = Ok (false, m) ->
  (forall j d n, d ∈ ds -> rec (sub o j) d = Ok (false, n) -> n = v d) -> m = sum_list_with (fun d => if counts h allowed d then v d else 0) ds.
Proof.
  revert i m. induction ds as [|d ds IH]; intros i m; cbn [counted_loop]; [intros [= <-] _; reflexivity|]. intros H G.
  assert (G' : forall j d n, d ∈ ds -> rec (sub o j) d = Ok (false, n) -> n = v d) by (intros j d' n Hd'; apply G; right; exact Hd').
  destruct (h_roles h !! d) as [r|] eqn:E; [|discriminate]. rewrite (counts_skip h allowed d r E) in H. cbn [sum_list_with]. destruct (counts h allowed d); cbn [negb] in H.
  - apply rbind_ok in H as ([[] n] & Hn & H); cbn [fst snd] in H; [discriminate|]. apply rbind_ok in H as ([b k] & Hk & H). injection H as -> <-.
    rewrite (G i d n (elem_of_list_here _ _) Hn), (IH _ _ Hk G'). reflexivity.
  - rewrite (IH _ _ H G'). reflexivity.
Qed.
Section counted.
  Context (h : rheap) (grp perm : string) (allowed : list string).
  Definition counts_one (d : nat) : nat := if counts h allowed d then 1 else 0.
  Definition opens (d : nat) : bool := keeps h grp d && counts h allowed d.
  Lemma counted_gains n' o l m n : below n h l -> counted_fuel n' o h l grp perm allowed = Ok (false, m) -> m = S (if keeps h grp l then gains h counts_one opens n l else 0).
  Proof.
    revert o l m. induction n' as [|n' IH]; intros o l m B; [discriminate|]. cbn [counted_fuel]. unfold keeps. destruct (h_roles h !! l) as [r|] eqn:E; [|discriminate].
    destruct (r_perms r !! grp) as [gl|] eqn:Eg; [rewrite bool_decide_eq_true_2 by eauto|rewrite bool_decide_eq_false_2 by (intros [? [=]]); intros [= <-]; reflexivity].
    destruct (h_groups h !! gl) as [g|]; [|discriminate]. destruct (g_perms g !! perm); [discriminate|]. intros ([] & _ & H)%rbind_ok; [discriminate|].
    apply rbind_ok in H as (ds & Hds & H). apply rbind_ok in H as ([b k] & Hk & [= -> <-]). f_equal.
    pose proof Hds as Hds'. unfold get_descendant_roles in Hds'. apply rbind_ok in Hds' as (kds & Hkds & [= <-]).
    rewrite (counted_loop_sum _ _ _ _ _ _ _ (fun d => S (if keeps h grp d then gains h counts_one opens n d else 0)) Hk).
    - rewrite (descend_sum h _ _ _ _ _ n Hkds B), (gains_desc h counts_one opens n n l B (Nat.le_refl n)). apply over_desc_ext. intros d Hd. unfold counts_one, opens.
      destruct (counts h allowed d), (keeps h grp d); reflexivity.
    - intros j d k' Hd Hk'. apply (IH _ _ _) in Hk'; [exact Hk'|]. apply (below_down n h l d B). apply tc_rtc. apply (descendant_roles_elem _ _ _ _ Hds). exact Hd.
  Qed.
  Definition counts_end (l : nat) (w : list string) : Prop := match leads h l w with Some d => counts h allowed d | None => false end = true.
  Global Instance counts_end_dec l w : Decision (counts_end l w) := ltac:(unfold counts_end; apply _).
  Lemma counted_refused o l m : counted_has o h l grp perm allowed = Ok (false, m) ->
    exists ws, ways_passed h grp allowed l ws /\ m = S (sum_list_with (doublings h grp allowed l) ws).
  Proof.
    intros H. destruct (keeps h grp l) eqn:K.
    - assert (B : below (S (length (h_roles h))) h l).
      { revert H K. unfold counted_has, keeps. cbn [counted_fuel]. destruct (h_roles h !! l) as [r|]; [|discriminate]. destruct (r_perms r !! grp) as [gl|]; [|rewrite bool_decide_eq_false_2 by (intros [? [=]]); discriminate].
        destruct (h_groups h !! gl) as [g|]; [|discriminate]. destruct (g_perms g !! perm); [discriminate|]. intros ([] & _ & H)%rbind_ok; [discriminate|].
        apply rbind_ok in H as (ds & Hds & _). intros _. unfold get_descendant_roles in Hds. apply rbind_ok in Hds as (kds & Hkds & _). exact (descend_ok_bound _ _ _ _ _ Hkds). }
      apply (counted_gains _ _ _ _ _ B) in H. rewrite K in H. exists (filter (counts_end l) (ways h (S (length (h_roles h))) l)). split.
      + split; [apply NoDup_filter, ways_nodup|]. intros w. rewrite elem_of_list_filter, (elem_of_ways _ _ _ _ B). unfold counts_end. split.
        * intros [C [N [d Hd]]]. rewrite Hd in C. split; [exact N|split; [exact K|]]. exists d. split; [exact Hd|exact C].
        * intros (N & _ & d & Hd & C). rewrite Hd. split; [exact C|split; [exact N|exists d; reflexivity]].
      + rewrite H, gains_ways. f_equal. rewrite <- sum_filter. apply sum_ext. intros w _. unfold value, counts_one, doublings, open_stops, opens.
        destruct (decide (counts_end l w)) as [D|D]; unfold counts_end in D; destruct (leads h l w) as [d|]; [destruct (counts h allowed d)| |destruct (counts h allowed d)|]; try discriminate D; try (destruct D; reflexivity); lia.
    - exists []. split; [split; [constructor|]|].
      + intros w. split; [intros X; destruct (not_elem_of_nil _ X)|]. intros (_ & X & _). rewrite K in X. discriminate.
      + revert H K. unfold counted_has, keeps. cbn [counted_fuel sum_list_with]. destruct (h_roles h !! l) as [r|]; [|discriminate]. destruct (r_perms r !! grp) as [gl|]; [rewrite bool_decide_eq_true_2 by eauto; discriminate|].
        intros [= <-] _. reflexivity.
  Qed.
End counted.

(** ** Listings *)
Lemma sum_key {A} (m : gmap string A) k (f : A -> nat) : sum_list_with (fun kv => if decide (kv.1 = k) then f kv.2 else 0) (map_to_list m) = match m !! k with Some v => f v | None => 0 end.
Proof.
  assert (Z : forall m : gmap string A, m !! k = None -> sum_list_with (fun kv => if decide (kv.1 = k) then f kv.2 else 0) (map_to_list m) = 0).
  { intros m' E. etransitivity; [|exact (sum_zero (map_to_list m'))]. apply sum_ext. intros [k' v] Hin. apply elem_of_map_to_list in Hin. cbn [fst]. destruct (decide (k' = k)) as [->|]; [rewrite E in Hin; discriminate|reflexivity]. }
  destruct (m !! k) as [v|] eqn:E; [|exact (Z m E)]. rewrite <- (insert_delete _ _ _ E). rewrite (sum_perm _ _ _ (map_to_list_insert _ _ _ (lookup_delete m k))). cbn [sum_list_with fst snd].
  rewrite (Z _ (lookup_delete m k)). destruct (decide (k = k)) as [_|N]; [lia|destruct (N eq_refl)].
Qed.
Section listed.
  Context (h : rheap) (W : wf_heap h) (grp : string) (a : attr).
  Definition held_in (gl : nat) : nat := match h_groups h !! gl with Some g => length (filter (fun b => b = a) (map_to_list (g_perms g)).*2) | None => 0 end.
  Definition held (d : nat) : nat := match h_roles h !! d with Some r => match r_perms r !! grp with Some gl => held_in gl | None => 0 end | None => 0 end.
  Lemma filter_perm (l l' : list attr) : l ≡ₚ l' -> length (filter (fun b => b = a) l) = length (filter (fun b => b = a) l').
  Proof. intros P. rewrite P. reflexivity. Qed.
  Lemma add_own_times o i acc gs acc' : add_own o i h acc gs = Ok acc' -> times acc' grp a = times acc grp a + sum_list_with (fun kv => if decide (kv.1 = grp) then held_in kv.2 else 0) gs.
  Proof.
    revert i acc. induction gs as [|[g' gl] gs IH]; intros i acc; cbn [add_own]; [intros [= <-]; cbn [sum_list_with]; lia|]. destruct (h_groups h !! gl) as [g|] eqn:E; [|discriminate].
    intros H. rewrite (IH _ _ H). cbn [sum_list_with fst snd]. unfold times. destruct (decide (g' = grp)) as [->|N].
    - rewrite lookup_insert. cbn [default]; unfold id. rewrite filter_app, app_length. unfold held_in. rewrite E. unfold group_attrs. rewrite (filter_perm _ _ (ordered_perm _ _)). lia.
    - rewrite lookup_insert_ne by exact N. lia.
  Qed.
  Lemma fold_times rec o i acc ds acc' (v : nat -> nat) : fold_roles rec o i acc ds = Ok acc' ->
    (forall j b d b', d ∈ ds -> rec (sub o j) b d = Ok b' -> times b' grp a = times b grp a + v d) -> times acc' grp a = times acc grp a + sum_list_with v ds.
  Proof.
    revert i acc. induction ds as [|d ds IH]; intros i acc; cbn [fold_roles]; [intros [= <-] _; cbn [sum_list_with]; lia|]. intros (acc1 & H1 & H)%rbind_ok G.
    rewrite (IH _ _ H); [|intros j b d' b' Hd'; apply G; right; exact Hd']. rewrite (G i acc d acc1 (elem_of_list_here _ _) H1). cbn [sum_list_with]. lia.
  Qed.
  Lemma all_times n' o acc l acc' n : below n h l -> all_perms_fuel n' o h acc l = Ok acc' ->
    times acc' grp a = times acc grp a + (held l + gains h held (fun _ => true) n l).
  Proof.
    revert o acc l acc'. induction n' as [|n' IH]; intros o acc l acc' B; [discriminate|]. cbn [all_perms_fuel]. destruct (h_roles h !! l) as [r|] eqn:E; [|discriminate].
    intros (acc1 & H1 & H)%rbind_ok. apply rbind_ok in H as (ds & Hds & H). pose proof Hds as Hds'. unfold get_descendant_roles in Hds'. apply rbind_ok in Hds' as (kds & Hkds & [= <-]).
    rewrite (fold_times _ _ _ _ _ _ (fun d => held d + gains h held (fun _ => true) n d) H).
    - rewrite (add_own_times _ _ _ _ _ H1), (sum_perm _ _ _ (ordered_perm _ _)), sum_key, (descend_sum h _ _ _ _ _ n Hkds B), (gains_desc h held (fun _ => true) n n l B (Nat.le_refl n)).
      assert (HL : held l = match r_perms r !! grp with Some gl => held_in gl | None => 0 end) by (unfold held; rewrite E; reflexivity). rewrite HL. destruct (r_perms r !! grp); cbn beta; lia.
    - intros j b d b' Hd. apply IH. apply (below_down n h l d B). apply tc_rtc. apply (descendant_roles_elem _ _ _ _ Hds). exact Hd.
  Qed.
  Lemma held_holds d : held d = 1 /\ holds h d grp (attr_string a) a \/ held d = 0 /\ ~ holds h d grp (attr_string a) a.
  Proof.
    unfold held, held_in, holds, owns. destruct (h_roles h !! d) as [r|]; [|right; split; [reflexivity|intros (g & (r' & gl & [=] & _) & _)]].
    destruct (r_perms r !! grp) as [gl|] eqn:Eg; [|right; split; [reflexivity|intros (g & (r' & gl & [= <-] & E & _) & _); rewrite Eg in E; discriminate]].
    destruct (h_groups h !! gl) as [g|] eqn:El; [|right; split; [reflexivity|intros (g & (r' & gl' & [= <-] & E & E') & _); rewrite Eg in E; injection E as <-; rewrite El in E'; discriminate]].
    assert (L : length (filter (fun b => b = a) (map_to_list (g_perms g)).*2) = match g_perms g !! attr_string a with Some b => if decide (b = a) then 1 else 0 | None => 0 end).
    { rewrite <- (sum_key (g_perms g) (attr_string a) (fun b => if decide (b = a) then 1 else 0)). destruct W as (_ & _ & W3). pose proof (fun k b => W3 gl g k b El) as K.
      assert (K' : forall kv, kv ∈ map_to_list (g_perms g) -> kv.1 = attr_string kv.2) by (intros [k b] Hin; apply elem_of_map_to_list in Hin; exact (K k b Hin)). revert K'. generalize (map_to_list (g_perms g)). intros kvs K'.
      induction kvs as [|[k b] kvs IK]; [reflexivity|]. cbn [fmap list_fmap fst snd sum_list_with]. rewrite filter_cons. pose proof (K' (k, b) (elem_of_list_here _ _)) as Kb. cbn [fst snd] in Kb.
      rewrite <- IK by (intros kv Hin; apply K'; right; exact Hin). destruct (decide (b = a)) as [->|N].
      - rewrite Kb. destruct (decide (attr_string a = attr_string a)) as [_|N]; [cbn [length]; lia|destruct (N eq_refl)].
      - destruct (decide (k = attr_string a)); reflexivity. }
    rewrite L. destruct (g_perms g !! attr_string a) as [b|] eqn:Eb; [destruct (decide (b = a)) as [->|N]|].
    - left. split; [reflexivity|]. exists g. split; [|exact Eb]. exists r, gl. split; [reflexivity|split; assumption].
    - right. split; [reflexivity|]. intros (g' & (r' & gl' & [= <-] & E & E') & Eb'). rewrite Eg in E. injection E as <-. rewrite El in E'. injection E' as <-. rewrite Eb in Eb'. injection Eb' as ->. destruct (N eq_refl).
    - right. split; [reflexivity|]. intros (g' & (r' & gl' & [= <-] & E & E') & Eb'). rewrite Eg in E. injection E as <-. rewrite El in E'. injection E' as <-. rewrite Eb in Eb'. discriminate.
  Qed.
  Definition held_end (l : nat) (w : list string) : Prop := match leads h l w with Some d => held d | None => 0 end = 1.
  Global Instance held_end_dec l w : Decision (held_end l w) := ltac:(unfold held_end; apply _).
  Lemma stops_length l w d : leads h l w = Some d -> length (stops h l w) = pred (length w).
  Proof.
    revert l. induction w as [|k w IH]; intros l H; [reflexivity|]. cbn [leads] in H. destruct (child h l k) as [c|] eqn:E; [|discriminate]. destruct w as [|k' w]; [reflexivity|].
    change (length (match child h l k with Some c => c :: stops h c (k' :: w) | None => [] end) = S (length w)). rewrite E. cbn [length]. rewrite (IH c H). reflexivity.
  Qed.
  Lemma filter_all {A} (l : list A) : filter (fun _ => true = true) l = l.
  Proof. induction l as [|x l IH]; [reflexivity|]. rewrite filter_cons, IH. destruct (decide (true = true)) as [_|N]; [reflexivity|destruct (N eq_refl)]. Qed.
  Lemma all_listed o l m : get_all_implicit_permissions o h l = Ok m ->
    exists ws, ways_to h l (fun d => holds h d grp (attr_string a) a) ws /\ times m grp a = sum_list_with (fun w => 2 ^ pred (length w)) ws.
  Proof.
    intros H. assert (B : below (S (length (h_roles h))) h l).
    { revert H. unfold get_all_implicit_permissions. cbn [all_perms_fuel]. destruct (h_roles h !! l) as [r|]; [|discriminate]. intros (acc1 & _ & H)%rbind_ok.
      apply rbind_ok in H as (ds & Hds & _). unfold get_descendant_roles in Hds. apply rbind_ok in Hds as (kds & Hkds & _). exact (descend_ok_bound _ _ _ _ _ Hkds). }
    apply (all_times _ _ _ _ _ _ B) in H. change (times ∅ grp a) with (length (filter (fun b => b = a) (default [] ((∅ : gmap string (list attr)) !! grp)))) in H. rewrite lookup_empty in H. cbn [default filter list_filter length] in H.
    set (ws := [] :: ways h (S (length (h_roles h))) l).
    assert (M : forall w, w ∈ ws <-> is_Some (leads h l w)).
    { intros w. unfold ws. rewrite elem_of_cons, (elem_of_ways _ _ _ _ B). split; [intros [->|[_ S]]; [exists l; reflexivity|exact S]|]. intros S. destruct w as [|k w]; [left; reflexivity|right; split; [discriminate|exact S]]. }
    assert (N : NoDup ws). { apply NoDup_cons. split; [|apply ways_nodup]. intros X. exact (ways_nonempty _ _ _ _ X eq_refl). }
    exists (filter (held_end l) ws). split.
    - split; [apply NoDup_filter; exact N|]. intros w. rewrite elem_of_list_filter, M. unfold held_end. split.
      + intros [E [d Hd]]. rewrite Hd in E. exists d. split; [exact Hd|]. destruct (held_holds d) as [[_ Y]|[Z _]]; [exact Y|]. rewrite Z in E. discriminate.
      + intros (d & Hd & Y). rewrite Hd. split; [|exists d; reflexivity]. destruct (held_holds d) as [[Z _]|[_ Z]]; [exact Z|contradiction].
    - rewrite H, Nat.add_0_l. rewrite gains_ways. rewrite <- sum_filter. unfold ws. cbn [sum_list_with]. f_equal.
      + cbn [leads length pred Nat.pow]. destruct (decide (held_end l [])) as [D|D]; unfold held_end in D; cbn [leads] in D; destruct (held_holds l) as [[E _]|[E _]]; rewrite E in D |- *; try reflexivity; try discriminate D. destruct (D eq_refl).
      + apply sum_ext. intros w Hw. apply (elem_of_ways _ _ _ _ B) in Hw as [_ [d Hd]]. unfold value, open_stops. rewrite Hd. rewrite filter_all, (stops_length _ _ _ Hd).
        destruct (decide (held_end l w)) as [D|D]; unfold held_end in D; rewrite Hd in D; destruct (held_holds d) as [[E _]|[E _]]; rewrite E in D |- *; try lia; try discriminate D.
  Qed.
End listed.
