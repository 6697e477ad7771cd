(** The tenant traversal of package v2: it always ends, and what it collects. *)
From Verif Require Export DagProofs V2Spec.

Lemma rbind_inv {A B} (x : res A) (f : A -> res B) b :
  rbind x f = Ok b -> exists a, x = Ok a /\ f a = Ok b.
Proof. destruct x; simpl; [eauto|done|done]. Qed.

Lemma is_expired_spec now pr : is_expired now pr = true <-> expired now pr.
Proof.
  unfold is_expired, expired. destruct (pr_expiry pr) as [e|]; [|naive_solver].
  rewrite bool_decide_eq_true. naive_solver.
Qed.
Lemma is_expired_false now pr : is_expired now pr = false <-> ~ expired now pr.
Proof. rewrite <-is_expired_spec. by destruct (is_expired now pr). Qed.

Section trav.
  Context {A X : Type}.
  Variable row : dag -> A -> prole -> res (dag * A).
  Variable st : vstate.
  Variable now : Z.
  Variable user : string.

  Definition row_of (p : option nat) : option prole := p ≫= (fun l => w_prs st !! l).
  (** The traversal of children only starts at these. *)
  Definition live_row (tid : string) (pr : prole) : Prop :=
    assigned st pr /\ pr_principal pr = user /\ pr_tenant pr = tid /\ ~ expired now pr.

  (** *** Returning *)
  Definition sound_rows : Prop := forall p, p ∈ w_assign st -> exists pr, row_of p = Some pr.
  Definition kids_ok : Prop :=
    forall l t c, w_tenants st !! l = Some t -> c ∈ (map_to_list (vt_children t)).*2 ->
      exists tc, w_tenants st !! c = Some tc.
  Variable good : dag -> Prop.

  Lemma rows_loop_returns tid d acc ps :
    (forall d acc pr, good d -> exists d' acc', row d acc pr = Ok (d', acc') /\ good d') ->
    (forall p, p ∈ ps -> exists pr, row_of p = Some pr) -> good d ->
    exists d' acc', rows_loop row st now user tid d acc ps = Ok (d', acc') /\ good d'.
  Proof.
    intros Hrow. revert d acc. induction ps as [|p ps IH]; intros d acc Hps Hd; simpl; [eauto|].
    destruct (Hps p) as [pr Hpr]; [left|]. unfold row_of in Hpr. rewrite Hpr.
    assert (forall p, p ∈ ps -> exists pr, row_of p = Some pr) as Hps'.
    { intros p' Hp'. apply Hps. by right. }
    destruct (_ && _ && _); [|by apply IH].
    destruct (Hrow d acc pr Hd) as (d' & acc' & -> & Hd'). simpl. by apply IH.
  Qed.

  (** Ids of tenants not yet visited: bounds the depth of the recursion. *)
  Definition all_ids : gset string := list_to_set (vt_id <$> w_tenants st).
  Lemma all_ids_size : size all_ids <= length (w_tenants st).
  Proof.
    unfold all_ids. rewrite <-(fmap_length vt_id (w_tenants st)).
    generalize (vt_id <$> w_tenants st). induction l as [|x l IH]; [done|].
    rewrite list_to_set_cons, size_union_alt, size_singleton.
    enough (size (list_to_set l ∖ {[x]} : gset string) <= size (list_to_set l : gset string)) by (simpl; lia).
    apply subseteq_size. set_solver.
  Qed.

  Definition ends (x : res (gset string * dag * A)) (checked : gset string) : Prop :=
    exists checked' d' acc', x = Ok (checked', d', acc') /\ good d' /\ checked ⊆ checked'.
  Lemma kids_loop_returns rec o i cs checked d acc C :
    (forall o c checked d acc, c ∈ cs -> C ⊆ checked -> good d -> ends (rec o c checked d acc) checked) ->
    C ⊆ checked -> good d -> ends (kids_loop rec o i cs checked d acc) checked.
  Proof.
    revert i checked d acc. induction cs as [|c cs IH]; intros i checked d acc Hrec HC Hd; simpl.
    - eexists _, _, _. done.
    - destruct (Hrec (sub o i) c checked d acc) as (ch1 & d1 & a1 & -> & Hd1 & Hch1); [left|done|done|].
      simpl. destruct (IH (S i) ch1 d1 a1) as (ch2 & d2 & a2 & -> & Hd2 & Hch2); [|set_solver|done|].
      + intros. apply Hrec; [by right|done|done].
      + eexists _, _, _. split; [done|]. split; [done|set_solver].
  Qed.
  Lemma manage_loop_returns rec o i t ps checked d acc C :
    (forall o c checked d acc, c ∈ (map_to_list (vt_children t)).*2 -> C ⊆ checked -> good d ->
       ends (rec o c checked d acc) checked) ->
    (forall p, p ∈ ps -> exists pr, row_of p = Some pr) ->
    C ⊆ checked -> good d -> ends (manage_loop st user rec o i t ps checked d acc) checked.
  Proof.
    intros Hrec. revert i checked d acc. induction ps as [|p ps IH]; intros i checked d acc Hps HC Hd; simpl.
    - eexists _, _, _. done.
    - destruct (Hps p) as [pr Hpr]; [left|]. unfold row_of in Hpr. rewrite Hpr.
      assert (forall p, p ∈ ps -> exists pr, row_of p = Some pr) as Hps'.
      { intros p' Hp'. apply Hps. by right. }
      destruct (_ && _ && _); [|by apply IH].
      destruct (kids_loop_returns rec (sub o i) 1
        (ordered (sub (sub o i) 0) (map_to_list (vt_children t)).*2) checked d acc C)
        as (ch1 & d1 & a1 & -> & Hd1 & Hch1); [|done|done|].
      + intros o' c ch d' a' Hc%elem_of_ordered. by apply Hrec.
      + simpl. destruct (IH (S i) ch1 d1 a1 Hps') as (ch2 & d2 & a2 & -> & Hd2 & Hch2); [set_solver|done|].
        eexists _, _, _. split; [done|]. split; [done|set_solver].
  Qed.
  Lemma traverse_returns fuel o t checked d acc :
    (forall d acc pr, good d -> exists d' acc', row d acc pr = Ok (d', acc') /\ good d') ->
    sound_rows -> kids_ok -> (exists c, w_tenants st !! t = Some c) -> good d ->
    size (all_ids ∖ checked) < fuel -> ends (traverse row st now user fuel o t checked d acc) checked.
  Proof.
    intros Hrow Hsr Hk. revert o t checked d acc.
    induction fuel as [|fuel IH]; intros o t checked d acc [c Hc] Hd Hf; [lia|].
    simpl. rewrite Hc. case_bool_decide as Hin; [eexists _, _, _; done|].
    destruct (rows_loop_returns (vt_id c) d acc (w_assign st) Hrow Hsr Hd) as (d1 & a1 & -> & Hd1). simpl.
    assert (vt_id c ∈ all_ids) as Hid.
    { apply elem_of_list_to_set, elem_of_list_fmap. exists c. split; [done|].
      by eapply elem_of_list_lookup_2. }
    destruct (manage_loop_returns (traverse row st now user fuel) o 0 c (w_assign st)
      ({[vt_id c]} ∪ checked) d1 a1 ({[vt_id c]} ∪ checked)) as (ch2 & d2 & a2 & -> & Hd2 & Hch2);
      [|exact Hsr|done|done|].
    - intros o' c' ch d' a' Hc' HC Hd'. apply IH; [by eapply Hk|done|].
      assert (size (all_ids ∖ ch) < size (all_ids ∖ checked)); [|lia].
      apply subset_size. set_solver.
    - eexists _, _, _. split; [done|]. split; [done|set_solver].
  Qed.
  Lemma traverse_all_returns o t d acc :
    (forall d acc pr, good d -> exists d' acc', row d acc pr = Ok (d', acc') /\ good d') ->
    sound_rows -> kids_ok -> (exists c, w_tenants st !! t = Some c) -> good d ->
    exists d' acc', traverse_all row st now user o t d acc = Ok (d', acc') /\ good d'.
  Proof.
    intros Hrow Hsr Hk Ht Hd. unfold traverse_all.
    destruct (traverse_returns (S (length (w_tenants st))) o t ∅ d acc Hrow Hsr Hk Ht Hd)
      as (ch & d' & a' & -> & Hd' & _); [|simpl; eauto].
    pose proof all_ids_size. enough (size (all_ids ∖ ∅) <= size all_ids) by lia.
    apply subseteq_size. set_solver.
  Qed.

  (** *** What is collected *)
  Variable has : A -> X -> Prop.
  Variable gives : prole -> X -> Prop.
  Hypothesis row_exact : forall d acc pr d' acc',
    good d -> row d acc pr = Ok (d', acc') ->
    good d' /\ forall x, has acc' x <-> has acc x \/ gives pr x.

  Lemma rows_loop_exact tid d acc ps d' acc' :
    good d -> rows_loop row st now user tid d acc ps = Ok (d', acc') ->
    good d' /\ (forall p, p ∈ ps -> exists pr, row_of p = Some pr) /\
    forall x, has acc' x <-> has acc x \/
      exists p pr, p ∈ ps /\ row_of p = Some pr /\ pr_principal pr = user /\ pr_tenant pr = tid /\
        ~ expired now pr /\ gives pr x.
  Proof.
    revert d acc. induction ps as [|p ps IH]; intros d acc Hd; simpl.
    - intros [= <- <-]. split; [done|]. split; [by intros p ?%elem_of_nil|].
      intros x. split; [by left|]. intros [?|(p & pr & ?%elem_of_nil & _)]; done.
    - fold (row_of p). destruct (row_of p) as [pr|] eqn:Hpr; [|done].
      destruct (bool_decide (pr_principal pr = user) && bool_decide (pr_tenant pr = tid)
                && negb (is_expired now pr)) eqn:Hc.
      + apply andb_true_iff in Hc as [[Hu%bool_decide_eq_true Ht%bool_decide_eq_true]%andb_true_iff He%negb_true_iff].
        apply is_expired_false in He.
        intros ([d1 a1] & Hrow & Hl)%rbind_inv. simpl in Hl.
        destruct (row_exact _ _ _ _ _ Hd Hrow) as [Hd1 H1].
        destruct (IH _ _ Hd1 Hl) as (Hd' & Hps & H2). split; [done|]. split.
        * intros p' [->|Hp']%elem_of_cons; eauto.
        * intros x. rewrite H2, H1. split.
          -- intros [[?|?]|(p' & pr' & Hp' & ?)]; [by left| |].
             ++ right. exists p, pr. split; [left|done].
             ++ right. exists p', pr'. split; [by right|done].
          -- intros [?|(p' & pr' & [->|Hp']%elem_of_cons & Hpr' & ?)]; [auto| |].
             ++ left. right. assert (pr' = pr) as -> by congruence. tauto.
             ++ right. exists p', pr'. done.
      + intros Hl. destruct (IH _ _ Hd Hl) as (Hd' & Hps & H2). split; [done|]. split.
        * intros p' [->|Hp']%elem_of_cons; eauto.
        * intros x. rewrite H2. split.
          -- intros [?|(p' & pr' & Hp' & ?)]; [by left|].
             right. exists p', pr'. split; [by right|done].
          -- intros [?|(p' & pr' & [->|Hp']%elem_of_cons & Hpr' & Hu & Ht & He & ?)]; [auto| |].
             ++ exfalso. assert (pr' = pr) as -> by congruence.
                rewrite !bool_decide_true in Hc by done.
                apply is_expired_false in He. by rewrite He in Hc.
             ++ right. exists p', pr'. done.
  Qed.
  Lemma rows_loop_all tid d acc d' acc' :
    good d -> rows_loop row st now user tid d acc (w_assign st) = Ok (d', acc') ->
    good d' /\ sound_rows /\
    forall x, has acc' x <-> has acc x \/ exists pr, live_row tid pr /\ gives pr x.
  Proof.
    intros Hd Hl. destruct (rows_loop_exact _ _ _ _ _ _ Hd Hl) as (Hd' & Hs & Hx).
    split; [done|]. split; [done|]. intros x. rewrite Hx. apply or_iff_compat_l. split.
    - intros (p & pr & Hp & Hpr & ? & ? & ? & ?). exists pr. split; [|done]. split; [|done].
      destruct p as [l|]; [|done]. by exists l.
    - intros (pr & ((l & Hl' & Hpr) & ? & ? & ?) & ?). exists (Some l), pr. done.
  Qed.

  (** One managed step down the tenants. *)
  Definition down (a b : nat) : Prop :=
    exists t k, w_tenants st !! a = Some t /\ vt_children t !! k = Some b /\
      exists pr, assigned st pr /\ pr_principal pr = user /\ pr_tenant pr = vt_id t /\ pr_manage pr = true.

  (** A part of the traversal that visited the tenants [N], having started at [cs]. *)
  Definition visited (cs : list nat) (checked : gset string) (acc : A) (checked' : gset string) (acc' : A) : Prop :=
    exists N : list nat,
      (forall n, n ∈ N -> exists c t, c ∈ cs /\ rtc down c n /\ w_tenants st !! n = Some t /\ vt_id t ∉ checked) /\
      (forall i, i ∈ checked' <-> i ∈ checked \/ exists n t, n ∈ N /\ w_tenants st !! n = Some t /\ vt_id t = i) /\
      (forall c t, c ∈ cs -> w_tenants st !! c = Some t -> vt_id t ∈ checked') /\
      (forall n m t, n ∈ N -> down n m -> w_tenants st !! m = Some t -> vt_id t ∈ checked') /\
      (forall x, has acc' x <-> has acc x \/
         exists n t pr, n ∈ N /\ w_tenants st !! n = Some t /\ live_row (vt_id t) pr /\ gives pr x).
  Lemma visited_nil checked acc : visited [] checked acc checked acc.
  Proof.
    exists []. split; [by intros n ?%elem_of_nil|]. split; [|split; [|split]].
    - intros i. split; [by left|]. intros [?|(n & t & ?%elem_of_nil & _)]; done.
    - by intros c t ?%elem_of_nil.
    - by intros n m t ?%elem_of_nil.
    - intros x. split; [by left|]. intros [?|(n & t & pr & ?%elem_of_nil & _)]; done.
  Qed.
  Lemma visited_app cs1 cs2 ch0 a0 ch1 a1 ch2 a2 :
    visited cs1 ch0 a0 ch1 a1 -> visited cs2 ch1 a1 ch2 a2 -> visited (cs1 ++ cs2) ch0 a0 ch2 a2.
  Proof.
    intros (N1 & A1 & B1 & C1 & D1 & E1) (N2 & A2 & B2 & C2 & D2 & E2). exists (N1 ++ N2).
    split; [|split; [|split; [|split]]].
    - intros n [Hn|Hn]%elem_of_app.
      + destruct (A1 n Hn) as (c & t & Hc & ?). exists c, t. split; [apply elem_of_app; by left|done].
      + destruct (A2 n Hn) as (c & t & Hc & Hr & Ht & Hnc). exists c, t.
        split; [apply elem_of_app; by right|]. split; [done|]. split; [done|].
        intros H. apply Hnc, B1. by left.
    - intros i. rewrite B2, B1. setoid_rewrite elem_of_app. naive_solver.
    - intros c t [Hc|Hc]%elem_of_app Ht; [|by eapply C2]. apply B2. left. by eapply C1.
    - intros n m t [Hn|Hn]%elem_of_app Hm Ht; [|by eapply D2]. apply B2. left. by eapply D1.
    - intros x. rewrite E2, E1. setoid_rewrite elem_of_app. naive_solver.
  Qed.
  Lemma visited_weaken cs cs' ch a ch' a' :
    (forall c, c ∈ cs <-> c ∈ cs') -> visited cs ch a ch' a' -> visited cs' ch a ch' a'.
  Proof.
    intros H (N & A1 & B1 & C1 & D1 & E1). exists N. split; [|split; [done|split; [|split; done]]].
    - intros n Hn. destruct (A1 n Hn) as (c & t & Hc & ?). exists c, t. split; [by apply H|done].
    - intros c t Hc%H. by eapply C1.
  Qed.

  Definition rec_exact (rec : oracle -> nat -> gset string -> dag -> A -> res (gset string * dag * A)) : Prop :=
    forall o c ch d a ch' d' a', good d -> rec o c ch d a = Ok (ch', d', a') ->
      good d' /\ visited [c] ch a ch' a'.
  Lemma kids_loop_exact rec o i cs ch d a ch' d' a' :
    rec_exact rec -> good d -> kids_loop rec o i cs ch d a = Ok (ch', d', a') ->
    good d' /\ visited cs ch a ch' a'.
  Proof.
    intros Hrec. revert i ch d a. induction cs as [|c cs IH]; intros i ch d a Hd; simpl.
    - intros [= <- <- <-]. split; [done|apply visited_nil].
    - intros ([[ch1 d1] a1] & H1 & H2)%rbind_inv. simpl in H2.
      destruct (Hrec _ _ _ _ _ _ _ _ Hd H1) as [Hd1 V1].
      destruct (IH _ _ _ _ Hd1 H2) as [Hd2 V2]. split; [done|].
      apply (visited_app [c] cs _ _ _ _ _ _ V1 V2).
  Qed.
  (** The children visited by the loop over the managing assignments [ps]. *)
  Definition kids_of (t : vtenant) (ps : list (option nat)) : list nat :=
    flat_map (fun p => match row_of p with
                       | Some pr => if bool_decide (pr_principal pr = user) && bool_decide (pr_tenant pr = vt_id t)
                                       && pr_manage pr then (map_to_list (vt_children t)).*2 else []
                       | None => []
                       end) ps.
  Lemma manage_loop_exact rec o i t ps ch d a ch' d' a' :
    rec_exact rec -> good d -> manage_loop st user rec o i t ps ch d a = Ok (ch', d', a') ->
    good d' /\ visited (kids_of t ps) ch a ch' a'.
  Proof.
    intros Hrec. revert i ch d a. induction ps as [|p ps IH]; intros i ch d a Hd; simpl.
    - intros [= <- <- <-]. split; [done|apply visited_nil].
    - fold (row_of p). destruct (row_of p) as [pr|] eqn:Hpr; [|done].
      destruct (_ && _ && _).
      + intros ([[ch1 d1] a1] & H1 & H2)%rbind_inv. simpl in H2.
        destruct (kids_loop_exact _ _ _ _ _ _ _ _ _ _ Hrec Hd H1) as [Hd1 V1].
        destruct (IH _ _ _ _ Hd1 H2) as [Hd2 V2]. split; [done|].
        eapply visited_app; [|exact V2]. eapply visited_weaken; [|exact V1].
        intros c. apply elem_of_ordered.
      + intros H2. destruct (IH _ _ _ _ Hd H2) as [Hd2 V2]. done.
  Qed.
  Lemma elem_of_kids t ps c :
    c ∈ kids_of t ps <-> (exists k, vt_children t !! k = Some c) /\
      exists p pr, p ∈ ps /\ row_of p = Some pr /\ pr_principal pr = user /\ pr_tenant pr = vt_id t /\ pr_manage pr = true.
  Proof.
    assert (c ∈ (map_to_list (vt_children t)).*2 <-> exists k, vt_children t !! k = Some c) as Hk.
    { rewrite elem_of_list_fmap. split.
      - intros ([k c'] & -> & Hin%elem_of_map_to_list). by exists k.
      - intros [k Hc]. exists (k, c). split; [done|by apply elem_of_map_to_list]. }
    unfold kids_of. rewrite elem_of_list_In, in_flat_map. setoid_rewrite <-elem_of_list_In. split.
    - intros (p & Hp & Hc). destruct (row_of p) as [pr|] eqn:Hpr; [|by apply elem_of_nil in Hc].
      destruct (_ && _ && _) eqn:Hb; [|by apply elem_of_nil in Hc].
      apply andb_true_iff in Hb as [[Hu%bool_decide_eq_true Ht%bool_decide_eq_true]%andb_true_iff Hm].
      split; [by apply Hk|]. exists p, pr. done.
    - intros (Hc & p & pr & Hp & Hpr & Hu & Ht & Hm). exists p. split; [done|]. rewrite Hpr.
      rewrite !bool_decide_true by done. rewrite Hm. simpl. by apply Hk.
  Qed.
  Lemma kids_down l t c : w_tenants st !! l = Some t -> c ∈ kids_of t (w_assign st) <-> down l c.
  Proof.
    intros Ht. rewrite elem_of_kids. split.
    - intros ([k Hk] & p & pr & Hp & Hpr & ?). exists t, k. split; [done|]. split; [done|].
      exists pr. split; [|done]. destruct p as [l'|]; [|done]. by exists l'.
    - intros (t' & k & Ht' & Hk & pr & (l' & Hl' & Hpr) & ?). simplify_eq.
      split; [by exists k|]. exists (Some l'), pr. done.
  Qed.
  Lemma traverse_exact fuel : rec_exact (traverse row st now user fuel).
  Proof.
    induction fuel as [|fuel IH]; intros o c ch d a ch' d' a' Hd; simpl; [done|].
    destruct (w_tenants st !! c) as [t|] eqn:Ht; [|done].
    case_bool_decide as Hin.
    - intros [= <- <- <-]. split; [done|]. exists [].
      split; [by intros n ?%elem_of_nil|]. split; [|split; [|split]].
      + intros i. split; [by left|]. intros [?|(n & t' & ?%elem_of_nil & _)]; done.
      + intros c' t' ->%elem_of_list_singleton Ht'. by simplify_eq.
      + by intros n m t' ?%elem_of_nil.
      + intros x. split; [by left|]. intros [?|(n & t' & pr & ?%elem_of_nil & _)]; done.
    - intros ([d1 a1] & Hr & Hm)%rbind_inv. simpl in Hm.
      destruct (rows_loop_all _ _ _ _ _ Hd Hr) as (Hd1 & Hs & E1).
      destruct (manage_loop_exact _ _ _ _ _ _ _ _ _ _ _ IH Hd1 Hm) as [Hd2 (N & A2 & B2 & C2 & D2 & E2)].
      split; [done|]. exists (c :: N). split; [|split; [|split; [|split]]].
      + intros n [->|Hn]%elem_of_cons.
        * exists c, t. split; [left|]. done.
        * destruct (A2 n Hn) as (k & tn & Hk & Hkn & Htn & Hnc).
          exists c, tn. split; [left|]. split; [|split; [done|set_solver]].
          eapply rtc_l; [|exact Hkn]. by apply (kids_down c t k Ht).
      + intros i. rewrite B2, elem_of_union, elem_of_singleton. split.
        * intros [[->|?]|(n & t' & Hn & ?)]; [|by left|].
          -- right. exists c, t. split; [left|done].
          -- right. exists n, t'. split; [by right|done].
        * intros [?|(n & t' & [->|Hn]%elem_of_cons & Ht' & <-)]; [auto| |].
          -- left. left. by simplify_eq.
          -- right. by exists n, t'.
      + intros c' t' ->%elem_of_list_singleton Ht'. simplify_eq. apply B2. left. set_solver.
      + intros n m t' [->|Hn]%elem_of_cons Hnm Ht'.
        * apply (C2 m t'); [|done]. by apply (kids_down c t m Ht).
        * by eapply D2.
      + intros x. rewrite E2, E1. split.
        * intros [[?|(pr & ?)]|(n & t' & pr & Hn & ?)]; [by left| |].
          -- right. exists c, t, pr. split; [left|done].
          -- right. exists n, t', pr. split; [by right|done].
        * intros [?|(n & t' & pr & [->|Hn]%elem_of_cons & Ht' & ?)]; [auto| |].
          -- left. right. simplify_eq. by exists pr.
          -- right. by exists n, t', pr.
  Qed.

  (** Everything collected comes from a tenant managed below the start, whatever the ids. *)
  Lemma traverse_all_sound o t d acc d' acc' :
    good d -> traverse_all row st now user o t d acc = Ok (d', acc') ->
    good d' /\ forall x, has acc' x -> has acc x \/
      exists n tn pr, rtc down t n /\ w_tenants st !! n = Some tn /\ live_row (vt_id tn) pr /\ gives pr x.
  Proof.
    intros Hd. unfold traverse_all. intros ([[ch d1] a1] & H & [= <- <-])%rbind_inv.
    destruct (traverse_exact _ _ _ _ _ _ _ _ _ Hd H) as [Hd1 (N & A1 & _ & _ & _ & E1)].
    split; [done|]. intros x [?|(n & tn & pr & Hn & ?)]%E1; [by left|]. right.
    destruct (A1 n Hn) as (c & tn' & ->%elem_of_list_singleton & ? & ? & _). by exists n, tn, pr.
  Qed.
  (** With distinct ids it is exactly what these tenants hold. *)
  Lemma traverse_all_exact o t d acc d' acc' :
    distinct_ids st -> kids_ok -> (exists c, w_tenants st !! t = Some c) ->
    good d -> traverse_all row st now user o t d acc = Ok (d', acc') ->
    good d' /\ forall x, has acc' x <-> has acc x \/
      exists n tn pr, rtc down t n /\ w_tenants st !! n = Some tn /\ live_row (vt_id tn) pr /\ gives pr x.
  Proof.
    intros Hdi Hk [t0 Ht] Hd. unfold traverse_all. intros ([[ch d1] a1] & H & [= <- <-])%rbind_inv.
    destruct (traverse_exact _ _ _ _ _ _ _ _ _ Hd H) as [Hd1 (N & A1 & B1 & C1 & D1 & E1)].
    split; [done|]. intros x. rewrite E1. apply or_iff_compat_l.
    assert (forall i, i ∈ ch -> exists n tn, n ∈ N /\ w_tenants st !! n = Some tn /\ vt_id tn = i) as B1'.
    { intros i [?|?]%B1; [set_solver|done]. }
    assert (forall m tm, w_tenants st !! m = Some tm -> vt_id tm ∈ ch -> m ∈ N) as HN.
    { intros m tm Hm Hi. destruct (B1' _ Hi) as (n & tn & Hn & Htn & He).
      by rewrite <-(Hdi n m tn tm Htn Hm He). }
    assert (forall a b, rtc down a b -> a ∈ N -> b ∈ N) as Hcl.
    { induction 1 as [|a b b' Hab _ IHr]; [done|]. intros Ha. apply IHr.
      assert (exists tb, w_tenants st !! b = Some tb) as [tb Htb].
      { destruct Hab as (ta & k & Hta & Hkb & _). apply (Hk a ta b Hta).
        apply elem_of_list_fmap. exists (k, b). split; [done|by apply elem_of_map_to_list]. }
      by apply (HN b tb), (D1 a b tb). }
    assert (t ∈ N) as HtN. { apply (HN t t0); [done|]. apply (C1 t t0); [left|done]. }
    split.
    - intros (n & tn & pr & Hn & ?). destruct (A1 n Hn) as (c & tn' & ->%elem_of_list_singleton & ? & ? & _).
      by exists n, tn, pr.
    - intros (n & tn & pr & Hn & ?). exists n, tn, pr. split; [by eapply Hcl|done].
  Qed.
End trav.
