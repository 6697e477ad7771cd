(** Proofs about role queries. *)
From Verif Require Export RoleModel RoleSpec MatchProofs UtilsProofs.

(** ** Generic facts about [res] *)
Lemma rbind_ok {A B} (x : res A) (f : A -> res B) b :
  rbind x f = Ok b <-> exists a, x = Ok a /\ f a = Ok b.
Proof. destruct x; simpl; naive_solver. Qed.
Lemma rbind_hang {A B} (x : res A) (f : A -> res B) :
  rbind x f = Hang <-> x = Hang \/ exists a, x = Ok a /\ f a = Hang.
Proof. destruct x; simpl; naive_solver. Qed.
Lemma rbind_panic {A B} (x : res A) (f : A -> res B) :
  rbind x f = Panic <-> x = Panic \/ exists a, x = Ok a /\ f a = Panic.
Proof. destruct x; simpl; naive_solver. Qed.

Lemma tc_last {A} (R : relation A) x y : tc R x y -> exists z, rtc R x z /\ R z y.
Proof.
  induction 1 as [x y H|x y z H _ (w & Hw & Hz)]; [by exists x|].
  exists w. split; [by eapply rtc_l|done].
Qed.

(** ** [descend] *)
Section descend.
  Context (next : nat -> option (gmap string nat)).
  Notation edge := (child_of next).

  Lemma elem_of_children m o (kc : string * nat) :
    kc ∈ ordered o (map_to_list m) <-> m !! kc.1 = Some kc.2.
  Proof. rewrite elem_of_ordered. destruct kc. apply elem_of_map_to_list. Qed.

  Lemma visit_ok rec o i l r :
    visit rec o i l = Ok r ->
    (forall kc, kc ∈ r <-> kc ∈ l \/ exists j c below, (j, c) ∈ imap (fun j kc => (i + j, kc.2)) l
                                     /\ rec (sub o j) c = Ok below /\ kc ∈ below)
    /\ (forall j c, (j, c) ∈ imap (fun j kc => (i + j, kc.2)) l -> exists below, rec (sub o j) c = Ok below).
  Proof.
    revert i r. induction l as [|[k c] l IH]; intros i r; simpl.
    - intros [= <-]. split; [|set_solver]. intros kc. set_solver.
    - rewrite rbind_ok. intros (below & Hb & H). apply rbind_ok in H as (rest & Hr & [= <-]).
      destruct (IH _ _ Hr) as [H1 H2].
      assert (Himap : imap ((fun j (kc : string * nat) => (i + j, kc.2)) ∘ S) l
                      = imap (fun j kc => (S i + j, kc.2)) l).
      { apply imap_ext. intros j x _. unfold compose. f_equal. lia. }
      rewrite Himap. split.
      + intros kc. rewrite elem_of_cons, elem_of_app, H1. setoid_rewrite elem_of_cons.
        split.
        * intros [->|[?|[?|(j & c' & b' & ? & ? & ?)]]]; [by left; left| |by left; right|].
          -- right. exists i, c, below. split_and!; [left; f_equal; lia|done|done].
          -- right. exists j, c', b'. naive_solver.
        * intros [[->|?]|(j & c' & b' & [E|?] & ? & ?)]; [by left|by right;right;left| |].
          -- injection E as -> ->. rewrite Nat.add_0_r in *. right; left. congruence.
          -- right; right; right. exists j, c', b'. done.
      + intros j c' [E|?]%elem_of_cons; [|by apply H2].
        injection E as -> ->. rewrite Nat.add_0_r. by exists below.
  Qed.

  Lemma elem_of_imap_snd i (l : list (string * nat)) j c :
    (j, c) ∈ imap (fun j kc => (i + j, kc.2)) l -> exists k, (k, c) ∈ l.
  Proof.
    rewrite elem_of_lookup_imap. intros (j' & [k c'] & E & Hl). simplify_eq/=.
    exists k. by eapply elem_of_list_lookup_2.
  Qed.
  Lemma elem_of_imap_snd_2 i (l : list (string * nat)) k c :
    (k, c) ∈ l -> exists j, (j, c) ∈ imap (fun j kc => (i + j, kc.2)) l.
  Proof.
    intros [j Hj]%elem_of_list_lookup. exists (i + j). apply elem_of_lookup_imap. by exists j, (k, c).
  Qed.

  Lemma descend_sound n o l r : descend next n o l = Ok r ->
    forall kc, kc ∈ r -> exists p m, rtc edge l p /\ next p = Some m /\ m !! kc.1 = Some kc.2.
  Proof.
    revert o l r. induction n as [|n IH]; intros o l r; [done|]. simpl.
    destruct (next l) as [m|] eqn:Hl; [|done]. intros H kc Hkc.
    destruct (visit_ok _ _ _ _ _ H) as [H1 H2].
    apply H1 in Hkc as [Hkc|(j & c & below & Hc & Hrec & Hkc)].
    - exists l, m. split_and!; [done|done|by apply elem_of_children in Hkc].
    - apply elem_of_imap_snd in Hc as [k Hc]. apply elem_of_children in Hc.
      destruct (IH _ _ _ Hrec _ Hkc) as (p & m' & Hp & ? & ?). exists p, m'. split_and!; [|done|done].
      eapply rtc_l; [|done]. by exists m, k.
  Qed.

  Lemma descend_complete n o l r : descend next n o l = Ok r ->
    forall p m k c, rtc edge l p -> next p = Some m -> m !! k = Some c -> (k, c) ∈ r.
  Proof.
    revert o l r. induction n as [|n IH]; intros o l r; [done|]. simpl.
    destruct (next l) as [m|] eqn:Hl; [|done]. intros H p m' k c Hp Hm' Hk.
    destruct (visit_ok _ _ _ _ _ H) as [H1 H2]. apply H1.
    inversion Hp as [|? l' ? (m0 & k0 & Hm0 & Hk0) Hp']; subst.
    - left. apply elem_of_children. simpl. congruence.
    - right. assert (m0 = m) as -> by congruence.
      destruct (elem_of_imap_snd_2 1 (ordered (sub o 0) (map_to_list m)) k0 l') as [j Hj].
      { by apply elem_of_children. }
      destruct (H2 _ _ Hj) as [below Hb]. exists j, l', below. split_and!; [done|done|].
      eapply IH; done.
  Qed.

  Lemma descend_ok_elem n o l r : descend next n o l = Ok r ->
    forall c, c ∈ r.*2 <-> tc edge l c.
  Proof.
    intros H c. rewrite elem_of_list_fmap. split.
    - intros ([k c'] & -> & Hin). destruct (descend_sound _ _ _ _ H _ Hin) as (p & m & Hp & Hm & Hk).
      eapply tc_rtc_l; [done|]. apply tc_once. by exists m, k.
    - intros Htc. destruct (tc_last _ _ _ Htc) as (p & Hp & m & k & Hm & Hk).
      exists (k, c). split; [done|]. by eapply descend_complete.
  Qed.

  (** Ok bounds the length of all paths. *)
  Lemma descend_ok_bound n o l r : descend next n o l = Ok r ->
    forall m x, nsteps edge m l x -> m < n.
  Proof.
    revert o l r. induction n as [|n IH]; intros o l r; [done|]. simpl.
    destruct (next l) as [ch|] eqn:Hl; [|done]. intros H m x Hm.
    destruct (visit_ok _ _ _ _ _ H) as [H1 H2].
    inversion Hm as [|m' ? l' ? (m0 & k0 & Hm0 & Hk0) Hm']; subst; [lia|].
    assert (m0 = ch) as -> by congruence.
    destruct (elem_of_imap_snd_2 1 (ordered (sub o 0) (map_to_list ch)) k0 l') as [j Hj].
    { by apply elem_of_children. }
    destruct (H2 _ _ Hj) as [below Hb]. specialize (IH _ _ _ Hb _ _ Hm'). lia.
  Qed.

  Lemma visit_hang rec o i l : visit rec o i l = Hang ->
    exists j kc, kc ∈ l /\ rec (sub o j) kc.2 = Hang.
  Proof.
    revert i. induction l as [|[k c] l IH]; intros i; simpl; [done|].
    rewrite rbind_hang. intros [H|(b & Hb & H)]; [exists i, (k, c); split; [left|done]|].
    apply rbind_hang in H as [H|(? & ? & [=])].
    destruct (IH _ H) as (j & kc & ? & ?). exists j, kc. split; [by right|done].
  Qed.
  Lemma visit_panic rec o i l : visit rec o i l = Panic ->
    exists j kc, kc ∈ l /\ rec (sub o j) kc.2 = Panic.
  Proof.
    revert i. induction l as [|[k c] l IH]; intros i; simpl; [done|].
    rewrite rbind_panic. intros [H|(b & Hb & H)]; [exists i, (k, c); split; [left|done]|].
    apply rbind_panic in H as [H|(? & ? & [=])].
    destruct (IH _ H) as (j & kc & ? & ?). exists j, kc. split; [by right|done].
  Qed.

  (** Hang yields a path through existing objects as long as the fuel. *)
  Fixpoint path (l : nat) (ps : list nat) : Prop :=
    match ps with [] => True | p :: ps' => edge l p /\ path p ps' end.
  Lemma descend_hang_path n o l : descend next n o l = Hang ->
    exists ps, length ps = n /\ path l ps /\ forall p, p ∈ removelast (l :: ps) -> is_Some (next p).
  Proof.
    revert o l. induction n as [|n IH]; intros o l; simpl.
    - intros _. exists []. split_and!; [done|done|]. simpl. intros p Hp. by apply elem_of_nil in Hp.
    - destruct (next l) as [m|] eqn:Hl; [|done]. intros (j & [k c] & Hin & H)%visit_hang.
      apply elem_of_children in Hin. simpl in *. destruct (IH _ _ H) as (ps & Hlen & Hps & Hs).
      exists (c :: ps). split_and!; [simpl; lia|split; [by exists m, k|done]|].
      intros p Hp. simpl in Hp. apply elem_of_cons in Hp as [->|Hp]; [by eexists|]. by apply Hs.
  Qed.
  Lemma descend_panic n o l : descend next n o l = Panic ->
    exists p, rtc edge l p /\ next p = None.
  Proof.
    revert o l. induction n as [|n IH]; intros o l; simpl; [done|].
    destruct (next l) as [m|] eqn:Hl.
    - intros (j & [k c] & Hin & H)%visit_panic. apply elem_of_children in Hin. simpl in *.
      destruct (IH _ _ H) as (p & ? & ?). exists p. split; [|done]. eapply rtc_l; [|done]. by exists m, k.
    - intros _. by exists l.
  Qed.

  Lemma path_reach l ps p : path l ps -> p ∈ ps -> tc edge l p.
  Proof.
    revert l. induction ps as [|q ps IH]; intros l; [by intros _ H%elem_of_nil|].
    intros [He Hp] [->|Hin]%elem_of_cons; [by apply tc_once|].
    eapply tc_l; [done|]. by apply IH.
  Qed.
  Lemma path_app l ps p qs : path l (ps ++ p :: qs) -> path p qs.
  Proof.
    revert l. induction ps as [|q ps IH]; intros l; simpl; [tauto|]. intros [_ H]. by eapply IH.
  Qed.
  Lemma path_dup l ps : path l ps -> ~ NoDup (l :: ps) -> exists d, rtc edge l d /\ tc edge d d.
  Proof.
    revert l. induction ps as [|p ps IH]; intros l Hp Hnd.
    - exfalso. apply Hnd. apply NoDup_singleton.
    - destruct (decide (l ∈ p :: ps)) as [Hin|Hin].
      + exists l. split; [done|]. by eapply path_reach.
      + destruct Hp as [He Hp]. destruct (IH p Hp) as (d & ? & ?).
        { intros H. apply Hnd. by constructor. }
        exists d. split; [by eapply rtc_l|done].
  Qed.

  Lemma bounded_nodup N (l : list nat) : NoDup l -> (forall x, x ∈ l -> x < N) -> length l <= N.
  Proof.
    intros Hnd Hb. rewrite <-(seq_length N 0). apply submseteq_length, NoDup_submseteq; [done|].
    intros x Hx. apply elem_of_seq. specialize (Hb x Hx). lia.
  Qed.

  Context (N : nat) (Hdom : forall l, is_Some (next l) -> l < N).

  Lemma removelast_incl {A} (l : list A) x : x ∈ removelast l -> x ∈ l.
  Proof.
    induction l as [|y l IH]; [done|]. destruct l as [|z l]; [intros H; by apply elem_of_nil in H|].
    change (removelast (y :: z :: l)) with (y :: removelast (z :: l)).
    rewrite !(elem_of_cons _ _ y). intros [->|H]; [by left|right]. by apply IH.
  Qed.
  Lemma removelast_length {A} (l : list A) : length (removelast l) = length l - 1.
  Proof.
    induction l as [|y l IH]; [done|]. destruct l as [|z l]; [done|].
    change (removelast (y :: z :: l)) with (y :: removelast (z :: l)). simpl length. simpl length in IH. lia.
  Qed.
  Lemma removelast_nodup_sub {A} (l : list A) : NoDup l -> NoDup (removelast l).
  Proof.
    induction l as [|y l IH]; [done|]. destruct l as [|z l]; [constructor|].
    change (removelast (y :: z :: l)) with (y :: removelast (z :: l)).
    intros [H1 H2]%NoDup_cons. constructor; [|by apply IH]. intros H. by apply H1, removelast_incl.
  Qed.

  Lemma descend_hang_cycle n o l : N < n -> descend next n o l = Hang ->
    exists d, rtc edge l d /\ tc edge d d.
  Proof.
    intros Hn (ps & Hlen & Hps & Hs)%descend_hang_path.
    apply (path_dup l ps Hps). intros Hnd.
    pose proof (bounded_nodup N (removelast (l :: ps)) (removelast_nodup_sub _ Hnd)) as Hb.
    rewrite removelast_length in Hb. simpl in Hb.
    assert (length ps <= N); [|lia]. rewrite Nat.sub_0_r in Hb. apply Hb. intros x Hx. by apply Hdom, Hs.
  Qed.

  Lemma cycle_long_paths l d : rtc edge l d -> tc edge d d -> forall n, exists m x, n <= m /\ nsteps edge m l x.
  Proof.
    intros Hl Hd. apply rtc_nsteps in Hl as [a Ha].
    assert (exists b, nsteps edge (S b) d d) as [b Hb].
    { apply tc_nsteps in Hd as (b & Hb & Hd). destruct b; [lia|]. by exists b. }
    intros n. exists (a + n * S b), d. split; [lia|]. eapply nsteps_trans; [done|].
    induction n as [|n IH]; [constructor|]. simpl. change (S (b + n * S b)) with (S b + n * S b).
    eapply nsteps_trans; done.
  Qed.

  Lemma descend_cycle_not_ok n o l d r : rtc edge l d -> tc edge d d -> descend next n o l <> Ok r.
  Proof.
    intros Hl Hd H. destruct (cycle_long_paths l d Hl Hd n) as (m & x & Hm & Hs).
    pose proof (descend_ok_bound _ _ _ _ H _ _ Hs). lia.
  Qed.

  Context (Hclosed : forall l d, edge l d -> is_Some (next d)).

  Lemma closed_reach l d : is_Some (next l) -> rtc edge l d -> is_Some (next d).
  Proof. intros Hl. induction 1; [done|]. apply IHrtc. by eapply Hclosed. Qed.

  Lemma descend_exact n o l : N < n -> is_Some (next l) ->
    (exists r, descend next n o l = Ok r) /\ ~ (exists d, rtc edge l d /\ tc edge d d)
    \/ descend next n o l = Hang /\ (exists d, rtc edge l d /\ tc edge d d).
  Proof.
    intros Hn Hl. destruct (descend next n o l) as [r| |] eqn:H.
    - left. split; [by eexists|]. intros (d & ? & ?). by eapply descend_cycle_not_ok.
    - exfalso. apply descend_panic in H as (p & Hp & Hnone).
      destruct (closed_reach _ _ Hl Hp). congruence.
    - right. split; [done|]. by eapply descend_hang_cycle.
  Qed.
End descend.

(** Fuel monotonicity. *)
Lemma visit_mono rec1 rec2 o i l :
  (forall o c, rec1 o c <> Hang -> rec2 o c = rec1 o c) ->
  visit rec1 o i l <> Hang -> visit rec2 o i l = visit rec1 o i l.
Proof.
  intros Hrec. revert i. induction l as [|[k c] l IH]; intros i; [done|]. simpl. intros H.
  destruct (rec1 (sub o i) c) as [b| |] eqn:E.
  - rewrite Hrec by congruence. rewrite E. simpl in *. rewrite IH; [done|].
    intros E2. apply H. rewrite E2. done.
  - rewrite Hrec by congruence. by rewrite E.
  - done.
Qed.
Lemma descend_mono next n n' o l :
  n <= n' -> descend next n o l <> Hang -> descend next n' o l = descend next n o l.
Proof.
  revert n' o l. induction n as [|n IH]; intros n' o l Hle H; [done|].
  destruct n' as [|n']; [lia|]. simpl in *. destruct (next l) as [m|]; [|done].
  apply visit_mono; [|done]. intros o' c Hc. apply IH; [lia|done].
Qed.
