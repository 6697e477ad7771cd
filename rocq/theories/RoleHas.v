(** Proofs about Role.Has and the permission listings. *)
From Verif Require Export RoleProofs.

Lemma match_resource_true v p : match_resource v p = Ok true <-> StrMatches p v.
Proof. apply match_true. Qed.
Lemma match_resource_false v p : match_resource v p = Ok false <-> ~ StrMatches p v /\ ~ StrLoops p v.
Proof. apply match_false. Qed.
Lemma match_resource_hang v p : match_resource v p = Hang <-> StrLoops p v.
Proof. apply match_hang. Qed.
Lemma match_resource_panic v p : match_resource v p <> Panic.
Proof. apply match_no_panic. Qed.

Lemma any_match_ok v ps b : any_match v ps = Ok b ->
  (b = true <-> exists p, p ∈ ps /\ StrMatches p v).
Proof.
  induction ps as [|p ps IH]; simpl.
  - intros [= <-]. split; [done|]. intros (p & H & _). by apply elem_of_nil in H.
  - rewrite rbind_ok. intros ([] & Hm & H).
    + injection H as <-. apply match_resource_true in Hm. split; [|done]. intros _. exists p. split; [left|done].
    + apply match_resource_false in Hm as [Hm _]. rewrite (IH H). split.
      * intros (q & ? & ?). exists q. split; [by right|done].
      * intros (q & [->|?]%elem_of_cons & ?); [done|]. by exists q.
Qed.
Lemma any_match_hang v ps : any_match v ps = Hang -> exists p, p ∈ ps /\ StrLoops p v.
Proof.
  induction ps as [|p ps IH]; simpl; [done|]. rewrite rbind_hang. intros [H|(b & Hb & H)].
  - apply match_resource_hang in H. exists p. split; [left|done].
  - destruct b; [done|]. destruct (IH H) as (q & ? & ?). exists q. split; [by right|done].
Qed.
Lemma any_match_panic v ps : any_match v ps <> Panic.
Proof.
  induction ps as [|p ps IH]; simpl; [done|]. rewrite rbind_panic. intros [H|(b & Hb & H)].
  - by apply match_resource_panic in H.
  - by destruct b.
Qed.

Lemma elem_of_perm_keys o (m : gmap string attr) k :
  k ∈ ordered o (map_to_list m).*1 <-> is_Some (m !! k).
Proof.
  rewrite elem_of_ordered, elem_of_list_fmap. split.
  - intros ([k' a] & -> & H%elem_of_map_to_list). by eexists.
  - intros [a Ha]. exists (k, a). split; [done|]. by apply elem_of_map_to_list.
Qed.

Lemma descendant_roles_elem o h l ds : get_descendant_roles o h l = Ok ds ->
  forall d, d ∈ ds <-> descends h l d.
Proof.
  unfold get_descendant_roles. rewrite rbind_ok. intros (r & Hr & [= <-]). intros d.
  by apply (descend_ok_elem _ _ _ _ _ Hr).
Qed.

Lemma role_children_dom h l : is_Some (role_children h l) -> l < length (h_roles h).
Proof. unfold role_children. rewrite fmap_is_Some. apply lookup_lt_is_Some_1. Qed.
Lemma wf_heap_closed h l d : wf_heap h -> role_edge h l d -> is_Some (role_children h d).
Proof.
  intros (H1 & _ & _) (m & k & Hm & Hk). unfold role_children in *.
  apply fmap_Some in Hm as (r & Hr & ->). destruct (H1 _ _ _ _ Hr Hk) as (c & -> & _). by eexists.
Qed.

Lemma descendant_roles_exact o h l : wf_heap h -> is_Some (h_roles h !! l) ->
  (exists ds, get_descendant_roles o h l = Ok ds) /\ ~ cyclic_from h l
  \/ get_descendant_roles o h l = Hang /\ cyclic_from h l.
Proof.
  intros Hwf Hl.
  destruct (descend_exact (role_children h) (length (h_roles h)) (role_children_dom h)
    (fun a b => wf_heap_closed h a b Hwf) (S (length (h_roles h))) o l) as [[(r & Hr) Hc]|[Hr Hc]].
  - lia.
  - unfold role_children. by apply fmap_is_Some.
  - left. split; [|done]. exists r.*2. unfold get_descendant_roles. by rewrite Hr.
  - right. split; [|done]. unfold get_descendant_roles. by rewrite Hr.
Qed.

(** ** The loop over the descendants *)
Definition admitted (h : rheap) (allowed : list string) (d : nat) : Prop :=
  allowed = [] \/ exists id, has_id h d id /\ id ∈ allowed.

Lemma has_loop_skip h allowed d r :
  h_roles h !! d = Some r ->
  (Nat.ltb 0 (length allowed) && negb (contains allowed (r_id r)) = false <-> admitted h allowed d).
Proof.
  intros Hd. unfold admitted, has_id. destruct allowed as [|a allowed]; simpl length; [simpl; naive_solver|].
  change (Nat.ltb 0 (S (length allowed))) with true.
  destruct (contains (a :: allowed) (r_id r)) eqn:E; cbn [andb negb].
  - apply contains_spec in E. split; [|done]. intros _. right. exists (r_id r). split; [by exists r|done].
  - apply contains_false in E. split; [done|]. intros [?|(id & (r' & ? & <-) & Hin)]; [done|]. congruence.
Qed.

Lemma has_loop_ok rec h allowed o i ds b : has_loop rec h allowed o i ds = Ok b ->
  if b then exists j d, d ∈ ds /\ admitted h allowed d /\ rec (sub o j) d = Ok true
  else forall d, d ∈ ds -> admitted h allowed d -> exists j, rec (sub o j) d = Ok false.
Proof.
  revert i. induction ds as [|d ds IH]; intros i; simpl.
  - intros [= <-]. intros d Hd. by apply elem_of_nil in Hd.
  - destruct (h_roles h !! d) as [r|] eqn:Hd; [|done].
    pose proof (has_loop_skip h allowed d r Hd) as Hskip.
    destruct (Nat.ltb 0 (length allowed) && negb (contains allowed (r_id r))).
    + intros H. specialize (IH _ H). destruct b.
      * destruct IH as (j & d' & ? & ? & ?). exists j, d'. split_and!; [by right|done|done].
      * intros d' [->|?]%elem_of_cons Hadm; [|by apply IH]. apply Hskip in Hadm. done.
    + rewrite rbind_ok. intros ([] & Hr & H).
      * injection H as <-. exists i, d. split_and!; [left|by apply Hskip|done].
      * specialize (IH _ H). destruct b.
        -- destruct IH as (j & d' & ? & ? & ?). exists j, d'. split_and!; [by right|done|done].
        -- intros d' [->|?]%elem_of_cons Hadm; [by exists i|by apply IH].
Qed.
Lemma has_loop_hang rec h allowed o i ds : has_loop rec h allowed o i ds = Hang ->
  exists j d, d ∈ ds /\ admitted h allowed d /\ rec (sub o j) d = Hang.
Proof.
  revert i. induction ds as [|d ds IH]; intros i; simpl; [done|].
  destruct (h_roles h !! d) as [r|] eqn:Hd; [|done].
  pose proof (has_loop_skip h allowed d r Hd) as Hskip.
  destruct (Nat.ltb 0 (length allowed) && negb (contains allowed (r_id r))).
  - intros H. destruct (IH _ H) as (j & d' & ? & ?). exists j, d'. split; [by right|done].
  - rewrite rbind_hang. intros [H|([] & Hr & H)]; [|done|].
    + exists i, d. split_and!; [left|by apply Hskip|done].
    + destruct (IH _ H) as (j & d' & ? & ?). exists j, d'. split; [by right|done].
Qed.
Lemma has_loop_panic rec h allowed o i ds : has_loop rec h allowed o i ds = Panic ->
  exists j d, d ∈ ds /\ (h_roles h !! d = None \/ rec (sub o j) d = Panic).
Proof.
  revert i. induction ds as [|d ds IH]; intros i; simpl; [done|].
  destruct (h_roles h !! d) as [r|] eqn:Hd.
  2:{ intros _. exists i, d. split; [left|by left]. }
  destruct (Nat.ltb 0 (length allowed) && negb (contains allowed (r_id r))).
  - intros H. destruct (IH _ H) as (j & d' & ? & ?). exists j, d'. split; [by right|done].
  - rewrite rbind_panic. intros [H|([] & Hr & H)]; [|done|].
    + exists i, d. split; [left|by right].
    + destruct (IH _ H) as (j & d' & ? & ?). exists j, d'. split; [by right|done].
Qed.

Lemma offers_cases g perm :
  offers g perm <-> is_Some (g_perms g !! perm) \/ exists k, is_Some (g_perms g !! k) /\ StrMatches k perm.
Proof.
  unfold offers. split.
  - intros (k & a & Hk & [->|?]); [left; by eexists|right]. exists k. split; [by eexists|done].
  - intros [[a Ha]|(k & [a Ha] & ?)]; [exists perm, a; naive_solver|exists k, a; naive_solver].
Qed.

Lemma has_fuel_ok n o h l grp perm allowed b :
  has_fuel n o h l grp perm allowed = Ok b -> (b = true <-> permits h l grp perm allowed).
Proof.
  revert o l b. induction n as [|n IH]; intros o l b; [done|]. cbn [has_fuel].
  destruct (h_roles h !! l) as [r|] eqn:Hl; [|done].
  destruct (r_perms r !! grp) as [gl|] eqn:Hg.
  2:{ intros [= <-]. split; [done|]. intros (g & (r' & gl & ? & ? & ?) & _). congruence. }
  destruct (h_groups h !! gl) as [g|] eqn:Hgl; [|done].
  assert (Hown : owns h l grp g) by by exists r, gl.
  assert (Huniq : forall g', owns h l grp g' -> g' = g).
  { intros g' (r' & gl' & ? & ? & ?). congruence. }
  destruct (g_perms g !! perm) as [a|] eqn:Hp.
  { intros [= <-]. split; [|done]. intros _. exists g. split; [done|]. left. apply offers_cases. left. by eexists. }
  rewrite rbind_ok. intros (m & Hm & H).
  pose proof (any_match_ok _ _ _ Hm) as Hm'. setoid_rewrite elem_of_perm_keys in Hm'.
  destruct m.
  { injection H as <-. split; [|done]. intros _. exists g. split; [done|]. left. apply offers_cases. right.
    by apply Hm'. }
  assert (Hno : ~ offers g perm).
  { rewrite offers_cases, Hp. intros [[? [=]]|Hk]. by apply Hm' in Hk. }
  apply rbind_ok in H as (ds & Hds & H).
  pose proof (descendant_roles_elem _ _ _ _ Hds) as Hd.
  apply has_loop_ok in H. destruct b.
  - split; [|done]. intros _. destruct H as (j & d & Hin & Hadm & Hr). apply Hd in Hin.
    apply IH in Hr. destruct Hr as [Hr _]. destruct (Hr eq_refl) as (gd & Hgd & Hoff).
    exists g. split; [done|]. right. destruct Hoff as [Hoff|(e & ge & Hde & Hae & Hge & Hoff)].
    + exists d, gd. done.
    + exists e, ge. split_and!; [by etrans|done|done|done].
  - split; [done|]. intros (g' & Hg' & Hoff). apply Huniq in Hg' as ->.
    destruct Hoff as [?|(d & gd & Hdd & Hadm & Hgd & Hoff)]; [done|].
    apply Hd in Hdd. destruct (H d Hdd Hadm) as [j Hj]. apply IH in Hj. apply Hj.
    exists gd. split; [done|by left].
Qed.

Lemma cyclic_from_trans h l d : rtc (role_edge h) l d -> cyclic_from h d -> cyclic_from h l.
Proof. intros H (e & ? & ?). exists e. split; [by etrans|done]. Qed.
Lemma descends_exists h l d : wf_heap h -> descends h l d -> is_Some (h_roles h !! d).
Proof.
  intros Hwf H. destruct (tc_last _ _ _ H) as (p & _ & He).
  apply (wf_heap_closed h p d Hwf) in He. unfold role_children in He. by apply fmap_is_Some in He.
Qed.

(** Has never panics. *)
Lemma has_fuel_no_panic n o h l grp perm allowed :
  wf_heap h -> is_Some (h_roles h !! l) -> has_fuel n o h l grp perm allowed <> Panic.
Proof.
  intros Hwf. revert o l. induction n as [|n IH]; intros o l Hl; [done|]. cbn [has_fuel].
  destruct Hl as [r Hl]. rewrite Hl.
  destruct (r_perms r !! grp) as [gl|] eqn:Hg; [|done].
  destruct Hwf as (W1 & W2 & W3) eqn:EW. destruct (W2 _ _ _ _ Hl Hg) as (g & Hgl & _). rewrite Hgl.
  destruct (g_perms g !! perm); [done|]. rewrite rbind_panic. intros [H|(m & Hm & H)].
  - by apply any_match_panic in H.
  - destruct m; [done|]. apply rbind_panic in H as [H|(ds & Hds & H)].
    + destruct (descendant_roles_exact (sub o 1) h l Hwf) as [[(ds & E) _]|[E _]]; [by eexists|congruence..].
    + apply has_loop_panic in H as (j & d & Hin & H).
      pose proof (descendant_roles_elem _ _ _ _ Hds) as Hd. apply Hd in Hin.
      pose proof (descends_exists _ _ _ Hwf Hin) as Hs.
      destruct H as [H|H]; [rewrite H in Hs; by destruct Hs|]. by apply (IH (sub (sub o 2) j) d) in Hs.
Qed.

(** When Has does not return: a stalling pattern or a cycle. *)
Lemma has_fuel_hang n o h l grp perm allowed :
  wf_heap h -> is_Some (h_roles h !! l) ->
  (forall m x, nsteps (role_edge h) m l x -> m < n) \/ cyclic_from h l /\ 0 < n ->
  has_fuel n o h l grp perm allowed = Hang ->
  cyclic_from h l
  \/ (exists g, owns h l grp g /\ stalls g perm)
  \/ (exists d g, descends h l d /\ admitted h allowed d /\ owns h d grp g /\ stalls g perm).
Proof.
  intros Hwf. revert o l. induction n as [|n IH]; intros o l Hl Hb.
  { destruct Hb as [Hb|[_ ?]]; [|lia]. specialize (Hb 0 l (nsteps_O _ _)). lia. }
  cbn [has_fuel]. destruct Hl as [r Hl]. rewrite Hl.
  destruct (r_perms r !! grp) as [gl|] eqn:Hg; [|done].
  destruct Hwf as (W1 & W2 & W3) eqn:EW. destruct (W2 _ _ _ _ Hl Hg) as (g & Hgl & _). rewrite Hgl.
  destruct (g_perms g !! perm); [done|]. rewrite rbind_hang. intros [H|(m & Hm & H)].
  - apply any_match_hang in H as (k & Hk & ?). apply elem_of_perm_keys in Hk as [a Ha].
    right. left. exists g. split; [by exists r, gl|]. by exists k, a.
  - destruct m; [done|]. apply rbind_hang in H as [H|(ds & Hds & H)].
    { destruct (descendant_roles_exact (sub o 1) h l Hwf) as [[(ds & E) _]|[E ?]]; [by eexists|congruence|].
      by left. }
    apply has_loop_hang in H as (j & d & Hin & Hadm & H).
    pose proof (descendant_roles_elem _ _ _ _ Hds) as Hd. apply Hd in Hin.
    assert (Hac : ~ cyclic_from h l).
    { destruct (descendant_roles_exact (sub o 1) h l Hwf) as [[_ ?]|[E ?]]; [by eexists|done|congruence]. }
    destruct (IH (sub (sub o 2) j) d) as [Hc|[(g' & ? & ?)|(e & g' & ? & ? & ? & ?)]].
    + by eapply descends_exists.
    + destruct Hb as [Hb|[? _]]; [|done]. left. intros m x Hmx.
      apply tc_nsteps in Hin as (a & ? & Ha).
      specialize (Hb (a + m) x (nsteps_trans _ _ _ _ _ Ha Hmx)). lia.
    + done.
    + exfalso. apply Hac. eapply cyclic_from_trans; [|done]. by apply tc_rtc.
    + right. right. exists d, g'. done.
    + right. right. exists e, g'. split_and!; [by etrans|done..].
Qed.

Lemma height_bound h l : wf_heap h -> is_Some (h_roles h !! l) ->
  (forall m x, nsteps (role_edge h) m l x -> m < S (length (h_roles h))) \/ cyclic_from h l.
Proof.
  intros Hwf Hl.
  destruct (descend_exact (role_children h) (length (h_roles h)) (role_children_dom h)
    (fun a b => wf_heap_closed h a b Hwf) (S (length (h_roles h))) id_oracle l) as [[(r & Hr) Hc]|[Hr Hc]].
  - lia.
  - unfold role_children. by apply fmap_is_Some.
  - left. intros m x Hx. by eapply descend_ok_bound in Hr.
  - by right.
Qed.

Lemma role_has_hang o h l grp perm allowed :
  wf_heap h -> is_Some (h_roles h !! l) ->
  role_has o h l grp perm allowed = Hang ->
  cyclic_from h l
  \/ (exists g, owns h l grp g /\ stalls g perm)
  \/ (exists d g, descends h l d /\ admitted h allowed d /\ owns h d grp g /\ stalls g perm).
Proof.
  intros Hwf Hl. apply has_fuel_hang; [done|done|].
  destruct (height_bound h l Hwf Hl); [by left|right]. split; [done|lia].
Qed.

Lemma role_has_returns o h l grp perm allowed :
  wf_heap h -> is_Some (h_roles h !! l) -> ~ cyclic_from h l ->
  (forall d g, rtc (role_edge h) l d -> owns h d grp g -> ~ stalls g perm) ->
  exists b, role_has o h l grp perm allowed = Ok b.
Proof.
  intros Hwf Hl Hc Hs. destruct (role_has o h l grp perm allowed) as [b| |] eqn:E; [by eexists| |].
  - by apply has_fuel_no_panic in E.
  - apply role_has_hang in E as [?|[(g & ? & ?)|(d & g & ? & _ & ? & ?)]]; [done| | |done|done].
    + by edestruct (Hs l g).
    + edestruct (Hs d g); [by apply tc_rtc|done|done].
Qed.

Lemma role_has_ok o h l grp perm allowed b :
  role_has o h l grp perm allowed = Ok b -> (b = true <-> permits h l grp perm allowed).
Proof. apply has_fuel_ok. Qed.

(** The hole: on a cycle, every query that is not decided by the own group fails to return. *)
Lemma role_has_cycle_hangs o h l grp perm allowed g :
  wf_heap h -> cyclic_from h l -> owns h l grp g -> ~ offers g perm ->
  role_has o h l grp perm allowed = Hang.
Proof.
  intros Hwf Hc (r & gl & Hl & Hg & Hgl) Hno. unfold role_has. cbn [has_fuel].
  rewrite Hl, Hg, Hgl. destruct (g_perms g !! perm) as [a|] eqn:Hp.
  { exfalso. apply Hno. exists perm, a. naive_solver. }
  destruct (any_match perm (ordered (sub o 0) (map_to_list (g_perms g)).*1)) as [m| |] eqn:Hm; simpl.
  - destruct m.
    + exfalso. apply Hno. apply any_match_ok in Hm. destruct Hm as [Hm _].
      destruct (Hm eq_refl) as (k & [a Ha]%elem_of_perm_keys & ?). exists k, a. naive_solver.
    + destruct (descendant_roles_exact (sub o 1) h l Hwf) as [[_ ?]|[-> _]]; [by eexists|done|done].
  - by apply any_match_panic in Hm.
  - done.
Qed.

(** Fuel adequacy: more fuel never changes the answer. *)
Lemma has_loop_ext rec1 rec2 h allowed o i ds :
  (forall j d, d ∈ ds -> rec1 (sub o j) d = rec2 (sub o j) d) ->
  has_loop rec1 h allowed o i ds = has_loop rec2 h allowed o i ds.
Proof.
  revert i. induction ds as [|d ds IH]; intros i H; [done|]. simpl.
  assert (IH' : forall i, has_loop rec1 h allowed o i ds = has_loop rec2 h allowed o i ds).
  { intros i'. apply IH. intros j d' Hd'. apply H. by right. }
  rewrite (H i d) by left. rewrite !IH'. done.
Qed.
Lemma has_fuel_stable n n' o h l grp perm allowed :
  wf_heap h -> is_Some (h_roles h !! l) ->
  (forall m x, nsteps (role_edge h) m l x -> m < n) \/ cyclic_from h l /\ 0 < n ->
  n <= n' ->
  has_fuel n' o h l grp perm allowed = has_fuel n o h l grp perm allowed.
Proof.
  intros Hwf. revert n' o l. induction n as [|n IH]; intros n' o l Hl Hb Hn.
  { destruct Hb as [Hb|[_ ?]]; [|lia]. specialize (Hb 0 l (nsteps_O _ _)). lia. }
  destruct n' as [|n']; [lia|]. cbn [has_fuel].
  destruct Hl as [r Hl]. rewrite Hl.
  destruct (r_perms r !! grp) as [gl|]; [|done]. destruct (h_groups h !! gl) as [g|]; [|done].
  destruct (g_perms g !! perm); [done|].
  destruct (any_match perm _) as [[]| |]; simpl; [done| |done|done].
  destruct (get_descendant_roles (sub o 1) h l) as [ds| |] eqn:Hds; simpl; [|done|done].
  apply has_loop_ext. intros j d Hin. apply (descendant_roles_elem _ _ _ _ Hds) in Hin.
  assert (Hac : ~ cyclic_from h l).
  { destruct (descendant_roles_exact (sub o 1) h l Hwf) as [[_ ?]|[E ?]]; [by eexists|done|congruence]. }
  apply IH; [by eapply descends_exists| |lia].
  destruct Hb as [Hb|[? _]]; [|done]. left. intros m x Hmx.
  apply tc_nsteps in Hin as (a & ? & Ha).
  specialize (Hb (a + m) x (nsteps_trans _ _ _ _ _ Ha Hmx)). lia.
Qed.
Lemma role_has_stable n o h l grp perm allowed :
  wf_heap h -> is_Some (h_roles h !! l) -> length (h_roles h) < n ->
  has_fuel n o h l grp perm allowed = role_has o h l grp perm allowed.
Proof.
  intros Hwf Hl Hn. unfold role_has. apply has_fuel_stable; [done|done| |lia].
  destruct (height_bound h l Hwf Hl); [by left|right]. split; [done|lia].
Qed.
Lemma descendant_roles_stable n o h l :
  wf_heap h -> is_Some (h_roles h !! l) -> length (h_roles h) < n ->
  (let! ds := descend (role_children h) n o l in Ok (ds.*2)) = get_descendant_roles o h l.
Proof.
  intros Hwf Hl Hn. unfold get_descendant_roles.
  assert (Hs : is_Some (role_children h l)) by by apply fmap_is_Some.
  destruct (descend_exact (role_children h) (length (h_roles h)) (role_children_dom h)
    (fun a b => wf_heap_closed h a b Hwf) (S (length (h_roles h))) o l) as [[(r & Hr) Hc]|[Hr Hc]]; [lia|done| |].
  - rewrite (descend_mono _ (S (length (h_roles h))) n); [done|lia|congruence].
  - destruct (descend_exact (role_children h) (length (h_roles h)) (role_children_dom h)
      (fun a b => wf_heap_closed h a b Hwf) n o l) as [[(r & Hr') Hc']|[Hr' Hc']]; [lia|done|done|].
    by rewrite Hr, Hr'.
Qed.
