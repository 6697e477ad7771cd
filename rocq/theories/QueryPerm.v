(** GetRolesForAvailablePermissions. *)
From Verif Require Export QueryMore.

Definition noted1 (gm : gmap attr (list string)) (a : attr) (id : string) : Prop :=
  exists rs, gm !! a = Some rs /\ id ∈ rs.
Definition noted (seen : gmap string (gmap attr (list string))) (grp : string) (a : attr) (id : string) : Prop :=
  exists gm, seen !! grp = Some gm /\ noted1 gm a id.

Lemma note_role_spec id gm attrs a id' :
  noted1 (note_role id gm attrs) a id' <-> noted1 gm a id' \/ id' = id /\ a ∈ attrs.
Proof.
  unfold note_role, noted1. revert gm. induction attrs as [|b attrs IH]; intros gm; simpl.
  - split; [by left|]. intros [?|[_ ?%elem_of_nil]]; done.
  - rewrite IH, elem_of_cons. destruct (decide (b = a)) as [->|Hne].
    + rewrite lookup_insert. split.
      * intros [(rs & [= <-] & Hin)|?]; [|tauto]. apply elem_of_app in Hin as [Hin|Hin%elem_of_list_singleton]; [|tauto].
        left. destruct (gm !! a) as [rs|]; [by exists rs|by apply elem_of_nil in Hin].
      * intros [(rs & -> & Hin)|[-> [?|?]]].
        -- left. eexists. split; [done|]. apply elem_of_app. by left.
        -- left. eexists. split; [done|]. apply elem_of_app. right. by left.
        -- by right.
    + rewrite lookup_insert_ne by done. split; [tauto|]. intros [?|[? [?|?]]]; [tauto|congruence|tauto].
Qed.
Lemma note_groups_spec id seen l grp a id' :
  noted (note_groups id seen l) grp a id'
  <-> noted seen grp a id' \/ id' = id /\ exists attrs, (grp, attrs) ∈ l /\ a ∈ attrs.
Proof.
  unfold note_groups, noted. revert seen. induction l as [|[g attrs] l IH]; intros seen; simpl.
  - split; [by left|]. intros [?|(_ & attrs & ?%elem_of_nil & _)]; done.
  - rewrite IH. destruct (decide (g = grp)) as [->|Hne].
    + rewrite lookup_insert. split.
      * intros [(gm & [= <-] & Hn)|(-> & attrs' & Hin & Ha)].
        -- apply note_role_spec in Hn as [Hn|[-> Ha]].
           ++ left. destruct (seen !! grp) as [gm|]; [by exists gm|]. destruct Hn as (rs & Hn & _).
              cbn [default] in Hn. by rewrite lookup_empty in Hn.
           ++ right. split; [done|]. exists attrs. split; [left|done].
        -- right. split; [done|]. exists attrs'. split; [by right|done].
      * intros [(gm & Hgm & Hn)|(-> & attrs' & [E|Hin]%elem_of_cons & Ha)].
        -- left. eexists. split; [done|]. apply note_role_spec. left. by rewrite Hgm.
        -- simplify_eq. left. eexists. split; [done|]. apply note_role_spec. by right.
        -- right. split; [done|]. by exists attrs'.
    + rewrite lookup_insert_ne by done. split.
      * intros [?|(-> & attrs' & Hin & Ha)]; [by left|right]. split; [done|]. exists attrs'. split; [by right|done].
      * intros [?|(-> & attrs' & [E|Hin]%elem_of_cons & Ha)]; [by left|congruence|].
        right. split; [done|]. by exists attrs'.
Qed.
Lemma note_roles_spec o h ls : forall i seen seen', note_roles o i h seen ls = Ok seen' ->
  forall grp a id, noted seen' grp a id <-> noted seen grp a id
    \/ exists l r d k, l ∈ ls /\ h_roles h !! l = Some r /\ r_id r = id
         /\ rtc (role_edge h) l d /\ holds h d grp k a.
Proof.
  induction ls as [|l ls IH]; intros i seen seen'; simpl.
  - intros [= <-] grp a id. split; [by left|]. intros [?|(l & r & d & k & ?%elem_of_nil & _)]; done.
  - destruct (h_roles h !! l) as [r|] eqn:Hl; [|done]. rewrite rbind_ok. intros (m & Hm & H) grp a id.
    rewrite (IH _ _ _ H), note_groups_spec. destruct (all_perms_ok _ _ _ _ Hm grp) as [_ Hall].
    assert (Hx : (exists attrs, (grp, attrs) ∈ ordered (sub (sub o i) 1) (map_to_list m) /\ a ∈ attrs)
      <-> exists d k, rtc (role_edge h) l d /\ holds h d grp k a).
    { rewrite <-Hall. unfold listed. setoid_rewrite elem_of_ordered. by setoid_rewrite elem_of_map_to_list. }
    rewrite Hx. split.
    + intros [[?|(-> & d & k & ? & ?)]|(l' & r' & d & k & ? & ?)]; [by left| |].
      * right. exists l, r, d, k. split; [left|done].
      * right. exists l', r', d, k. split; [by right|done].
    + intros [?|(l' & r' & d & k & [->|Hin]%elem_of_cons & Hr & <- & ? & ?)]; [by left; left| |].
      * left. right. rewrite Hl in Hr. injection Hr as <-. split; [done|]. by exists d, k.
      * right. by exists l', r', d, k.
Qed.
Lemma note_roles_returns o h ls : wf_heap h -> (forall l, l ∈ ls -> is_Some (h_roles h !! l)) ->
  forall i seen,
    (exists seen', note_roles o i h seen ls = Ok seen') /\ (forall l, l ∈ ls -> ~ cyclic_from h l)
    \/ note_roles o i h seen ls = Hang /\ exists l, l ∈ ls /\ cyclic_from h l.
Proof.
  intros Hwf. induction ls as [|l ls IH]; intros Hls i seen; simpl.
  - left. split; [by eexists|by intros l ?%elem_of_nil].
  - destruct (Hls l) as [r Hr]; [left|]. rewrite Hr.
    destruct (all_perms_returns (sub (sub o i) 0) h l Hwf) as [[[m ->] Hc]|[-> Hc]]; [by eexists| |].
    + cbn [rbind]. destruct (IH (fun l' H' => Hls l' (elem_of_list_further _ _ _ H')) (S i)
        (note_groups (r_id r) seen (ordered (sub (sub o i) 1) (map_to_list m)))) as [[H1 H2]|[H1 (l' & ? & ?)]].
      * left. split; [done|]. intros l' [->|?]%elem_of_cons; [done|by apply H2].
      * right. split; [done|]. exists l'. split; [by right|done].
    + right. split; [done|]. exists l. split; [left|done].
Qed.

Lemma respond_spec o l : forall i, NoDup l.*1 -> forall grp,
  (forall al, respond o i l !! grp = Some al -> exists gm, (grp, gm) ∈ l /\ al ≡ₚ map_to_list gm /\ al <> [])
  /\ (forall gm, (grp, gm) ∈ l -> map_to_list gm <> [] -> is_Some (respond o i l !! grp)).
Proof.
  induction l as [|[g gm0] l IH]; intros i Hnd grp; cbn [respond].
  - rewrite !lookup_empty. split; [done|]. by intros gm ?%elem_of_nil.
  - cbn [fmap list_fmap] in Hnd. apply NoDup_cons in Hnd as [Hni Hnd]. destruct (IH (S i) Hnd grp) as (I2 & I3).
    simpl in Hni. pose proof (ordered_perm (sub o i) (map_to_list gm0)) as Hp.
    destruct (ordered (sub o i) (map_to_list gm0)) as [|x al0] eqn:Eo.
    + split.
      * intros al Hal. destruct (I2 al Hal) as (gm & Hin & ?). exists gm. split; [by right|done].
      * intros gm [E|Hin]%elem_of_cons Hne; [|by eapply I3]. injection E as -> ->.
        by apply Permutation_nil in Hp.
    + destruct (decide (g = grp)) as [->|Hne].
      * rewrite lookup_insert. split; [|done].
        intros al [= <-]. exists gm0. split; [left|]. done.
      * rewrite lookup_insert_ne by done. split.
        -- intros al Hal. destruct (I2 al Hal) as (gm & Hin & ?). exists gm. split; [by right|done].
        -- intros gm [E|Hin]%elem_of_cons Hg; [congruence|by eapply I3].
Qed.
Lemma respond_lists o i seen o' grp a id :
  lists_attr (respond o i (ordered o' (map_to_list seen))) grp a id <-> noted seen grp a id.
Proof.
  assert (Hnd : NoDup (ordered o' (map_to_list seen)).*1).
  { rewrite ordered_perm. apply NoDup_fst_map_to_list. }
  destruct (respond_spec o _ i Hnd grp) as (H1 & H2).
  unfold lists_attr, noted, noted1. split.
  - intros (al & rs & Hal & Hin & Hid). destruct (H1 al Hal) as (gm & Hg & Hp & _).
    rewrite elem_of_ordered, elem_of_map_to_list in Hg. rewrite Hp, elem_of_map_to_list in Hin. eauto.
  - intros (gm & Hg & rs & Hrs & Hid).
    assert (Hg' : (grp, gm) ∈ ordered o' (map_to_list seen)) by by rewrite elem_of_ordered, elem_of_map_to_list.
    apply elem_of_map_to_list in Hrs as Hrs'.
    destruct (H2 gm Hg') as [al Hal]; [by intros E; rewrite E in Hrs'; apply elem_of_nil in Hrs'|].
    destruct (H1 al Hal) as (gm' & Hg2 & Hp & _). rewrite elem_of_ordered, elem_of_map_to_list in Hg2.
    assert (gm' = gm) as -> by congruence. exists al, rs. split_and!; [done|by rewrite Hp|done].
Qed.

(** No attribute is ever noted without a role. *)
Definition filled1 (gm : gmap attr (list string)) : Prop := forall a, gm !! a <> Some [].
Definition filled (seen : gmap string (gmap attr (list string))) : Prop :=
  forall g gm, seen !! g = Some gm -> filled1 gm.
Lemma note_role_filled id attrs : forall gm, filled1 gm -> filled1 (note_role id gm attrs).
Proof.
  unfold note_role. induction attrs as [|c attrs IH]; intros gm H; simpl; [done|].
  apply IH. intros b. destruct (decide (c = b)) as [->|Hne]; [|rewrite lookup_insert_ne by done; apply H].
  rewrite lookup_insert. intros [= E]. by apply app_nil in E as [_ ?].
Qed.
Lemma note_groups_filled id l : forall seen, filled seen -> filled (note_groups id seen l).
Proof.
  unfold note_groups. induction l as [|[g attrs] l IH]; intros seen H; simpl; [done|].
  apply IH. intros g' gm. destruct (decide (g = g')) as [->|Hne]; [|rewrite lookup_insert_ne by done; apply H].
  rewrite lookup_insert. intros [= <-]. apply note_role_filled.
  destruct (seen !! g') as [gm|] eqn:E; simpl; [by eapply H|]. intros a. by rewrite lookup_empty.
Qed.
Lemma note_roles_filled0 o h ls : forall i seen seen', filled seen -> note_roles o i h seen ls = Ok seen' -> filled seen'.
Proof.
  induction ls as [|l ls IH]; intros i seen seen' H; simpl; [by intros [= <-]|].
  destruct (h_roles h !! l) as [r|]; [|done]. rewrite rbind_ok. intros (m & _ & Hm).
  eapply IH; [|done]. by apply note_groups_filled.
Qed.
Lemma note_roles_filled o h ls i seen' g gm : note_roles o i h ∅ ls = Ok seen' -> seen' !! g = Some gm -> filled1 gm.
Proof. intros H. eapply note_roles_filled0; [|done]. intros g' gm'. by rewrite lookup_empty. Qed.

Lemma available_exact o st m : reachable st -> get_roles_for_available_permissions o st = Ok m ->
  (forall grp al, m !! grp = Some al -> al <> [] /\ NoDup al.*1 /\ forall a, (a, []) ∉ al)
  /\ forall grp a id, lists_attr m grp a id <-> role_offers st id grp a.
Proof.
  intros W%reachable_wf. unfold get_roles_for_available_permissions. rewrite rbind_ok.
  intros (seen & Hs & [= <-]). split.
  - intros grp al Hal.
    assert (Hnd : NoDup (ordered (sub (sub o 2) 0) (map_to_list seen)).*1).
    { rewrite ordered_perm. apply NoDup_fst_map_to_list. }
    destruct (respond_spec (sub o 2) _ 1 Hnd grp) as (H1 & _).
    destruct (H1 al Hal) as (gm & Hg & Hp & Hne). split_and!; [done|rewrite Hp; apply NoDup_fst_map_to_list|].
    intros a Hin. rewrite Hp, elem_of_map_to_list in Hin. rewrite elem_of_ordered, elem_of_map_to_list in Hg.
    by eapply (note_roles_filled _ _ _ _ _ _ _ Hs Hg).
  - intros grp a id. rewrite respond_lists, (note_roles_spec _ _ _ _ _ _ Hs). unfold role_offers. split.
    + intros [(gm & Hg & _)|(l & r & d & k & Hin & Hr & Hid & Hd & Hh)]; [by rewrite lookup_empty in Hg|].
      rewrite elem_of_ordered in Hin. apply elem_of_list_fmap in Hin as ([id' l'] & -> & Hin).
      apply elem_of_map_to_list in Hin. simpl in *. destruct (wf_m_roles _ W _ _ Hin) as (r' & Hr' & <-).
      rewrite Hr' in Hr. injection Hr as <-. rewrite Hid in Hin. by exists l', d, k.
    + intros (l & d & k & Hl & Hd & Hh). right. destruct (wf_m_roles _ W _ _ Hl) as (r & Hr & Hid).
      exists l, r, d, k. split_and!; try done. rewrite elem_of_ordered. apply elem_of_list_fmap.
      exists (id, l). split; [done|]. by apply elem_of_map_to_list.
Qed.
Lemma available_returns o st : reachable st ->
  (exists m, get_roles_for_available_permissions o st = Ok m)
     /\ (forall id l, m_roles st !! id = Some l -> ~ cyclic_from (s_heap st) l)
  \/ get_roles_for_available_permissions o st = Hang
     /\ exists id l, m_roles st !! id = Some l /\ cyclic_from (s_heap st) l.
Proof.
  intros W%reachable_wf. unfold get_roles_for_available_permissions.
  assert (Hls : forall l, l ∈ ordered (sub o 0) (map_to_list (m_roles st)).*2 <-> exists id, m_roles st !! id = Some l).
  { intros l. rewrite elem_of_ordered, elem_of_list_fmap. split.
    - intros ([id l'] & -> & Hin). apply elem_of_map_to_list in Hin. by exists id.
    - intros (id & Hid). exists (id, l). split; [done|]. by apply elem_of_map_to_list. }
  destruct (note_roles_returns (sub o 1) (s_heap st) (ordered (sub o 0) (map_to_list (m_roles st)).*2)
    (wf_roles_heap _ W)) with (i := 0) (seen := (∅ : gmap string (gmap attr (list string))))
    as [[(seen & ->) Hc]|[-> (l & Hin & Hc)]].
  - intros l (id & Hid)%Hls. destruct (wf_m_roles _ W _ _ Hid) as (r & Hr & _). by eexists.
  - left. split; [by eexists|]. intros id l Hid. apply Hc, Hls. by exists id.
  - right. split; [done|]. apply Hls in Hin as (id & Hid). by exists id, l.
Qed.
