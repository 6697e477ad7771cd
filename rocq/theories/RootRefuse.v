(** Which requests to the root package are refused, and which go on for ever, told from the calls made. *)
From Verif Require Import NameProofs TenProofs RootCor RoleRefuse AuthTotal.
From Verif Require Export RootCallsFresh RootCallsRet.
From Verif Require Import NameSpec RootRetSpec.

(** ** One role *)
Definition stuck_at (h : rheap) (l : nat) (grp act : string) : Prop :=
  (exists g, owns h l grp g) /\ (cyclic_from h l \/ exists d g, rtc (role_edge h) l d /\ owns h d grp g /\ stalls g act).
Lemma refused_not_stuck o h l grp act : wf_heap h -> is_Some (h_roles h !! l) -> role_has o h l grp act [] = Ok false -> ~ stuck_at h l grp act.
Proof.
  intros W Hl H [[g Hg] S]. apply (role_has_false o h l grp act [] W Hl) in H as [_ H]. destruct (H g Hg) as (C & S1 & S2). destruct S as [S|(d & gd & Hd & Hgd & St)]; [exact (C S)|].
  apply rtc_tc in Hd as [<-|Hd]; [rewrite (owns_fun _ _ _ _ _ Hg Hgd) in St; exact (S1 St)|]. exact (S2 d gd Hd (or_introl eq_refl) Hgd St).
Qed.
Lemma hang_stuck o h l grp act : wf_heap h -> is_Some (h_roles h !! l) -> role_has o h l grp act [] = Hang -> stuck_at h l grp act.
Proof.
  intros W Hl H. split.
  - revert H. unfold role_has. cbn [has_fuel]. destruct Hl as [r Hl]. rewrite Hl. destruct (r_perms r !! grp) as [gl|] eqn:Hg; [|discriminate].
    destruct (h_groups h !! gl) as [g|] eqn:Hgl; [|discriminate]. intros _. exists g, r, gl. split; [exact Hl|split; assumption].
  - apply role_has_hang in H as [C|[(g & Hg & S)|(d & g & Hd & _ & Hg & S)]]; [left; exact C| | |exact W|exact Hl]; right.
    + exists l, g. split; [apply rtc_refl|split; assumption].
    + exists d, g. split; [apply tc_rtc; exact Hd|split; assumption].
Qed.
(** ** One tenant *)
Definition acts_by (st : state) (P : nat -> string -> string -> Prop) (p : string) (q : opts) (f : shape) : Prop :=
  exists g a t d r l, o_group q = AStr g /\ o_activity q = AStr a /\ role_tenant st p q f t /\ stored st d /\ role_row p t q f d /\ role d = AStr r /\ m_roles st !! r = Some l /\ P l g a.
Lemma acts_does st P p t q : acts_by st P p (set_o_tenant q t) (shape_of q) <-> does_by (stored st) (fun r g a => exists l, m_roles st !! r = Some l /\ P l g a) p t q.
Proof.
  assert (RT : forall t', role_tenant st p (set_o_tenant q t) (shape_of q) t' -> shape_of q <> FNone -> if asked (o_tenant q) then t' = t else row_in (stored st) p t').
  { intros t'. rewrite shape_asked. unfold role_tenant, row_in, meant. destruct (asked (o_tenant q)), (asked (o_namespace q)), (asked (o_scope q)); cbn [set_o_tenant o_tenant]; try tauto.
    intros (d0 & H1 & H2 & H3 & ->) _. exists d0. tauto. }
  assert (TR : forall t', (if asked (o_tenant q) then t' = t else row_in (stored st) p t') -> shape_of q <> FNone -> role_tenant st p (set_o_tenant q t) (shape_of q) t').
  { intros t'. rewrite shape_asked. unfold role_tenant, row_in, meant. destruct (asked (o_tenant q)), (asked (o_namespace q)), (asked (o_scope q)); cbn [set_o_tenant o_tenant]; try tauto.
    intros (d0 & H1 & H2 & H3 & H4) _. exists d0. rewrite <- H3. tauto. }
  assert (C : forall t' d r, role d = AStr r -> role_row p t' (set_o_tenant q t) (shape_of q) d <-> counts p t' q d).
  { intros t' d r Hr. rewrite shape_asked. unfold role_row, counts, meant, open_to, unset_or. assert (N : role d <> ANil) by (rewrite Hr; discriminate).
    destruct (asked (o_tenant q)), (asked (o_namespace q)), (asked (o_scope q)); cbn [set_o_tenant o_tenant o_namespace o_scope]; tauto. }
  assert (N : forall t' d, counts p t' q d -> shape_of q <> FNone).
  { intros t' d. rewrite shape_asked. unfold counts. destruct (asked (o_tenant q)), (asked (o_namespace q)), (asked (o_scope q)); intros H; try contradiction; discriminate. }
  unfold acts_by, does_by. cbn [set_o_tenant o_group o_activity]. split.
  - intros (g & a & t' & d & r & l & Hg & Ha & Ht & Hd & Hc & Hr & Hl). apply (C _ _ _ Hr) in Hc. exists g, a, t', d, r. split; [exact Hg|]. split; [exact Ha|]. split; [exact (RT _ Ht (N _ _ Hc))|].
    split; [exact Hd|]. split; [exact Hc|]. split; [exact Hr|exists l; exact Hl].
  - intros (g & a & t' & d & r & Hg & Ha & Ht & Hd & Hc & Hr & l & Hl). exists g, a, t', d, r, l. split; [exact Hg|]. split; [exact Ha|]. split; [exact (TR _ Ht (N _ _ Hc))|].
    split; [exact Hd|]. split; [apply (C _ _ _ Hr); exact Hc|]. split; [exact Hr|exact Hl].
Qed.
Definition stuck_in (st : state) : string -> opts -> shape -> Prop := acts_by st (stuck_at (s_heap st)).
Lemma any_hang o i st q roles : state_wf st -> any_role_has o i st q [] roles = Hang ->
  exists g a r l, o_group q = AStr g /\ o_activity q = AStr a /\ r ∈ roles /\ m_roles st !! r = Some l /\ stuck_at (s_heap st) l g a.
Proof.
  intros W. revert i. induction roles as [|r roles IH]; intros i; cbn [any_role_has]; [discriminate|].
  assert (R : forall i, any_role_has o i st q [] roles = Hang -> exists g a r' l, o_group q = AStr g /\ o_activity q = AStr a /\ r' ∈ r :: roles /\ m_roles st !! r' = Some l /\ stuck_at (s_heap st) l g a).
  { intros j H. destruct (IH j H) as (g & a & r' & l & H1 & H2 & H3 & H4 & H5). exists g, a, r', l. split; [exact H1|split; [exact H2|split; [right; exact H3|split; assumption]]]. }
  destruct (m_roles st !! r) as [l|] eqn:Hr; [|apply R]. destruct (o_group q) as [|g| |] eqn:Hg; try discriminate. destruct (o_activity q) as [|a| |] eqn:Ha; try discriminate.
  rewrite rbind_hang. intros [H|(b & _ & H)].
  - exists g, a, r, l. split; [reflexivity|split; [reflexivity|split; [left|split; [exact Hr|]]]]. destruct (wf_m_roles _ W _ _ Hr) as (ro & Hro & _). exact (hang_stuck _ _ _ _ _ (wf_roles_heap _ W) (mk_is_Some _ _ Hro) H).
  - destruct b; [discriminate|]. exact (R _ H).
Qed.
Lemma any_false o i st q roles r l g a : state_wf st -> any_role_has o i st q [] roles = Ok false -> r ∈ roles -> m_roles st !! r = Some l -> o_group q = AStr g -> o_activity q = AStr a ->
  ~ stuck_at (s_heap st) l g a.
Proof.
  intros W H Hin Hl Hg Ha. revert i H. induction roles as [|r0 roles IH]; intros i; [destruct (not_elem_of_nil _ Hin)|]. cbn [any_role_has]. rewrite Hg, Ha. apply elem_of_cons in Hin as [->|Hin].
  - rewrite Hl. rewrite rbind_ok. intros (b & Hb & H). destruct b; [discriminate|]. destruct (wf_m_roles _ W _ _ Hl) as (ro & Hro & _). exact (refused_not_stuck _ _ _ _ _ (wf_roles_heap _ W) (mk_is_Some _ _ Hro) Hb).
  - destruct (m_roles st !! r0) as [l0|]; [|exact (IH Hin _)]. rewrite rbind_ok. intros (b & _ & H). destruct b; [discriminate|]. exact (IH Hin _ H).
Qed.
Lemma check_hang o st p q f : state_wf st -> stringy_rows st -> check_activity o st p q f = Hang -> stuck_in st p q f.
Proof.
  intros W S. unfold check_activity. destruct (is_nil (o_group q)); [discriminate|]. destruct (is_nil (o_activity q)); [discriminate|]. destruct (collect_returns (sub o 0) st p q f S) as [[roles allowed] E]. rewrite E.
  cbn [rbind fst snd]. apply collect_ok in E as [-> Hr]. destruct roles as [|r0 roles]; [discriminate|]. intros H. apply (any_hang _ _ _ _ _ W) in H as (g & a & r & l & Hg & Ha & Hin & Hl & St).
  pose proof (proj1 (elem_of_compact_adjacent _ _) Hin) as Hin'. apply Hr in Hin' as (t & d & Ht & Hd & Hrow & Hrole). exists g, a, t, d, r, l. exact (conj Hg (conj Ha (conj Ht (conj Hd (conj Hrow (conj Hrole (conj Hl St))))))).
Qed.
Lemma check_false o st p q f : state_wf st -> stringy_rows st -> check_activity o st p q f = Ok false -> ~ stuck_in st p q f.
Proof.
  intros W S H (g & a & t & d & r & l & Hg & Ha & Ht & Hd & Hrow & Hrole & Hl & St). revert H. unfold check_activity. rewrite Hg, Ha. cbn [is_nil]. destruct (collect_returns (sub o 0) st p q f S) as [[roles allowed] E]. rewrite E.
  cbn [rbind fst snd]. apply collect_ok in E as [-> Hr]. assert (Hin : r ∈ roles) by (apply Hr; exists t, d; exact (conj Ht (conj Hd (conj Hrow Hrole)))). destruct roles as [|r0 roles]; [destruct (not_elem_of_nil _ Hin)|].
  intros H. exact (any_false _ _ _ _ _ _ _ _ _ W H (proj2 (elem_of_compact_adjacent _ _) Hin) Hl Hg Ha St).
Qed.
(** ** The whole request *)
Lemma loop_hang o i st p q f ts : state_wf st -> stringy_rows st -> tenant_loop o i st false p q f ts = Hang -> exists u, u ∈ ts /\ stuck_in st p (set_o_tenant q (AStr u)) f.
Proof.
  intros W S. revert i q. induction ts as [|t ts IH]; intros i q; cbn [tenant_loop]; [discriminate|]. destruct (any_eq (o_tenant q) (AStr t)).
  - intros H. destruct (IH _ _ H) as (u & Hu & X). exists u. split; [right; exact Hu|exact X].
  - rewrite rbind_hang. intros [H|(b & _ & H)].
    + exists t. split; [left|]. exact (check_hang _ _ _ _ _ W S H).
    + destruct b; [discriminate|]. destruct (IH _ _ H) as (u & Hu & X). exists u. split; [right; exact Hu|]. destruct q; exact X.
Qed.
Lemma loop_false o i st p q f ts u : state_wf st -> stringy_rows st -> ~ stuck_in st p q f -> tenant_loop o i st false p q f ts = Ok false -> u ∈ ts -> ~ stuck_in st p (set_o_tenant q (AStr u)) f.
Proof.
  intros W S. revert i q. induction ts as [|t ts IH]; intros i q N; [intros _ H; destruct (not_elem_of_nil _ H)|]. cbn [tenant_loop]. unfold any_eq. destruct (decide (o_tenant q = AStr t)) as [E|E].
  - rewrite (bool_decide_true _ E). intros H [->|Hu]%elem_of_cons; [|exact (IH _ _ N H Hu)]. rewrite <- E, set_same. exact N.
  - rewrite (bool_decide_false _ E), rbind_ok. intros (b & Hb & H). destruct b; [discriminate|]. pose proof (check_false _ _ _ _ _ W S Hb) as N'. intros [->|Hu]%elem_of_cons; [exact N'|].
    pose proof (IH _ _ N' H Hu) as X. destruct q. exact X.
Qed.
Lemma no_membership_hang o st p q f : authorize_one o st true p q f <> Hang.
Proof. discriminate. Qed.
Lemma membership_loop o i st p q f ts : tenant_loop o i st true p q f ts <> Hang.
Proof.
  revert i q. induction ts as [|t ts IH]; intros i q; cbn [tenant_loop]; [discriminate|]. destruct (any_eq (o_tenant q) (AStr t)); [apply IH|]. cbn [authorize_one rbind]. destruct (check_no_activity _ _ _ _ _); [discriminate|apply IH].
Qed.
Lemma stuck_same st st' p q f : same_but_caches st st' -> stuck_in st' p q f <-> stuck_in st p q f.
Proof. intros (hi & ca & ->). destruct st. reflexivity. Qed.
Lemma authorize_hang o st p q : state_wf st -> stringy_rows st -> ~ manages_cycle st p -> authorize o st p q = Hang ->
  p ∈ m_principals st /\ exists o1 st1 U, get_implicit_tenants o1 st p = Ok (st1, U) /\ U <> ∅ /\ valid_request st q
    /\ (stuck_in st p q (shape_of q) \/ exists u, u ∈ U /\ stuck_in st p (set_o_tenant q (AStr u)) (shape_of q)).
Proof.
  intros W S NC. unfold authorize. destruct (decide (p ∈ m_principals st)) as [Hp|Hp]; [rewrite (bool_decide_true _ Hp)|rewrite (bool_decide_false _ Hp); discriminate]. cbn [negb].
  destruct (implicit_returns (sub o 0) st p W S) as [(st1 & U & H1)|[_ C]]; [|destruct (NC C)]. rewrite H1. cbn [rbind fst snd].
  pose proof (wf_implicit _ _ _ _ _ W H1) as W1. pose proof (implicit_same _ _ _ _ _ H1) as Sm. pose proof (wf_stringy_same _ _ Sm S) as S1.
  destruct (decide (U = ∅)) as [E|E]; [rewrite (bool_decide_true _ E); discriminate|rewrite (bool_decide_false _ E)]. intros H. split; [exact Hp|]. exists (sub o 0), st1, U. split; [exact H1|]. split; [exact E|].
  apply rbind_hang in H as [H|(v & Hv & H)].
  { exfalso. revert H. unfold validate_resources. destruct (o_tenant q), (o_namespace q), (o_scope q); cbn; repeat (destruct (bool_decide _); cbn); discriminate. }
  destruct v; [|discriminate]. cbn [negb] in H. split; [apply (valid_request_caches _ _ _ Sm), (validate_ok _ _ _ Hv); reflexivity|].
  destruct (negb (negb (is_nil (o_group q)) && negb (is_nil (o_activity q)))) eqn:NA.
  - exfalso. apply rbind_hang in H as [H|(b & _ & H)]; [discriminate|]. destruct b; [discriminate|]. apply rbind_hang in H as [H|(b & _ & H)]; [exact (membership_loop _ _ _ _ _ _ _ H)|discriminate].
  - apply rbind_hang in H as [H|(b & _ & H)].
    + left. apply (stuck_same _ _ _ _ _ Sm). exact (check_hang _ _ _ _ _ W1 S1 H).
    + destruct b; [discriminate|]. apply rbind_hang in H as [H|(b & _ & H)]; [|discriminate]. destruct (loop_hang _ _ _ _ _ _ _ W1 S1 H) as (u & Hu & X). right. exists u.
      split; [|apply (stuck_same _ _ _ _ _ Sm); exact X]. apply elem_of_ordered in Hu. apply elem_of_elements in Hu. exact Hu.
Qed.
Lemma authorize_false o st p q st' : state_wf st -> stringy_rows st -> authorize o st p q = Ok (st', false) -> asks_activity q -> p ∈ m_principals st -> valid_request st q ->
  exists o1 U, get_implicit_tenants o1 st p = Ok (st', U)
    /\ (U <> ∅ -> ~ stuck_in st p q (shape_of q) /\ forall u, u ∈ U -> ~ stuck_in st p (set_o_tenant q (AStr u)) (shape_of q)).
Proof.
  intros W S H A Hp V. revert H. unfold authorize. rewrite (bool_decide_true _ Hp). cbn [negb]. rewrite rbind_ok. intros ([st1 U] & H1 & H). cbn [fst snd] in H.
  pose proof (wf_implicit _ _ _ _ _ W H1) as W1. pose proof (implicit_same _ _ _ _ _ H1) as Sm. pose proof (wf_stringy_same _ _ Sm S) as S1.
  destruct (decide (U = ∅)) as [E|E]; [rewrite (bool_decide_true _ E) in H|rewrite (bool_decide_false _ E) in H].
  { injection H as <-. exists (sub o 0), U. split; [exact H1|]. intros X. destruct (X E). }
  apply rbind_ok in H as (v & Hv & H). assert (v = true) as -> by (apply (validate_ok _ _ _ Hv), (valid_request_caches _ _ _ Sm), V). cbn [negb] in H.
  fold (na_flag q) in H. pose proof (na_flag_spec q) as NA. destruct (na_flag q); [destruct (NA A)|].
  apply rbind_ok in H as (b & Hb & H). destruct b; [discriminate|]. apply rbind_ok in H as (b & Hl & H). injection H as <- ->. exists (sub o 0), U. split; [exact H1|]. intros _.
  pose proof (check_false _ _ _ _ _ W1 S1 Hb) as N. split; [intros X; apply N, (stuck_same _ _ _ _ _ Sm), X|]. intros u Hu X. apply (stuck_same _ _ _ _ _ Sm) in X. revert X.
  apply (loop_false _ _ _ _ _ _ _ _ W1 S1 N Hl). apply elem_of_ordered, elem_of_elements. exact Hu.
Qed.

(** ** Told from the calls *)
Section told.
  Context (h : log) (st : state) (T : tells h st).
  Let W : state_wf st := proj1 (reachable_hierarchy st (tl_reach _ _ T)).
  Lemma told_cycle l : cyclic_from (s_heap st) l <-> role_circle h l.
  Proof.
    split; [exact (told_role_circle _ _ T l)|]. intros (m & Hr & Hm). exists m. split; [|apply (told_descends h st (tl_heap _ _ T)); exact Hm].
    revert Hr. apply rtc_impl. intros a b. apply (told_edge h st (tl_heap _ _ T)).
  Qed.
  Lemma told_attr_back l grp g a : owns (s_heap st) l grp g -> role_attr h l grp a -> exists b, g_perms g !! attr_string a = Some b.
  Proof.
    intros H A. pose proof (proj2 (tl_heap _ _ T)) as G. apply owns_points in H as (gl & E & Hg).
    assert (K : V1CallsRole.g_has (s_heap st) gl (attr_string a)); [|destruct K as (g' & Hg' & K); rewrite Hg in Hg'; injection Hg' as <-; exact K].
    destruct A as [[Hs Ha]|(gl' & Hs & Ha)].
    - apply (store_v1 h l grp Own), (V1CallsRole.th_own _ _ G) in Hs as (gl' & E' & M). rewrite E in E'. injection E' as <-. apply (V1CallsRole.th_keeps _ _ G l grp gl _ M E). exists a. split; [reflexivity|apply given_v1; exact Ha].
    - apply (store_v1 h l grp (Handed gl')), (V1CallsRole.th_handed _ _ G) in Hs as (E' & M). rewrite E in E'. injection E' as <-. apply (V1CallsRole.th_has _ _ G gl _ M). exists a. split; [reflexivity|apply handed_v1; exact Ha].
  Qed.
  Lemma told_reach l d : rtc (role_edge (s_heap st)) l d <-> rtc (sub_role h) l d.
  Proof. split; apply rtc_impl; intros a b; apply (told_edge h st (tl_heap _ _ T)). Qed.
  Lemma told_stuck r g a : (exists l, m_roles st !! r = Some l /\ stuck_at (s_heap st) l g a) <-> stuck h r g a.
  Proof.
    pose proof (told_heap_wf h st T) as WH. split.
    - intros (l & Hl & Hg & S). exists l. split; [apply (tl_rreg _ _ T); exact Hl|]. split; [apply (told_store h st WH (tl_heap _ _ T)); exact Hg|]. destruct S as [S|(d & gr & Hd & Hgr & k & at_ & Hk & L)].
      + left. apply told_cycle. exact S.
      + right. destruct (told_attr _ _ T _ _ _ k Hgr (mk_is_Some _ _ Hk)) as (a' & <- & Ha). exists d, a'. split; [apply told_reach; exact Hd|split; assumption].
    - intros (l & Hl & Hw & S). exists l. split; [apply (tl_rreg _ _ T); exact Hl|]. split; [apply (told_store h st WH (tl_heap _ _ T)); exact Hw|]. destruct S as [S|(d & at_ & Hd & Ha & L)].
      + left. apply told_cycle. exact S.
      + right. assert (Hs : exists w, store_of h d g w) by (destruct Ha as [[Hs _]|(gl & Hs & _)]; eexists; exact Hs). apply (told_store h st WH (tl_heap _ _ T)) in Hs as (gr & Hgr). exists d, gr.
        split; [apply told_reach; exact Hd|]. split; [exact Hgr|]. destruct (told_attr_back _ _ _ _ Hgr Ha) as (b & Hb). exists (attr_string at_), b. split; assumption.
  Qed.
  Lemma searches_does p t q : does_by (row_made h) (stuck h) p t q <-> exists r g a, searches h p t q r g a /\ stuck h r g a.
  Proof.
    split.
    - intros (g & a & t' & d & r & Hg & Ha & Ht & Hd & Hc & Hr & S). exists r, g, a. split; [|exact S]. split; [exact Hg|split; [exact Ha|]]. exists t', d. exact (conj Ht (conj Hd (conj Hc Hr))).
    - intros (r & g & a & (Hg & Ha & t' & d & Ht & Hd & Hc & Hr) & S). exists g, a, t', d, r. exact (conj Hg (conj Ha (conj Ht (conj Hd (conj Hc (conj Hr S)))))).
  Qed.
  Lemma told_stuck_in p t q : stuck_in st p (set_o_tenant q t) (shape_of q) -> exists r g a, searches h p t q r g a /\ stuck h r g a.
  Proof.
    intros H. apply searches_does. apply acts_does in H. apply (allows_more _ _ (stuck h) _ _ _ told_stuck) in H. exact (does_more _ (row_made h) _ _ _ _ (tl_rows _ _ T) H).
  Qed.
  Lemma told_hang o p q : rows_textual h -> ~ manages_circle h p -> authorize o st p q = Hang -> endless h p q.
  Proof.
    intros RT NC H. destruct (authorize_hang o st p q W (told_textual _ _ T RT) (told_manages_circle _ _ T _ NC) H) as (Hp & o1 & st1 & U & H1 & Hne & Hv & S).
    assert (HU : forall u, u ∈ U -> reaches h p u) by (intros u Hu; exact (told_implicit _ _ T _ _ _ _ _ H1 Hu)).
    split; [apply (tl_pr _ _ T); exact Hp|]. split.
    { apply set_choose_L in Hne as [u Hu]. destruct (HU u Hu) as [Ho|(t0 & (d & Hd & H2 & H3 & _) & _)]; [exists u; exact Ho|]. exists t0, d. split; [exact Hd|split; assumption]. }
    split; [apply (told_known _ _ T); exact Hv|]. destruct S as [S|(u & Hu & S)].
    - rewrite <- (set_same q) in S at 1. apply told_stuck_in in S as (r & g & a & S). exists (o_tenant q), r, g, a. split; [left; reflexivity|exact S].
    - apply told_stuck_in in S as (r & g & a & S). exists (AStr u), r, g, a. split; [right; exists u; split; [reflexivity|exact (HU u Hu)]|exact S].
  Qed.
  Lemma told_returns o p q : rows_textual h -> request_textual q -> ~ manages_circle h p -> ~ endless h p q -> exists st' b, authorize o st p q = Ok (st', b).
  Proof.
    intros RT Q NC NE. destruct (authorize o st p q) as [[st' b]| |] eqn:E; [exists st', b; reflexivity| |].
    - exfalso. apply (authorize_no_panic o st p q W (told_textual _ _ T RT)) in E; [exact E|]. unfold request_textual in Q. rewrite !Forall_cons in Q. destruct Q as (Q1 & Q2 & Q3 & Q4 & Q5 & _).
      repeat (split; [assumption|]). assumption.
    - destruct NE. exact (told_hang o p q RT NC E).
  Qed.
  Context (ROWS : forall d, row_made h d -> stored st d).
  Lemma stuck_in_is p t q : stuck_in st p (set_o_tenant q t) (shape_of q) <-> exists r g a, searches h p t q r g a /\ stuck h r g a.
  Proof.
    split; [apply told_stuck_in|]. intros H. apply searches_does in H. apply acts_does. apply (allows_more _ _ (stuck h) _ _ _ told_stuck). exact (does_more (row_made h) _ _ _ _ _ ROWS H).
  Qed.
  Lemma told_refused o p q st' : RootCallsFresh.fresh h st p -> links_registered h -> flags_alike h p -> rows_textual h -> authorize o st p q = Ok (st', false) -> ~ endless h p q.
  Proof.
    intros F LR FA RT H (Hp & (u0 & Hu0) & Hk & t & r & g & a & Ht & S & St). apply (tl_pr _ _ T) in Hp. apply (told_known _ _ T) in Hk.
    assert (A : asks_activity q) by (destruct S as (Eg & Ea & _); unfold asks_activity; rewrite Eg, Ea; (reflexivity || (split; discriminate))).
    destruct (authorize_false o st p q st' W (told_textual _ _ T RT) H A Hp Hk) as (o1 & U & H1 & N).
    pose proof (proj2 (reachable_hierarchy st (tl_reach _ _ T))) as Hs.
    assert (Co : tenants_coherent st) by (apply coherent_link; intros t' k d d' Hd Hd'; apply (LR t' k d d'); [apply (tl_link _ _ T), Hd|apply (tl_reg _ _ T), Hd']).
    assert (Fl : flags_agree st p) by (intros d d' Hd Hd'; apply (FA d d'); apply (rows_are h st T ROWS); assumption).
    assert (HU : forall u, u ∈ U <-> reaches h p u).
    { intros u. rewrite <- (reaches_is h st T ROWS). destruct (m_cache st !! p) as [U0|] eqn:E.
      - pose proof H1 as H3. unfold get_implicit_tenants in H3. rewrite E in H3. injection H3 as _ <-. exact (fr_cache _ _ _ F _ E Co Fl u).
      - exact (implicit_exact _ _ _ _ _ W Hs (fr_hier _ _ _ F) Co Fl E H1 u). }
    destruct N as [N1 N2].
    { intros ->. assert (X : u0 ∈ (∅ : gset string)) by (apply HU; left; exact Hu0). destruct (not_elem_of_empty _ X). }
    assert (X : stuck_in st p (set_o_tenant q t) (shape_of q)) by (apply stuck_in_is; exists r, g, a; split; assumption).
    destruct Ht as [->|(u & -> & Hu)]; [rewrite set_same in X; exact (N1 X)|]. exact (N2 u (proj2 (HU u) Hu) X).
  Qed.
End told.
Lemma c113_returns o ops st outs o' p q : run o 0 init_state ops = Ok (st, outs) -> groups_made (log_of ops outs) ->
  rows_textual (log_of ops outs) -> request_textual q -> ~ manages_circle (log_of ops outs) p -> ~ endless (log_of ops outs) p q -> exists st' b, authorize o' st p q = Ok (st', b).
Proof. intros H GM. exact (told_returns _ _ (tells_all _ _ _ _ H GM) o' p q). Qed.
Lemma c113_decided o ops st outs o' p q : run o 0 init_state ops = Ok (st, outs) -> groups_made (log_of ops outs) ->
  rows_textual (log_of ops outs) -> request_textual q -> ~ manages_circle (log_of ops outs) p -> ~ endless (log_of ops outs) p q ->
  keeps_names_apart ops -> asked_last (log_of ops outs) p -> links_registered (log_of ops outs) -> flags_alike (log_of ops outs) p ->
  exists st' b, authorize o' st p q = Ok (st', b) /\ (b = true <-> granted (log_of ops outs) p q).
Proof.
  intros H GM RT Q C D K AL LR FA. destruct (c113_returns o ops st outs o' p q H GM RT Q C D) as (st' & b & E). exists st', b. split; [exact E|].
  exact (c111_exact o ops st outs o' p q st' b H GM K AL LR FA E).
Qed.
Lemma c113_both o ops st outs o' p q : run o 0 init_state ops = Ok (st, outs) -> groups_made (log_of ops outs) ->
  rows_textual (log_of ops outs) -> request_textual q -> ~ manages_circle (log_of ops outs) p ->
  keeps_names_apart ops -> asked_last (log_of ops outs) p -> links_registered (log_of ops outs) -> flags_alike (log_of ops outs) p ->
  ((exists st', authorize o' st p q = Ok (st', false)) <-> ~ granted (log_of ops outs) p q /\ ~ endless (log_of ops outs) p q)
  /\ (~ granted (log_of ops outs) p q -> authorize o' st p q = Hang <-> endless (log_of ops outs) p q).
Proof.
  intros H GM RT Q C K AL LR FA. pose proof (tells_all _ _ _ _ H GM) as T.
  assert (R : forall st', authorize o' st p q = Ok (st', false) -> ~ granted (log_of ops outs) p q /\ ~ endless (log_of ops outs) p q).
  { intros st' E. split; [intros G; apply (c111_exact o ops st outs o' p q st' false H GM K AL LR FA E) in G; discriminate|].
    destruct K as (sort_of & K). apply (told_refused _ _ T (fun d => rows_all sort_of _ _ _ _ d H K GM) o' p q st'); [exact (fresh_all _ _ _ _ _ _ H K GM AL)|exact LR|exact FA|exact RT|exact E]. }
  split; [split|].
  - intros (st' & E). exact (R st' E).
  - intros (NG & NE). destruct (c113_decided o ops st outs o' p q H GM RT Q C NE K AL LR FA) as (st' & b & E & G). exists st'. destruct b; [destruct NG; apply G; reflexivity|exact E].
  - intros NG. split; [exact (told_hang _ _ T o' p q RT C)|]. intros E. destruct (authorize o' st p q) as [[st' b]| |] eqn:X; [exfalso|exfalso|reflexivity].
    + destruct b; [apply NG, (c111_exact o ops st outs o' p q st' true H GM K AL LR FA X); reflexivity|]. exact (proj2 (R st' eq_refl) E).
    + apply (authorize_no_panic o' st p q (proj1 (reachable_hierarchy st (tl_reach _ _ T))) (told_textual _ _ T RT)) in X; [exact X|]. unfold request_textual in Q. rewrite !Forall_cons in Q. destruct Q as (Q1 & Q2 & Q3 & Q4 & Q5 & _).
      repeat (split; [assumption|]). assumption.
Qed.
Lemma c113_refused o ops st outs o' p q : run o 0 init_state ops = Ok (st, outs) -> groups_made (log_of ops outs) ->
  rows_textual (log_of ops outs) -> request_textual q -> ~ manages_circle (log_of ops outs) p ->
  keeps_names_apart ops -> asked_last (log_of ops outs) p -> links_registered (log_of ops outs) -> flags_alike (log_of ops outs) p ->
  (exists st', authorize o' st p q = Ok (st', false)) <-> ~ granted (log_of ops outs) p q /\ ~ endless (log_of ops outs) p q.
Proof. intros H GM RT Q C K AL LR FA. exact (proj1 (c113_both o ops st outs o' p q H GM RT Q C K AL LR FA)). Qed.
Lemma c113_endless o ops st outs o' p q : run o 0 init_state ops = Ok (st, outs) -> groups_made (log_of ops outs) ->
  rows_textual (log_of ops outs) -> request_textual q -> ~ manages_circle (log_of ops outs) p ->
  keeps_names_apart ops -> asked_last (log_of ops outs) p -> links_registered (log_of ops outs) -> flags_alike (log_of ops outs) p ->
  ~ granted (log_of ops outs) p q -> authorize o' st p q = Hang <-> endless (log_of ops outs) p q.
Proof. intros H GM RT Q C K AL LR FA. exact (proj2 (c113_both o ops st outs o' p q H GM RT Q C K AL LR FA)). Qed.
Lemma decide_not_endless h p q : roles_decide h q -> ~ endless h p q.
Proof.
  intros D (_ & _ & _ & t & r & g & a & _ & (Eg & Ea & _) & l & Hl & _ & S). destruct (D g a r l Eg Ea Hl) as [D1 D2].
  destruct S as [S|(d & at_ & Hd & Ha & L)]; [exact (D1 S)|exact (D2 d at_ Hd Ha L)].
Qed.
