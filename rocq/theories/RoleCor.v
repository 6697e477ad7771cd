(** Corollaries and witnesses for the role properties. *)
From Verif Require Export RoleLock.

(** ** C21 *)
Lemma permits_inherit h l d grp perm g gd :
  owns h l grp g -> descends h l d -> owns h d grp gd -> offers gd perm -> permits h l grp perm [].
Proof. intros H1 H2 H3 H4. exists g. split; [done|]. right. exists d, gd. split_and!; auto. Qed.

Lemma permits_descends h l d grp perm g :
  owns h l grp g -> descends h l d -> permits h d grp perm [] -> permits h l grp perm [].
Proof.
  intros H1 H2 (gd & H3 & [H4|(d' & gd' & H4 & _ & H5 & H6)]).
  - by eapply permits_inherit.
  - eapply permits_inherit; [done| |done|done]. by eapply tc_transitive.
Qed.
Lemma has_without_group o h l grp perm allowed r :
  h_roles h !! l = Some r -> r_perms r !! grp = None -> role_has o h l grp perm allowed = Ok false.
Proof. intros H1 H2. unfold role_has. cbn [has_fuel]. by rewrite H1, H2. Qed.

Definition w21_ops : list op :=
  [ONewRole "parent"; ONewRole "child"; ORoleAddDescendant 0 [1];
   ORoleAddPermission 1 "page" [Attr "/x" "GET"]].
Definition ops_state (ops : list op) : state :=
  match run id_oracle 0 init_state ops with Ok (st, _) => st | _ => init_state end.
Lemma reachable_ops ops st outs : run id_oracle 0 init_state ops = Ok (st, outs) -> reachable st.
Proof. intros H. by exists id_oracle, ops, outs. Qed.
(** The pieces of a computed result, so that witnesses never carry whole states around. *)
Definition runs (ops : list op) : bool :=
  match run id_oracle 0 init_state ops with Ok _ => true | _ => false end.
Lemma reachable_runs ops : runs ops = true -> reachable (ops_state ops).
Proof.
  unfold runs, ops_state. destruct (run id_oracle 0 init_state ops) as [[st outs]| |] eqn:E; [|done..].
  intros _. by eapply reachable_ops.
Qed.
Definition ops_outs (ops : list op) : list out :=
  match run id_oracle 0 init_state ops with Ok (_, outs) => outs | _ => [] end.
Lemma run_runs ops : runs ops = true -> run id_oracle 0 init_state ops = Ok (ops_state ops, ops_outs ops).
Proof. unfold runs, ops_state, ops_outs. by destruct (run id_oracle 0 init_state ops) as [[st outs]| |]. Qed.
Definition final {A} (x : res (state * A)) : state := match x with Ok sa => sa.1 | _ => init_state end.
Definition answer {A} (x : res (state * A)) : option A := match x with Ok sa => Some sa.2 | _ => None end.
Lemma answer_ok {A} (x : res (state * A)) a : answer x = Some a -> x = Ok (final x, a).
Proof. destruct x as [[st a']| |]; simpl; congruence. Qed.
Ltac reach_ops ops := apply (reachable_runs ops); vm_compute; reflexivity.
Ltac answered := apply answer_ok; vm_compute; reflexivity.

Lemma role_edge_intro h l r k d : h_roles h !! l = Some r -> r_desc r !! k = Some d -> role_edge h l d.
Proof. intros H1 H2. exists (r_desc r), k. unfold role_children. by rewrite H1. Qed.

Lemma c21_refuted : exists st grp perm l d,
  reachable st /\ descends (s_heap st) l d
  /\ forall o, role_has o (s_heap st) d grp perm [] = Ok true
            /\ role_has o (s_heap st) l grp perm [] = Ok false.
Proof.
  exists (ops_state w21_ops), "page", "/x GET", 0, 1. split; [|split].
  - eapply (reachable_ops w21_ops). vm_compute. reflexivity.
  - apply tc_once. eapply (role_edge_intro _ _ _ "child"); vm_compute; reflexivity.
  - intros o. split; [vm_compute; reflexivity|]. eapply has_without_group; vm_compute; reflexivity.
Qed.

(** ** C22 *)
Definition w22_ops : list op :=
  [ONewRole "a"; ONewRole "b"; ORoleAddPermission 0 "page" [Attr "/x" "GET"];
   ORoleAddDescendant 0 [1]; ORoleAddDescendant 1 [0]].
Lemma w22_cyclic : cyclic_from (s_heap (ops_state w22_ops)) 0.
Proof.
  exists 0. split; [done|]. eapply tc_l; [|apply tc_once].
  - eapply (role_edge_intro _ 0 _ "b"); vm_compute; reflexivity.
  - eapply (role_edge_intro _ 1 _ "a"); vm_compute; reflexivity.
Qed.
Lemma c22_refuted : exists st l grp perm,
  reachable st /\ is_Some (h_roles (s_heap st) !! l)
  /\ forall o, role_has o (s_heap st) l grp perm [] = Hang
            /\ get_descendant_roles o (s_heap st) l = Hang
            /\ get_all_implicit_permissions o (s_heap st) l = Hang.
Proof.
  assert (Hr : reachable (ops_state w22_ops)) by (eapply (reachable_ops w22_ops); vm_compute; reflexivity).
  assert (Hw : wf_heap (s_heap (ops_state w22_ops))) by by apply wf_roles_heap, reachable_wf.
  assert (H0 : is_Some (h_roles (s_heap (ops_state w22_ops)) !! 0)) by (vm_compute; by eexists).
  exists (ops_state w22_ops), 0, "page", "/y GET". split; [done|]. split; [done|]. intros o. split_and!.
  - eapply role_has_cycle_hangs; [done|apply w22_cyclic| |].
    + eexists _, _. split_and!; vm_compute; reflexivity.
    + intros (k & a & Hk & Hm). apply (f_equal is_Some) in Hk as Hk'. clear Hk'.
      assert (k = "/x GET") as ->.
      { revert Hk. vm_compute. intros Hk. destruct (decide (k = "/x GET")) as [|Hne]; [done|]. exfalso.
        change (({[ "/x GET" := Attr "/x" "GET" ]} : gmap string attr) !! k = Some a) in Hk.
        by rewrite lookup_singleton_ne in Hk. }
      destruct Hm as [Hm|Hm]; [done|]. apply match_resource_true in Hm. revert Hm. vm_compute. discriminate.
  - destruct (descendant_roles_exact o _ 0 Hw H0) as [[_ Hc]|[-> _]]; [|done]. by destruct Hc; apply w22_cyclic.
  - destruct (all_perms_returns o _ 0 Hw H0) as [[_ Hc]|[-> _]]; [|done]. by destruct Hc; apply w22_cyclic.
Qed.

(** AddDescendant keeps the graph acyclic if no added role already reaches the receiver. *)
Lemma add_descendants_loop_range h desc ds desc' : add_descendants_loop h desc ds = Ok desc' ->
  forall k d, desc' !! k = Some d -> desc !! k = Some d \/ d ∈ ds.
Proof.
  revert desc. induction ds as [|d0 ds IH]; intros desc; simpl; [intros [= <-] k d; by left|].
  destruct (h_roles h !! d0) as [c|]; [|done]. intros H k d Hk.
  apply (IH _ H) in Hk as [Hk|Hk]; [|by right; right].
  destruct (desc !! r_id c); [by left|]. apply lookup_insert_Some in Hk as [[_ <-]|[_ Hk]]; [right; left|by left].
Qed.
Lemma add_descendant_edges h l ds h' e : role_add_descendant h l ds = Ok (h', e) ->
  forall a b, role_edge h' a b -> role_edge h a b \/ a = l /\ b ∈ ds.
Proof.
  unfold role_add_descendant. destruct (h_roles h !! l) as [r|] eqn:Hr; [|done].
  destruct (r_lock r); [intros [= <- <-]; by left|].
  rewrite rbind_ok. intros (desc & Hd & [= <- <-]) a b (m & k & Hm & Hk). unfold role_children in Hm.
  rewrite (set_role_lookup _ _ _ _ _ Hr) in Hm. destruct (decide (l = a)) as [<-|].
  - injection Hm as <-. simpl in Hk. apply (add_descendants_loop_range _ _ _ _ Hd) in Hk as [Hk|Hk]; [|by right].
    left. by eapply role_edge_intro.
  - left. exists m, k. done.
Qed.
Lemma add_descendant_acyclic h l ds h' e :
  role_add_descendant h l ds = Ok (h', e) ->
  (forall d, d ∈ ds -> ~ rtc (role_edge h) d l) ->
  (forall x, ~ tc (role_edge h) x x) -> forall x, ~ tc (role_edge h') x x.
Proof.
  intros H Hds Hac x Hx. pose proof (add_descendant_edges _ _ _ _ _ H) as He.
  assert (Hto : forall a, rtc (role_edge h') a l -> rtc (role_edge h) a l).
  { intros a Ha. remember l as c eqn:Hc in Ha. induction Ha as [a|a b c Hab _ IH]; [by subst|].
    specialize (IH Hc). apply He in Hab as [?|[-> _]]; [by eapply rtc_l|done]. }
  assert (Hsplit : forall a b, tc (role_edge h') a b -> tc (role_edge h) a b
            \/ rtc (role_edge h') a l /\ exists d, d ∈ ds /\ rtc (role_edge h') d b).
  { intros a b Hab. induction Hab as [a b Hab|a b c Hab Hbc IH].
    - apply He in Hab as [?|[-> ?]]; [left; by apply tc_once|right; split; [done|]]. by exists b.
    - destruct (He _ _ Hab) as [Hold|[-> Hb]].
      + destruct IH as [?|[Hl (d & ? & ?)]]; [left; by eapply tc_l|right].
        split; [by eapply rtc_l|by exists d].
      + right. split; [done|]. exists b. split; [done|by apply tc_rtc]. }
  destruct (Hsplit _ _ Hx) as [?|[Hl (d & Hd & Hdx)]]; [by eapply Hac|].
  eapply Hds; [done|]. apply Hto. by etrans.
Qed.
Lemma acyclic_cyclic_from h : (forall x, ~ tc (role_edge h) x x) <-> forall l, ~ cyclic_from h l.
Proof.
  split.
  - intros H l (d & _ & Hd). by eapply H.
  - intros H x Hx. eapply (H x). by exists x.
Qed.

(** ** C23 *)
Lemma locked_refuses h l r : h_roles h !! l = Some r -> r_lock r = true ->
  (forall ds, role_add_descendant h l ds = Ok (h, err_locked))
  /\ (forall grp attrs, role_add_permission h l grp attrs = Ok (h, err_locked))
  /\ (forall gl, role_add_group h l gl = Ok (h, err_locked)).
Proof.
  intros Hl Hlock. unfold role_add_descendant, role_add_permission, role_add_group.
  rewrite Hl, Hlock. done.
Qed.
Definition w23_before : list op :=
  [ONewRole "a"; ONewRole "b"; ONewGroup "page"; OGroupAdd 0 [Attr "/x" "GET"];
   ORoleAddGroup 0 0; ORoleAddGroup 1 0; OLock 0].
Definition w23_after : list op := [ORoleAddPermission 1 "page" [Attr "/secret" "POST"]].
Lemma tc_first {A} (R : A -> A -> Prop) a b : tc R a b -> exists y, R a y /\ rtc R y b.
Proof. intros H. destruct H as [a b H|a y b H H']; [by exists b|exists y; split; [done|by apply tc_rtc]]. Qed.
Lemma c23_refuted : exists before after l grp perm st st' outs outs',
  run id_oracle 0 init_state before = Ok (st, outs)
  /\ run id_oracle 0 st after = Ok (st', outs')
  /\ OLock l ∈ before /\ OUnlock l ∉ before /\ OUnlock l ∉ after
  /\ (forall o, role_has o (s_heap st) l grp perm [] = Ok false)
  /\ (forall o, role_has o (s_heap st') l grp perm [] = Ok true).
Proof.
  exists w23_before, w23_after, 0, "page", "/secret POST", (ops_state w23_before),
    (ops_state (w23_before ++ w23_after)). eexists _, _. split_and!.
  - vm_compute. reflexivity.
  - vm_compute. reflexivity.
  - unfold w23_before. set_solver.
  - unfold w23_before. set_solver.
  - unfold w23_after. set_solver.
  - intros o. assert (Hr : reachable (ops_state w23_before)) by (eapply (reachable_ops w23_before); vm_compute; reflexivity).
    assert (Hk : forall g k a, owns (s_heap (ops_state w23_before)) 0 "page" g -> g_perms g !! k = Some a -> k = "/x GET").
    { intros g k a (r & gl & Hr0 & Hp & Hg) Hk. vm_compute in Hr0. injection Hr0 as <-.
      vm_compute in Hp. injection Hp as <-. vm_compute in Hg. injection Hg as <-.
      change (({[ "/x GET" := Attr "/x" "GET" ]} : gmap string attr) !! k = Some a) in Hk.
      by apply lookup_singleton_Some in Hk as [<- _]. }
    assert (Hno : match_resource "/secret POST" "/x GET" = Ok false) by (vm_compute; reflexivity).
    assert (Hleaf : forall d, ~ role_edge (s_heap (ops_state w23_before)) 0 d).
    { intros d (m & k & Hm & Hk'). vm_compute in Hm. injection Hm as <-.
      change ((∅ : gmap string nat) !! k = Some d) in Hk'. by rewrite lookup_empty in Hk'. }
    destruct (role_has_returns o (s_heap (ops_state w23_before)) 0 "page" "/secret POST" []) as [b Hb].
    + by apply wf_roles_heap, reachable_wf.
    + vm_compute. by eexists.
    + intros (d & Hd & Hc). apply rtc_inv in Hd as [<-|(y & Hy & _)]; [|by eapply Hleaf].
      by apply tc_first in Hc as (y & Hc & _); eapply Hleaf.
    + intros d g Hd Hg (k & a & Hka & Hloop). apply rtc_inv in Hd as [<-|(y & Hy & _)]; [|by eapply Hleaf].
      rewrite (Hk _ _ _ Hg Hka) in Hloop. apply match_resource_hang in Hloop. congruence.
    + rewrite Hb. f_equal. apply not_true_is_false. intros ->. apply role_has_ok in Hb.
      destruct Hb as [Hb _]. destruct (Hb eq_refl) as (g & Hg & [(k & a & Hka & Hm)|(d & gd & Hd & _)]).
      * rewrite (Hk _ _ _ Hg Hka) in Hm. destruct Hm as [Hm|Hm]; [done|].
        apply match_resource_true in Hm. congruence.
      * by apply tc_first in Hd as (y & Hc & _); eapply Hleaf.
  - intros o. vm_compute. reflexivity.
Qed.

(** ** C24 *)
Lemma add_permissions_to_role_ok st rid gid attrs st' e :
  state_wf st -> add_permissions_to_role st rid gid attrs = Ok (st', e) ->
  (e <> None /\ st' = st) \/
  (e = None /\ exists r ro gl g, m_roles st !! rid = Some r /\ h_roles (s_heap st) !! r = Some ro
     /\ r_lock ro = false
     /\ m_groups st !! gid = Some gl /\ h_groups (s_heap st) !! gl = Some g
     /\ (forall a, a ∈ attrs -> is_Some (g_perms g !! attr_string a))
     /\ st' = with_heap st (s_heap st')
     /\ role_add_permission (s_heap st) r gid attrs = Ok (s_heap st', None)).
Proof.
  intros W H. unfold add_permissions_to_role in H.
  destruct (m_roles st !! rid) as [r|] eqn:Hr; [|left; by injection H as <- <-].
  destruct (m_groups st !! gid) as [gl|] eqn:Hgl; [|left; by injection H as <- <-].
  destruct (h_groups (s_heap st) !! gl) as [g|] eqn:Hg; [|done].
  destruct (check_attrs g gid attrs) as [err|] eqn:Hc; [left; by injection H as <- <-|].
  apply rbind_ok in H as ([h e'] & Hh & [= <- <-]). simpl.
  destruct (add_permission_ok _ _ _ _ _ _ Hh) as (ro & Hro & [(Hlock & -> & ->)|(Hlock & -> & _)]).
  - left. split; [done|]. by destruct st.
  - right. split; [done|]. exists r, ro, gl, g. split_and!; try done. intros a Ha.
    by apply (proj1 (check_attrs_spec g gid attrs) Hc).
Qed.
Lemma add_permissions_to_role_total st rid gid attrs :
  state_wf st -> exists st' e, add_permissions_to_role st rid gid attrs = Ok (st', e).
Proof.
  intros W. unfold add_permissions_to_role.
  destruct (m_roles st !! rid) as [r|] eqn:Hr; [|by eexists _, _].
  destruct (m_groups st !! gid) as [gl|] eqn:Hgl; [|by eexists _, _].
  destruct (wf_m_groups _ W _ _ Hgl) as (g & -> & _).
  destruct (check_attrs g gid attrs); [by eexists _, _|].
  destruct (wf_m_roles _ W _ _ Hr) as (ro & Hro & _).
  unfold role_add_permission. rewrite Hro. destruct (r_lock ro); [by eexists _, _|].
  destruct (r_perms ro !! gid) as [gl'|] eqn:Hp; [|by eexists _, _].
  destruct (wf_roles_heap _ W) as (_ & W2 & _). destruct (W2 _ _ _ _ Hro Hp) as (g' & -> & _). by eexists _, _.
Qed.
Lemma add_permissions_to_role_iff st rid gid attrs st' e :
  state_wf st -> add_permissions_to_role st rid gid attrs = Ok (st', e) ->
  (e = None <-> exists r ro gl g, m_roles st !! rid = Some r /\ h_roles (s_heap st) !! r = Some ro
     /\ r_lock ro = false /\ m_groups st !! gid = Some gl /\ h_groups (s_heap st) !! gl = Some g
     /\ forall a, a ∈ attrs -> is_Some (g_perms g !! attr_string a)).
Proof.
  intros W H. split.
  - intros ->. destruct (add_permissions_to_role_ok _ _ _ _ _ _ W H) as [[? _]|(_ & r & ro & gl & g & ?)]; [done|].
    exists r, ro, gl, g. naive_solver.
  - intros (r & ro & gl & g & H1 & H2 & H3 & H4 & H5 & H6). unfold add_permissions_to_role in H.
    apply check_attrs_spec with (gid := gid) in H6. rewrite H1, H4, H5, H6 in H.
    apply rbind_ok in H as ([h e'] & Hh & [= <- <-]). simpl.
    destruct (add_permission_ok _ _ _ _ _ _ Hh) as (ro' & Hro & [(Hlock & -> & ->)|(Hlock & -> & _)]); [congruence|done].
Qed.

(** Two roles sharing an (unregistered) group object: the other role gains the permission. *)
Definition w24_ops : list op :=
  [ONewRole "a"; ONewRole "b"; OAddRole 0; OAddRole 1;
   ONewGroup "page"; ORoleAddGroup 0 0; ORoleAddGroup 1 0;
   ONewGroup "page"; OGroupAdd 1 [Attr "/x" "GET"]; OAddGroup 1].
Lemma c24_refuted : exists st st' other grp k a,
  reachable st /\ add_permissions_to_role st "a" "page" [Attr "/x" "GET"] = Ok (st', None)
  /\ m_roles st !! "b" = Some other /\ m_roles st !! "a" <> Some other
  /\ holds (s_heap st') other grp k a /\ ~ exists b, holds (s_heap st) other grp k b.
Proof.
  exists (ops_state w24_ops),
    (ops_state (w24_ops ++ [OAddPermissionsToRole "a" "page" [Attr "/x" "GET"]])), 1, "page", "/x GET", (Attr "/x" "GET").
  split_and!.
  - eapply (reachable_ops w24_ops). vm_compute. reflexivity.
  - vm_compute. reflexivity.
  - vm_compute. reflexivity.
  - vm_compute. discriminate.
  - eexists. split; [eexists _, _; split_and!; vm_compute; reflexivity|]. vm_compute. reflexivity.
  - intros (b & g & (r & gl & Hr & Hp & Hg) & Hk). vm_compute in Hr. injection Hr as <-.
    vm_compute in Hp. injection Hp as <-. vm_compute in Hg. injection Hg as <-. vm_compute in Hk. discriminate.
Qed.

(** ** C52 *)
Definition w52_ops : list op :=
  [ONewRole "a"; ONewRole "b"; ONewRole "c"; ORoleAddDescendant 0 [1]; ORoleAddDescendant 1 [2];
   ORoleAddPermission 2 "page" [Attr "/x" "GET"]].

(** Everything GetAllImplicitPermissions lists under a group the role owns is granted by Has. *)
Lemma listed_permits o h l m grp a g :
  wf_heap h -> get_all_implicit_permissions o h l = Ok m -> listed m grp a -> owns h l grp g ->
  permits h l grp (attr_string a) [].
Proof.
  intros (_ & _ & W3) Hm Ha Hg. apply (all_perms_ok _ _ _ _ Hm grp) in Ha as (d & k & Hd & gd & Hgd & Hk).
  pose proof Hgd as (rd & gld & _ & _ & Hgl). pose proof (W3 _ _ _ _ Hgl Hk) as ->.
  assert (Ho : offers gd (attr_string a)) by (exists (attr_string a), a; naive_solver).
  apply rtc_inv in Hd as [Hd|(y & Hy & Hd)].
  - rewrite Hd. exists gd. split; [done|by left].
  - eapply (permits_inherit _ _ d); [exact Hg| |exact Hgd|done]. eapply tc_rtc_r; [by apply tc_once|done].
Qed.

Lemma c52_refuted : exists st l grp m,
  reachable st /\ get_all_implicit_permissions id_oracle (s_heap st) l = Ok m
  /\ m !! grp = Some [Attr "/x" "GET"; Attr "/x" "GET"].
Proof.
  exists (ops_state w52_ops), 0, "page". eexists. split_and!.
  - eapply (reachable_ops w52_ops). vm_compute. reflexivity.
  - vm_compute. reflexivity.
  - vm_compute. reflexivity.
Qed.

(** C24: everything outside the target group stays. *)
Lemma add_permission_holds_frame h r gid attrs h' e l grp k a :
  wf_heap h -> role_add_permission h r gid attrs = Ok (h', e) ->
  (l = r /\ grp <> gid \/ l <> r /\ ~ exists gl, points h r gid gl /\ points h l grp gl) ->
  is_Some (h_roles h !! l) ->
  (holds h' l grp k a <-> holds h l grp k a).
Proof.
  intros (_ & W2 & _) H Hn [ro Hl].
  destruct (add_permission_frame _ _ _ _ _ _ H) as (F1 & F2 & _ & F4).
  assert (Hns : forall gl, points h l grp gl -> ~ points h r gid gl).
  { intros gl (r1 & Hr1 & Hp1) (r2 & Hr2 & Hp2). destruct Hn as [[-> Hne]|[_ Hne]].
    - assert (r1 = r2) as -> by congruence.
      destruct (W2 _ _ _ _ Hr1 Hp1) as (g1 & ? & <-), (W2 _ _ _ _ Hr2 Hp2) as (g2 & ? & <-). congruence.
    - apply Hne. exists gl. split; [by exists r2|by exists r1]. }
  assert (Hrole : exists ro', h_roles h' !! l = Some ro' /\ r_perms ro' !! grp = r_perms ro !! grp).
  { destruct (decide (l = r)) as [->|Hne].
    - destruct (F2 _ Hl) as (ro' & ? & _ & _ & _ & Hp). exists ro'. split; [done|]. apply Hp. naive_solver.
    - exists ro. split; [|done]. by apply F1. }
  destruct Hrole as (ro' & Hl' & Hp). unfold holds, owns. split.
  - intros (g & (r0 & gl & Hr0 & Hg0 & Hgl) & Hk). rewrite Hl' in Hr0. injection Hr0 as <-. rewrite Hp in Hg0.
    exists g. split; [|done]. exists ro, gl. split_and!; [done|done|].
    destruct (W2 _ _ _ _ Hl Hg0) as (g0 & Hg & _). rewrite Hg. rewrite <- Hgl. symmetry. apply F4; [done|].
    intros r1 Hr1 Hc. apply (Hns gl); [by exists ro|by exists r1].
  - intros (g & (r0 & gl & Hr0 & Hg0 & Hgl) & Hk). rewrite Hl in Hr0. injection Hr0 as <-.
    exists g. split; [|done]. exists ro', gl. split_and!; [done|congruence|]. apply F4; [done|].
    intros r1 Hr1 Hc. apply (Hns gl); [by exists ro|by exists r1].
Qed.
Lemma c24_effect st rid gid attrs st' r :
  state_wf st -> add_permissions_to_role st rid gid attrs = Ok (st', None) -> m_roles st !! rid = Some r ->
  (forall k, (exists a, holds (s_heap st') r gid k a) <->
       (exists a, holds (s_heap st) r gid k a) \/ exists a, a ∈ attrs /\ attr_string a = k)
  /\ (forall k a, holds (s_heap st') r gid k a -> holds (s_heap st) r gid k a
       \/ (~ exists b, holds (s_heap st) r gid k b) /\ a ∈ attrs /\ attr_string a = k)
  /\ (forall grp k a, grp <> gid -> (holds (s_heap st') r grp k a <-> holds (s_heap st) r grp k a))
  /\ (forall l grp k a, l <> r -> (~ exists gl, points (s_heap st) r gid gl /\ points (s_heap st) l grp gl) ->
       is_Some (h_roles (s_heap st) !! l) ->
       (holds (s_heap st') l grp k a <-> holds (s_heap st) l grp k a))
  /\ (forall l ro, h_roles (s_heap st) !! l = Some ro ->
       exists ro', h_roles (s_heap st') !! l = Some ro' /\ r_id ro' = r_id ro /\ r_lock ro' = r_lock ro
                   /\ r_desc ro' = r_desc ro)
  /\ st' = with_heap st (s_heap st').
Proof.
  intros W H Hr. destruct (add_permissions_to_role_ok _ _ _ _ _ _ W H) as [[? _]|(_ & r' & ro & gl & g & Hr' & Hro & Hlock & _ & _ & _ & Hst & Hh)]; [done|].
  assert (r' = r) as -> by congruence.
  destruct (add_permission_ok _ _ _ _ _ _ Hh) as (ro' & Hro' & [(? & _)|(_ & _ & E1 & E2)]); [congruence|].
  pose proof (wf_roles_heap _ W) as Wh.
  split_and!; [done|done| | | |done].
  - intros grp k a Hne. eapply add_permission_holds_frame; [done|done| |by eexists]. by left.
  - intros l grp k a Hne Hs Hl. eapply add_permission_holds_frame; [done|done| |done]. by right.
  - intros l rl Hl. destruct (add_permission_frame _ _ _ _ _ _ Hh) as (F1 & F2 & _ & _).
    destruct (decide (l = r)) as [->|]; [|exists rl; split_and!; auto].
    destruct (F2 _ Hl) as (r2 & ? & ? & ? & ? & _). by exists r2.
Qed.

(** ** Cases for the examples *)
Definition ex_roles : list op :=
  [ONewRole "admin"; ONewRole "lead"; ONewRole "coder";
   ORoleAddDescendant 0 [1]; ORoleAddDescendant 1 [2];
   ORoleAddPermission 0 "page" [Attr "/home" "GET"];
   ORoleAddPermission 2 "page" [Attr "/users/:id" "POST"]].

Lemma has_inherits o o' h l d grp perm g b :
  owns h l grp g -> descends h l d -> role_has o h d grp perm [] = Ok true ->
  role_has o' h l grp perm [] = Ok b -> b = true.
Proof.
  intros Hg Hd H1 H2. apply role_has_ok in H1, H2. apply H2. eapply permits_descends; [done|done|]. by apply H1.
Qed.
Lemma listed_granted o o' h l m grp a g b :
  wf_heap h -> get_all_implicit_permissions o h l = Ok m -> listed m grp a -> owns h l grp g ->
  role_has o' h l grp (attr_string a) [] = Ok b -> b = true.
Proof. intros W Hm Ha Hg H. apply role_has_ok in H. apply H. by eapply listed_permits. Qed.
Lemma c21_ex :
  let h := s_heap (ops_state ex_roles) in
  descends h 0 2 /\ (exists g, owns h 0 "page" g)
  /\ role_has id_oracle h 2 "page" "/users/7 POST" [] = Ok true.
Proof.
  split_and!.
  - eapply tc_l; [|apply tc_once].
    + eapply (role_edge_intro _ 0 _ "lead"); vm_compute; reflexivity.
    + eapply (role_edge_intro _ 1 _ "coder"); vm_compute; reflexivity.
  - eexists _, _, _. split_and!; vm_compute; reflexivity.
  - vm_compute. reflexivity.
Qed.

Lemma role_edge_desc h a b : role_edge h a b <-> exists r k, h_roles h !! a = Some r /\ r_desc r !! k = Some b.
Proof.
  split.
  - intros (m & k & Hm & Hk). unfold role_children in Hm. apply fmap_Some in Hm as (r & Hr & ->). by exists r, k.
  - intros (r & k & Hr & Hk). by eapply role_edge_intro.
Qed.
Lemma role_edge_mono h h' :
  (forall l r', h_roles h' !! l = Some r' -> r_desc r' = ∅ \/ exists r, h_roles h !! l = Some r /\ r_desc r = r_desc r') ->
  forall a b, role_edge h' a b -> role_edge h a b.
Proof.
  intros H a b (r' & k & Hr & Hk)%role_edge_desc. destruct (H _ _ Hr) as [E|(r & ? & E)].
  - rewrite E in Hk. by rewrite lookup_empty in Hk.
  - apply role_edge_desc. exists r, k. by rewrite E.
Qed.
Lemma set_role_desc h l r r0 : h_roles h !! l = Some r -> r_desc r0 = r_desc r ->
  forall l' r', h_roles (set_role h l r0) !! l' = Some r' ->
    r_desc r' = ∅ \/ exists r, h_roles h !! l' = Some r /\ r_desc r = r_desc r'.
Proof.
  intros Hl Hd l' r'. rewrite (set_role_lookup _ _ _ _ _ Hl). destruct (decide (l = l')) as [<-|].
  - intros [= <-]. right. by exists r.
  - intros H. right. by exists r'.
Qed.
Lemma add_permission_desc h l grp attrs h' e : role_add_permission h l grp attrs = Ok (h', e) ->
  forall l' r', h_roles h' !! l' = Some r' -> r_desc r' = ∅ \/ exists r, h_roles h !! l' = Some r /\ r_desc r = r_desc r'.
Proof.
  unfold role_add_permission. destruct (h_roles h !! l) as [r|] eqn:Hl; [|done].
  intros H l' r' Hr'. right. destruct (r_lock r); [injection H as <- <-; by exists r'|].
  destruct (r_perms r !! grp) as [gl|].
  - destruct (h_groups h !! gl); [|done]. injection H as <- <-. by exists r'.
  - injection H as <- <-. simpl in Hr'. apply list_lookup_insert_Some in Hr' as [(-> & <- & _)|[_ Hr']]; [by exists r|by exists r'].
Qed.
Lemma step_edges o st x st' r :
  step o st x = Ok (st', r) -> (forall l ds, x <> ORoleAddDescendant l ds) ->
  forall a b, role_edge (s_heap st') a b -> role_edge (s_heap st) a b.
Proof.
  intros H Hx. destruct (heap_op x) eqn:Ho; [|by rewrite (step_heap _ _ _ _ _ H Ho)].
  destruct x; try done; simpl in H.
  - injection H as <- <-. apply role_edge_mono. simpl. intros l r' Hr.
    apply lookup_app_Some in Hr as [?|[_ Hr]]; [right; by exists r'|].
    apply list_lookup_singleton_Some in Hr as [_ <-]. by left.
  - by injection H as <- <-.
  - apply rbind_ok in H as (h & Hh & [= <- <-]). unfold add_attributes in Hh.
    destruct (h_groups (s_heap st) !! g); by simplify_eq.
  - apply rbind_ok in H as (h & Hh & [= <- <-]). unfold role_set_lock in Hh.
    destruct (h_roles (s_heap st) !! r0) as [r1|] eqn:Hr; [|done]. injection Hh as <-.
    apply role_edge_mono. simpl s_heap. by eapply set_role_desc.
  - apply rbind_ok in H as (h & Hh & [= <- <-]). unfold role_set_lock in Hh.
    destruct (h_roles (s_heap st) !! r0) as [r1|] eqn:Hr; [|done]. injection Hh as <-.
    apply role_edge_mono. simpl s_heap. by eapply set_role_desc.
  - by edestruct Hx.
  - unfold ret_heap in H. apply rbind_ok in H as ([h e] & Hh & [= <- <-]).
    apply role_edge_mono. simpl s_heap. by eapply add_permission_desc.
  - unfold ret_heap in H. apply rbind_ok in H as ([h e] & Hh & [= <- <-]). unfold role_add_group in Hh.
    destruct (h_roles (s_heap st) !! r0) as [r1|] eqn:Hr; [|done].
    destruct (r_lock r1) eqn:Hlk; [by injection Hh as <- <-|].
    destruct (h_groups (s_heap st) !! g) as [g0|]; [|done].
    destruct (r_perms r1 !! g_id g0); injection Hh as <- <-; [done|].
    apply role_edge_mono. simpl s_heap. by eapply set_role_desc.
  - unfold ret_err in H. apply rbind_ok in H as ([st1 e] & H & [= <- <-]). unfold add_permissions_to_role in H.
    destruct (m_roles st !! r0) as [rl|]; [|by injection H as <- <-].
    destruct (m_groups st !! g) as [gl|]; [|by injection H as <- <-].
    destruct (h_groups (s_heap st) !! gl) as [go|]; [|done].
    destruct (check_attrs go g attrs); [by injection H as <- <-|].
    apply rbind_ok in H as ([h e'] & Hh & [= <- <-]).
    apply role_edge_mono. simpl s_heap. by eapply add_permission_desc.
Qed.
Lemma step_careful o st x st' r : step o st x = Ok (st', r) -> careful st x ->
  (forall l, ~ tc (role_edge (s_heap st)) l l) -> forall l, ~ tc (role_edge (s_heap st')) l l.
Proof.
  intros H Hc Hac.
  destruct (match x with ORoleAddDescendant _ _ => true | _ => false end) eqn:E.
  - destruct x; try done. simpl in H. unfold ret_heap in H. apply rbind_ok in H as ([h e] & Hh & [= <- <-]).
    simpl s_heap. by eapply add_descendant_acyclic.
  - intros l Hl. apply (Hac l). eapply tc_mono; [|exact Hl]. eapply step_edges; [exact H|].
    intros l0 ds ->. done.
Qed.
Lemma run_careful_run o i st ops st' outs : run_careful o i st ops st' outs -> run o i st ops = Ok (st', outs).
Proof.
  induction 1 as [|i st x st1 r ops st' outs _ H1 _ IH]; simpl; [done|]. rewrite H1. simpl. by rewrite IH.
Qed.
Lemma run_careful_acyclic o i st ops st' outs : run_careful o i st ops st' outs ->
  (forall l, ~ tc (role_edge (s_heap st)) l l) -> forall l, ~ tc (role_edge (s_heap st')) l l.
Proof.
  induction 1 as [|i st x st1 r ops st' outs Hc H1 _ IH]; [done|]. intros H. apply IH. by eapply step_careful.
Qed.
Lemma careful_terminates o ops st outs :
  run_careful o 0 init_state ops st outs ->
  forall o' l, is_Some (h_roles (s_heap st) !! l) ->
    (exists ds, get_descendant_roles o' (s_heap st) l = Ok ds)
    /\ (exists m, get_all_implicit_permissions o' (s_heap st) l = Ok m)
    /\ forall grp perm allowed,
         (forall d g, rtc (role_edge (s_heap st)) l d -> owns (s_heap st) d grp g -> ~ stalls g perm) ->
         exists b, role_has o' (s_heap st) l grp perm allowed = Ok b.
Proof.
  intros H o' l Hl.
  assert (Hac : forall l, ~ cyclic_from (s_heap st) l).
  { apply acyclic_cyclic_from. eapply run_careful_acyclic; [exact H|].
    intros x (y & (r & k & Hr & _)%role_edge_desc & _)%tc_first. done. }
  assert (W : wf_heap (s_heap st)).
  { apply wf_roles_heap, reachable_wf. exists o, ops, outs. by apply run_careful_run. }
  split_and!.
  - destruct (descendant_roles_exact o' _ l W Hl) as [[? _]|[_ Hc]]; [done|]. by apply Hac in Hc.
  - destruct (all_perms_returns o' _ l W Hl) as [[? _]|[_ Hc]]; [done|]. by apply Hac in Hc.
  - intros grp perm allowed Hs. by apply role_has_returns.
Qed.
Lemma no_edges_rtc h d l : (forall y, ~ role_edge h d y) -> d <> l -> ~ rtc (role_edge h) d l.
Proof. intros H Hne Hr. apply rtc_inv in Hr as [?|(y & Hy & _)]; [done|]. by apply H in Hy. Qed.
Lemma c22_ex : exists st outs, run_careful id_oracle 0 init_state ex_roles st outs.
Proof.
  eexists _, _. unfold ex_roles.
  repeat (eapply careful_cons; [try exact I | vm_compute; reflexivity |]); [| |apply careful_nil].
  - intros d Hd%elem_of_list_singleton. subst d. apply no_edges_rtc; [|done].
    intros y (r & k & Hr & Hk)%role_edge_desc. vm_compute in Hr. injection Hr as <-.
    change ((∅ : gmap string nat) !! k = Some y) in Hk. by rewrite lookup_empty in Hk.
  - intros d Hd%elem_of_list_singleton. subst d. apply no_edges_rtc; [|done].
    intros y (r & k & Hr & Hk)%role_edge_desc. vm_compute in Hr. injection Hr as <-.
    change ((∅ : gmap string nat) !! k = Some y) in Hk. by rewrite lookup_empty in Hk.
Qed.
Lemma c23_ex :
  let st := ops_state (ex_roles ++ [OLock 2]) in
  exists ro, h_roles (s_heap st) !! 2 = Some ro /\ r_lock ro = true
    /\ forall grp gl, r_perms ro !! grp = Some gl -> private (s_heap st) 2 gl.
Proof.
  eexists. split; [vm_compute; reflexivity|]. split; [reflexivity|]. intros grp gl Hp.
  change (({[ "page" := 1 ]} : gmap string nat) !! grp = Some gl) in Hp. apply lookup_singleton_Some in Hp as [_ <-].
  intros l' r' k Hne Hr. destruct l' as [|[|[|l']]]; vm_compute in Hr; try done; injection Hr as <-; simpl.
  - change (({[ "page" := 0 ]} : gmap string nat) !! k <> Some 1). intros Hk. by apply lookup_singleton_Some in Hk as [_ ?].
  - change ((∅ : gmap string nat) !! k <> Some 1). by rewrite lookup_empty.
Qed.
Lemma c24_error st rid gid attrs : state_wf st -> exists st' e,
  add_permissions_to_role st rid gid attrs = Ok (st', e) /\ (e <> None -> st' = st).
Proof.
  intros W. destruct (add_permissions_to_role_total st rid gid attrs W) as (st' & e & H). exists st', e.
  split; [done|]. intros He. destruct (add_permissions_to_role_ok _ _ _ _ _ _ W H) as [[_ ?]|[? _]]; done.
Qed.
Lemma c26_refuted : exists a b, a <> b /\ attr_string a = attr_string b.
Proof. exists (Attr "a b" "c"), (Attr "a" "b c"). done. Qed.
Lemma c26_ex : lacks ch_space (resource (Attr "/x" "GET")) /\ lacks ch_space (resource (Attr "/y" "GET ALL"))
  /\ attr_string (Attr "/x" "GET") <> attr_string (Attr "/y" "GET ALL").
Proof. unfold lacks. simpl. split_and!; [set_solver|set_solver|done]. Qed.
