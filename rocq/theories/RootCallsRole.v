(** The roles of a root manager and their permissions, told from the calls made: what package v1 does with the calls on roles it does too. *)
From Verif Require Import TenProofs.
From Verif Require V1Model V1CallsSpec V1CallsRole V1CallsTell.
From Verif Require Export RootCallsStep.


(** The calls on roles as calls of v1 *)
Definition as_v1 (x : op) : V1Model.uop :=
  match x with
  | ONewRole id => V1Model.UNewRole id
  | ONewGroup id => V1Model.UNewGroup id
  | OGroupAdd g attrs => V1Model.UGroupAdd g attrs
  | ORoleAddDescendant r ds => V1Model.URoleAddDescendent r ds
  | ORoleAddPermission r grp attrs => V1Model.URoleAddPermission r grp attrs
  | ORoleAddGroup r g => V1Model.URoleAddGroup r g
  | OAddRole r => V1Model.UAddRole r
  | OAddPermissionsToRole r g attrs => V1Model.UAddPermissionsToRole r g attrs
  | _ => V1Model.UAddPrincipal ""
  end.
Definition out_v1 (y : out) : V1Model.uout := match y with RLoc l => V1Model.YLoc l | RErr e => V1Model.YErr e | _ => V1Model.YUnit end.
Definition e_v1 (e : op * out) : V1Model.uop * V1Model.uout := (as_v1 e.1, out_v1 e.2).
Definition v1 (h : log) : V1CallsSpec.log := e_v1 <$> h.

Lemma out_loc y l : out_v1 y = V1Model.YLoc l <-> y = RLoc l.
Proof. destruct y; cbn; split; intros [=]; subst; reflexivity. Qed.
Lemma out_err y l : out_v1 y = V1Model.YErr l <-> y = RErr l.
Proof. destruct y; cbn; split; intros [=]; subst; reflexivity. Qed.
Lemma as_role x id : as_v1 x = V1Model.UNewRole id <-> x = ONewRole id.
Proof. destruct x; cbn; split; intros [=]; subst; reflexivity. Qed.
Lemma as_group x id : as_v1 x = V1Model.UNewGroup id <-> x = ONewGroup id.
Proof. destruct x; cbn; split; intros [=]; subst; reflexivity. Qed.
Lemma as_add x g a : as_v1 x = V1Model.UGroupAdd g a <-> x = OGroupAdd g a.
Proof. destruct x; cbn; split; intros [=]; subst; reflexivity. Qed.
Lemma as_desc x r ds : as_v1 x = V1Model.URoleAddDescendent r ds <-> x = ORoleAddDescendant r ds.
Proof. destruct x; cbn; split; intros [=]; subst; reflexivity. Qed.
Lemma as_perm x r g a : as_v1 x = V1Model.URoleAddPermission r g a <-> x = ORoleAddPermission r g a.
Proof. destruct x; cbn; split; intros [=]; subst; reflexivity. Qed.
Lemma as_hand x r g : as_v1 x = V1Model.URoleAddGroup r g <-> x = ORoleAddGroup r g.
Proof. destruct x; cbn; split; intros [=]; subst; reflexivity. Qed.
Lemma as_reg x r : as_v1 x = V1Model.UAddRole r <-> x = OAddRole r.
Proof. destruct x; cbn; split; intros [=]; subst; reflexivity. Qed.
Lemma as_perms x r g a : as_v1 x = V1Model.UAddPermissionsToRole r g a <-> x = OAddPermissionsToRole r g a.
Proof. destruct x; cbn; split; intros [=]; subst; reflexivity. Qed.
Lemma e_is x' y' (e : op * out) x y : (forall x0, as_v1 x0 = x' <-> x0 = x) -> (forall y0, out_v1 y0 = y' <-> y0 = y) -> e = (x, y) <-> e_v1 e = (x', y').
Proof.
  intros X Y. destruct e as [x0 y0]. unfold e_v1. cbn [fst snd]. split.
  - intros [= -> ->]. f_equal; [apply X|apply Y]; reflexivity.
  - intros [= Hx Hy]. apply X in Hx. apply Y in Hy. congruence.
Qed.
Lemma role_v1 h l id : role_named h l id <-> V1CallsSpec.role_named (v1 h) l id.
Proof. apply (elem_map e_v1). intros e. apply e_is; intros; [apply as_role|apply out_loc]. Qed.
Lemma group_v1 h l id : group_named h l id <-> V1CallsSpec.group_named (v1 h) l id.
Proof. apply (elem_map e_v1). intros e. apply e_is; intros; [apply as_group|apply out_loc]. Qed.
Lemma called_v1 h g a : called h (OGroupAdd g a) <-> V1CallsSpec.called (v1 h) (V1Model.UGroupAdd g a).
Proof.
  unfold called, V1CallsSpec.called, v1. rewrite <- list_fmap_compose. change (fst ∘ e_v1) with (as_v1 ∘ (@fst op out)). rewrite list_fmap_compose.
  apply (elem_map as_v1). intros e. symmetry. apply as_add.
Qed.
Lemma role_at_v1 h id l : role_at h id l <-> V1CallsSpec.role_at (v1 h) id l.
Proof. apply (first_map e_v1). intros h0 [x y] a. fold (v1 h0). rewrite (role_v1 h0). cbn [e_v1 fst snd]. rewrite as_reg. reflexivity. Qed.
Lemma first_in_iff {A} (P Q : A -> Prop) l a : (forall x, P x <-> Q x) -> first_in P l a <-> first_in Q l a.
Proof.
  intros E. split; intros (l1 & l2 & -> & Ha & F); exists l1, l2; (split; [reflexivity|]); (split; [apply E; exact Ha|]); (eapply Forall_impl; [exact F|]); intros b N Hb; apply N, E, Hb.
Qed.
Lemma sub_v1 h l id d : sub_role_named h l id d <-> V1CallsSpec.sub_named (v1 h) l id d.
Proof.
  apply (first_map e_v1). intros h0 e a. fold (v1 h0).
  assert (E : forall ds, e = (ORoleAddDescendant l ds, RErr None) <-> e_v1 e = (V1Model.URoleAddDescendent l ds, V1Model.YErr None)) by (intros ds; apply e_is; intros; [apply as_desc|apply out_err]).
  assert (D : forall ds, first_in (fun d' => role_named h0 d' id) ds a <-> first_in (fun d' => V1CallsSpec.role_named (v1 h0) d' id) ds a) by (intros ds; apply first_in_iff; intros x; apply role_v1).
  split; intros (ds & H1 & H2); exists ds; (split; [apply E; exact H1|apply D; exact H2]).
Qed.
Lemma accepts_v1 h e l grp attrs : accepts h e l grp attrs <-> V1CallsSpec.accepts (v1 h) (e_v1 e) l grp attrs.
Proof.
  unfold accepts, V1CallsSpec.accepts.
  assert (E : e = (ORoleAddPermission l grp attrs, RErr None) <-> e_v1 e = (V1Model.URoleAddPermission l grp attrs, V1Model.YErr None)) by (apply e_is; intros; [apply as_perm|apply out_err]).
  assert (D : forall r, e = (OAddPermissionsToRole r grp attrs, RErr None) <-> e_v1 e = (V1Model.UAddPermissionsToRole r grp attrs, V1Model.YErr None)) by (intros r; apply e_is; intros; [apply as_perms|apply out_err]).
  rewrite E. apply or_iff_compat_l. split; intros (r & H1 & H2); exists r; (split; [apply D; exact H1|apply role_at_v1; exact H2]).
Qed.
Definition w_v1 (w : store) : V1CallsSpec.store := match w with Own => V1CallsSpec.Own | Handed gl => V1CallsSpec.Handed gl end.
Definition w_back (w : V1CallsSpec.store) : store := match w with V1CallsSpec.Own => Own | V1CallsSpec.Handed gl => Handed gl end.
Lemma store_says h e l grp w : ((w = Own /\ exists attrs, accepts h e l grp attrs) \/ exists gl, w = Handed gl /\ e = (ORoleAddGroup l gl, RErr None) /\ group_named h gl grp)
  <-> ((w_v1 w = V1CallsSpec.Own /\ exists attrs, V1CallsSpec.accepts (v1 h) (e_v1 e) l grp attrs)
    \/ exists gl, w_v1 w = V1CallsSpec.Handed gl /\ e_v1 e = (V1Model.URoleAddGroup l gl, V1Model.YErr None) /\ V1CallsSpec.group_named (v1 h) gl grp).
Proof.
  assert (E : forall gl, e = (ORoleAddGroup l gl, RErr None) <-> e_v1 e = (V1Model.URoleAddGroup l gl, V1Model.YErr None)) by (intros gl; apply e_is; intros; [apply as_hand|apply out_err]).
  split; (intros [[H1 (attrs & H2)]|(gl & H1 & H2 & H3)]; [left|right; exists gl]).
  - subst w. split; [reflexivity|exists attrs; apply accepts_v1; exact H2].
  - subst w. split; [reflexivity|]. split; [apply E; exact H2|apply group_v1; exact H3].
  - split; [destruct w; [reflexivity|discriminate]|exists attrs; apply accepts_v1; exact H2].
  - split; [destruct w; [discriminate|cbn in H1; congruence]|]. split; [apply E; exact H2|apply group_v1; exact H3].
Qed.
Lemma store_v1 h l grp w : store_of h l grp w <-> V1CallsSpec.store_of (v1 h) l grp (w_v1 w).
Proof.
  revert w. induction h as [|e h IH]; intros w; [reflexivity|]. unfold store_of, V1CallsSpec.store_of. cbn [v1 fmap list_fmap first_of].
  fold (v1 h). fold (store_of h l grp). fold (V1CallsSpec.store_of (v1 h) l grp). rewrite IH, store_says.
  assert (D : (forall b, ~ store_of h l grp b) <-> forall b, ~ V1CallsSpec.store_of (v1 h) l grp b); [|tauto].
  split; intros N b Hb; [|apply (N (w_v1 b)), IH, Hb]. apply (N (w_back b)), IH. destruct b; exact Hb.
Qed.
Lemma given_v1 h l grp a : given h l grp a <-> V1CallsSpec.given (v1 h) l grp a.
Proof.
  apply (ever_map e_v1). intros h0 e. fold (v1 h0). split; intros (attrs & H & Ha); exists attrs; (split; [apply accepts_v1; exact H|exact Ha]).
Qed.
Lemma handed_v1 h gl a : handed h gl a <-> V1CallsSpec.handed (v1 h) gl a.
Proof.
  unfold handed, V1CallsSpec.handed. split; (intros [(attrs & H & Ha)|(l & grp & H & Ha)]; [left; exists attrs|right; exists l, grp]).
  - split; [apply called_v1; exact H|exact Ha].
  - split; [apply (store_v1 h l grp (Handed gl)); exact H|apply given_v1; exact Ha].
  - split; [apply called_v1; exact H|exact Ha].
  - split; [apply (store_v1 h l grp (Handed gl)); exact H|apply given_v1; exact Ha].
Qed.
Lemma offers_v1 h l grp act : role_offers h l grp act <-> V1CallsSpec.role_offers (v1 h) l grp act.
Proof.
  assert (A : forall a, role_attr h l grp a <-> V1CallsSpec.role_attr (v1 h) l grp a).
  { intros a. unfold role_attr, V1CallsSpec.role_attr. rewrite (store_v1 h l grp Own), given_v1. apply or_iff_compat_l.
    split; intros (gl & H & Ha); exists gl; (split; [apply (store_v1 h l grp (Handed gl)); exact H|apply handed_v1; exact Ha]). }
  split; intros (a & H & Hm); exists a; (split; [apply A; exact H|exact Hm]).
Qed.
Lemma some_store_v1 h l grp : (exists w, store_of h l grp w) <-> exists w, V1CallsSpec.store_of (v1 h) l grp w.
Proof.
  split; intros (w & H); [exists (w_v1 w); apply store_v1; exact H|]. exists (w_back w). apply store_v1. destruct w; exact H.
Qed.

(** ** Every call *)
Definition tells_heap (h : log) (hp : rheap) : Prop := V1CallsRole.tells_roles (v1 h) hp /\ V1CallsRole.tells_groups (v1 h) hp.
Lemma form_heap o st x st' y : step o st x = Ok (st', y) ->
  match x with ONewRole _ | ONewGroup _ | OGroupAdd _ _ | OLock _ | OUnlock _ | ORoleAddDescendant _ _ | ORoleAddPermission _ _ _ | ORoleAddGroup _ _ | OAddPermissionsToRole _ _ _ => True
             | _ => s_heap st' = s_heap st end.
Proof.
  intros H. apply step_form in H. destruct x; cbn [form] in H; try exact I;
    first [destruct H as (? & ->); reflexivity|destruct H as (? & ? & ->); reflexivity].
Qed.
Lemma permissions_form st r grp attrs st' e : add_permissions_to_role st r grp attrs = Ok (st', e) ->
  (s_heap st' = s_heap st /\ e <> None) \/ exists l hp', m_roles st !! r = Some l /\ role_add_permission (s_heap st) l grp attrs = Ok (hp', e) /\ s_heap st' = hp'.
Proof.
  unfold add_permissions_to_role. destruct (m_roles st !! r) as [l|]; [|intros [= <- <-]; left; split; [reflexivity|discriminate]].
  destruct (m_groups st !! grp) as [gl|]; [|intros [= <- <-]; left; split; [reflexivity|discriminate]]. destruct (h_groups _ !! gl) as [g|]; [|discriminate].
  destruct (check_attrs g grp attrs); [intros [= <- <-]; left; split; [reflexivity|discriminate]|]. rewrite rbind_ok. intros ([hp' e'] & H & [= <- <-]).
  right. exists l, hp'. split; [reflexivity|split; [exact H|reflexivity]].
Qed.
Lemma no_accept h x y l grp attrs : (forall r g a, x <> V1Model.URoleAddPermission r g a) -> (forall r g a, x <> V1Model.UAddPermissionsToRole r g a) -> ~ V1CallsSpec.accepts h (x, y) l grp attrs.
Proof. intros N M [[= E _]|(r & [= E _] & _)]; [exact (N _ _ _ E)|exact (M _ _ _ E)]. Qed.
Lemma step_heap_roles o h st x st' y : step o st x = Ok (st', y) -> V1CallsRole.tells_roles (v1 h) (s_heap st) -> V1CallsRole.tells_roles (v1 ((x, y) :: h)) (s_heap st').
Proof.
  intros H T. pose proof (form_heap _ _ _ _ _ H) as F. change (v1 ((x, y) :: h)) with ((as_v1 x, out_v1 y) :: v1 h).
  assert (Q : forall hp', (forall id, as_v1 x <> V1Model.UNewRole id) -> (forall l ds, as_v1 x <> V1Model.URoleAddDescendent l ds) -> (forall l id, has_id hp' l id <-> has_id (s_heap st) l id) ->
    (forall l id, V1CallsRole.f_desc hp' l id = V1CallsRole.f_desc (s_heap st) l id) -> V1CallsRole.tells_roles ((as_v1 x, out_v1 y) :: v1 h) hp').
  { intros hp' N1 N2 E1 E2. apply (V1CallsRole.roles_quiet (v1 h) (s_heap st)); [apply V1CallsRole.named_skip; exact N1|apply V1CallsRole.subs_skip; intros l ds [= E _]; exact (N2 _ _ E)|exact E1|exact E2|exact T]. }
  destruct x; try (rewrite F; apply Q; [discriminate|discriminate|intros; reflexivity|intros; reflexivity]); clear F;
    cbn [step] in H; unfold ret_heap, ret_err in H; rewrite ?rbind_ok in H.
  - injection H as <- <-. apply V1CallsRole.roles_new. exact T.
  - injection H as <- <-. apply Q; [discriminate|discriminate|intros; reflexivity|intros; reflexivity].
  - destruct H as (hp & H & [= <- <-]). unfold add_attributes in H. destruct (h_groups _ !! g); [|discriminate]. injection H as <-. apply Q; [discriminate|discriminate|intros; reflexivity|intros; reflexivity].
  - destruct H as (hp & H & [= <- <-]). destruct (V1CallsTell.lock_same _ _ _ _ H) as (E1 & E2 & _). apply Q; [discriminate|discriminate|exact E1|exact E2].
  - destruct H as (hp & H & [= <- <-]). destruct (V1CallsTell.lock_same _ _ _ _ H) as (E1 & E2 & _). apply Q; [discriminate|discriminate|exact E1|exact E2].
  - destruct H as ([hp e] & H & [= <- <-]). exact (V1CallsRole.roles_desc _ _ _ _ _ _ H T).
  - destruct H as ([hp e] & H & [= <- <-]). destruct (V1CallsTell.permission_roles _ _ _ _ _ _ H) as (E1 & E2 & _). apply Q; [discriminate|discriminate|exact E1|exact E2].
  - destruct H as ([hp e] & H & [= <- <-]). destruct (V1CallsTell.hand_roles _ _ _ _ _ H) as (E1 & E2 & _). apply Q; [discriminate|discriminate|exact E1|exact E2].
  - destruct H as ([s1 e] & H & [= <- <-]). cbn [fst snd] in *. destruct (permissions_form _ _ _ _ _ _ H) as [[E _]|(l & hp' & _ & H' & E)].
    + rewrite E. apply Q; [discriminate|discriminate|intros; reflexivity|intros; reflexivity].
    + rewrite E. destruct (V1CallsTell.permission_roles _ _ _ _ _ _ H') as (E1 & E2 & _). apply Q; [discriminate|discriminate|exact E1|exact E2].
Qed.
Lemma step_heap_groups o h st x st' y : step o st x = Ok (st', y) -> wf_heap (s_heap st) -> (forall r l, role_at h r l <-> m_roles st !! r = Some l) -> groups_made ((x, y) :: h) ->
  V1CallsRole.tells_groups (v1 h) (s_heap st) -> V1CallsRole.tells_groups (v1 ((x, y) :: h)) (s_heap st').
Proof.
  intros H W RR GM T. pose proof (form_heap _ _ _ _ _ H) as F. change (v1 ((x, y) :: h)) with ((as_v1 x, out_v1 y) :: v1 h).
  assert (Q : forall hp', (forall id, as_v1 x <> V1Model.UNewGroup id) -> (forall gl at', as_v1 x <> V1Model.UGroupAdd gl at') -> (forall l grp attrs, ~ V1CallsSpec.accepts (v1 h) (as_v1 x, out_v1 y) l grp attrs) ->
    (forall l gl, (as_v1 x, out_v1 y) <> (V1Model.URoleAddGroup l gl, V1Model.YErr None)) -> (forall l grp, V1CallsRole.f_perms hp' l grp = V1CallsRole.f_perms (s_heap st) l grp) -> h_groups hp' = h_groups (s_heap st) ->
    V1CallsRole.tells_groups ((as_v1 x, out_v1 y) :: v1 h) hp').
  { intros hp' N1 N2 N3 N4 E1 E2. apply (V1CallsRole.groups_quiet (v1 h) (s_heap st)); [apply V1CallsRole.groups_skip; exact N1|apply V1CallsRole.adds_skip; exact N2|apply V1CallsRole.stores_skip; assumption|apply V1CallsRole.given_skip; exact N3|exact E1| | |exact T].
    - intros gl g Hg. exists g. rewrite E2. split; [exact Hg|reflexivity].
    - intros gl k. unfold V1CallsRole.g_has. rewrite E2. reflexivity. }
  assert (MM : forall gl, (exists id, group_named h gl id) -> V1CallsRole.made (v1 h) gl) by (intros gl (id & Hid); exists id; apply group_v1; exact Hid).
  destruct x; try (rewrite F; apply Q; [discriminate|discriminate|intros; apply no_accept; discriminate|discriminate|intros; reflexivity|reflexivity]); clear F;
    cbn [step] in H; unfold ret_heap, ret_err in H; rewrite ?rbind_ok in H.
  - injection H as <- <-. apply Q; [discriminate|discriminate|intros; apply no_accept; discriminate|discriminate|intros; apply V1CallsRole.new_perms|reflexivity].
  - injection H as <- <-. apply V1CallsRole.groups_new; assumption.
  - destruct H as (hp & H & [= <- <-]). destruct GM as [M _]. exact (V1CallsRole.groups_add _ _ _ _ _ (MM _ M) H T).
  - destruct H as (hp & H & [= <- <-]). destruct (V1CallsTell.lock_same _ _ _ _ H) as (_ & _ & E1 & E2). apply Q; [discriminate|discriminate|intros; apply no_accept; discriminate|discriminate|exact E1|exact E2].
  - destruct H as (hp & H & [= <- <-]). destruct (V1CallsTell.lock_same _ _ _ _ H) as (_ & _ & E1 & E2). apply Q; [discriminate|discriminate|intros; apply no_accept; discriminate|discriminate|exact E1|exact E2].
  - destruct H as ([hp e] & H & [= <- <-]). destruct (V1CallsTell.descend_same _ _ _ _ _ H) as (E1 & E2). apply Q; [discriminate|discriminate|intros; apply no_accept; discriminate|discriminate|exact E1|exact E2].
  - destruct H as ([hp [e|]] & H & [= <- <-]).
    + destruct (V1CallsTell.permission_roles _ _ _ _ _ _ H) as (_ & _ & E). cbn [s_heap with_heap fst snd]. rewrite E by discriminate.
      apply Q; [discriminate|discriminate|intros l0 grp0 attrs0 [?|(r0 & ? & _)]; discriminate|discriminate|intros; reflexivity|reflexivity].
    + apply (V1CallsRole.groups_permission (v1 h) (s_heap st) _ r grp attrs); [exact W| |discriminate|discriminate|discriminate|exact H|exact T].
      intros l' grp' attrs'. cbn [as_v1]. split.
      * intros [[= -> -> ->]|(r0 & ? & _)]; [split; [reflexivity|split; reflexivity]|discriminate].
      * intros (-> & -> & ->). left. reflexivity.
  - destruct H as ([hp [e|]] & H & [= <- <-]).
    + destruct (V1CallsTell.hand_roles _ _ _ _ _ H) as (_ & _ & E). cbn [s_heap with_heap fst snd]. rewrite E by discriminate.
      apply Q; [discriminate|discriminate|intros l0 grp0 attrs0 [?|(r0 & ? & _)]; discriminate|discriminate|intros; reflexivity|reflexivity].
    + destruct GM as [M _]. exact (V1CallsRole.groups_hand _ _ _ _ _ (MM _ M) H T).
  - destruct H as ([s1 e] & H & [= <- <-]). cbn [fst snd] in *. destruct (permissions_form _ _ _ _ _ _ H) as [[E N]|(l & hp' & Hr & H' & E)]; rewrite E.
    + apply Q; [discriminate|discriminate| |discriminate|intros; reflexivity|reflexivity]. intros l0 grp0 attrs0 [?|(r0 & [= _ _ _ E0] & _)]; [discriminate|exact (N E0)].
    + destruct e as [e|].
      * destruct (V1CallsTell.permission_roles _ _ _ _ _ _ H') as (_ & _ & E1). rewrite E1 by discriminate.
        apply Q; [discriminate|discriminate|intros l0 grp0 attrs0 [?|(r0 & ? & _)]; discriminate|discriminate|intros; reflexivity|reflexivity].
      * apply (V1CallsRole.groups_permission (v1 h) (s_heap st) _ l g attrs); [exact W| |discriminate|discriminate|discriminate|exact H'|exact T].
        intros l' grp' attrs'. cbn [as_v1]. split.
        -- intros [?|(r0 & [= -> -> ->] & Hr0)]; [discriminate|]. apply role_at_v1, RR in Hr0. split; [congruence|split; reflexivity].
        -- intros (-> & -> & ->). right. exists r. split; [reflexivity|]. apply role_at_v1, RR. exact Hr.
Qed.

(** ** What roles permit *)
Section told.
  Context (h : log) (st : state) (W : wf_heap (s_heap st)) (T : tells_heap h (s_heap st)) (RR : forall r l, role_at h r l <-> m_roles st !! r = Some l).

  Lemma told_edge l d : role_edge (s_heap st) l d <-> sub_role h l d.
  Proof.
    unfold role_edge, child_of, role_children, sub_role. split.
    - intros (m & k & Hm & Hk). exists k. apply sub_v1, (V1CallsRole.th_sub _ _ (proj1 T)). unfold V1CallsRole.f_desc. destruct (h_roles (s_heap st) !! l) as [r|]; [|discriminate]. injection Hm as <-. exact Hk.
    - intros (k & Hk). apply sub_v1, (V1CallsRole.th_sub _ _ (proj1 T)) in Hk. unfold V1CallsRole.f_desc in Hk. destruct (h_roles (s_heap st) !! l) as [r|]; [|discriminate]. exists (r_desc r), k. split; [reflexivity|exact Hk].
  Qed.
  Lemma told_descends l d : descends (s_heap st) l d <-> tc (sub_role h) l d.
  Proof.
    split; intros H; induction H as [x y E|x y z E _ IH].
    - apply tc_once, told_edge, E.
    - eapply tc_l; [apply told_edge; exact E|exact IH].
    - apply tc_once, told_edge, E.
    - eapply tc_l; [apply told_edge; exact E|exact IH].
  Qed.
  Lemma owns_points l grp g : owns (s_heap st) l grp g <-> exists gl, V1CallsRole.f_perms (s_heap st) l grp = Some gl /\ h_groups (s_heap st) !! gl = Some g.
  Proof.
    unfold owns, V1CallsRole.f_perms. split.
    - intros (r & gl & Hr & Hg & E). exists gl. rewrite Hr. split; assumption.
    - intros (gl & Hg & E). destruct (h_roles (s_heap st) !! l) as [r|]; [|discriminate]. exists r, gl. split; [reflexivity|split; assumption].
  Qed.
  Lemma told_store l grp : (exists w, store_of h l grp w) <-> exists g, owns (s_heap st) l grp g.
  Proof.
    rewrite some_store_v1. pose proof (proj2 T) as G. split.
    - intros (w & H). assert (E : exists gl, V1CallsRole.f_perms (s_heap st) l grp = Some gl).
      { destruct w; [apply (V1CallsRole.th_own _ _ G) in H as (gl & H & _)|apply (V1CallsRole.th_handed _ _ G) in H as [H _]]; eexists; exact H. }
      destruct E as (gl & E). pose proof (V1CallsRole.perms_valid _ _ _ _ W E) as L. apply lookup_lt_is_Some in L as [g Hg]. exists g. apply owns_points. exists gl. split; assumption.
    - intros (g & H). apply owns_points in H as (gl & E & _). destruct (V1CallsRole.made_dec (v1 h) gl) as [M|M].
      + exists (V1CallsSpec.Handed gl). apply (V1CallsRole.th_handed _ _ G). split; assumption.
      + exists V1CallsSpec.Own. apply (V1CallsRole.th_own _ _ G). exists gl. split; assumption.
  Qed.
  Lemma told_offers l grp act g : owns (s_heap st) l grp g -> offers g act <-> role_offers h l grp act.
  Proof.
    intros H. rewrite offers_v1. pose proof (proj2 T) as G. apply owns_points in H as (gl & E & Hg).
    assert (K : forall k, is_Some (g_perms g !! k) <-> exists a, attr_string a = k /\ V1CallsSpec.role_attr (v1 h) l grp a).
    { intros k. assert (K0 : is_Some (g_perms g !! k) <-> V1CallsRole.g_has (s_heap st) gl k).
      { split; [intros K; exists g; split; assumption|]. intros (g' & Hg' & K). congruence. }
      rewrite K0. destruct (V1CallsRole.made_dec (v1 h) gl) as [M|M].
      - rewrite (V1CallsRole.th_has _ _ G gl k M). split; intros (a & Ha & Hh); exists a; (split; [exact Ha|]).
        + right. exists gl. split; [apply (V1CallsRole.th_handed _ _ G); split; assumption|exact Hh].
        + destruct Hh as [[Ho _]|(gl' & Hs & Hh)]; [apply (V1CallsRole.th_own _ _ G) in Ho as (gl' & E' & N); congruence|]. apply (V1CallsRole.th_handed _ _ G) in Hs as [E' _]. congruence.
      - rewrite (V1CallsRole.th_keeps _ _ G l grp gl k M E). split; intros (a & Ha & Hh); exists a; (split; [exact Ha|]).
        + left. split; [apply (V1CallsRole.th_own _ _ G); exists gl; split; assumption|exact Hh].
        + destruct Hh as [[_ Hh]|(gl' & Hs & _)]; [exact Hh|]. apply (V1CallsRole.th_handed _ _ G) in Hs as [E' M']. congruence. }
    unfold offers, V1CallsSpec.role_offers. split.
    - intros (k & a & Hk & Hm). destruct (proj1 (K k) (ex_intro _ a Hk)) as (a' & <- & Ha). exists a'. split; assumption.
    - intros (a & Ha & Hm). destruct (proj2 (K (attr_string a)) (ex_intro _ a (conj eq_refl Ha))) as [b Hb]. exists (attr_string a), b. split; assumption.
  Qed.
  Lemma offers_store l grp act : role_offers h l grp act -> exists w, store_of h l grp w.
  Proof. intros (a & [[H _]|(gl & H & _)] & _); eexists; exact H. Qed.
  Lemma told_permits r grp act : (exists l, m_roles st !! r = Some l /\ permits (s_heap st) l grp act []) <-> role_allows h r grp act.
  Proof.
    unfold permits, role_allows. split.
    - intros (l & Hl & g & Ho & H). exists l. split; [apply RR; exact Hl|]. split; [apply told_store; exists g; exact Ho|].
      destruct H as [H|(d & gd & Hd & _ & Hod & H)]; [left; apply (told_offers _ _ _ _ Ho); exact H|right].
      exists d. split; [apply told_descends; exact Hd|]. apply (told_offers _ _ _ _ Hod); exact H.
    - intros (l & Hl & Hw & H). apply told_store in Hw as (g & Ho). exists l. split; [apply RR; exact Hl|]. exists g. split; [exact Ho|].
      destruct H as [H|(d & Hd & H)]; [left; apply (told_offers _ _ _ _ Ho); exact H|right].
      destruct (proj1 (told_store d grp) (offers_store _ _ _ H)) as (gd & Hod).
      exists d, gd. split; [apply told_descends; exact Hd|]. split; [left; reflexivity|]. split; [exact Hod|apply (told_offers _ _ _ _ Hod); exact H].
  Qed.
End told.
