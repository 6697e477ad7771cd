(** AddScopes, Namespace.AddRoles/AddScopes, GetPermissionsForPrincipal, GetDescendantTenants, listings. *)
From Verif Require Import RegProofs RoleEff RoleHas RoleOps.
From Verif Require Import V1Code V1Write V1Auth V1Cor V1Dec V1Setup.
From Verif Require Export V1RegMore V1Ex.

Lemma add_scopes_exact o st t ss st' y : u_wf st -> ustep o st (UTAddScopes t ss) = Ok (st', y) -> forall c, u_tenants st !! t = Some c ->
  exists X ns, (forall s, s ∈ X <-> s ∈ ut_scopes c \/ s ∈ ss)
    /\ st' = uw_nss (uw_tenants st (<[t := ut_with_scopes c X]> (u_tenants st))) ns
    /\ match ut_default c with
       | None => ns = u_nss st
       | Some l => exists m Y, u_nss st !! l = Some m /\ (forall s, s ∈ Y <-> s ∈ un_scopes m \/ s ∈ ss)
                     /\ ns = <[l := UNamespace (un_id m) (un_roles m) Y]> (u_nss st)
       end.
Proof.
  simpl. unfold uret. rewrite rbind_ok. intros W (s & H & [= <- _]) c Hc.
  assert (Hd : forall l, ut_default c = Some l -> is_Some (u_nss st !! l)) by (intros l; by eapply uwf_default). clear W.
  revert st H c Hc Hd. unfold ut_add_scopes. induction ss as [|x ss IH]; intros st H c Hc Hd; simpl in H.
  - injection H as <-. exists (ut_scopes c), (u_nss st). split_and!.
    + intros s. rewrite elem_of_nil. tauto.
    + assert (ut_with_scopes c (ut_scopes c) = c) as -> by (by destruct c). rewrite uw_tenants_self by done. by destruct st.
    + destruct (ut_default c) as [l|]; [|done]. destruct (Hd l eq_refl) as [m Hm]. exists m, (un_scopes m). split_and!; [done| |].
      * intros s. rewrite elem_of_nil. tauto.
      * rewrite list_insert_id; [done|]. rewrite Hm. by destruct m.
  - apply rbind_ok in H as (st1 & H1 & H). rewrite Hc in H1.
    set (c1 := ut_with_scopes c ({[x]} ∪ ut_scopes c)).
    assert (Hlt : t < length (u_tenants st)) by (by eapply lookup_lt_Some).
    destruct (ut_default c) as [l|] eqn:Ed.
    + destruct (Hd l eq_refl) as [m Hm]. unfold un_add_scope in H1.
      change (u_nss (u_set_tenant st t _)) with (u_nss st) in H1. rewrite Hm in H1. injection H1 as <-.
      assert (Hl : l < length (u_nss st)) by (by eapply lookup_lt_Some).
      destruct (IH _ H c1) as (X & ns & HX & -> & Hns).
      * simpl. rewrite list_lookup_insert by done. unfold c1, ut_with_scopes. by rewrite Ed.
      * intros l' Hl'. assert (l' = l) as -> by (cbn in Hl'; congruence). simpl. rewrite list_lookup_insert by done. by eexists.
      * cbn in Hns. rewrite Ed in Hns. destruct Hns as (m1 & Y & Hm1 & HY & ->).
        rewrite list_lookup_insert in Hm1 by done. injection Hm1 as <-.
        exists X, (<[l := UNamespace (un_id m) (un_roles m) Y]> (u_nss st)). split_and!.
        -- intros s. rewrite HX, elem_of_cons. cbn. rewrite elem_of_union, elem_of_singleton. tauto.
        -- cbn. rewrite !list_insert_insert. unfold ut_with_scopes, uw_nss, uw_tenants; cbn. by rewrite Ed.
        -- exists m, Y. split_and!; [done| |done]. intros s. rewrite HY, elem_of_cons. cbn. rewrite elem_of_union, elem_of_singleton. tauto.
    + injection H1 as <-. destruct (IH _ H c1) as (X & ns & HX & -> & Hns).
      * simpl. rewrite list_lookup_insert by done. unfold c1, ut_with_scopes. by rewrite Ed.
      * intros l'. cbn. by rewrite Ed.
      * cbn in Hns. rewrite Ed in Hns. subst ns. exists X, (u_nss st). split_and!; [| |done].
        -- intros s. rewrite HX, elem_of_cons. cbn. rewrite elem_of_union, elem_of_singleton. tauto.
        -- cbn. rewrite !list_insert_insert. unfold ut_with_scopes, uw_nss, uw_tenants; cbn. by rewrite Ed.
Qed.
Lemma ns_add_roles_exact o st n rs st' y : ustep o st (UNAddRoles n rs) = Ok (st', y) -> forall m, u_nss st !! n = Some m ->
  exists X, (forall r, r ∈ X <-> r ∈ un_roles m \/ exists l, l ∈ rs /\ urole_id st l = Some r)
    /\ st' = uw_nss st (<[n := UNamespace (un_id m) X (un_scopes m)]> (u_nss st)).
Proof.
  simpl. unfold uret. rewrite rbind_ok. intros (s & H & [= <- _]). revert st H.
  induction rs as [|d ds IH]; intros st H m Hm; simpl in H.
  - injection H as <-. exists (un_roles m). split.
    + intros r. split; [by left|]. intros [?|(l & Hl & _)]; [done|]. by apply elem_of_nil in Hl.
    + rewrite list_insert_id; [by destruct st|]. rewrite Hm. by destruct m.
  - apply rbind_ok in H as (st1 & H1 & H). destruct (h_roles (u_heap st) !! d) as [dc|] eqn:Hd; [|done].
    unfold un_add_role in H1. rewrite Hm in H1.
    injection H1 as <-. assert (Hdk : urole_id st d = Some (r_id dc)) by (unfold urole_id; by rewrite Hd).
    assert (Hl : n < length (u_nss st)) by (by eapply lookup_lt_Some).
    destruct (IH _ H (UNamespace (un_id m) ({[r_id dc]} ∪ un_roles m) (un_scopes m))) as (X & HX & ->).
    { simpl. by rewrite list_lookup_insert. }
    exists X. split; [|simpl; by rewrite list_insert_insert].
    intros r. rewrite HX. change (urole_id (u_set_ns st n _)) with (urole_id st). simpl.
    rewrite elem_of_union, elem_of_singleton. clear -Hdk. split.
    + intros [[->|?]|(l & Hl & ?)]; [right; exists d; by split; [left|]|by left|right; exists l; by split; [right|]].
    + intros [?|(l & [->|Hl]%elem_of_cons & ?)]; [by left; right|left; left; congruence|right; by exists l].
Qed.
Lemma ns_add_scopes_exact o st n ss st' y : ustep o st (UNAddScopes n ss) = Ok (st', y) -> forall m, u_nss st !! n = Some m ->
  exists X, (forall s, s ∈ X <-> s ∈ un_scopes m \/ s ∈ ss)
    /\ st' = uw_nss st (<[n := UNamespace (un_id m) (un_roles m) X]> (u_nss st)).
Proof.
  simpl. unfold uret. rewrite rbind_ok. intros (s & H & [= <- _]). revert st H.
  induction ss as [|d ds IH]; intros st H m Hm; simpl in H.
  - injection H as <-. exists (un_scopes m). split.
    + intros r. rewrite elem_of_nil. tauto.
    + rewrite list_insert_id; [by destruct st|]. rewrite Hm. by destruct m.
  - apply rbind_ok in H as (st1 & H1 & H).
    unfold un_add_scope in H1. rewrite Hm in H1. injection H1 as <-.
    assert (Hl : n < length (u_nss st)) by (by eapply lookup_lt_Some).
    destruct (IH _ H (UNamespace (un_id m) (un_roles m) ({[d]} ∪ un_scopes m))) as (X & HX & ->).
    { simpl. by rewrite list_lookup_insert. }
    exists X. split; [|simpl; by rewrite list_insert_insert].
    intros r. rewrite HX. simpl. rewrite elem_of_union, elem_of_singleton, elem_of_cons. clear. tauto.
Qed.

(** ** GetPermissionsForPrincipal *)
Lemma get_permissions_returns o h l : wf_heap h -> is_Some (h_roles h !! l) -> exists m, get_permissions o h l = Ok m.
Proof.
  intros Hwf [r Hr]. unfold get_permissions. rewrite Hr.
  destruct (add_own _ _ _ _ _) as [m| |] eqn:E; [by eexists| |].
  - exfalso. apply add_own_not_panic in E; [done|]. intros grp gl Hin.
    apply elem_of_ordered, elem_of_map_to_list in Hin. destruct Hwf as (_ & W2 & _).
    destruct (W2 _ _ _ _ Hr Hin) as (g & -> & _). by eexists.
  - by apply add_own_not_hang in E.
Qed.
Lemma own_listed o st r l m : u_roles st !! r = Some l -> get_permissions o (u_heap st) l = Ok m -> lists_own st r m.
Proof. intros Hl H. exists l. split; [done|]. by eapply get_permissions_ok. Qed.
Lemma permissions_of_ok o i st rs : u_wf st -> exists l, permissions_of o i st rs = Ok l
  /\ (forall a m, (a, m) ∈ l -> a ∈ rs /\ tp_role a <> "" /\ lists_own st (tp_role a) m)
  /\ (forall a, a ∈ rs -> tp_role a <> "" -> is_Some (u_roles st !! tp_role a) -> exists m, (a, m) ∈ l).
Proof.
  intros W. revert i. induction rs as [|a rs IH]; intros i; simpl.
  { exists []. split_and!; [done| |]; intros a; [intros m Ha|intros Ha]; by apply elem_of_nil in Ha. }
  destruct (IH (S i)) as (l & Hl & H1 & H2). case_bool_decide as Ha.
  { exists l. split_and!; [done| |].
    - intros b m Hb. destruct (H1 b m Hb) as (? & ? & ?). split_and!; [by right|done|done].
    - intros b [->|Hb]%elem_of_cons Hne Hs; [done|by apply H2]. }
  destruct (u_roles st !! tp_role a) as [rl|] eqn:Er.
  - destruct (uwf_roles _ W _ _ Er) as (ro & Hro & _).
    destruct (get_permissions_returns (sub o i) (u_heap st) rl (uwf_heap _ W)) as [m Hm]; [by eexists|].
    rewrite Hm. simpl. rewrite Hl. simpl. eexists. split_and!; [done| |].
    + intros b m' [[= -> ->]|Hb]%elem_of_cons; [split_and!; [left|done|by eapply own_listed]|].
      destruct (H1 b m' Hb) as (? & ? & ?). split_and!; [by right|done|done].
    + intros b [->|Hb]%elem_of_cons Hne Hs; [exists m; left|]. destruct (H2 b Hb Hne Hs) as [m' ?]. exists m'. by right.
  - exists l. split_and!; [done| |].
    + intros b m Hb. destruct (H1 b m Hb) as (? & ? & ?). split_and!; [by right|done|done].
    + intros b [->|Hb]%elem_of_cons Hne Hs; [destruct Hs; congruence|by apply H2].
Qed.
Lemma permissions_exact o st t p : ureachable st -> exists l, get_permissions_for_principal o st t p = Ok l
  /\ (forall a m, (a, m) ∈ l -> member st p t a /\ tp_role a <> "" /\ lists_own st (tp_role a) m)
  /\ (forall a, member st p t a -> tp_role a <> "" -> is_Some (u_roles st !! tp_role a) -> exists m, (a, m) ∈ l).
Proof.
  intros W%ureachable_wf. unfold get_permissions_for_principal.
  destruct (principal_roles_ok (sub o 0) st t p W) as (rs & -> & Hin). simpl.
  destruct (permissions_of_ok (sub o 1) 0 st rs W) as (l & Hl & H1 & H2). exists l. split_and!; [done| |].
  - intros a m Ha. destruct (H1 a m Ha) as (? & ? & ?). split_and!; [by apply Hin|done|done].
  - intros a Ha%Hin. by apply H2.
Qed.
Lemma role_permissions_exact o st r : ureachable st ->
  match u_roles st !! r with
  | None => get_role_permissions o st r = Ok None
  | Some _ => exists m, get_role_permissions o st r = Ok (Some m) /\ lists_own st r m
  end.
Proof.
  intros W%ureachable_wf. unfold get_role_permissions. destruct (u_roles st !! r) as [l|] eqn:E; [|done].
  destruct (uwf_roles _ W _ _ E) as (ro & Hro & _).
  destruct (get_permissions_returns o (u_heap st) l (uwf_heap _ W)) as [m Hm]; [by eexists|].
  exists m. rewrite Hm. split; [done|by eapply own_listed].
Qed.
(** What is listed for a known principal in a registered tenant is granted there. *)
Lemma listed_granted o o' st t p l a m grp x b : ureachable st -> known st p -> (exists c, utenant_is st t c) ->
  get_permissions_for_principal o st t p = Ok l -> (a, m) ∈ l -> listed m grp x ->
  u_authorize o' st p (UOpts (AStr t) ANil ANil (AStr grp) (AStr (attr_string x))) = Ok b -> b = true.
Proof.
  intros Hr Hp [c Hc] Hl Ha Hx Hb. destruct (permissions_exact o st t p Hr) as (l' & Hl' & H1 & _).
  rewrite Hl in Hl'. injection Hl' as <-. destruct (H1 _ _ Ha) as (Hm & _ & rl & Hrl & Hown).
  apply (proj2 (Hown grp) x) in Hx as (k & g & Hg & Hk).
  assert (k = attr_string x) as ->.
  { apply ureachable_wf in Hr. destruct (uwf_heap _ Hr) as (_ & _ & W3). destruct Hg as (ro & gl & _ & _ & Hgl). by eapply W3. }
  eapply (c48_hole o' st p (AStr t) ANil ANil (AStr grp) (AStr (attr_string x)) c a rl g b); try done.
  - exists (attr_string x), x. split; [done|by left].
Qed.
Definition w74_ops : list uop :=
  [UNewTenant "acme"; UAddTenant 0; UNewRole "boss"; URoleAddPermission 0 "doc" [Attr "/d" "GET"];
   UNewRole "writer"; URoleAddPermission 1 "doc" [Attr "/d" "PUT"]; URoleAddDescendent 0 [1]; UAddRole 0;
   UAddPrincipal "cat"; UAddPrincipalRole "cat" "boss" 0 None None []; UAddPrincipalRole "dan" "boss" 0 None None []].
Definition perms_of_ok {A} (x : res (list (A * gmap string (list attr)))) : list (gmap string (list attr)) :=
  match x with Ok l => l.*2 | _ => [] end.
Lemma c74_refuted :
  (exists st l, ureachable st /\ known st "cat" /\ get_permissions_for_principal id_oracle st "acme" "cat" = Ok l
     /\ u_authorize id_oracle st "cat" (q_put ANil ANil) = Ok true
     /\ forall a m, (a, m) ∈ l -> ~ listed m "doc" (Attr "/d" "PUT"))
  /\ (exists st l a m, ureachable st /\ get_permissions_for_principal id_oracle st "acme" "dan" = Ok l
     /\ (a, m) ∈ l /\ listed m "doc" (Attr "/d" "GET")
     /\ u_authorize id_oracle st "dan" (q_get ANil ANil) = Ok false).
Proof.
  assert (Hr : ureachable (uops_state w74_ops)) by (reach_uops w74_ops). split.
  - exists (uops_state w74_ops). destruct (permissions_exact id_oracle _ "acme" "cat" Hr) as (l & Hl & _).
    exists l. split_and!; [done|is_known|done|vm_compute; reflexivity|]. intros a m Ha (x & Hx & Hin).
    assert (H : forallb (fun m => match m !! "doc" with Some x => negb (bool_decide (Attr "/d" "PUT" ∈ x)) | None => true end)
      (perms_of_ok (get_permissions_for_principal id_oracle (uops_state w74_ops) "acme" "cat")) = true) by (vm_compute; reflexivity).
    rewrite Hl in H. rewrite forallb_forall in H. specialize (H m). rewrite Hx in H.
    assert (Hm : In m (perms_of_ok (Ok l))).
    { clear -Ha. apply elem_of_list_In. simpl. apply elem_of_list_fmap. by exists (a, m). }
    specialize (H Hm). clear -H Hin. by rewrite bool_decide_true in H.
  - exists (uops_state w74_ops). destruct (permissions_exact id_oracle _ "acme" "dan" Hr) as (l & Hl & H1 & _).
    destruct l as [|[a m] l].
    { assert (H : length (perms_of_ok (get_permissions_for_principal id_oracle (uops_state w74_ops) "acme" "dan")) = 1) by (vm_compute; reflexivity).
      rewrite Hl in H. discriminate H. }
    exists ((a, m) :: l), a, m. split_and!; [done|done|left| |vm_compute; reflexivity].
    assert (H : (fun m => bool_decide (Attr "/d" "GET" ∈ default [] (m !! "doc"))) <$>
      head (perms_of_ok (get_permissions_for_principal id_oracle (uops_state w74_ops) "acme" "dan")) = Some true) by (vm_compute; reflexivity).
    rewrite Hl in H. clear -H. simpl in H. injection H as H. apply bool_decide_eq_true in H.
    destruct (m !! "doc") as [x|] eqn:E; [by exists x|]. simpl in H. by apply elem_of_nil in H.
Qed.

(** ** GetDescendantTenants *)
Lemma utenant_children_dom st l : is_Some (utenant_children st l) -> l < length (u_tenants st).
Proof. unfold utenant_children. rewrite fmap_is_Some. apply lookup_lt_is_Some_1. Qed.
Lemma utenant_closed st l d : u_wf st -> utenant_edge st l d -> is_Some (utenant_children st d).
Proof.
  intros W (m & k & Hm & Hk). unfold utenant_children in *.
  apply fmap_Some in Hm as (r & Hr & ->). destruct (uwf_desc _ W _ _ _ _ Hr Hk) as (c & -> & _). by eexists.
Qed.
Lemma descendant_tenants_exact o st t : ureachable st -> is_Some (u_tenants st !! t) ->
  (exists ds, get_descendant_tenants o st t = Ok ds /\ forall d, d ∈ ds <-> tc (utenant_edge st) t d) /\ ~ utenant_cyclic st t
  \/ get_descendant_tenants o st t = Hang /\ utenant_cyclic st t.
Proof.
  intros W%ureachable_wf Ht. unfold get_descendant_tenants.
  destruct (descend_exact (utenant_children st) (length (u_tenants st)) (utenant_children_dom st)
    (fun a b => utenant_closed st a b W) (S (length (u_tenants st))) o t) as [[(r & Hr) Hc]|[Hr Hc]].
  - lia.
  - unfold utenant_children. by apply fmap_is_Some.
  - left. split; [|done]. exists r.*2. rewrite Hr. split; [done|]. intros d. by apply (descend_ok_elem _ _ _ _ _ Hr).
  - right. split; [|done]. by rewrite Hr.
Qed.

(** ** Listings *)
Lemma utotals o st :
  lists (urole_list o st) (fun id => is_Some (uget_role st id)) /\ un_roles_total (usummary_of st) = length (urole_list o st)
  /\ lists (utenant_list o st) (fun id => is_Some (uget_tenant st id)) /\ un_tenants (usummary_of st) = length (utenant_list o st)
  /\ lists (unamespace_list o st) (fun id => is_Some (uget_namespace st id)) /\ un_namespaces (usummary_of st) = length (unamespace_list o st)
  /\ lists (uattribute_list o st) (fun id => is_Some (uget_attribute st id)) /\ un_attributes (usummary_of st) = length (uattribute_list o st)
  /\ lists (uscope_list o st) (fun id => uget_scope st id = true) /\ un_scopes_total (usummary_of st) = length (uscope_list o st)
  /\ lists (uprincipal_list o st) (fun id => uget_principal st id = true) /\ un_principals (usummary_of st) = length (uprincipal_list o st)
  /\ exists ids, lists ids (fun id => is_Some (uget_group st id)) /\ un_groups (usummary_of st) = length ids.
Proof.
  unfold urole_list, utenant_list, uattribute_list, unamespace_list, uscope_list, uprincipal_list. simpl.
  destruct (lists_dom o (u_roles st)), (lists_dom o (u_reg st)), (lists_dom o (u_attrs st)), (lists_dom o (u_regns st)).
  destruct (lists_set o (u_regscopes st)), (lists_set o (u_principals st)).
  split; [done|]. split; [done|]. split; [done|]. split; [done|]. split; [done|]. split; [done|].
  split; [done|]. split; [done|]. split; [done|]. split; [done|]. split; [done|]. split; [done|].
  destruct (lists_dom id_oracle (u_groups st)). by eexists.
Qed.
