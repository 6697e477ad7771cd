(** What the v1 Add methods return, listings, and the exact effects of the set-up methods. *)
From Verif Require Import RegProofs RoleEff RoleHas RoleOps.
From Verif Require Import V1Code V1Write V1Auth V1Cor.
From Verif Require Export V1RegProofs.

Lemma uadd_role_returns o st l st' y : ustep o st (UAddRole l) = Ok (st', y) ->
  exists id l', urole_id st l = Some id /\ y = YLoc l' /\ uget_role st' id = Some l'
    /\ match uget_role st id with Some d => l' = d /\ st' = st | None => l' = l /\ st' = uw_roles st (<[id := l]> (u_roles st)) end.
Proof.
  simpl. unfold uret_loc, u_add_role, urole_id, uget_role. destruct (h_roles (u_heap st) !! l) as [ro|]; [|done].
  destruct (u_roles st !! r_id ro) as [d|] eqn:E; intros [= <- <-]; exists (r_id ro); eexists; rewrite E.
  - done.
  - split_and!; [done|done| |done|done]. simpl. by rewrite lookup_insert.
Qed.
Lemma uadd_group_returns o st l st' y : ustep o st (UAddGroup l) = Ok (st', y) ->
  exists id l', ugroup_id st l = Some id /\ y = YLoc l' /\ uget_group st' id = Some l'
    /\ match uget_group st id with Some d => l' = d /\ st' = st | None => l' = l /\ st' = uw_groups st (<[id := l]> (u_groups st)) end.
Proof.
  simpl. unfold uret_loc, u_add_group, ugroup_id, uget_group. destruct (h_groups (u_heap st) !! l) as [ro|]; [|done].
  destruct (u_groups st !! g_id ro) as [d|] eqn:E; intros [= <- <-]; exists (g_id ro); eexists; rewrite E.
  - done.
  - split_and!; [done|done| |done|done]. simpl. by rewrite lookup_insert.
Qed.
Lemma uadd_namespace_returns o st l st' y : ustep o st (UAddNamespace l) = Ok (st', y) ->
  exists id l', uns_id st l = Some id /\ y = YLoc l' /\ uget_namespace st' id = Some l'
    /\ match uget_namespace st id with Some d => l' = d /\ st' = st | None => l' = l /\ st' = uw_regns st (<[id := l]> (u_regns st)) end.
Proof.
  simpl. unfold uret_loc, u_add_namespace, uns_id, uget_namespace. destruct (u_nss st !! l) as [ro|]; [|done].
  destruct (u_regns st !! un_id ro) as [d|] eqn:E; intros [= <- <-]; exists (un_id ro); eexists; rewrite E.
  - done.
  - split_and!; [done|done| |done|done]. simpl. by rewrite lookup_insert.
Qed.
Lemma uadd_attribute_returns o st a st' y : ustep o st (UAddAttribute a) = Ok (st', y) ->
  exists a', y = YAttr a' /\ uget_attribute st' (attr_string a) = Some a'
    /\ match uget_attribute st (attr_string a) with
       | Some d => a' = d /\ st' = st
       | None => a' = a /\ st' = uw_attrs st (<[attr_string a := a]> (u_attrs st)) end.
Proof.
  simpl. unfold u_add_attribute, uget_attribute.
  destruct (u_attrs st !! attr_string a) as [d|] eqn:E; intros [= <- <-]; eexists; simpl.
  - done.
  - split_and!; [done| |done|done]. by rewrite lookup_insert.
Qed.
(** AddTenant, exactly: the object gets the manager in any case. *)
Lemma uadd_tenant_returns o st t st' y : ustep o st (UAddTenant t) = Ok (st', y) ->
  exists c t', u_tenants st !! t = Some c /\ y = YLoc t' /\ uget_tenant st' (ut_id c) = Some t'
    /\ u_tenants st' = <[t := ut_with_manager c]> (u_tenants st)
    /\ match uget_tenant st (ut_id c) with
       | Some d => t' = d /\ u_reg st' = u_reg st
       | None => t' = t /\ u_reg st' = <[ut_id c := t]> (u_reg st)
       end
    /\ st' = uw_reg (uw_tenants st (u_tenants st')) (u_reg st').
Proof.
  simpl. unfold uret_loc, u_add_tenant, uget_tenant. destruct (u_tenants st !! t) as [c|]; [|done]. cbv zeta.
  change (u_reg (uw_tenants st _)) with (u_reg st).
  destruct (u_reg st !! ut_id c) as [d|] eqn:E; intros [= <- <-]; exists c; eexists; simpl.
  - rewrite E. by split_and!.
  - rewrite E, lookup_insert. by split_and!.
Qed.

(** ** AddPermissionsToRole *)
Lemma check_attrs_none g gid attrs : u_check_attrs g gid attrs = None <-> forall a, a ∈ attrs -> is_Some (g_perms g !! attr_string a).
Proof.
  induction attrs as [|a attrs IH]; simpl.
  - split; [|done]. intros _ a Ha. by apply elem_of_nil in Ha.
  - destruct (g_perms g !! attr_string a) as [x|] eqn:E.
    + rewrite IH. split.
      * intros H b [->|Hb]%elem_of_cons; [by eexists|by apply H].
      * intros H b Hb. apply H. by right.
    + split; [done|]. intros H. destruct (H a) as [y Hy]; [left|]. congruence.
Qed.
Lemma add_permissions_exact o st r g attrs st' y : ureachable st ->
  ustep o st (UAddPermissionsToRole r g attrs) = Ok (st', y) ->
  (y = YErr None <-> (exists l, u_roles st !! r = Some l /\ unlocked (u_heap st) l) /\ in_group st g attrs)
  /\ (y <> YErr None -> st' = st)
  /\ (y = YErr None -> exists l, u_roles st !! r = Some l /\ st' = uw_heap st (u_heap st')
        /\ role_add_permission (u_heap st) l g attrs = Ok (u_heap st', None)).
Proof.
  intros W%ureachable_wf. simpl. rewrite rbind_ok. intros ([s e] & H & [= <- <-]). cbn [fst snd] in *.
  unfold u_add_permissions_to_role in H.
  destruct (u_roles st !! r) as [l|] eqn:El.
  2: { injection H as <- <-. split; [|done]. split; [done|]. by intros [(l & ? & _) _]. }
  destruct (u_groups st !! g) as [gl|] eqn:Eg.
  2: { injection H as <- <-. split; [|done]. split; [done|]. intros [_ (gl & gr & ? & _)]. congruence. }
  destruct (h_groups (u_heap st) !! gl) as [gr|] eqn:Egr; [|done].
  assert (Hin : in_group st g attrs <-> u_check_attrs gr g attrs = None).
  { rewrite check_attrs_none. unfold in_group. rewrite Eg. split.
    - intros (? & x & [= <-] & H2 & H3). rewrite Egr in H2. by injection H2 as <-.
    - intros H1. exists gl, gr. done. }
  rewrite Hin. destruct (u_check_attrs gr g attrs) as [m|] eqn:Ec.
  { injection H as <- <-. split; [|done]. split; [done|]. by intros [_ ?]. }
  apply rbind_ok in H as ([h' e'] & H & [= <- <-]). cbn [fst snd].
  destruct (uwf_roles _ W _ _ El) as (ro & Hro & _).
  destruct (r_lock ro) eqn:Hlk.
  - unfold role_add_permission in H. rewrite Hro, Hlk in H. injection H as <- <-. split; [|split].
    + split; [done|]. intros [(l' & [= <-] & ro' & Hro' & Hl) _]. congruence.
    + intros _. by destruct st.
    + done.
  - assert (Hu : unlocked (u_heap st) l) by (by exists ro). pose proof H as H0.
    apply (add_permission_eff _ _ _ _ _ _ (uwf_heap _ W)) in H as (-> & _); [|done]. split; [|split].
    + split; [|done]. intros _. split; [|done]. by exists l.
    + done.
    + intros _. exists l. done.
Qed.
Lemma add_permissions_effect o st r g attrs st' : ureachable st ->
  ustep o st (UAddPermissionsToRole r g attrs) = Ok (st', YErr None) ->
  exists l, u_roles st !! r = Some l
    /\ (forall k a, holds (u_heap st') l g k a <->
          holds (u_heap st) l g k a \/ (forall a', ~ holds (u_heap st) l g k a') /\ first_with attr_string attrs k a)
    /\ (forall x k d, child (u_heap st') x k d <-> child (u_heap st) x k d)
    /\ (forall x grp k a, (x = l /\ grp = g \/ exists gl, points (u_heap st) l g gl /\ points (u_heap st) x grp gl)
                          \/ (holds (u_heap st') x grp k a <-> holds (u_heap st) x grp k a)).
Proof.
  intros Hr H. destruct (add_permissions_exact _ _ _ _ _ _ _ Hr H) as (He & _ & Hx).
  destruct (proj1 He eq_refl) as [(l & Hl & Hu) _]. destruct (Hx eq_refl) as (l' & Hl' & _ & Hp).
  rewrite Hl in Hl'. injection Hl' as <-. exists l. split; [done|].
  destruct (add_permission_eff _ _ _ _ _ _ (uwf_heap _ (ureachable_wf _ Hr)) Hp Hu) as (_ & H1 & H2 & H3). by split_and!.
Qed.
Lemma add_permissions_returns o st r g attrs : ureachable st ->
  exists st' e, ustep o st (UAddPermissionsToRole r g attrs) = Ok (st', YErr e).
Proof.
  intros W%ureachable_wf. simpl. unfold u_add_permissions_to_role.
  destruct (u_roles st !! r) as [l|] eqn:El; [|by do 2 eexists].
  destruct (u_groups st !! g) as [gl|] eqn:Eg; [|by do 2 eexists].
  destruct (uwf_groups _ W _ _ Eg) as (gr & Hgr & _). rewrite Hgr.
  destruct (u_check_attrs gr g attrs); [by do 2 eexists|].
  destruct (uwf_roles _ W _ _ El) as (ro & Hro & _). unfold role_add_permission. rewrite Hro.
  destruct (r_lock ro); [by do 2 eexists|]. destruct (r_perms ro !! g) as [gx|] eqn:Ex; [|by do 2 eexists].
  destruct (uwf_heap _ W) as (_ & W2 & _). destruct (W2 _ _ _ _ Hro Ex) as (g0 & Hg0 & _). rewrite Hg0. by do 2 eexists.
Qed.
(** The three refusals. *)
Lemma add_permissions_errors o st r g attrs st' y : ureachable st ->
  ustep o st (UAddPermissionsToRole r g attrs) = Ok (st', y) ->
  (u_roles st !! r = None -> y = YErr (Some "no role available"))
  /\ (is_Some (u_roles st !! r) -> u_groups st !! g = None -> y = YErr (Some "no attribute group available"))
  /\ (forall pre a post gl gr, is_Some (u_roles st !! r) -> u_groups st !! g = Some gl -> h_groups (u_heap st) !! gl = Some gr ->
        attrs = pre ++ a :: post -> g_perms gr !! attr_string a = None -> (forall b, b ∈ pre -> is_Some (g_perms gr !! attr_string b)) ->
        y = YErr (Some ("attribute '" ++ attr_string a ++ "' not associated to the group '" ++ g ++ "'")%string)).
Proof.
  intros W%ureachable_wf. simpl. rewrite rbind_ok. intros ([s e] & H & [= <- <-]). cbn [fst snd] in *.
  unfold u_add_permissions_to_role in H. split_and!.
  - intros E. rewrite E in H. by injection H as <- <-.
  - intros [l El] E. rewrite El, E in H. by injection H as <- <-.
  - intros pre a post gl gr [l El] E Er -> Ha Hpre. rewrite El, E, Er in H.
    assert (Hc : u_check_attrs gr g (pre ++ a :: post) = Some ("attribute '" ++ attr_string a ++ "' not associated to the group '" ++ g ++ "'")%string).
    { clear H. induction pre as [|b pre IH]; cbn [app u_check_attrs].
      - by rewrite Ha.
      - destruct (Hpre b) as [x ->]; [left|]. apply IH. intros b' Hb'. apply Hpre. by right. }
    rewrite Hc in H. by injection H as <- <-.
Qed.

(** ** Tenants *)
Lemma uw_tenants_self st t c : u_tenants st !! t = Some c -> uw_tenants st (<[t := c]> (u_tenants st)) = st.
Proof. intros H. rewrite list_insert_id by done. by destruct st. Qed.
Lemma becomes_refl st t c : u_tenants st !! t = Some c -> tenant_becomes st t c st.
Proof. intros H. unfold tenant_becomes. by rewrite uw_tenants_self. Qed.
Lemma becomes_trans st t c st1 c' st2 : tenant_becomes st t c st1 -> tenant_becomes st1 t c' st2 -> tenant_becomes st t c' st2.
Proof. unfold tenant_becomes. intros -> ->. simpl. by rewrite list_insert_insert. Qed.
Lemma becomes_at st t c0 c st' : u_tenants st !! t = Some c0 -> tenant_becomes st t c st' -> u_tenants st' !! t = Some c.
Proof. intros H ->. simpl. apply list_lookup_insert. by eapply lookup_lt_Some. Qed.
Lemma becomes_ids st t c0 c st' : u_tenants st !! t = Some c0 -> ut_id c = ut_id c0 -> tenant_becomes st t c st' ->
  forall x, utenant_id st' x = utenant_id st x.
Proof.
  intros H0 Hid -> x. unfold utenant_id; simpl. destruct (decide (x = t)) as [->|Hx].
  - rewrite list_lookup_insert by (by eapply lookup_lt_Some). rewrite H0. simpl. by rewrite Hid.
  - by rewrite list_lookup_insert_ne.
Qed.
Lemma fills_nil {K} `{Countable K} (key : nat -> option K) m : fills key m [] m.
Proof. intros k l. split; [by left|]. intros [?|[_ ?%first_with_nil]]; done. Qed.
Lemma fills_skip {K} `{Countable K} (key : nat -> option K) m k x l m' : key x = Some k -> is_Some (m !! k) ->
  fills key m l m' -> fills key m (x :: l) m'.
Proof.
  intros Hk [y Hy] Hf k' d. rewrite (Hf k' d), first_with_cons. split; [intros [?|[? ?]]; [by left|]|intros [?|[? [[? _]|[? ?]]]]; [by left| |by right]].
  - right. split; [done|]. right. split; [congruence|done].
  - congruence.
Qed.
Lemma fills_add {K} `{Countable K} (key : nat -> option K) m k x l m' : key x = Some k -> m !! k = None ->
  fills key (<[k := x]> m) l m' -> fills key m (x :: l) m'.
Proof.
  intros Hx E Hf k' d. rewrite (Hf k' d), first_with_cons. destruct (decide (k = k')) as [<-|Hk].
  - rewrite lookup_insert, E. split; [intros [[= <-]|[? ?]]; [|done]|intros [?|[_ [[_ ->]|[? ?]]]]; [done|by left|done]].
    right. split; [done|]. by left.
  - rewrite lookup_insert_ne by done.
    split; [intros [?|[? ?]]; [by left|]|intros [?|[? [[? _]|[? ?]]]]; [by left| |by right]].
    * right. split; [done|]. right. split; [congruence|done].
    * congruence.
Qed.
Lemma fills_ext {K} `{Countable K} (key key' : nat -> option K) m l m' : (forall x, key' x = key x) -> fills key m l m' -> fills key' m l m'.
Proof.
  intros He Hf k d. rewrite (Hf k d). unfold first_with. split; (intros [?|[? (pre & post & ? & ? & Hp)]]; [by left|]);
    right; (split; [done|]); exists pre, post; (split_and!; [done|by rewrite ?He in *|]); intros b Hb; specialize (Hp b Hb); by rewrite ?He in *.
Qed.

Lemma add_descendent_exact o st t ds st' y : ustep o st (UTAddDescendent t ds) = Ok (st', y) -> forall c, u_tenants st !! t = Some c ->
  exists m, fills (utenant_id st) (ut_desc c) ds m /\ tenant_becomes st t (ut_with_desc c m) st'.
Proof.
  simpl. unfold uret. rewrite rbind_ok. intros (s & H & [= <- _]). revert st H.
  unfold ut_add_descendent. induction ds as [|d ds IH]; intros st H c Hc; simpl in H.
  - injection H as <-. exists (ut_desc c). split; [apply fills_nil|]. apply becomes_refl. by destruct c.
  - apply rbind_ok in H as (st1 & H1 & H). rewrite Hc in H1. destruct (u_tenants st !! d) as [dc|] eqn:Hd; [|done].
    assert (Hdk : utenant_id st d = Some (ut_id dc)) by (unfold utenant_id; by rewrite Hd).
    destruct (ut_desc c !! ut_id dc) as [x|] eqn:E; injection H1 as <-.
    + destruct (IH _ H c Hc) as (m & Hm & Hb). exists m. split; [|done]. eapply fills_skip; [done|by eexists|done].
    + set (c1 := ut_with_desc c (<[ut_id dc := d]> (ut_desc c))).
      assert (B1 : tenant_becomes st t c1 (u_set_tenant st t c1)) by done.
      destruct (IH _ H c1 (becomes_at _ _ _ _ _ Hc B1)) as (m & Hm & Hb). exists m. split.
      * eapply fills_add; [done|done|]. eapply fills_ext; [|exact Hm].
        intros x. symmetry. by apply (becomes_ids st t c c1).
      * eapply becomes_trans; [exact B1|]. exact Hb.
Qed.
Lemma becomes_nss st t c st' : tenant_becomes st t c st' -> u_nss st' = u_nss st.
Proof. by intros ->. Qed.
Lemma add_namespace_exact o st t ns st' y : ustep o st (UTAddNamespace t ns) = Ok (st', y) -> forall c, u_tenants st !! t = Some c ->
  exists m, fills (uns_id st) (ut_namespaces c) ns m /\ tenant_becomes st t (ut_with_namespaces c m) st'.
Proof.
  simpl. unfold uret. rewrite rbind_ok. intros (s & H & [= <- _]). revert st H.
  unfold ut_add_namespace. induction ns as [|d ds IH]; intros st H c Hc; simpl in H.
  - injection H as <-. exists (ut_namespaces c). split; [apply fills_nil|]. apply becomes_refl. by destruct c.
  - apply rbind_ok in H as (st1 & H1 & H). rewrite Hc in H1. destruct (u_nss st !! d) as [dc|] eqn:Hd; [|done].
    assert (Hdk : uns_id st d = Some (un_id dc)) by (unfold uns_id; by rewrite Hd).
    destruct (ut_namespaces c !! un_id dc) as [x|] eqn:E; injection H1 as <-.
    + destruct (IH _ H c Hc) as (m & Hm & Hb). exists m. split; [|done]. eapply fills_skip; [done|by eexists|done].
    + set (c1 := ut_with_namespaces c (<[un_id dc := d]> (ut_namespaces c))).
      assert (B1 : tenant_becomes st t c1 (u_set_tenant st t c1)) by done.
      destruct (IH _ H c1 (becomes_at _ _ _ _ _ Hc B1)) as (m & Hm & Hb). exists m. split.
      * eapply fills_add; [done|done|]. exact Hm.
      * eapply becomes_trans; [exact B1|]. exact Hb.
Qed.
Lemma add_role_exact o st t rs st' y : ustep o st (UTAddRole t rs) = Ok (st', y) -> forall c, u_tenants st !! t = Some c ->
  exists X, (forall r, r ∈ X <-> r ∈ ut_roles c \/ exists l, l ∈ rs /\ urole_id st l = Some r)
    /\ tenant_becomes st t (ut_with_roles c X) st'.
Proof.
  simpl. unfold uret. rewrite rbind_ok. intros (s & H & [= <- _]). revert st H.
  unfold ut_add_role. induction rs as [|d ds IH]; intros st H c Hc; simpl in H.
  - injection H as <-. exists (ut_roles c). split; [|apply becomes_refl; by destruct c].
    intros r. split; [by left|]. intros [?|(l & Hl & _)]; [done|]. by apply elem_of_nil in Hl.
  - apply rbind_ok in H as (st1 & H1 & H). rewrite Hc in H1. destruct (h_roles (u_heap st) !! d) as [dc|] eqn:Hd; [|done].
    injection H1 as <-. assert (Hdk : urole_id st d = Some (r_id dc)) by (unfold urole_id; by rewrite Hd).
    set (c1 := ut_with_roles c ({[r_id dc]} ∪ ut_roles c)).
    assert (B1 : tenant_becomes st t c1 (u_set_tenant st t c1)) by done.
    destruct (IH _ H c1 (becomes_at _ _ _ _ _ Hc B1)) as (X & HX & Hb). exists X. split; [|by eapply becomes_trans; [exact B1|]].
    intros r. rewrite HX. change (urole_id (u_set_tenant st t c1)) with (urole_id st). simpl.
    rewrite elem_of_union, elem_of_singleton. clear -Hdk. split.
    + intros [[->|?]|(l & Hl & ?)]; [right; exists d; by split; [left|]|by left|right; exists l; by split; [right|]].
    + intros [?|(l & [->|Hl]%elem_of_cons & ?)]; [by left; right|left; left; congruence|right; by exists l].
Qed.
Lemma set_default_exact o st t ns st' y : ustep o st (UTSetDefault t ns) = Ok (st', y) -> forall c, u_tenants st !! t = Some c ->
  match ut_namespaces c !! ns with
  | None => st' = st
  | Some l => tenant_becomes st t (ut_with_default c (Some l)) st'
  end.
Proof.
  simpl. unfold uret. rewrite rbind_ok. intros (s & H & [= <- _]) c Hc. unfold ut_set_default in H. rewrite Hc in H.
  destruct (ut_namespaces c !! ns); by injection H as <-.
Qed.
