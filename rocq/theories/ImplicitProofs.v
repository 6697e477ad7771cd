(** Implicit tenants and the two caches. *)
From Verif Require Export RootInv.

(** ** The tenant graph only grows *)
Lemma tenant_edge_desc st a b : tenant_edge st a b <-> exists c k, s_tenants st !! a = Some c /\ t_desc c !! k = Some b.
Proof.
  split.
  - intros (m & k & Hm & Hk). unfold tenant_children_of in Hm. apply fmap_Some in Hm as (r & Hr & ->). by exists r, k.
  - intros (r & k & Hr & Hk). exists (t_desc r), k. unfold tenant_children_of. by rewrite Hr.
Qed.

(** [st'] has everything [st] has. *)
Record grows (st st' : state) : Prop := {
  gr_tenants : forall l c, s_tenants st !! l = Some c ->
    exists c', s_tenants st' !! l = Some c' /\ t_id c' = t_id c
      /\ (forall k d, t_desc c !! k = Some d -> t_desc c' !! k = Some d);
  gr_m_tenants : forall k l, m_tenants st !! k = Some l -> m_tenants st' !! k = Some l;
  gr_m_roles : forall k l, m_roles st !! k = Some l -> m_roles st' !! k = Some l;
  gr_m_groups : forall k l, m_groups st !! k = Some l -> m_groups st' !! k = Some l;
  gr_m_attributes : forall k a, m_attributes st !! k = Some a -> m_attributes st' !! k = Some a;
  gr_m_namespaces : m_namespaces st ⊆ m_namespaces st';
  gr_m_scopes : m_scopes st ⊆ m_scopes st';
  gr_m_principals : m_principals st ⊆ m_principals st';
  gr_cache : forall p U, m_cache st !! p = Some U -> m_cache st' !! p = Some U;
  gr_hierarchy : forall t ds, m_hierarchy st !! t = Some ds -> m_hierarchy st' !! t = Some ds
}.
Lemma grows_refl st : grows st st.
Proof. split; try done. intros l c H. by exists c. Qed.
Lemma grows_trans st1 st2 st3 : grows st1 st2 -> grows st2 st3 -> grows st1 st3.
Proof.
  intros [A1 A2 A3 A4 A5 A6 A7 A8 A9 A10] [B1 B2 B3 B4 B5 B6 B7 B8 B9 B10]. split; eauto; try by etrans.
  intros l c H. destruct (A1 _ _ H) as (c' & H' & E1 & E2). destruct (B1 _ _ H') as (c'' & H'' & F1 & F2).
  exists c''. split_and!; eauto. congruence.
Qed.
Lemma grows_heap st h : grows st (with_heap st h).
Proof. split; try done. intros l c H. by exists c. Qed.
Lemma grows_add_data st d : grows st (add_data st d).
Proof. split; try done. intros l c H. by exists c. Qed.
Lemma grows_set_tenant st l c c0 : s_tenants st !! l = Some c0 -> t_id c = t_id c0 ->
  (forall k d, t_desc c0 !! k = Some d -> t_desc c !! k = Some d) -> grows st (set_tenant st l c).
Proof.
  intros Hl Hid Hd. split; try done. intros l' c' H. rewrite (tenant_lookup_set _ _ _ _ _ Hl).
  destruct (decide (l = l')) as [<-|]; [|by exists c']. assert (c' = c0) as -> by congruence. by exists c.
Qed.
Lemma grows_repeat {A} (f : state -> A -> res state) st xs st' :
  (forall st x st', f st x = Ok st' -> grows st st') -> repeat_op f st xs = Ok st' -> grows st st'.
Proof.
  intros Hf H. eapply (repeat_op_pres (grows st)) in H; [done| |apply grows_refl].
  intros st1 x st2 H1 H2. eapply grows_trans; [done|]. eauto.
Qed.
Lemma grows_until {A} (f : state -> A -> res (state * goerr)) st xs st' e :
  (forall st x st' e, f st x = Ok (st', e) -> grows st st') -> until_error f st xs = Ok (st', e) -> grows st st'.
Proof.
  intros Hf H. eapply (until_error_pres (grows st)) in H; [done| |apply grows_refl].
  intros st1 x st2 e2 H1 H2. eapply grows_trans; [done|]. eauto.
Qed.
Lemma grows_add_namespace st t n st' : tenant_add_namespace st t n = Ok st' -> grows st st'.
Proof. unfold tenant_add_namespace. rewrite rbind_ok. intros (c & _ & [= <-]). apply grows_add_data. Qed.
Lemma grows_set_default st t n st' : tenant_set_default st t n = Ok st' -> grows st st'.
Proof.
  unfold tenant_set_default. rewrite rbind_ok. intros (c & Hc & [= <-]). apply managed_ok in Hc as [Hc _].
  case_bool_decide; [|apply grows_refl]. by eapply grows_set_tenant.
Qed.
Lemma grows_add_descendants st t ds st' : tenant_add_descendants st t ds = Ok st' -> grows st st'.
Proof.
  revert st. induction ds as [|d ds IH]; intros st; simpl; [intros [= <-]; apply grows_refl|].
  destruct (s_tenants st !! t) as [c|] eqn:Hc; [|done]. destruct (s_tenants st !! d) as [dc|] eqn:Hd; [|done].
  rewrite rbind_ok. intros (st2 & H2 & H). eapply grows_trans; [|by eapply IH].
  set (st1 := match t_desc c !! t_id dc with Some _ => st | None => _ end) in *.
  assert (G1 : grows st st1).
  { unfold st1. destruct (t_desc c !! t_id dc) eqn:E; [apply grows_refl|]. eapply grows_set_tenant; [done|done|].
    intros k d' Hk. simpl. rewrite lookup_insert_ne; [done|]. congruence. }
  eapply grows_trans; [exact G1|]. destruct (t_default c); [|injection H2 as <-; apply grows_refl].
  unfold pass_default in H2. apply rbind_ok in H2 as (st3 & H3 & H4).
  eapply grows_trans; [by eapply grows_add_namespace|by eapply grows_set_default].
Qed.
Lemma grows_with_hierarchy st t ds : m_hierarchy st !! t = None ->
  grows st (with_hierarchy st (<[t := ds]> (m_hierarchy st))).
Proof.
  intros Hn. split; try done; [intros l c H; by exists c|].
  intros t' ds' H. simpl. rewrite lookup_insert_ne; [done|]. congruence.
Qed.
Lemma grows_with_cache st p U : m_cache st !! p = None -> grows st (with_cache st (<[p := U]> (m_cache st))).
Proof.
  intros Hn. split; try done; [intros l c H; by exists c|].
  intros t' ds' H. simpl. rewrite lookup_insert_ne; [done|]. congruence.
Qed.
Lemma grows_tenant_children o st t st' ds : tenant_children o st t = Ok (st', ds) -> grows st st'.
Proof.
  unfold tenant_children. destruct (m_hierarchy st !! t) eqn:E; [intros [= <- <-]; apply grows_refl|].
  destruct (m_tenants st !! t); [|intros [= <- <-]; apply grows_refl].
  rewrite rbind_ok. intros (ds' & _ & [= <- <-]). by apply grows_with_hierarchy.
Qed.
Lemma tenant_children_cache o st t st' ds : tenant_children o st t = Ok (st', ds) -> m_cache st' = m_cache st.
Proof.
  unfold tenant_children. destruct (m_hierarchy st !! t) eqn:E; [by intros [= <- <-]|].
  destruct (m_tenants st !! t); [|by intros [= <- <-]].
  rewrite rbind_ok. by intros (ds' & _ & [= <- <-]).
Qed.
Lemma grows_implicit_loop o i st ex rs st' U : implicit_loop o i st ex rs = Ok (st', U) ->
  grows st st' /\ m_cache st' = m_cache st.
Proof.
  revert i st ex. induction rs as [|r rs IH]; intros i st ex; simpl; [intros [= <- <-]; split; [apply grows_refl|done]|].
  destruct (tenant r) as [|t| |]; try done. case_bool_decide; [apply IH|].
  destruct (manage r) as [| |[]|]; try apply IH.
  rewrite rbind_ok. intros ([st1 ds] & H1 & Hl). apply rbind_ok in Hl as (ex2 & _ & Hl).
  apply IH in Hl as [Hg Hc]. split; [eapply grows_trans; [by eapply grows_tenant_children|done]|].
  rewrite Hc. by eapply tenant_children_cache.
Qed.
Lemma grows_implicit o st p st' U : get_implicit_tenants o st p = Ok (st', U) -> grows st st'.
Proof.
  unfold get_implicit_tenants. destruct (m_cache st !! p) eqn:E; [intros [= <- <-]; apply grows_refl|].
  rewrite rbind_ok. intros ([st1 U'] & H & [= <- <-]). apply grows_implicit_loop in H as [Hg Hc].
  eapply grows_trans; [done|]. apply grows_with_cache. by rewrite Hc.
Qed.
Lemma implicit_caches o st p st' U : get_implicit_tenants o st p = Ok (st', U) -> m_cache st' !! p = Some U.
Proof.
  unfold get_implicit_tenants. destruct (m_cache st !! p) eqn:E; [by intros [= <- <-]|].
  rewrite rbind_ok. intros ([st1 U'] & H & [= <- <-]). simpl. by rewrite lookup_insert.
Qed.

Lemma step_grows o st x st' r : step o st x = Ok (st', r) -> grows st st'.
Proof.
  destruct x; simpl; intros H.
  - injection H as <- <-. apply grows_heap.
  - injection H as <- <-. apply grows_heap.
  - injection H as <- <-. split; try done. intros l c Hc. exists c. split; [simpl; by apply lookup_app_l_Some|done].
  - apply rbind_ok in H as (h & _ & [= <- <-]). apply grows_heap.
  - apply rbind_ok in H as (h & _ & [= <- <-]). apply grows_heap.
  - apply rbind_ok in H as (h & _ & [= <- <-]). apply grows_heap.
  - apply rbind_ok in H as (h & _ & [= <- <-]). apply grows_heap.
  - apply rbind_ok in H as (h & _ & [= <- <-]). apply grows_heap.
  - apply rbind_ok in H as (h & _ & [= <- <-]). apply grows_heap.
  - apply rbind_ok in H as ([st1 l] & H & [= <- <-]). unfold add_role in H.
    destruct (h_roles (s_heap st) !! r0) as [ro|]; [|done].
    destruct (m_roles st !! r_id ro) eqn:E; injection H as <- <-; [apply grows_refl|].
    split; try done; [intros l c Hc; by exists c|]. intros k l' Hk. simpl. rewrite lookup_insert_ne; [done|congruence].
  - apply rbind_ok in H as ([st1 l] & H & [= <- <-]). unfold add_attribute_group in H.
    destruct (h_groups (s_heap st) !! g) as [ro|]; [|done].
    destruct (m_groups st !! g_id ro) eqn:E; injection H as <- <-; [apply grows_refl|].
    split; try done; [intros l c Hc; by exists c|]. intros k l' Hk. simpl. rewrite lookup_insert_ne; [done|congruence].
  - apply rbind_ok in H as ([st1 l] & H & [= <- <-]). unfold add_tenant in H.
    destruct (s_tenants st !! t) as [c|] eqn:Hc; [|done].
    assert (G : grows st (set_tenant st t (Tenant (t_id c) (t_desc c) (t_default c) true))) by by eapply grows_set_tenant.
    destruct (m_tenants (set_tenant st t _) !! t_id c) eqn:E; injection H as <- <-; [done|].
    eapply grows_trans; [exact G|].
    split; try done; [intros l' c' Hc'; by exists c'|]. intros k l' Hk. simpl in *. rewrite lookup_insert_ne; [done|congruence].
  - injection H as <- <-. unfold add_namespace. case_bool_decide; [apply grows_refl|].
    split; try done; [intros l c Hc; by exists c|]. simpl. set_solver.
  - injection H as <- <-. unfold add_scope. case_bool_decide; [apply grows_refl|].
    split; try done; [intros l c Hc; by exists c|]. simpl. set_solver.
  - injection H as <- <-. unfold add_principal. case_bool_decide; [apply grows_refl|].
    split; try done; [intros l c Hc; by exists c|]. simpl. set_solver.
  - injection H as <- <-. unfold add_attribute. destruct (m_attributes st !! attr_string a) eqn:E; [apply grows_refl|].
    split; try done; [intros l c Hc; by exists c|]. intros k l' Hk. simpl. rewrite lookup_insert_ne; [done|congruence].
  - injection H as <- <-. apply grows_add_data.
  - apply rbind_ok in H as ([st1 e] & H & [= <- <-]). unfold add_permissions_to_role in H.
    destruct (m_roles st !! r0) as [rl|]; [|injection H as <- <-; apply grows_refl].
    destruct (m_groups st !! g) as [gl|]; [|injection H as <- <-; apply grows_refl].
    destruct (h_groups (s_heap st) !! gl) as [go|]; [|done].
    destruct (check_attrs go g attrs); [injection H as <- <-; apply grows_refl|].
    apply rbind_ok in H as ([h e'] & Hh & [= <- <-]). apply grows_heap.
  - apply rbind_ok in H as (st1 & H & [= <- <-]). eapply grows_repeat; [|exact H]. intros st0 x st2 H2. exact (grows_add_namespace _ _ _ _ H2).
  - apply rbind_ok in H as (st1 & H & [= <- <-]). by eapply grows_add_descendants.
  - apply rbind_ok in H as (st1 & H & [= <- <-]). unfold tenant_add_scopes_to_namespace in H.
    apply rbind_ok in H as (c & _ & [= <-]). apply grows_add_data.
  - apply rbind_ok in H as (st1 & H & [= <- <-]). by eapply grows_set_default.
  - apply rbind_ok in H as (st1 & H & [= <- <-]). unfold tenant_add_principal_in_namespace in H.
    apply rbind_ok in H as (c & _ & [= <-]). apply grows_add_data.
  - apply rbind_ok in H as (st1 & H & [= <- <-]). eapply grows_repeat; [|exact H]. intros st0 x st2 H2.
    unfold tenant_add_role in H2. apply rbind_ok in H2 as (c & _ & H2).
    destruct (h_roles (s_heap st0) !! x); [|done]. injection H2 as <-. apply grows_add_data.
  - apply rbind_ok in H as (st1 & H & [= <- <-]). eapply grows_repeat; [|exact H]. intros st0 x st2 H2.
    unfold tenant_add_scope in H2. apply rbind_ok in H2 as (c & _ & [= <-]). apply grows_add_data.
  - apply rbind_ok in H as ([st1 e] & H & [= <- <-]). eapply grows_until; [|exact H]. intros st0 x st2 e2 H2.
    unfold tenant_add_principal_with_role in H2. apply rbind_ok in H2 as (c & _ & H2).
    destruct (negb _); [injection H2 as <- <-; apply grows_refl|].
    destruct (m_roles st0 !! x); [|injection H2 as <- <-; apply grows_refl]. injection H2 as <- <-.
    destruct (t_default c); [eapply grows_trans|]; apply grows_add_data.
  - apply rbind_ok in H as ([st1 e] & H & [= <- <-]). eapply grows_until; [|exact H]. intros st0 x st2 e2 H2.
    unfold tenant_add_scope_to_principal in H2. apply rbind_ok in H2 as (c & _ & H2).
    destruct (negb _); [injection H2 as <- <-; apply grows_refl|].
    destruct (negb _); [injection H2 as <- <-; apply grows_refl|]. injection H2 as <- <-.
    destruct (t_default c); [eapply grows_trans|]; apply grows_add_data.
  - apply rbind_ok in H as ([st1 ds] & H & [= <- <-]). by eapply grows_tenant_children.
  - apply rbind_ok in H as ([st1 ds] & H & [= <- <-]). by eapply grows_implicit.
  - apply rbind_ok in H as ([st1 b] & H & [= <- <-]). apply authorize_state in H as [->|(U & H)]; [apply grows_refl|].
    by eapply grows_implicit.
Qed.
Lemma run_grows o i st ops st' outs : run o i st ops = Ok (st', outs) -> grows st st'.
Proof.
  eapply (run_inv (grows st)); [|apply grows_refl]. intros o' st1 x st2 r G H.
  eapply grows_trans; [done|]. by eapply step_grows.
Qed.

Lemma grows_edge st st' a b : grows st st' -> tenant_edge st a b -> tenant_edge st' a b.
Proof.
  intros G (c & k & Hc & Hk)%tenant_edge_desc. apply tenant_edge_desc.
  destruct (gr_tenants _ _ G _ _ Hc) as (c' & Hc' & _ & Hd). exists c', k. eauto.
Qed.
Lemma grows_below st st' t d : grows st st' -> below st t d -> below st' t d.
Proof.
  intros G (l & m & Hl & Hm & c & Hc & Hid). exists l, m. split_and!.
  - by eapply gr_m_tenants.
  - eapply tc_mono; [|done]. intros a b. by apply grows_edge.
  - destruct (gr_tenants _ _ G _ _ Hc) as (c' & Hc' & E & _). exists c'. split; [done|congruence].
Qed.

(** ** Descendants *)
Lemma tenant_dom st l : is_Some (tenant_children_of st l) -> l < length (s_tenants st).
Proof. unfold tenant_children_of. rewrite fmap_is_Some. apply lookup_lt_is_Some_1. Qed.
Lemma tenant_closed st l d : state_wf st -> tenant_edge st l d -> is_Some (tenant_children_of st d).
Proof.
  intros W (c & k & Hc & Hk)%tenant_edge_desc. destruct (wf_t_desc _ W _ _ _ _ Hc Hk) as (c' & Hc' & _).
  unfold tenant_children_of. rewrite Hc'. by eexists.
Qed.
Lemma descend_ok_key st n o l r : state_wf st -> descend (tenant_children_of st) n o l = Ok r ->
  forall k m, (k, m) ∈ r -> tenant_id_at st m k.
Proof.
  intros W Hr k m Hin. destruct (descend_sound _ _ _ _ _ Hr _ Hin) as (p & ch & _ & Hm & Hk). simpl in Hk.
  unfold tenant_children_of in Hm. apply fmap_Some in Hm as (c & Hc & ->). exact (wf_t_desc _ W _ _ _ _ Hc Hk).
Qed.
Lemma tenant_descendants_exact o st l : state_wf st -> is_Some (s_tenants st !! l) ->
  (exists ds, tenant_descendants o st l = Ok ds
     /\ forall x, x ∈ ds <-> exists m d, x = AStr d /\ tc (tenant_edge st) l m /\ tenant_id_at st m d)
  /\ tenants_acyclic st l
  \/ tenant_descendants o st l = Hang /\ ~ tenants_acyclic st l.
Proof.
  intros W Hl.
  destruct (descend_exact (tenant_children_of st) (length (s_tenants st)) (tenant_dom st)
    (fun a b => tenant_closed st a b W) (S (length (s_tenants st))) o l) as [[(r & Hr) Hc]|[Hr Hc]].
  - lia.
  - unfold tenant_children_of. by apply fmap_is_Some.
  - left. split; [|done]. unfold tenant_descendants. rewrite Hr. simpl. eexists. split; [done|].
    intros x. rewrite elem_of_list_fmap. split.
    + intros (d & -> & Hd). apply elem_of_list_fmap in Hd as ([k m] & -> & Hin). simpl.
      exists m, k.
      assert (Hin' : m ∈ r.*2) by (apply elem_of_list_fmap; by exists (k, m)).
      split; [done|]. split; [by apply (descend_ok_elem _ _ _ _ _ Hr)|]. by eapply descend_ok_key.
    + intros (m & d & -> & Hm & Hid). apply (descend_ok_elem _ _ _ _ _ Hr) in Hm.
      exists d. split; [done|]. apply elem_of_list_fmap in Hm as ([k m'] & -> & Hin). simpl in Hid.
      assert (Hk : tenant_id_at st m' k) by by eapply descend_ok_key.
      destruct Hid as (c & Hc1 & <-), Hk as (c' & Hc2 & <-). assert (c' = c) as -> by congruence.
      apply elem_of_list_fmap. by exists (t_id c, m').
  - right. unfold tenant_descendants. rewrite Hr. split; [done|]. intros Ha. by apply Ha.
Qed.

(** ** Cached descendant lists are sound in every reachable state *)
Definition hierarchy_sound (st : state) : Prop :=
  forall t ds x, m_hierarchy st !! t = Some ds -> x ∈ ds -> exists d, x = AStr d /\ below st t d.
Lemma hierarchy_sound_mono st st' : hierarchy_sound st -> grows st st' ->
  (forall t ds x, m_hierarchy st' !! t = Some ds -> x ∈ ds -> (exists d, x = AStr d /\ below st t d) \/ m_hierarchy st !! t = Some ds) ->
  hierarchy_sound st'.
Proof.
  intros Hs G Hh t ds x Ht Hx. destruct (Hh _ _ _ Ht Hx) as [(d & -> & Hd)|Ho].
  - exists d. split; [done|]. by eapply grows_below.
  - destruct (Hs _ _ _ Ho Hx) as (d & -> & Hd). exists d. split; [done|]. by eapply grows_below.
Qed.
Lemma tenant_children_ok o st t st' ds : state_wf st -> hierarchy_sound st ->
  tenant_children o st t = Ok (st', ds) ->
  hierarchy_sound st' /\ (forall x, x ∈ ds -> exists d, x = AStr d /\ below st t d)
  /\ ((forall d, below st t d -> AStr d ∈ ds) \/ m_hierarchy st !! t = Some ds)
  /\ (forall t' ds', m_hierarchy st' !! t' = Some ds' -> m_hierarchy st !! t' = Some ds' \/
        forall d, below st t' d -> AStr d ∈ ds').
Proof.
  intros W Hs H. pose proof (grows_tenant_children _ _ _ _ _ H) as G. unfold tenant_children in H.
  destruct (m_hierarchy st !! t) as [ds0|] eqn:Hh.
  { injection H as <- <-. split_and!; [done| |by right|by left]. intros x Hx. by eapply Hs. }
  destruct (m_tenants st !! t) as [l|] eqn:Hl.
  2:{ injection H as <- <-. split_and!; [done| | |by left]; [by intros x Hx%elem_of_nil|].
      left. intros d (l & m & ? & _). congruence. }
  apply rbind_ok in H as (ds0 & Hds & [= <- <-]).
  destruct (wf_m_tenants _ W _ _ Hl) as (c & Hc & _).
  destruct (tenant_descendants_exact o st l W) as [[(ds1 & H1 & Hspec) _]|[? _]]; [by eexists| |congruence].
  assert (ds1 = ds0) as -> by congruence.
  assert (Hin : forall x, x ∈ ds0 -> exists d, x = AStr d /\ below st t d).
  { intros x (m & d & -> & ? & ?)%Hspec. exists d. split; [done|]. by exists l, m. }
  assert (Hall : forall d, below st t d -> AStr d ∈ ds0).
  { intros d (l' & m & Hl' & Hm & Hd). apply Hspec. exists m, d. assert (l' = l) as -> by congruence. done. }
  split_and!; [| done | by left |].
  - apply (hierarchy_sound_mono st _ Hs G). intros t' ds' x Ht Hx. simpl in Ht.
    apply lookup_insert_Some in Ht as [[<- <-]|[_ Ht]]; [left|by right]. apply Hin. by rewrite elem_of_compact in Hx.
  - intros t' ds' Ht. simpl in Ht. apply lookup_insert_Some in Ht as [[<- <-]|[_ Ht]]; [right|by left].
    intros d Hd. rewrite elem_of_compact. auto.
Qed.
Lemma below_same st st' t d : same_but_caches st st' -> below st' t d <-> below st t d.
Proof. intros (hi & ca & ->). by destruct st. Qed.
Lemma stored_same st st' d : same_but_caches st st' -> stored st' d <-> stored st d.
Proof. intros (hi & ca & ->). by destruct st. Qed.

Lemma add_children_ok ex ds ex' : add_children ex ds = Ok ex' ->
  forall s, s ∈ ex' <-> s ∈ ex \/ AStr s ∈ ds.
Proof.
  revert ex. induction ds as [|x ds IH]; intros ex; simpl.
  - intros [= <-] s. split; [by left|]. intros [?|H]; [done|by apply elem_of_nil in H].
  - destruct x as [|d| |]; try done; intros H s; rewrite (IH _ H), elem_of_cons.
    + naive_solver.
    + rewrite elem_of_union, elem_of_singleton. naive_solver.
Qed.

Definition row_tenant (rs : list data) (t : string) : Prop := exists d, d ∈ rs /\ tenant d = AStr t.
Definition row_manages (rs : list data) (t : string) : Prop :=
  exists d, d ∈ rs /\ tenant d = AStr t /\ manage d = ABool true.

Lemma implicit_loop_bounds o i st ex rs st' U : state_wf st -> hierarchy_sound st ->
  implicit_loop o i st ex rs = Ok (st', U) ->
  hierarchy_sound st' /\
  (forall t, t ∈ ex -> t ∈ U) /\ (forall t, row_tenant rs t -> t ∈ U)
  /\ (forall t, t ∈ U -> t ∈ ex \/ row_tenant rs t \/ exists t0, row_manages rs t0 /\ below st t0 t).
Proof.
  revert i st ex. induction rs as [|r rs IH]; intros i st ex W Hs; simpl.
  - intros [= <- <-]. split_and!; auto. intros t (d & H & _). by apply elem_of_nil in H.
  - assert (Hcons : forall t, row_tenant (r :: rs) t <-> tenant r = AStr t \/ row_tenant rs t).
    { intros t. unfold row_tenant. setoid_rewrite elem_of_cons. naive_solver. }
    assert (Hmcons : forall t, row_manages (r :: rs) t <-> tenant r = AStr t /\ manage r = ABool true \/ row_manages rs t).
    { intros t. unfold row_manages. setoid_rewrite elem_of_cons. naive_solver. }
    destruct (tenant r) as [|t| |] eqn:Ht; try done.
    assert (Hsimple : forall ex1, (forall t0, t0 ∈ ex1 <-> t0 ∈ ex \/ t0 = t) ->
       implicit_loop o (S i) st ex1 rs = Ok (st', U) ->
       hierarchy_sound st' /\
       (forall t, t ∈ ex -> t ∈ U) /\ (forall t, row_tenant (r :: rs) t -> t ∈ U)
       /\ (forall t, t ∈ U -> t ∈ ex \/ row_tenant (r :: rs) t \/ exists t0, row_manages (r :: rs) t0 /\ below st t0 t)).
    { intros ex1 Hex H. destruct (IH _ _ _ W Hs H) as (H0 & H1 & H2 & H3). split_and!; [done| | |].
      - intros t0 Ht0. apply H1, Hex. by left.
      - intros t0 [?|?]%Hcons; [|auto]. apply H1, Hex. right. congruence.
      - intros t0 Ht0. apply H3 in Ht0 as [Ht0|[Ht0|(t1 & ? & ?)]].
        + apply Hex in Ht0 as [?| ->]; [by left|]. right; left. apply Hcons. by left.
        + right; left. apply Hcons. by right.
        + right; right. exists t1. split; [|done]. apply Hmcons. by right. }
    case_bool_decide as Hin.
    { apply Hsimple. intros t0. split; [by left|]. intros [?| ->]; done. }
    assert (Hex1 : forall t0, t0 ∈ ({[t]} ∪ ex : gset string) <-> t0 ∈ ex \/ t0 = t).
    { intros t0. rewrite elem_of_union, elem_of_singleton. tauto. }
    destruct (manage r) as [| |[]|] eqn:Hm; try (by apply Hsimple).
    rewrite rbind_ok. intros ([st1 ds] & H1 & Hl). apply rbind_ok in Hl as (ex2 & Hex2 & Hl). cbn [fst snd] in *.
    destruct (tenant_children_ok _ _ _ _ _ W Hs H1) as (Hs1 & Hds & _).
    pose proof (tenant_children_same _ _ _ _ _ H1) as Hsame.
    destruct (wf_tenant_children _ _ _ _ _ W H1) as [W1 _].
    pose proof (add_children_ok _ _ _ Hex2) as Hadd.
    destruct (IH _ _ _ W1 Hs1 Hl) as (I0 & I1 & I2 & I3). split_and!; [done| | |].
    + intros t0 Ht0. apply I1, Hadd. left. apply Hex1. by left.
    + intros t0 [?|?]%Hcons; [|auto]. apply I1, Hadd. left. apply Hex1. right. congruence.
    + intros t0 Ht0. apply I3 in Ht0 as [Ht0|[Ht0|(t1 & ? & Hb)]].
      * apply Hadd in Ht0 as [Ht0|Ht0].
        -- apply Hex1 in Ht0 as [?| ->]; [by left|]. right; left. apply Hcons. by left.
        -- apply Hds in Ht0 as (d & [= <-] & Hb). right; right. exists t. split; [|done]. apply Hmcons. by left.
      * right; left. apply Hcons. by right.
      * right; right. exists t1. split; [apply Hmcons; by right|]. by apply (below_same _ _ _ _ Hsame).
Qed.

(** Completeness, when the flags of equal tenants agree and descendants are the registered objects. *)
Lemma coherent_registered st : (forall l c k d, s_tenants st !! l = Some c -> t_desc c !! k = Some d -> m_tenants st !! k = Some d) -> tenants_coherent st.
Proof. intros H l c k d d' Hl Hk Hd. rewrite (H _ _ _ _ Hl Hk) in Hd. injection Hd as <-. reflexivity. Qed.
Lemma below_trans st t0 t d : state_wf st -> tenants_coherent st ->
  below st t0 t -> below st t d -> below st t0 d.
Proof.
  intros W Hco (l0 & m & Hl0 & Hm & c & Hc & Hid) (l & m' & Hl & Hm' & Hid').
  exists l0, m'. split_and!; [done| |done].
  destruct (tc_last _ _ _ Hm) as (q & _ & (cq & k & Hq & Hk)%tenant_edge_desc).
  destruct (wf_t_desc _ W _ _ _ _ Hq Hk) as (c' & Hc' & Hid2). assert (c' = c) as -> by congruence.
  assert (k = t) as -> by congruence. pose proof (Hco _ _ _ _ _ Hq Hk Hl) as ->.
  by eapply tc_transitive.
Qed.

Lemma implicit_loop_complete o i st ex done rs st' U : state_wf st -> hierarchy_sound st -> hierarchy_fresh st ->
  tenants_coherent st ->
  (forall d d', d ∈ done ++ rs -> d' ∈ done ++ rs -> tenant d = tenant d' -> manage d = ABool true -> manage d' = ABool true) ->
  (forall t, t ∈ ex -> row_tenant done t \/ exists t0, row_manages done t0 /\ below st t0 t) ->
  (forall t0 t, row_manages done t0 -> below st t0 t -> t ∈ ex) ->
  implicit_loop o i st ex rs = Ok (st', U) ->
  forall t0 t, row_manages (done ++ rs) t0 -> below st t0 t -> t ∈ U.
Proof.
  revert i st ex done. induction rs as [|r rs IH]; intros i st ex done W Hs Hf Hco Hag I1 I2; simpl.
  - intros [= <- <-] t0 t. rewrite app_nil_r. apply I2.
  - intros H. rewrite cons_middle, app_assoc in Hag |- *.
    assert (Hsnoc : forall t, row_tenant (done ++ [r]) t <-> row_tenant done t \/ tenant r = AStr t).
    { intros t. unfold row_tenant. setoid_rewrite elem_of_app. setoid_rewrite elem_of_list_singleton. naive_solver. }
    assert (Hmsnoc : forall t, row_manages (done ++ [r]) t <-> row_manages done t \/ tenant r = AStr t /\ manage r = ABool true).
    { intros t. unfold row_manages. setoid_rewrite elem_of_app. setoid_rewrite elem_of_list_singleton. naive_solver. }
    destruct (tenant r) as [|t| |] eqn:Ht; try done.
    destruct (bool_decide (t ∈ ex)) eqn:Hin.
    { apply bool_decide_eq_true in Hin.
      eapply (IH _ _ _ (done ++ [r])); [done|done|done|done|done| | |exact H].
      - intros t1 Ht1. apply I1 in Ht1 as [?|(t0 & ? & ?)]; [left; apply Hsnoc; by left|right].
        exists t0. split; [|done]. apply Hmsnoc. by left.
      - intros t0 t1 Hm Hb. apply Hmsnoc in Hm as [Hm|[E Hm]]; [by eapply I2|]. injection E as <-.
        apply I1 in Hin as [(d & Hd & Htd)|(t0 & Hm0 & Hb0)].
        + apply (I2 t); [|done]. exists d. split_and!; [done|done|].
          apply (Hag r d); [| |congruence|done]; rewrite !elem_of_app.
          * left; right; left.
          * by left; left.
        + apply (I2 t0); [done|]. by eapply below_trans. }
    apply bool_decide_eq_false in Hin.
    assert (Hno : manage r <> ABool true -> implicit_loop o (S i) st ({[t]} ∪ ex) rs = Ok (st', U) ->
      forall t0 t1, row_manages ((done ++ [r]) ++ rs) t0 -> below st t0 t1 -> t1 ∈ U).
    { intros Hnm Hl. eapply (IH _ _ _ (done ++ [r])); [done|done|done|done|done| | |exact Hl].
      - intros t1 Ht1. apply elem_of_union in Ht1 as [->%elem_of_singleton|Ht1]; [left; apply Hsnoc; by right|].
        apply I1 in Ht1 as [?|(t0 & ? & ?)]; [left; apply Hsnoc; by left|right].
        exists t0. split; [|done]. apply Hmsnoc. by left.
      - intros t0 t1 Hm Hb. apply elem_of_union. right. apply Hmsnoc in Hm as [Hm|[E Hm]]; [by eapply I2|done]. }
    destruct (manage r) as [| |[]|] eqn:Hm; try by apply Hno. clear Hno.
    apply rbind_ok in H as ([st1 ds] & H1 & Hl). apply rbind_ok in Hl as (ex2 & Hex2 & Hl). cbn [fst snd] in *.
    destruct (tenant_children_ok _ _ _ _ _ W Hs H1) as (Hs1 & Hds & Hall & Hh).
    pose proof (tenant_children_same _ _ _ _ _ H1) as Hsame.
    destruct (wf_tenant_children _ _ _ _ _ W H1) as [W1 _].
    pose proof (add_children_ok _ _ _ Hex2) as Hadd.
    assert (Hall' : forall d, below st t d -> AStr d ∈ ds).
    { destruct Hall as [?|Hc]; [done|]. intros d. by apply Hf. }
    assert (Hgoal : forall t0 t1, row_manages ((done ++ [r]) ++ rs) t0 -> below st1 t0 t1 -> t1 ∈ U).
    { eapply (IH _ _ _ (done ++ [r])); [done|done| | |done| | |exact Hl].
      - intros t' ds' d Ht' Hb%(below_same _ _ _ _ Hsame). destruct (Hh _ _ Ht') as [?|?]; [by eapply Hf|auto].
      - destruct Hsame as (hi & ca & ->). exact Hco.
      - intros t1 Ht1. apply Hadd in Ht1 as [Ht1|Ht1].
        + apply elem_of_union in Ht1 as [->%elem_of_singleton|Ht1]; [left; apply Hsnoc; by right|].
          apply I1 in Ht1 as [?|(t0 & ? & ?)]; [left; apply Hsnoc; by left|right].
          exists t0. split; [apply Hmsnoc; by left|]. by apply (below_same _ _ _ _ Hsame).
        + apply Hds in Ht1 as (d & [= <-] & Hb). right. exists t. split; [apply Hmsnoc; by right|].
          by apply (below_same _ _ _ _ Hsame).
      - intros t0 t1 Hm1 Hb%(below_same _ _ _ _ Hsame). apply Hadd. apply Hmsnoc in Hm1 as [Hm1|[E _]].
        + left. apply elem_of_union. right. by eapply I2.
        + injection E as <-. right. auto. }
    intros t0 t1 Hm1 Hb. eapply Hgoal; [done|]. by apply (below_same _ _ _ _ Hsame).
Qed.

(** ** GetImplicitTenants *)
Lemma implicit_rows o st p d :
  d ∈ search o st (row_filter ANil ANil ANil (AStr p)) filter_tenants_by_principal
  <-> stored st d /\ principal d = AStr p /\ tenant d <> ANil.
Proof. apply (get_tenants_spec o st p d). Qed.

Lemma implicit_hierarchy_sound o st p st' U : state_wf st -> hierarchy_sound st ->
  get_implicit_tenants o st p = Ok (st', U) -> hierarchy_sound st'.
Proof.
  intros W Hs. unfold get_implicit_tenants. destruct (m_cache st !! p); [by intros [= <- <-]|].
  rewrite rbind_ok. intros ([st1 U'] & H & [= <- <-]).
  destruct (implicit_loop_bounds _ _ _ _ _ _ _ W Hs H) as (Hs1 & _). intros t ds x Ht Hx. simpl in Ht.
  destruct (Hs1 _ _ _ Ht Hx) as (d & -> & Hd). exists d. split; [done|]. by destruct st1.
Qed.

Lemma set_default_hierarchy st t n st' : tenant_set_default st t n = Ok st' -> m_hierarchy st' = m_hierarchy st.
Proof. unfold tenant_set_default. rewrite rbind_ok. intros (c & _ & [= <-]). by case_bool_decide. Qed.
Lemma add_descendants_hierarchy st t ds st' : tenant_add_descendants st t ds = Ok st' -> m_hierarchy st' = m_hierarchy st.
Proof.
  revert st. induction ds as [|d ds IH]; intros st; simpl; [by intros [= <-]|].
  destruct (s_tenants st !! t) as [c|]; [|done]. destruct (s_tenants st !! d) as [dc|]; [|done].
  rewrite rbind_ok. intros (st2 & H2 & H). rewrite (IH _ H).
  assert (E : forall st1, match t_default c with None => Ok st1 | Some n => pass_default st1 d n end = Ok st2 ->
              m_hierarchy st2 = m_hierarchy st1).
  { intros st1 H1. destruct (t_default c) as [n|]; [|by simplify_eq].
    unfold pass_default in H1. apply rbind_ok in H1 as (st3 & H3 & H4).
    rewrite (set_default_hierarchy _ _ _ _ H4). by apply rbind_ok in H3 as (c' & _ & [= <-]). }
  rewrite (E _ H2). by destruct (t_desc c !! t_id dc).
Qed.
Lemma step_hierarchy o st x st' r : step o st x = Ok (st', r) -> is_query x \/ m_hierarchy st' = m_hierarchy st.
Proof.
  destruct x; simpl; intros H; try (by left); right.
  all: try (by injection H as <- <-).
  all: try (by apply rbind_ok in H as (h & _ & [= <- <-])).
  - apply rbind_ok in H as ([st1 l] & H & [= <- <-]). unfold add_role in H.
    destruct (h_roles (s_heap st) !! r0) as [ro|]; [|done]. by destruct (m_roles st !! r_id ro); injection H as <- <-.
  - apply rbind_ok in H as ([st1 l] & H & [= <- <-]). unfold add_attribute_group in H.
    destruct (h_groups (s_heap st) !! g) as [ro|]; [|done]. by destruct (m_groups st !! g_id ro); injection H as <- <-.
  - apply rbind_ok in H as ([st1 l] & H & [= <- <-]). unfold add_tenant in H.
    destruct (s_tenants st !! t) as [c|] eqn:Hc; [|done].
    by destruct (m_tenants (set_tenant st t _) !! t_id c); injection H as <- <-.
  - injection H as <- <-. unfold add_namespace. by case_bool_decide.
  - injection H as <- <-. unfold add_scope. by case_bool_decide.
  - injection H as <- <-. unfold add_principal. by case_bool_decide.
  - injection H as <- <-. unfold add_attribute. by destruct (m_attributes st !! attr_string a).
  - apply rbind_ok in H as ([st1 e] & H & [= <- <-]). unfold add_permissions_to_role in H.
    destruct (m_roles st !! r0) as [rl|]; [|by injection H as <- <-].
    destruct (m_groups st !! g) as [gl|]; [|by injection H as <- <-].
    destruct (h_groups (s_heap st) !! gl) as [go|]; [|done].
    destruct (check_attrs go g attrs); [by injection H as <- <-|].
    by apply rbind_ok in H as ([h e'] & Hh & [= <- <-]).
  - apply rbind_ok in H as (st1 & H & [= <- <-]).
    eapply (repeat_op_pres (fun s => m_hierarchy s = m_hierarchy st)) in H; [done| |done].
    intros st0 x st2 E H2. unfold tenant_add_namespace in H2. by apply rbind_ok in H2 as (c & _ & [= <-]).
  - apply rbind_ok in H as (st1 & H & [= <- <-]). by eapply add_descendants_hierarchy.
  - apply rbind_ok in H as (st1 & H & [= <- <-]). unfold tenant_add_scopes_to_namespace in H.
    by apply rbind_ok in H as (c & _ & [= <-]).
  - apply rbind_ok in H as (st1 & H & [= <- <-]). by eapply set_default_hierarchy.
  - apply rbind_ok in H as (st1 & H & [= <- <-]). unfold tenant_add_principal_in_namespace in H.
    by apply rbind_ok in H as (c & _ & [= <-]).
  - apply rbind_ok in H as (st1 & H & [= <- <-]).
    eapply (repeat_op_pres (fun s => m_hierarchy s = m_hierarchy st)) in H; [done| |done].
    intros st0 x st2 E H2. unfold tenant_add_role in H2. apply rbind_ok in H2 as (c & _ & H2).
    destruct (h_roles (s_heap st0) !! x); [|done]. by injection H2 as <-.
  - apply rbind_ok in H as (st1 & H & [= <- <-]).
    eapply (repeat_op_pres (fun s => m_hierarchy s = m_hierarchy st)) in H; [done| |done].
    intros st0 x st2 E H2. unfold tenant_add_scope in H2. by apply rbind_ok in H2 as (c & _ & [= <-]).
  - apply rbind_ok in H as ([st1 e] & H & [= <- <-]).
    eapply (until_error_pres (fun s => m_hierarchy s = m_hierarchy st)) in H; [done| |done].
    intros st0 x st2 e2 E H2. unfold tenant_add_principal_with_role in H2. apply rbind_ok in H2 as (c & _ & H2).
    destruct (negb _); [by injection H2 as <- <-|].
    destruct (m_roles st0 !! x); [|by injection H2 as <- <-]. injection H2 as <- <-. by destruct (t_default c).
  - apply rbind_ok in H as ([st1 e] & H & [= <- <-]).
    eapply (until_error_pres (fun s => m_hierarchy s = m_hierarchy st)) in H; [done| |done].
    intros st0 x st2 e2 E H2. unfold tenant_add_scope_to_principal in H2. apply rbind_ok in H2 as (c & _ & H2).
    destruct (negb _); [by injection H2 as <- <-|].
    destruct (negb _); [by injection H2 as <- <-|]. injection H2 as <- <-. by destruct (t_default c).
Qed.
Lemma step_hierarchy_sound o st x st' r : state_wf st -> hierarchy_sound st -> step o st x = Ok (st', r) -> hierarchy_sound st'.
Proof.
  intros W Hs H. pose proof (step_grows _ _ _ _ _ H) as G.
  destruct (step_hierarchy _ _ _ _ _ H) as [Hq|E].
  2:{ apply (hierarchy_sound_mono st _ Hs G). intros t ds x0 Ht Hx. right. by rewrite E in Ht. }
  destruct x; try done; simpl in H.
  - apply rbind_ok in H as ([st1 ds] & H & [= <- <-]). by apply (tenant_children_ok _ _ _ _ _ W Hs) in H as [? _].
  - apply rbind_ok in H as ([st1 U] & H & [= <- <-]). by eapply implicit_hierarchy_sound.
  - apply rbind_ok in H as ([st1 b] & H & [= <- <-]). apply authorize_state in H as [->|(U & H)]; [done|].
    by eapply implicit_hierarchy_sound.
Qed.
Lemma reachable_hierarchy st : reachable st -> state_wf st /\ hierarchy_sound st.
Proof.
  apply (reachable_inv (fun st => state_wf st /\ hierarchy_sound st)).
  - split; [apply state_wf_init|]. intros t ds x H. simpl in H. by rewrite lookup_empty in H.
  - intros o st0 x st' r [W Hs] H. split; [by eapply step_wf|by eapply step_hierarchy_sound].
Qed.

Lemma row_tenant_own o st p t :
  row_tenant (search o st (row_filter ANil ANil ANil (AStr p)) filter_tenants_by_principal) t <-> own st p t.
Proof.
  unfold row_tenant, own. setoid_rewrite implicit_rows. split; intros (d & H); exists d; [naive_solver|].
  destruct H as (? & ? & ?). split_and!; [done|done|congruence|done].
Qed.
Lemma row_manages_manages o st p t :
  row_manages (search o st (row_filter ANil ANil ANil (AStr p)) filter_tenants_by_principal) t <-> manages st p t.
Proof.
  unfold row_manages, manages. setoid_rewrite implicit_rows. split; intros (d & H); exists d; [naive_solver|].
  destruct H as (? & ? & ? & ?). split_and!; [done|done|congruence|done|done].
Qed.

Lemma implicit_bounds o st p st' U : state_wf st -> hierarchy_sound st -> m_cache st !! p = None ->
  get_implicit_tenants o st p = Ok (st', U) ->
  (forall t, own st p t -> t ∈ U)
  /\ (forall t, t ∈ U -> own st p t \/ exists t0, manages st p t0 /\ below st t0 t).
Proof.
  intros W Hs Hc. unfold get_implicit_tenants. rewrite Hc, rbind_ok. intros ([st1 U'] & H & [= <- <-]).
  destruct (implicit_loop_bounds _ _ _ _ _ _ _ W Hs H) as (_ & _ & H2 & H3). split.
  - intros t Ht. apply H2. by apply (row_tenant_own (sub o 0)).
  - intros t [Ht|[Ht|(t0 & Ht & ?)]]%H3; [done|left|right].
    + by apply row_tenant_own in Ht.
    + exists t0. split; [|done]. by apply row_manages_manages in Ht.
Qed.
Lemma implicit_exact o st p st' U : state_wf st -> hierarchy_sound st -> hierarchy_fresh st -> tenants_coherent st ->
  flags_agree st p -> m_cache st !! p = None ->
  get_implicit_tenants o st p = Ok (st', U) ->
  forall t, t ∈ U <-> own st p t \/ exists t0, manages st p t0 /\ below st t0 t.
Proof.
  intros W Hs Hf Hco Hag Hc H t. destruct (implicit_bounds _ _ _ _ _ W Hs Hc H) as [B1 B2]. split; [apply B2|].
  intros [?|(t0 & Hm & Hb)]; [auto|]. revert H. unfold get_implicit_tenants. rewrite Hc, rbind_ok.
  intros ([st1 U'] & H & [= <- <-]).
  eapply (implicit_loop_complete _ _ _ _ [] _ _ _ W Hs Hf Hco); [| | |exact H| |exact Hb].
  - simpl. intros d d' Hd Hd'. apply implicit_rows in Hd as (? & ? & _), Hd' as (? & ? & _). by apply Hag.
  - intros t1 Ht1. by apply elem_of_empty in Ht1.
  - intros t1 t2 (d & Hd & _). by apply elem_of_nil in Hd.
  - simpl. by apply row_manages_manages.
Qed.
