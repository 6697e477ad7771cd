(** The registries hold the first object offered under each id. *)
From Verif Require Export RegSpec RootRows ImplicitProofs.

Definition regs (st : state) :=
  (m_tenants st, m_namespaces st, m_scopes st, m_principals st, (m_roles st, m_attributes st, m_groups st)).
Definition reg_one {A} (m : gmap string A) (k : option string) (a : A) : gmap string A :=
  match k with None => m | Some k => match m !! k with Some _ => m | None => <[k := a]> m end end.
Definition regs_after (st : state) (x : op) :=
  ( match x with OAddTenant l => reg_one (m_tenants st) (t_id <$> s_tenants st !! l) l | _ => m_tenants st end,
    match x with OAddNamespace id => {[id]} ∪ m_namespaces st | _ => m_namespaces st end,
    match x with OAddScope id => {[id]} ∪ m_scopes st | _ => m_scopes st end,
    match x with OAddPrincipal id => {[id]} ∪ m_principals st | _ => m_principals st end,
    ( match x with OAddRole l => reg_one (m_roles st) (r_id <$> h_roles (s_heap st) !! l) l | _ => m_roles st end,
      match x with OAddAttribute a => reg_one (m_attributes st) (Some (attr_string a)) a | _ => m_attributes st end,
      match x with OAddGroup l => reg_one (m_groups st) (g_id <$> h_groups (s_heap st) !! l) l | _ => m_groups st end)).

Lemma repeat_regs {A} (f : state -> A -> res state) st xs st' :
  (forall st x st', f st x = Ok st' -> regs st' = regs st) -> repeat_op f st xs = Ok st' -> regs st' = regs st.
Proof.
  intros Hf H. apply (repeat_op_pres (fun s => regs s = regs st) f st xs st'); [|done|done].
  intros s x s' Hs H'. rewrite <-Hs. by eapply Hf.
Qed.
Lemma until_regs {A} (f : state -> A -> res (state * goerr)) st xs st' e :
  (forall st x st' e, f st x = Ok (st', e) -> regs st' = regs st) -> until_error f st xs = Ok (st', e) -> regs st' = regs st.
Proof.
  intros Hf H. apply (until_error_pres (fun s => regs s = regs st) f st xs st' e); [|done|done].
  intros s x s' e' Hs H'. rewrite <-Hs. by eapply Hf.
Qed.
Lemma set_default_regs st t n st' : tenant_set_default st t n = Ok st' -> regs st' = regs st.
Proof. unfold tenant_set_default. rewrite rbind_ok. intros (c & _ & [= <-]). by case_bool_decide. Qed.
Lemma tenant_add_namespace_regs st t n st' : tenant_add_namespace st t n = Ok st' -> regs st' = regs st.
Proof. unfold tenant_add_namespace. rewrite rbind_ok. by intros (c & _ & [= <-]). Qed.
Lemma add_descendants_regs st t ds st' : tenant_add_descendants st t ds = Ok st' -> regs st' = regs st.
Proof.
  revert st. induction ds as [|d ds IH]; intros st; simpl; [by intros [= <-]|].
  destruct (s_tenants st !! t) as [c|] eqn:Hc; [|done].
  destruct (s_tenants st !! d) as [dc|] eqn:Hd; [|done]. rewrite rbind_ok. intros (st2 & H2 & H).
  apply IH in H as ->. destruct (t_default c) as [n|].
  - unfold pass_default in H2. apply rbind_ok in H2 as (st1 & H1 & H2).
    apply set_default_regs in H2 as ->. apply tenant_add_namespace_regs in H1 as ->. by destruct (t_desc c !! t_id dc).
  - injection H2 as <-. by destruct (t_desc c !! t_id dc).
Qed.
Lemma same_regs st st' : same_but_caches st st' -> regs st' = regs st.
Proof. by intros (hi & ca & ->). Qed.

Lemma step_regs o st x st' r : step o st x = Ok (st', r) -> regs st' = regs_after st x.
Proof.
  destruct x; simpl; intros H.
  all: try (injection H as <- <-; done).
  all: try (apply rbind_ok in H as (h & _ & [= <- <-]); done).
  - apply rbind_ok in H as ([st1 l] & H & [= <- <-]). unfold add_role in H. unfold regs, regs_after; simpl.
    destruct (h_roles (s_heap st) !! r0) as [ro|]; [|done]. simpl.
    by destruct (m_roles st !! r_id ro); injection H as <- <-.
  - apply rbind_ok in H as ([st1 l] & H & [= <- <-]). unfold add_attribute_group in H. unfold regs, regs_after; simpl.
    destruct (h_groups (s_heap st) !! g) as [ro|]; [|done]. simpl.
    by destruct (m_groups st !! g_id ro); injection H as <- <-.
  - apply rbind_ok in H as ([st1 l] & H & [= <- <-]). unfold add_tenant in H. unfold regs, regs_after; simpl.
    destruct (s_tenants st !! t) as [c|] eqn:Hc; [|done].
    change (m_tenants (set_tenant st t _)) with (m_tenants st) in H. simpl.
    by destruct (m_tenants st !! t_id c); injection H as <- <-.
  - injection H as <- <-. unfold add_namespace, regs, regs_after. case_bool_decide; [|done].
    f_equal. f_equal. f_equal. f_equal. set_solver.
  - injection H as <- <-. unfold add_scope, regs, regs_after. case_bool_decide; [|done].
    f_equal. f_equal. f_equal. set_solver.
  - injection H as <- <-. unfold add_principal, regs, regs_after. case_bool_decide; [|done].
    f_equal. f_equal. set_solver.
  - injection H as <- <-. unfold add_attribute, regs, regs_after; simpl. by destruct (m_attributes st !! attr_string a).
  - apply rbind_ok in H as ([st1 e] & H & [= <- <-]). unfold add_permissions_to_role in H.
    destruct (m_roles st !! r0) as [rl|]; [|by injection H as <- <-].
    destruct (m_groups st !! g) as [gl|]; [|by injection H as <- <-].
    destruct (h_groups (s_heap st) !! gl) as [go|]; [|done].
    destruct (check_attrs go g attrs); [by injection H as <- <-|].
    by apply rbind_ok in H as ([h e'] & Hh & [= <- <-]).
  - apply rbind_ok in H as (st1 & H & [= <- <-]). apply (repeat_regs _ _ _ _ (fun st0 x st2 => tenant_add_namespace_regs st0 t x st2) H).
  - apply rbind_ok in H as (st1 & H & [= <- <-]). by apply add_descendants_regs in H.
  - apply rbind_ok in H as (st1 & H & [= <- <-]). unfold tenant_add_scopes_to_namespace in H.
    by apply rbind_ok in H as (c & _ & [= <-]).
  - apply rbind_ok in H as (st1 & H & [= <- <-]). by apply set_default_regs in H.
  - apply rbind_ok in H as (st1 & H & [= <- <-]). unfold tenant_add_principal_in_namespace in H.
    by apply rbind_ok in H as (c & _ & [= <-]).
  - apply rbind_ok in H as (st1 & H & [= <- <-]). eapply repeat_regs; [|exact H].
    intros st0 x st2 H2. unfold tenant_add_role in H2. apply rbind_ok in H2 as (c & _ & H2).
    destruct (h_roles (s_heap st0) !! x); [|done]. by injection H2 as <-.
  - apply rbind_ok in H as (st1 & H & [= <- <-]). eapply repeat_regs; [|exact H].
    intros st0 x st2 H2. unfold tenant_add_scope in H2. by apply rbind_ok in H2 as (c & _ & [= <-]).
  - apply rbind_ok in H as ([st1 e] & H & [= <- <-]). eapply until_regs; [|exact H].
    intros st0 x st2 e2 H2. unfold tenant_add_principal_with_role in H2. apply rbind_ok in H2 as (c & _ & H2).
    destruct (negb _); [by injection H2 as <- <-|].
    destruct (m_roles st0 !! x); [|by injection H2 as <- <-]. injection H2 as <- <-. by destruct (t_default c).
  - apply rbind_ok in H as ([st1 e] & H & [= <- <-]). eapply until_regs; [|exact H].
    intros st0 x st2 e2 H2. unfold tenant_add_scope_to_principal in H2. apply rbind_ok in H2 as (c & _ & H2).
    destruct (negb _); [by injection H2 as <- <-|].
    destruct (negb _); [by injection H2 as <- <-|]. injection H2 as <- <-. by destruct (t_default c).
  - apply rbind_ok in H as ([st1 ds] & H & [= <- <-]). by apply tenant_children_same, same_regs in H.
  - apply rbind_ok in H as ([st1 ds] & H & [= <- <-]). by apply implicit_same, same_regs in H.
  - apply rbind_ok in H as ([st1 b] & H & [= <- <-]). by apply authorize_same, same_regs in H.
Qed.

(** Ids of objects never change. *)
Lemma repeat_heap {A} (f : state -> A -> res state) st xs st' :
  (forall st x st', f st x = Ok st' -> s_heap st' = s_heap st) -> repeat_op f st xs = Ok st' -> s_heap st' = s_heap st.
Proof.
  intros Hf H. apply (repeat_op_pres (fun s => s_heap s = s_heap st) f st xs st'); [|done|done].
  intros s x s' Hs H'. rewrite <-Hs. by eapply Hf.
Qed.
Lemma until_heap {A} (f : state -> A -> res (state * goerr)) st xs st' e :
  (forall st x st' e, f st x = Ok (st', e) -> s_heap st' = s_heap st) -> until_error f st xs = Ok (st', e) -> s_heap st' = s_heap st.
Proof.
  intros Hf H. apply (until_error_pres (fun s => s_heap s = s_heap st) f st xs st' e); [|done|done].
  intros s x s' e' Hs H'. rewrite <-Hs. by eapply Hf.
Qed.
Lemma set_default_heap st t n st' : tenant_set_default st t n = Ok st' -> s_heap st' = s_heap st.
Proof. unfold tenant_set_default. rewrite rbind_ok. intros (c & _ & [= <-]). by case_bool_decide. Qed.
Lemma tenant_add_namespace_heap st t n st' : tenant_add_namespace st t n = Ok st' -> s_heap st' = s_heap st.
Proof. unfold tenant_add_namespace. rewrite rbind_ok. by intros (c & _ & [= <-]). Qed.
Lemma add_descendants_heap st t ds st' : tenant_add_descendants st t ds = Ok st' -> s_heap st' = s_heap st.
Proof.
  revert st. induction ds as [|d ds IH]; intros st; simpl; [by intros [= <-]|].
  destruct (s_tenants st !! t) as [c|] eqn:Hc; [|done].
  destruct (s_tenants st !! d) as [dc|] eqn:Hd; [|done]. rewrite rbind_ok. intros (st2 & H2 & H).
  apply IH in H as ->. destruct (t_default c) as [n|].
  - unfold pass_default in H2. apply rbind_ok in H2 as (st1 & H1 & H2).
    apply set_default_heap in H2 as ->. apply tenant_add_namespace_heap in H1 as ->. by destruct (t_desc c !! t_id dc).
  - injection H2 as <-. by destruct (t_desc c !! t_id dc).
Qed.
Ltac heap_same := match goal with H : ?a = ?b |- heap_le ?b ?a => rewrite H; apply heap_le_refl | |- heap_le _ _ => apply heap_le_refl end.
Lemma step_heap_le o st x st' r : state_wf st -> step o st x = Ok (st', r) -> heap_le (s_heap st) (s_heap st').
Proof.
  intros W. pose proof (wf_roles_heap _ W) as Wh. destruct x; simpl; intros H.
  all: try (injection H as <- <-; apply heap_le_refl).
  - injection H as <- <-. by apply wf_new_role.
  - injection H as <- <-. by apply wf_new_group.
  - apply rbind_ok in H as (h & Hh & [= <- <-]). by apply wf_add_attributes in Hh as [? ?].
  - apply rbind_ok in H as (h & Hh & [= <- <-]). by apply wf_set_lock in Hh as [? ?].
  - apply rbind_ok in H as (h & Hh & [= <- <-]). by apply wf_set_lock in Hh as [? ?].
  - apply rbind_ok in H as ([h e] & Hh & [= <- <-]). by apply wf_add_descendant in Hh as [? ?].
  - apply rbind_ok in H as ([h e] & Hh & [= <- <-]). by apply wf_add_permission in Hh as [? ?].
  - apply rbind_ok in H as ([h e] & Hh & [= <- <-]). by apply wf_role_add_group in Hh as [? ?].
  - apply rbind_ok in H as ([st1 l] & H & [= <- <-]). unfold add_role in H.
    destruct (h_roles (s_heap st) !! r0) as [ro|]; [|done].
    destruct (m_roles st !! r_id ro); injection H as <- <-; apply heap_le_refl.
  - apply rbind_ok in H as ([st1 l] & H & [= <- <-]). unfold add_attribute_group in H.
    destruct (h_groups (s_heap st) !! g) as [ro|]; [|done].
    destruct (m_groups st !! g_id ro); injection H as <- <-; apply heap_le_refl.
  - apply rbind_ok in H as ([st1 l] & H & [= <- <-]). unfold add_tenant in H.
    destruct (s_tenants st !! t) as [c|] eqn:Hc; [|done].
    destruct (m_tenants (set_tenant st t _) !! t_id c); injection H as <- <-; apply heap_le_refl.
  - injection H as <- <-. unfold add_namespace. case_bool_decide; apply heap_le_refl.
  - injection H as <- <-. unfold add_scope. case_bool_decide; apply heap_le_refl.
  - injection H as <- <-. unfold add_principal. case_bool_decide; apply heap_le_refl.
  - injection H as <- <-. unfold add_attribute. destruct (m_attributes st !! attr_string a); apply heap_le_refl.
  - apply rbind_ok in H as ([st1 e] & H & [= <- <-]). unfold add_permissions_to_role in H.
    destruct (m_roles st !! r0) as [rl|]; [|injection H as <- <-; apply heap_le_refl].
    destruct (m_groups st !! g) as [gl|]; [|injection H as <- <-; apply heap_le_refl].
    destruct (h_groups (s_heap st) !! gl) as [go|]; [|done].
    destruct (check_attrs go g attrs); [injection H as <- <-; apply heap_le_refl|].
    apply rbind_ok in H as ([h e'] & Hh & [= <- <-]). by apply wf_add_permission in Hh as [? ?].
  - apply rbind_ok in H as (st1 & H & [= <- <-]).
    pose proof (repeat_heap _ _ _ _ (fun st0 x st2 => tenant_add_namespace_heap st0 t x st2) H). heap_same.
  - apply rbind_ok in H as (st1 & H & [= <- <-]). apply add_descendants_heap in H. heap_same.
  - apply rbind_ok in H as (st1 & H & [= <- <-]). unfold tenant_add_scopes_to_namespace in H.
    apply rbind_ok in H as (c & _ & [= <-]). heap_same.
  - apply rbind_ok in H as (st1 & H & [= <- <-]). apply set_default_heap in H. heap_same.
  - apply rbind_ok in H as (st1 & H & [= <- <-]). unfold tenant_add_principal_in_namespace in H.
    apply rbind_ok in H as (c & _ & [= <-]). heap_same.
  - apply rbind_ok in H as (st1 & H & [= <- <-]).
    assert (E : s_heap st1 = s_heap st); [|heap_same]. eapply repeat_heap; [|exact H].
    intros st0 x st2 H2. unfold tenant_add_role in H2. apply rbind_ok in H2 as (c & _ & H2).
    destruct (h_roles (s_heap st0) !! x); [|done]. by injection H2 as <-.
  - apply rbind_ok in H as (st1 & H & [= <- <-]).
    assert (E : s_heap st1 = s_heap st); [|heap_same]. eapply repeat_heap; [|exact H].
    intros st0 x st2 H2. unfold tenant_add_scope in H2. by apply rbind_ok in H2 as (c & _ & [= <-]).
  - apply rbind_ok in H as ([st1 e] & H & [= <- <-]). cbn [fst].
    assert (E : s_heap st1 = s_heap st); [|heap_same]. eapply until_heap; [|exact H].
    intros st0 x st2 e2 H2. unfold tenant_add_principal_with_role in H2. apply rbind_ok in H2 as (c & _ & H2).
    destruct (negb _); [by injection H2 as <- <-|].
    destruct (m_roles st0 !! x); [|by injection H2 as <- <-]. injection H2 as <- <-. by destruct (t_default c).
  - apply rbind_ok in H as ([st1 e] & H & [= <- <-]). cbn [fst].
    assert (E : s_heap st1 = s_heap st); [|heap_same]. eapply until_heap; [|exact H].
    intros st0 x st2 e2 H2. unfold tenant_add_scope_to_principal in H2. apply rbind_ok in H2 as (c & _ & H2).
    destruct (negb _); [by injection H2 as <- <-|].
    destruct (negb _); [by injection H2 as <- <-|]. injection H2 as <- <-. by destruct (t_default c).
  - apply rbind_ok in H as ([st1 ds] & H & [= <- <-]). apply tenant_children_same in H as (hi & ca & ->). heap_same.
  - apply rbind_ok in H as ([st1 ds] & H & [= <- <-]). apply implicit_same in H as (hi & ca & ->). heap_same.
  - apply rbind_ok in H as ([st1 b] & H & [= <- <-]). apply authorize_same in H as (hi & ca & ->). heap_same.
Qed.
Lemma heap_le_trans h1 h2 h3 : heap_le h1 h2 -> heap_le h2 h3 -> heap_le h1 h3.
Proof.
  intros [A1 A2] [B1 B2]. split; [eauto|]. intros gl g H. apply A2 in H as (g' & H & E).
  apply B2 in H as (g'' & H & E'). exists g''. split; [done|congruence].
Qed.
Lemma run_heap_le o i st ops st' outs : state_wf st -> run o i st ops = Ok (st', outs) -> heap_le (s_heap st) (s_heap st').
Proof.
  revert i st outs. induction ops as [|x ops IH]; intros i st outs W; simpl; [intros [= <- <-]; apply heap_le_refl|].
  rewrite rbind_ok. intros ([st1 r1] & H1 & H). apply rbind_ok in H as ([st2 r2] & H2 & [= <- <-]).
  eapply heap_le_trans; [by eapply step_heap_le|]. eapply IH; [|exact H2]. by eapply step_wf.
Qed.

(** A history of registrations, registry by registry. *)
Section registry.
  Context {A : Type} (get : state -> gmap string A) (adds : op -> option A) (key : state -> A -> option string).
  Hypothesis Hstep : forall o st x st' r, step o st x = Ok (st', r) ->
    get st' = match adds x with Some a => reg_one (get st) (key st a) a | None => get st end.
  Hypothesis Hok : forall o st x st' r a, step o st x = Ok (st', r) -> adds x = Some a -> is_Some (key st a).
  Hypothesis Hkey : forall o i st ops st' outs a k, state_wf st -> run o i st ops = Ok (st', outs) ->
    key st a = Some k -> key st' a = Some k.
  Lemma reg_run o i st ops st' outs k : state_wf st -> run o i st ops = Ok (st', outs) ->
    get st' !! k = match get st !! k with
                   | Some a => Some a
                   | None => first (fun a => bool_decide (key st' a = Some k)) (omap adds ops)
                   end.
  Proof.
    revert i st outs. induction ops as [|x ops IH]; intros i st outs W H.
    - simpl in H. injection H as <- <-. simpl. by destruct (get st !! k).
    - pose proof H as H0. simpl in H. apply rbind_ok in H as ([st1 r1] & H1 & H). cbn [fst snd] in H.
      apply rbind_ok in H as ([st2 r2] & H2 & [= <- <-]). cbn [fst] in *.
      rewrite (IH _ _ _ (step_wf _ _ _ _ _ W H1) H2), (Hstep _ _ _ _ _ H1).
      simpl. destruct (adds x) as [a|] eqn:Hx; [|done].
      destruct (Hok _ _ _ _ _ _ H1 Hx) as [k' Hk']. unfold reg_one. rewrite Hk'.
      pose proof (Hkey _ _ _ _ _ _ _ _ W H0 Hk') as Hk2. simpl. unfold first; simpl.
      destruct (get st !! k') as [a'|] eqn:E.
      + case_bool_decide as Hb; [|done]. assert (k = k') as -> by congruence. by rewrite E.
      + case_bool_decide as Hb.
        * assert (k = k') as -> by congruence. by rewrite E, lookup_insert.
        * by rewrite lookup_insert_ne by congruence.
  Qed.
  Lemma reg_history o ops st outs k : get init_state = ∅ -> run o 0 init_state ops = Ok (st, outs) ->
    get st !! k = first (fun a => bool_decide (key st a = Some k)) (omap adds ops).
  Proof. intros H0 H. rewrite (reg_run _ _ _ _ _ _ _ state_wf_init H), H0. by rewrite lookup_empty. Qed.
End registry.

Lemma regs_get o st x st' r : step o st x = Ok (st', r) ->
  m_tenants st' = (regs_after st x).1.1.1.1 /\ m_namespaces st' = (regs_after st x).1.1.1.2
  /\ m_scopes st' = (regs_after st x).1.1.2 /\ m_principals st' = (regs_after st x).1.2
  /\ m_roles st' = (regs_after st x).2.1.1 /\ m_attributes st' = (regs_after st x).2.1.2
  /\ m_groups st' = (regs_after st x).2.2.
Proof. intros H. apply step_regs in H. rewrite <-H. done. Qed.

Lemma roles_history o ops st outs id : run o 0 init_state ops = Ok (st, outs) ->
  get_role st id = first (role_called st id) (omap adds_role ops).
Proof.
  apply (reg_history m_roles adds_role (fun st l => r_id <$> h_roles (s_heap st) !! l)); [| | |done].
  - intros o' s x s' r H. destruct (regs_get _ _ _ _ _ H) as (_ & _ & _ & _ & -> & _). by destruct x.
  - intros o' s x s' r a H Ha. destruct x; try done. injection Ha as ->. simpl in H.
    apply rbind_ok in H as ([st1 l] & H & _). unfold add_role in H. destruct (h_roles (s_heap s) !! a); [|done]. by eexists.
  - intros o' i s ops' s' outs' a k W H Hk. destruct (run_heap_le _ _ _ _ _ _ W H) as [L _].
    apply fmap_Some in Hk as (ro & Hr & ->). destruct (L a (r_id ro)) as (ro' & Hr' & E); [by exists ro|].
    rewrite Hr'. simpl. by rewrite E.
Qed.
Lemma groups_history o ops st outs id : run o 0 init_state ops = Ok (st, outs) ->
  get_attribute_group st id = first (group_called st id) (omap adds_group ops).
Proof.
  apply (reg_history m_groups adds_group (fun st l => g_id <$> h_groups (s_heap st) !! l)); [| | |done].
  - intros o' s x s' r H. destruct (regs_get _ _ _ _ _ H) as (_ & _ & _ & _ & _ & _ & ->). by destruct x.
  - intros o' s x s' r a H Ha. destruct x; try done. injection Ha as ->. simpl in H.
    apply rbind_ok in H as ([st1 l] & H & _). unfold add_attribute_group in H. destruct (h_groups (s_heap s) !! a); [|done]. by eexists.
  - intros o' i s ops' s' outs' a k W H Hk. destruct (run_heap_le _ _ _ _ _ _ W H) as [_ L].
    apply fmap_Some in Hk as (ro & Hr & ->). destruct (L a ro) as (ro' & Hr' & E); [done|].
    rewrite Hr'. simpl. by rewrite E.
Qed.
Lemma tenants_history o ops st outs id : run o 0 init_state ops = Ok (st, outs) ->
  get_tenant st id = first (tenant_called st id) (omap adds_tenant ops).
Proof.
  apply (reg_history m_tenants adds_tenant (fun st l => t_id <$> s_tenants st !! l)); [| | |done].
  - intros o' s x s' r H. destruct (regs_get _ _ _ _ _ H) as (-> & _). by destruct x.
  - intros o' s x s' r a H Ha. destruct x; try done. injection Ha as ->. simpl in H.
    apply rbind_ok in H as ([st1 l] & H & _). unfold add_tenant in H. destruct (s_tenants s !! a); [|done]. by eexists.
  - intros o' i s ops' s' outs' a k W H Hk. apply run_grows in H.
    apply fmap_Some in Hk as (c & Hc & ->). destruct (gr_tenants _ _ H _ _ Hc) as (c' & Hc' & E & _).
    rewrite Hc'. simpl. by rewrite E.
Qed.
Lemma attributes_history o ops st outs key : run o 0 init_state ops = Ok (st, outs) ->
  get_attribute st key = first (fun a => bool_decide (attr_string a = key)) (omap adds_attribute ops).
Proof.
  intros H. etrans; [eapply (reg_history m_attributes adds_attribute (fun _ a => Some (attr_string a))); [| | |done|exact H]|].
  - intros o' s x s' r Hs. destruct (regs_get _ _ _ _ _ Hs) as (_ & _ & _ & _ & _ & -> & _). by destruct x.
  - intros. by eexists.
  - done.
  - unfold first. induction (omap adds_attribute ops) as [|a l IH]; simpl; [done|].
    rewrite IH. do 2 case_bool_decide; (congruence || done).
Qed.

(** Namespaces, scopes and principals. *)
Lemma sets_run o i st ops st' outs : run o i st ops = Ok (st', outs) -> forall id,
  (id ∈ m_namespaces st' <-> id ∈ m_namespaces st \/ OAddNamespace id ∈ ops)
  /\ (id ∈ m_scopes st' <-> id ∈ m_scopes st \/ OAddScope id ∈ ops)
  /\ (id ∈ m_principals st' <-> id ∈ m_principals st \/ OAddPrincipal id ∈ ops).
Proof.
  intros H id. revert i st outs H. induction ops as [|x ops IH]; intros i st outs; simpl.
  { intros [= <- <-]. rewrite !elem_of_nil. tauto. }
  rewrite rbind_ok. intros ([st1 r1] & H1 & H). apply rbind_ok in H as ([st2 r2] & H2 & [= <- <-]). cbn [fst] in *.
  destruct (IH _ _ _ H2) as (-> & -> & ->). destruct (regs_get _ _ _ _ _ H1) as (_ & -> & -> & -> & _).
  rewrite !elem_of_cons. destruct x; simpl; rewrite ?elem_of_union, ?elem_of_singleton.
  all: split_and!; naive_solver.
Qed.
Lemma sets_history o ops st outs id : run o 0 init_state ops = Ok (st, outs) ->
  (get_namespace st id = true <-> OAddNamespace id ∈ ops)
  /\ (get_scope st id = true <-> OAddScope id ∈ ops)
  /\ (get_principal st id = true <-> OAddPrincipal id ∈ ops).
Proof.
  intros H. destruct (sets_run _ _ _ _ _ _ H id) as (H1 & H2 & H3).
  unfold get_namespace, get_scope, get_principal. rewrite !bool_decide_eq_true, H1, H2, H3.
  simpl. rewrite !elem_of_empty. tauto.
Qed.

(** Add* returns what is registered; a second Add under the same id is the first one's. *)
Lemma add_role_returns st l st' l' : add_role st l = Ok (st', l') ->
  (exists id, role_called st id l = true /\ get_role st' id = Some l')
  /\ (st' = st \/ l' = l).
Proof.
  unfold add_role, role_called, get_role. destruct (h_roles (s_heap st) !! l) as [ro|]; [|done].
  destruct (m_roles st !! r_id ro) as [d|] eqn:E; intros [= <- <-].
  - split; [|by left]. exists (r_id ro). split; [by apply bool_decide_eq_true|done].
  - split; [|by right]. exists (r_id ro). split; [by apply bool_decide_eq_true|]. simpl. by rewrite lookup_insert.
Qed.
Lemma add_group_returns st l st' l' : add_attribute_group st l = Ok (st', l') ->
  (exists id, group_called st id l = true /\ get_attribute_group st' id = Some l')
  /\ (st' = st \/ l' = l).
Proof.
  unfold add_attribute_group, group_called, get_attribute_group. destruct (h_groups (s_heap st) !! l) as [ro|]; [|done].
  destruct (m_groups st !! g_id ro) as [d|] eqn:E; intros [= <- <-].
  - split; [|by left]. exists (g_id ro). split; [by apply bool_decide_eq_true|done].
  - split; [|by right]. exists (g_id ro). split; [by apply bool_decide_eq_true|]. simpl. by rewrite lookup_insert.
Qed.
Lemma add_attribute_returns st a st' a' : add_attribute st a = (st', a') ->
  get_attribute st' (attr_string a) = Some a' /\ (st' = st \/ a' = a).
Proof.
  unfold add_attribute, get_attribute. destruct (m_attributes st !! attr_string a) as [d|] eqn:E; intros [= <- <-].
  - split; [done|by left].
  - split; [|by right]. simpl. by rewrite lookup_insert.
Qed.
Lemma add_tenant_returns st l st' l' : add_tenant st l = Ok (st', l') ->
  (exists id, tenant_called st id l = true /\ get_tenant st' id = Some l')
  /\ (get_tenant st' = get_tenant st \/ l' = l).
Proof.
  unfold add_tenant, tenant_called, get_tenant. destruct (s_tenants st !! l) as [c|]; [|done].
  change (m_tenants (set_tenant st l _)) with (m_tenants st).
  destruct (m_tenants st !! t_id c) as [d|] eqn:E; intros [= <- <-].
  - split; [|by left]. exists (t_id c). split; [by apply bool_decide_eq_true|done].
  - split; [|by right]. exists (t_id c). split; [by apply bool_decide_eq_true|]. simpl. by rewrite lookup_insert.
Qed.

(** Listings and totals. *)
Lemma lists_dom {A} o (m : gmap string A) :
  lists (ordered o (elements (dom m))) (fun id => is_Some (m !! id))
  /\ length (ordered o (elements (dom m))) = size m.
Proof.
  split; [split|].
  - rewrite ordered_perm. apply NoDup_elements.
  - intros id. rewrite ordered_perm, elem_of_elements. by rewrite elem_of_dom.
  - rewrite ordered_perm, <-size_dom. done.
Qed.
Lemma lists_set o (X : gset string) :
  lists (ordered o (elements X)) (fun id => bool_decide (id ∈ X) = true) /\ length (ordered o (elements X)) = size X.
Proof.
  split; [split|].
  - rewrite ordered_perm. apply NoDup_elements.
  - intros id. rewrite ordered_perm, elem_of_elements. by rewrite bool_decide_eq_true.
  - by rewrite ordered_perm.
Qed.
Lemma totals o st :
  lists (role_list o st) (fun id => is_Some (get_role st id)) /\ n_roles (summary_of st) = length (role_list o st)
  /\ lists (tenant_list o st) (fun id => is_Some (get_tenant st id)) /\ n_tenants (summary_of st) = length (tenant_list o st)
  /\ lists (attribute_list o st) (fun id => is_Some (get_attribute st id)) /\ n_attributes (summary_of st) = length (attribute_list o st)
  /\ lists (namespace_list o st) (fun id => get_namespace st id = true) /\ n_namespaces (summary_of st) = length (namespace_list o st)
  /\ lists (scope_list o st) (fun id => get_scope st id = true) /\ n_scopes (summary_of st) = length (scope_list o st)
  /\ lists (principal_list o st) (fun id => get_principal st id = true) /\ n_principals (summary_of st) = length (principal_list o st)
  /\ exists ids, lists ids (fun id => is_Some (get_attribute_group st id)) /\ n_groups (summary_of st) = length ids.
Proof.
  unfold role_list, tenant_list, attribute_list, namespace_list, scope_list, principal_list. simpl.
  destruct (lists_dom o (m_roles st)), (lists_dom o (m_tenants st)), (lists_dom o (m_attributes st)).
  destruct (lists_set o (m_namespaces st)), (lists_set o (m_scopes st)), (lists_set o (m_principals st)).
  split; [done|]. split; [done|]. split; [done|]. split; [done|]. split; [done|]. split; [done|].
  split; [done|]. split; [done|]. split; [done|]. split; [done|]. split; [done|]. split; [done|].
  destruct (lists_dom id_oracle (m_groups st)). by eexists.
Qed.

(** AddTenant with an id that is taken: the registry keeps the first object, but the object
    passed changes: its methods, which panicked before, now work on the manager's data. *)
Lemma c25_refuted : exists st t st', reachable st /\ add_tenant st t = Ok (st', 0) /\ t <> 0
  /\ tenant_add_namespace st t "n" = Panic /\ exists st'', tenant_add_namespace st' t "n" = Ok st''.
Proof.
  set (ops := [ONewTenant "acme"; OAddTenant 0; ONewTenant "acme"]).
  destruct (run id_oracle 0 init_state ops) as [[st outs]| |] eqn:E; [|vm_compute in E; discriminate..].
  exists st, 1. vm_compute in E. injection E as <- <-. eexists. split.
  - exists id_oracle, ops. eexists. vm_compute. reflexivity.
  - split; [vm_compute; reflexivity|]. split; [done|]. split; [vm_compute; reflexivity|]. eexists. vm_compute. reflexivity.
Qed.
