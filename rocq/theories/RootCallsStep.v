(** Which parts of a root manager each call changes. *)
From Verif Require Import TenProofs.
From Verif Require Export CallsProofs RootCallsSpec.

Definition form (x : op) (st st' : state) : Prop :=
  match x with
  | ONewRole _ | ONewGroup _ | OGroupAdd _ _ | OLock _ | OUnlock _ | ORoleAddDescendant _ _ | ORoleAddPermission _ _ _ | ORoleAddGroup _ _
  | OAddPermissionsToRole _ _ _ => exists hp, st' = with_heap st hp
  | ONewTenant _ | OTenantSetDefault _ _ => exists ts, st' = with_tenant_objs st ts
  | OAddRole _ => exists m, st' = with_m_roles st m
  | OAddGroup _ => exists m, st' = with_m_groups st m
  | OAddAttribute _ => exists m, st' = with_m_attributes st m
  | OAddTenant _ => exists ts m, st' = with_m_tenants (with_tenant_objs st ts) m
  | OAddNamespace _ => exists m, st' = with_m_namespaces st m
  | OAddScope _ => exists m, st' = with_m_scopes st m
  | OAddPrincipal _ => exists m, st' = with_m_principals st m
  | OTenantAddDescendant _ _ => exists ts tr, st' = with_trie (with_tenant_objs st ts) tr
  | OTenantChildren _ | OImplicitTenants _ | OAuthorize _ _ => same_but_caches st st'
  | _ => exists tr, st' = with_trie st tr
  end.
Lemma heap_self st : st = with_heap st (s_heap st).
Proof. destruct st. reflexivity. Qed.
Lemma trie_self st : st = with_trie st (m_trie st).
Proof. destruct st. reflexivity. Qed.
Lemma form_repeat {A} (f : state -> A -> res state) st xs st' : (forall st x st', f st x = Ok st' -> exists tr, st' = with_trie st tr) ->
  repeat_op f st xs = Ok st' -> exists tr, st' = with_trie st tr.
Proof.
  intros Hf H. apply (repeat_op_pres (fun s => exists tr, s = with_trie st tr) f st xs st'); [|exists (m_trie st); apply trie_self|exact H].
  intros s x s' (tr & ->) Hs. destruct (Hf _ _ _ Hs) as (tr' & ->). exists tr'. destruct st. reflexivity.
Qed.
Lemma form_until {A} (f : state -> A -> res (state * goerr)) st xs st' e : (forall st x st' e, f st x = Ok (st', e) -> exists tr, st' = with_trie st tr) ->
  until_error f st xs = Ok (st', e) -> exists tr, st' = with_trie st tr.
Proof.
  intros Hf H. apply (until_error_pres (fun s => exists tr, s = with_trie st tr) f st xs st' e); [|exists (m_trie st); apply trie_self|exact H].
  intros s x s' e' (tr & ->) Hs. destruct (Hf _ _ _ _ Hs) as (tr' & ->). exists tr'. destruct st. reflexivity.
Qed.
Lemma form_default st t n st' : tenant_set_default st t n = Ok st' -> exists ts, st' = with_tenant_objs st ts.
Proof.
  unfold tenant_set_default. intros H. apply rbind_ok in H as (c & Hc & [= <-]). case_bool_decide; [eexists; reflexivity|]. exists (s_tenants st). destruct st. reflexivity.
Qed.
Lemma form_descendants st t ds st' : tenant_add_descendants st t ds = Ok st' -> exists ts tr, st' = with_trie (with_tenant_objs st ts) tr.
Proof.
  revert st. induction ds as [|d ds IH]; intros st; cbn [tenant_add_descendants]; [intros [= <-]; exists (s_tenants st), (m_trie st); destruct st; reflexivity|].
  destruct (s_tenants st !! t) as [c|] eqn:Hc; [|discriminate]. destruct (s_tenants st !! d) as [dc|] eqn:Hd; [|discriminate].
  intros H. apply rbind_ok in H as (st2 & H2 & H). destruct (IH _ H) as (ts & tr & ->).
  assert (E2 : exists ts tr, st2 = with_trie (with_tenant_objs st ts) tr); [|destruct E2 as (ts2 & tr2 & ->); exists ts, tr; destruct st; reflexivity].
  set (st1 := match t_desc c !! t_id dc with Some _ => st | None => _ end) in H2.
  assert (E1 : exists ts, st1 = with_tenant_objs st ts) by (unfold st1; destruct (t_desc c !! t_id dc); [exists (s_tenants st); destruct st; reflexivity|eexists; reflexivity]).
  destruct E1 as (ts1 & E1). clearbody st1.
  destruct (t_default c) as [m|]; [|injection H2 as <-; exists ts1, (m_trie st); rewrite E1; destruct st; reflexivity]. unfold pass_default in H2. apply rbind_ok in H2 as (st3 & H3 & H4).
  destruct (form_default _ _ _ _ H4) as (ts4 & ->). unfold tenant_add_namespace in H3. apply rbind_ok in H3 as (c3 & _ & [= <-]). exists ts4. eexists. rewrite E1. destruct st. reflexivity.
Qed.
Lemma step_form o st x st' y : step o st x = Ok (st', y) -> form x st st'.
Proof.
  destruct x; cbn [step form]; intros H;
    try (injection H as <- <-; eexists; reflexivity);
    try (apply rbind_ok in H as (h & _ & [= <- <-]); eexists; reflexivity).
  - apply rbind_ok in H as ([st1 l] & H & [= <- <-]). unfold add_role in H.
    destruct (h_roles (s_heap st) !! r) as [ro|]; [|discriminate]. destruct (m_roles st !! r_id ro); injection H as <- <-; [exists (m_roles st); destruct st; reflexivity|eexists; reflexivity].
  - apply rbind_ok in H as ([st1 l] & H & [= <- <-]). unfold add_attribute_group in H.
    destruct (h_groups (s_heap st) !! g) as [ro|]; [|discriminate]. destruct (m_groups st !! g_id ro); injection H as <- <-; [exists (m_groups st); destruct st; reflexivity|eexists; reflexivity].
  - apply rbind_ok in H as ([st1 l] & H & [= <- <-]). unfold add_tenant in H.
    destruct (s_tenants st !! t) as [c|]; [|discriminate]. cbv zeta in H. destruct (m_tenants (set_tenant st t _) !! t_id c); injection H as <- <-.
    + exists (<[t := Tenant (t_id c) (t_desc c) (t_default c) true]> (s_tenants st)), (m_tenants st). destruct st. reflexivity.
    + eexists _, _. reflexivity.
  - injection H as <- <-. unfold add_namespace. case_bool_decide; [exists (m_namespaces st); destruct st; reflexivity|eexists; reflexivity].
  - injection H as <- <-. unfold add_scope. case_bool_decide; [exists (m_scopes st); destruct st; reflexivity|eexists; reflexivity].
  - injection H as <- <-. unfold add_principal. case_bool_decide; [exists (m_principals st); destruct st; reflexivity|eexists; reflexivity].
  - injection H as <- <-. unfold add_attribute. destruct (m_attributes st !! attr_string a); [exists (m_attributes st); destruct st; reflexivity|eexists; reflexivity].
  - apply rbind_ok in H as ([st1 e] & H & [= <- <-]). unfold add_permissions_to_role in H. cbn [fst].
    destruct (m_roles st !! r) as [rl|]; [|injection H as <- <-; exists (s_heap st); apply heap_self].
    destruct (m_groups st !! g) as [gl|]; [|injection H as <- <-; exists (s_heap st); apply heap_self].
    destruct (h_groups (s_heap st) !! gl) as [go|]; [|discriminate].
    destruct (check_attrs go g attrs); [injection H as <- <-; exists (s_heap st); apply heap_self|].
    apply rbind_ok in H as ([h e'] & Hh & [= <- <-]). eexists. reflexivity.
  - apply rbind_ok in H as (st1 & H & [= <- <-]). revert H. apply form_repeat.
    intros st0 x st2 H2. unfold tenant_add_namespace in H2. apply rbind_ok in H2 as (c & _ & [= <-]). eexists. reflexivity.
  - apply rbind_ok in H as (st1 & H & [= <- <-]). exact (form_descendants _ _ _ _ H).
  - apply rbind_ok in H as (st1 & H & [= <- <-]). unfold tenant_add_scopes_to_namespace in H. apply rbind_ok in H as (c & _ & [= <-]). eexists. reflexivity.
  - apply rbind_ok in H as (st1 & H & [= <- <-]). exact (form_default _ _ _ _ H).
  - apply rbind_ok in H as (st1 & H & [= <- <-]). unfold tenant_add_principal_in_namespace in H. apply rbind_ok in H as (c & _ & [= <-]). eexists. reflexivity.
  - apply rbind_ok in H as (st1 & H & [= <- <-]). revert H. apply form_repeat.
    intros st0 x st2 H2. unfold tenant_add_role in H2. apply rbind_ok in H2 as (c & _ & H2). destruct (h_roles (s_heap st0) !! x); [|discriminate]. injection H2 as <-. eexists. reflexivity.
  - apply rbind_ok in H as (st1 & H & [= <- <-]). revert H. apply form_repeat.
    intros st0 x st2 H2. unfold tenant_add_scope in H2. apply rbind_ok in H2 as (c & _ & [= <-]). eexists. reflexivity.
  - apply rbind_ok in H as ([st1 e] & H & [= <- <-]). revert H. apply form_until.
    intros st0 x st2 e2 H2. unfold tenant_add_principal_with_role in H2. apply rbind_ok in H2 as (c & _ & H2).
    destruct (negb _); [injection H2 as <- <-; exists (m_trie st0); apply trie_self|]. destruct (m_roles st0 !! x); [|injection H2 as <- <-; exists (m_trie st0); apply trie_self].
    injection H2 as <- <-. destruct (t_default c); eexists; reflexivity.
  - apply rbind_ok in H as ([st1 e] & H & [= <- <-]). revert H. apply form_until.
    intros st0 x st2 e2 H2. unfold tenant_add_scope_to_principal in H2. apply rbind_ok in H2 as (c & _ & H2).
    destruct (negb _); [injection H2 as <- <-; exists (m_trie st0); apply trie_self|]. destruct (negb _); [injection H2 as <- <-; exists (m_trie st0); apply trie_self|].
    injection H2 as <- <-. destruct (t_default c); eexists; reflexivity.
  - apply rbind_ok in H as ([st1 ds] & H & [= <- <-]). exact (tenant_children_same _ _ _ _ _ H).
  - apply rbind_ok in H as ([st1 ds] & H & [= <- <-]). exact (implicit_same _ _ _ _ _ H).
  - apply rbind_ok in H as ([st1 b] & H & [= <- <-]). exact (authorize_same _ _ _ _ _ _ H).
Qed.
