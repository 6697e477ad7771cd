(** Concrete cases for the theorems about the root manager. *)
From Verif Require Export RootCor RootCor2 RootCor3 RegProofs.

Definition verdict (x : res (state * bool)) : option bool := answer x.
(** The side conditions of the fresh characterisations. *)
Definition fresh_for (st : state) (p : string) : Prop :=
  m_cache st !! p = None /\ hierarchy_fresh st /\ tenants_coherent st /\ flags_agree st p.

Lemma authorize_history o ops st outs o' p q st' :
  run o 0 init_state ops = Ok (st, outs) -> authorize o' st p q = Ok (st', true) ->
  OAddPrincipal p ∈ ops /\ exists x, x ∈ ops /\ names_principal p x.
Proof.
  intros Hr Ha. split; [|by eapply authorize_named].
  destruct (authorize_registered _ _ _ _ _ Ha) as [Hp _].
  destruct (sets_history _ _ _ _ p Hr) as (_ & _ & H). apply H. unfold get_principal. by apply bool_decide_eq_true.
Qed.

Lemma c11_ex : exists st outs st',
  run id_oracle 0 init_state w16_ops = Ok (st, outs)
  /\ authorize rev_oracle st "ann" (tenant_only "acme") = Ok (st', true)
  /\ (exists st'', authorize rev_oracle st "bob" (tenant_only "acme") = Ok (st'', false))
  /\ exists st'', authorize rev_oracle st "ann" (tenant_only "other") = Ok (st'', false).
Proof.
  exists (ops_state w16_ops), (ops_outs w16_ops), (final (authorize rev_oracle (ops_state w16_ops) "ann" (tenant_only "acme"))).
  split; [apply run_runs; vm_compute; reflexivity|]. split; [answered|].
  split; eexists; answered.
Qed.

Definition w12_ops : list op :=
  [ONewTenant "acme"; OAddTenant 0; ONewTenant "branch"; OAddTenant 1; OTenantAddDescendant 0 [1];
   OAddNamespace "hr"; OAddScope "s"; OAddPrincipal "ann"; OAddPrincipal "bob"; ONewRole "clerk"; OAddRole 0;
   OTenantAddNamespaces 0 ["hr"]; OTenantAddPrincipal 0 "ann" true ["clerk"]].
Definition w12_rows : list data :=
  [Data (AStr "acme") (AStr "hr") ANil ANil ANil ANil;
   Data (AStr "acme") ANil ANil (AStr "ann") (AStr "clerk") (ABool true)].
Lemma w12_reachable : reachable (ops_state w12_ops).
Proof. reach_ops w12_ops. Qed.
Lemma w12_stored d : stored (ops_state w12_ops) d -> d ∈ w12_rows.
Proof. intros H. eapply stored_list in H; [|vm_compute; reflexivity]. unfold w12_rows. set_solver. Qed.
Lemma w12_fresh : fresh_for (ops_state w12_ops) "ann".
Proof.
  split_and!.
  - vm_compute. reflexivity.
  - intros t ds d H. exfalso. revert H. change (m_hierarchy (ops_state w12_ops)) with (∅ : gmap string (list any)).
    by rewrite lookup_empty.
  - apply coherent_registered. intros l c k d Hl Hk.
    assert (E : s_tenants (ops_state w12_ops) = [Tenant "acme" {["branch" := 1]} None true; Tenant "branch" ∅ None true])
      by (vm_compute; reflexivity).
    rewrite E in Hl. clear E. destruct l as [|[|l]]; simpl in Hl; [| |done].
    + injection Hl as <-. simpl in Hk. apply lookup_singleton_Some in Hk as [<- <-]. vm_compute. reflexivity.
    + injection Hl as <-. simpl in Hk. by rewrite lookup_empty in Hk.
  - intros d d' H H' P P' _ M. apply w12_stored in H, H'. unfold w12_rows in *.
    rewrite !elem_of_cons in H, H'. destruct H as [->|[->|H]]; [done| |by apply elem_of_nil in H].
    destruct H' as [->|[->|H']]; [done|done|by apply elem_of_nil in H'].
Qed.
Lemma c12_ex :
  let st := ops_state w12_ops in
  fresh_for st "ann"
  /\ verdict (authorize rev_oracle st "ann" (Opts (AStr "acme") (AStr "hr") ANil ANil ANil)) = Some true
  /\ verdict (authorize rev_oracle st "ann" (Opts (AStr "acme") (AStr "hr") (AStr "s") ANil ANil)) = Some false
  /\ verdict (authorize rev_oracle st "ann" (Opts (AStr "branch") ANil ANil ANil ANil)) = Some true
  /\ verdict (authorize rev_oracle st "ann" (Opts ANil (AStr "hr") ANil ANil ANil)) = Some false
  /\ verdict (authorize rev_oracle st "bob" (Opts (AStr "acme") (AStr "hr") ANil ANil ANil)) = Some false.
Proof. split; [exact w12_fresh|]. vm_compute. repeat split. Qed.

Definition w13_ops : list op :=
  [ONewTenant "acme"; OAddTenant 0; OAddNamespace "hr"; OAddScope "s"; OAddPrincipal "ann"; ONewRole "clerk"; OAddRole 0;
   ONewRole "reader"; ORoleAddPermission 1 "page" [Attr "/orders/:id" "GET"]; ORoleAddGroup 0 0; ORoleAddDescendant 0 [1];
   ORoleAddPermission 0 "page" []; OTenantAddPrincipalInNamespace 0 "ann" "hr" "clerk"].
Lemma c13_ex :
  let st := ops_state w13_ops in
  let ask ns s act := verdict (authorize rev_oracle st "ann" (Opts (AStr "acme") ns s (AStr "page") (AStr act))) in
  ask (AStr "hr") ANil "/orders/7 GET" = Some true
  /\ ask (AStr "hr") (AStr "s") "/orders/7 GET" = Some true
  /\ ask (AStr "hr") ANil "/orders/7/x GET" = Some false
  /\ ask ANil ANil "/orders/7 GET" = Some false.
Proof. vm_compute. repeat split. Qed.
Lemma c14_ex : exists st' U, authorize id_oracle (ops_state w14_ops) "eve" (tenant_only "globex") = Ok (st', true)
  /\ get_implicit_tenants id_oracle st' "eve" = Ok (st', U) /\ elements U = ["globex"].
Proof.
  set (st' := final (authorize id_oracle (ops_state w14_ops) "eve" (tenant_only "globex"))).
  assert (H : elements <$> m_cache st' !! "eve" = Some ["globex"]) by (vm_compute; reflexivity).
  destruct (m_cache st' !! "eve") as [U|] eqn:E; [|discriminate H]. exists st', U.
  split; [unfold st'; answered|]. split; [exact (implicit_cached _ _ _ _ E)|]. clear E. clearbody st'. cbn in H. congruence.
Qed.
Lemma c15_ex :
  let q := Opts (AStr "acme") (AStr "hr") (AStr "s") (AStr "page") (AStr "/orders/7 GET") in
  asks_activity q /\ verdict (authorize id_oracle (ops_state w13_ops) "ann" q) = Some true.
Proof. split; [by split|]. vm_compute. reflexivity. Qed.
Lemma c17_ex : exists st1, tenant_add_principal (ops_state w54_ops) 0 "ann" true ["clerk"] = Ok (st1, None)
  /\ verdict (authorize id_oracle st1 "ann" (tenant_only "acme")) = Some true.
Proof.
  exists (final (tenant_add_principal (ops_state w54_ops) 0 "ann" true ["clerk"])).
  split; [answered|vm_compute; reflexivity].
Qed.
Lemma c18_ex : exists st1 outs st2,
  authorize id_oracle (ops_state w12_ops) "ann" (tenant_only "branch") = Ok (st1, true)
  /\ run rev_oracle 0 st1 [OTenantChildren "acme"; OImplicitTenants "bob"; OAuthorize "bob" (tenant_only "acme")] = Ok (st2, outs)
  /\ verdict (authorize rev_oracle st2 "ann" (tenant_only "branch")) = Some true.
Proof.
  set (st1 := final (authorize id_oracle (ops_state w12_ops) "ann" (tenant_only "branch"))).
  set (ops := [OTenantChildren "acme"; OImplicitTenants "bob"; OAuthorize "bob" (tenant_only "acme")]).
  assert (H : (fun _ => true) <$> answer (run rev_oracle 0 st1 ops) = Some true) by (vm_compute; reflexivity).
  destruct (answer (run rev_oracle 0 st1 ops)) as [outs|] eqn:E; [|discriminate H].
  exists st1, outs, (final (run rev_oracle 0 st1 ops)). split; [unfold st1; answered|].
  split; [exact (answer_ok _ _ E)|]. clear E H. vm_compute. reflexivity.
Qed.
Lemma c19_ex : fresh_for (ops_state w12_ops) "ann" /\ reachable (ops_state w12_ops)
  /\ exists st' U, get_implicit_tenants rev_oracle (ops_state w12_ops) "ann" = Ok (st', U) /\ elements U ≡ₚ ["acme"; "branch"].
Proof.
  split; [exact w12_fresh|]. split; [exact w12_reachable|]. 
  set (x := get_implicit_tenants rev_oracle (ops_state w12_ops) "ann").
  assert (H : elements <$> answer x = Some ["acme"; "branch"] \/ elements <$> answer x = Some ["branch"; "acme"])
    by (vm_compute; (left; reflexivity) || (right; reflexivity)).
  destruct x as [[st' U]| |]; cbn in H; [|by destruct H..]. exists st', U. split; [done|].
  destruct H as [H|H]; injection H as ->; [done|apply Permutation_swap].
Qed.
Lemma c25_ex :
  let st := ops_state [ONewRole "a"; ONewRole "a"; OAddRole 1; OAddRole 0; OAddScope "s"; OAddScope "s"; OAddScope "t"] in
  get_role st "a" = Some 1 /\ get_role st "b" = None /\ summary_of st = Summary 0 0 0 2 1 0 0
  /\ scope_list id_oracle st ≡ₚ ["s"; "t"].
Proof. vm_compute. split; [done|]. split; [done|]. split; [done|]. first [reflexivity|apply Permutation_swap]. Qed.
Lemma c53_ex : verdict (authorize id_oracle (ops_state w53b_ops) "ann" (Opts ANil ANil ANil (AStr "g") (AStr "x"))) = Some false.
Proof. vm_compute. reflexivity. Qed.
