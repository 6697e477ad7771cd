(** Corollaries and witnesses for the properties of the root manager. *)
From Verif Require Export AuthTotal RootRows RoleCor.

(** ** The cache of implicit tenants *)
Lemma implicit_loop_cache o i st ex rs st' U : implicit_loop o i st ex rs = Ok (st', U) -> m_cache st' = m_cache st.
Proof.
  revert i st ex. induction rs as [|r rs IH]; intros i st ex; simpl; [by intros [= <- <-]|].
  destruct (tenant r) as [|t| |]; try done. case_bool_decide; [apply IH|].
  destruct (manage r) as [| |[]|]; try apply IH.
  rewrite rbind_ok. intros ([st1 ds] & H1 & Hl). apply rbind_ok in Hl as (ex2 & _ & Hl).
  etrans; [by eapply IH|]. by eapply tenant_children_cache.
Qed.
Lemma implicit_cache o st p st' U : get_implicit_tenants o st p = Ok (st', U) ->
  forall p', m_cache st' !! p' = if decide (p' = p) then Some U else m_cache st !! p'.
Proof.
  intros H p'. destruct (decide (p' = p)) as [->|Hne]; [by eapply implicit_caches|].
  revert H. unfold get_implicit_tenants. destruct (m_cache st !! p); [by intros [= <- <-]|].
  rewrite rbind_ok. intros ([st1 U'] & H & [= <- <-]). simpl. rewrite lookup_insert_ne; [|done].
  by rewrite (implicit_loop_cache _ _ _ _ _ _ _ H).
Qed.
Lemma implicit_cached o st p U : m_cache st !! p = Some U -> get_implicit_tenants o st p = Ok (st, U).
Proof. unfold get_implicit_tenants. by intros ->. Qed.

Lemma add_descendants_cache st t ds st' : tenant_add_descendants st t ds = Ok st' -> m_cache st' = m_cache st.
Proof.
  revert st. induction ds as [|d ds IH]; intros st; simpl; [by intros [= <-]|].
  destruct (s_tenants st !! t) as [c|]; [|done]. destruct (s_tenants st !! d) as [dc|]; [|done].
  rewrite rbind_ok. intros (st2 & H2 & H). rewrite (IH _ H).
  set (st1 := match t_desc c !! t_id dc with Some _ => st | None => _ end) in H2.
  assert (E : m_cache st1 = m_cache st) by (unfold st1; by destruct (t_desc c !! t_id dc)).
  destruct (t_default c); [|by injection H2 as <-]. unfold pass_default in H2.
  apply rbind_ok in H2 as (st3 & H3 & H4). unfold tenant_add_namespace in H3. apply rbind_ok in H3 as (? & _ & [= <-]).
  unfold tenant_set_default in H4. apply rbind_ok in H4 as (? & _ & [= <-]). by case_bool_decide.
Qed.
Lemma step_cache o st x st' r : step o st x = Ok (st', r) ->
  m_cache st' = m_cache st \/ exists o' p U, asks_about p x /\ get_implicit_tenants o' st p = Ok (st', U).
Proof.
  destruct x; simpl; intros H.
  all: try (left; by injection H as <- <-).
  all: try (left; by apply rbind_ok in H as (h & _ & [= <- <-])).
  - left. apply rbind_ok in H as ([st1 b] & H & [= <- <-]). unfold add_role in H. destruct (h_roles (s_heap st) !! r0) as [ro|]; [|done]. by destruct (m_roles st !! r_id ro); injection H as <- <-.
  - left. apply rbind_ok in H as ([st1 b] & H & [= <- <-]). unfold add_attribute_group in H. destruct (h_groups (s_heap st) !! g) as [ro|]; [|done]. by destruct (m_groups st !! g_id ro); injection H as <- <-.
  - left. apply rbind_ok in H as ([st1 b] & H & [= <- <-]). unfold add_tenant in H. destruct (s_tenants st !! t) as [c|] eqn:Hc; [|done].
    by destruct (m_tenants (set_tenant st t _) !! t_id c); injection H as <- <-.
  - left. injection H as <- <-. unfold add_namespace. by case_bool_decide.
  - left. injection H as <- <-. unfold add_scope. by case_bool_decide.
  - left. injection H as <- <-. unfold add_principal. by case_bool_decide.
  - left. injection H as <- <-. unfold add_attribute. by destruct (m_attributes st !! attr_string a).
  - left. apply rbind_ok in H as ([st1 b] & H & [= <- <-]). unfold add_permissions_to_role in H. destruct (m_roles st !! r0) as [rl|]; [|by injection H as <- <-].
    destruct (m_groups st !! g) as [gl|]; [|by injection H as <- <-].
    destruct (h_groups (s_heap st) !! gl) as [go|]; [|done].
    destruct (check_attrs go g attrs); [by injection H as <- <-|].
    by apply rbind_ok in H as ([h e'] & Hh & [= <- <-]).
  - left. apply rbind_ok in H as (st1 & H & [= <- <-]). eapply (repeat_op_pres (fun s => m_cache s = m_cache st)) in H; [done| |done].
    intros st0 x st2 E H2. unfold tenant_add_namespace in H2. by apply rbind_ok in H2 as (c & _ & [= <-]).
  - left. apply rbind_ok in H as (st1 & H & [= <- <-]). by eapply add_descendants_cache.
  - left. apply rbind_ok in H as (st1 & H & [= <- <-]). unfold tenant_add_scopes_to_namespace in H. by apply rbind_ok in H as (c & _ & [= <-]).
  - left. apply rbind_ok in H as (st1 & H & [= <- <-]). unfold tenant_set_default in H. apply rbind_ok in H as (c & _ & [= <-]). by case_bool_decide.
  - left. apply rbind_ok in H as (st1 & H & [= <- <-]). unfold tenant_add_principal_in_namespace in H. by apply rbind_ok in H as (c & _ & [= <-]).
  - left. apply rbind_ok in H as (st1 & H & [= <- <-]). eapply (repeat_op_pres (fun s => m_cache s = m_cache st)) in H; [done| |done].
    intros st0 x st2 E H2. unfold tenant_add_role in H2. apply rbind_ok in H2 as (c & _ & H2).
    destruct (h_roles (s_heap st0) !! x); [|done]. by injection H2 as <-.
  - left. apply rbind_ok in H as (st1 & H & [= <- <-]). eapply (repeat_op_pres (fun s => m_cache s = m_cache st)) in H; [done| |done].
    intros st0 x st2 E H2. unfold tenant_add_scope in H2. by apply rbind_ok in H2 as (c & _ & [= <-]).
  - left. apply rbind_ok in H as ([st1 b] & H & [= <- <-]). eapply (until_error_pres (fun s => m_cache s = m_cache st)) in H; [done| |done].
    intros st0 x st2 e2 E H2. unfold tenant_add_principal_with_role in H2. apply rbind_ok in H2 as (c & _ & H2).
    destruct (negb _); [by injection H2 as <- <-|].
    destruct (m_roles st0 !! x); [|by injection H2 as <- <-]. injection H2 as <- <-. by destruct (t_default c).
  - left. apply rbind_ok in H as ([st1 b] & H & [= <- <-]). eapply (until_error_pres (fun s => m_cache s = m_cache st)) in H; [done| |done].
    intros st0 x st2 e2 E H2. unfold tenant_add_scope_to_principal in H2. apply rbind_ok in H2 as (c & _ & H2).
    destruct (negb _); [by injection H2 as <- <-|].
    destruct (negb _); [by injection H2 as <- <-|]. injection H2 as <- <-. by destruct (t_default c).
  - left. apply rbind_ok in H as ([st1 b] & H & [= <- <-]). by eapply tenant_children_cache.
  - right. apply rbind_ok in H as ([st1 b] & H & [= <- <-]). by eexists _, _, _.
  - apply rbind_ok in H as ([st1 b] & H & [= <- <-]). apply authorize_state in H as [->|(U & H)]; [by left|right]. by eexists _, _, _.
Qed.

(** ** C11 *)
Lemma authorize_registered o st p q st' : authorize o st p q = Ok (st', true) ->
  p ∈ m_principals st /\ valid_request st q.
Proof. intros [(? & _)|(? & U & _ & H)]%authorize_ok; [done|]. split; [done|]. by destruct (proj1 H eq_refl) as (_ & _ & ? & _). Qed.

Lemma untouched_init p : untouched p init_state.
Proof.
  split; [by exists []|split].
  - intros d. vm_compute. intros H. inversion H.
  - intros U H. simpl in H. by rewrite lookup_empty in H.
Qed.
Lemma untouched_step o st x st' r p : untouched p st -> step o st x = Ok (st', r) -> ~ names_principal p x -> untouched p st'.
Proof.
  intros Hu H Hx. pose proof Hu as ([log Hl] & H1 & H2). destruct (step_writes _ _ _ _ _ H) as (new & Hw & F). split_and!.
  - exists (log ++ new). by eapply wrote_logged.
  - intros d Hd Hp. destruct (wrote_origin _ _ _ _ _ Hl Hw Hd) as [Hd'|Hd']; [by eapply H1|].
    rewrite Forall_forall in F. by apply (proj1 (F _ Hd')) in Hp.
  - intros U HU. destruct (step_cache _ _ _ _ _ H) as [E|(o' & p' & U' & _ & H')]; [rewrite E in HU; by apply H2|].
    rewrite (implicit_cache _ _ _ _ _ H' p) in HU. destruct (decide (p = p')) as [<-|]; [|by apply H2].
    injection HU as <-. by eapply implicit_untouched.
Qed.
Lemma untouched_run o i st ops st' outs p : untouched p st -> run o i st ops = Ok (st', outs) ->
  (forall x, x ∈ ops -> ~ names_principal p x) -> untouched p st'.
Proof.
  revert i st outs. induction ops as [|x ops IH]; intros i st outs Hu; simpl; [by intros [= <- <-]|].
  rewrite rbind_ok. intros ([st1 r1] & H1 & H). apply rbind_ok in H as ([st2 r2] & H2 & [= <- <-]). intros Hx.
  eapply IH; [|exact H2|]; [|intros y Hy; apply Hx; by right].
  eapply untouched_step; [exact Hu|exact H1|]. apply Hx. left.
Qed.
Global Instance names_principal_dec p x : Decision (names_principal p x).
Proof. destruct x; simpl; apply _. Defined.
Lemma authorize_named o ops st outs o' p q st' : run o 0 init_state ops = Ok (st, outs) ->
  authorize o' st p q = Ok (st', true) -> exists x, x ∈ ops /\ names_principal p x.
Proof.
  intros Hr Ha. destruct (decide (Exists (names_principal p) ops)) as [He|Hn]; [by apply Exists_exists in He|].
  exfalso. assert (Hu : untouched p st).
  { eapply untouched_run; [apply untouched_init|exact Hr|]. intros x Hx Hp. apply Hn, Exists_exists. by exists x. }
  apply authorize_ok in Ha as [(? & _)|(_ & U & (o2 & H2) & Hb)]; [done|].
  destruct (proj1 Hb eq_refl) as (_ & HU & _). by apply HU, (implicit_untouched o2 st p st' U).
Qed.

(** ** C12, C13: the verdict, with the implicit tenants GetImplicitTenants reports afterwards *)
Lemma authorize_exact o st p q st' b : authorize o st p q = Ok (st', b) ->
  b = false /\ p ∉ m_principals st
  \/ p ∈ m_principals st /\ exists U, (forall o', get_implicit_tenants o' st' p = Ok (st', U))
     /\ (b = true <-> U <> ∅ /\ valid_request st q
          /\ (grants st p q (shape_of q) \/ exists u, u ∈ U /\ grants st p (set_o_tenant q (AStr u)) (shape_of q))).
Proof.
  intros [(-> & ? & _)|(Hp & U & (o2 & H2) & Hb)]%authorize_ok; [by left|right]. split; [done|]. exists U. split.
  - intros o'. apply implicit_cached. by eapply implicit_caches.
  - rewrite Hb. unfold authorized. tauto.
Qed.
Lemma grants_no_activity st p q f : ~ asks_activity q -> grants st p q f <-> grants_membership st p q f.
Proof. unfold grants. tauto. Qed.
Lemma grants_with_activity st p q f : asks_activity q -> grants st p q f <-> grants_activity st p q f.
Proof. unfold grants. tauto. Qed.
Lemma authorize_membership o st p q st' b : ~ asks_activity q -> authorize o st p q = Ok (st', b) ->
  b = false /\ p ∉ m_principals st
  \/ p ∈ m_principals st /\ exists U, (forall o', get_implicit_tenants o' st' p = Ok (st', U))
     /\ (b = true <-> U <> ∅ /\ valid_request st q
          /\ (grants_membership st p q (shape_of q)
              \/ exists u, u ∈ U /\ grants_membership st p (set_o_tenant q (AStr u)) (shape_of q))).
Proof.
  intros Hq [?|(Hp & U & H1 & H2)]%authorize_exact; [by left|right]. split; [done|]. exists U. split; [done|].
  rewrite H2, (grants_no_activity _ _ _ _ Hq). do 2 (apply and_iff_compat_l). apply or_iff_compat_l. apply exists_iff.
  intros u. by rewrite grants_no_activity.
Qed.
Lemma authorize_activity o st p q st' b : asks_activity q -> authorize o st p q = Ok (st', b) ->
  b = false /\ p ∉ m_principals st
  \/ p ∈ m_principals st /\ exists U, (forall o', get_implicit_tenants o' st' p = Ok (st', U))
     /\ (b = true <-> U <> ∅ /\ valid_request st q
          /\ (grants_activity st p q (shape_of q)
              \/ exists u, u ∈ U /\ grants_activity st p (set_o_tenant q (AStr u)) (shape_of q))).
Proof.
  intros Hq [?|(Hp & U & H1 & H2)]%authorize_exact; [by left|right]. split; [done|]. exists U. split; [done|].
  rewrite H2, (grants_with_activity _ _ _ _ Hq). do 2 (apply and_iff_compat_l). apply or_iff_compat_l. apply exists_iff.
  intros u. by rewrite grants_with_activity.
Qed.
(** Requests naming only a namespace, only a scope, or nothing. *)
Lemma authorize_no_shape o st p q st' b : authorize o st p q = Ok (st', b) -> o_tenant q = ANil ->
  o_namespace q = ANil \/ o_scope q = ANil -> b = false.
Proof.
  intros H Ht Hn. assert (E : shape_of q = FNone).
  { unfold shape_of. rewrite Ht. simpl. destruct Hn as [->| ->]; simpl; [done|by destruct (is_nil _)]. }
  apply authorize_exact in H as [[? _]|(_ & U & _ & H)]; [done|]. rewrite E in H. destruct b; [|done]. exfalso.
  destruct (proj1 H eq_refl) as (_ & _ & [Hg|(u & _ & Hg)]); destruct Hg as [[_ (g & a & t & d & r & l & _ & _ & _ & _ & [_ []] & _)]|[_ []]].
Qed.
(** On a state in which the caches play no part, the verdict in terms of the rows and the
    hierarchy of tenants. *)
Lemma authorize_fresh o st p q st' b : reachable st -> m_cache st !! p = None -> hierarchy_fresh st ->
  tenants_coherent st -> flags_agree st p -> authorize o st p q = Ok (st', b) ->
  (b = true <-> p ∈ m_principals st /\ (exists t, own st p t) /\ valid_request st q
     /\ (grants st p q (shape_of q)
         \/ exists u, (own st p u \/ exists t0, manages st p t0 /\ below st t0 u)
              /\ grants st p (set_o_tenant q (AStr u)) (shape_of q))).
Proof.
  intros [W Hs]%reachable_hierarchy Hc Hf Hco Hfl H.
  apply authorize_ok in H as [(-> & Hp & _)|(Hp & U & (o2 & H2) & Hb)]; [naive_solver|].
  rewrite Hb. unfold authorized. pose proof (implicit_exact _ _ _ _ _ W Hs Hf Hco Hfl Hc H2) as HU.
  assert (HN : U <> ∅ <-> exists t, own st p t).
  { split.
    - intros Hne. apply set_choose_L in Hne as [t Ht]. apply HU in Ht as [?|(t0 & (d & ? & ? & ? & ?) & _)]; [by exists t|].
      exists t0. by exists d.
    - intros (t & Ht) ->. assert (t ∈ (∅ : gset string)) by (apply HU; by left). set_solver. }
  rewrite HN. setoid_rewrite HU. tauto.
Qed.

(** ** C14 *)
(** The hole: any association opens every registered tenant. *)
Lemma tenant_hole o st p t l u st' b : reachable st -> m_cache st !! p = None ->
  p ∈ m_principals st -> m_tenants st !! t = Some l -> own st p u ->
  authorize o st p (Opts (AStr t) ANil ANil ANil ANil) = Ok (st', b) -> b = true.
Proof.
  intros [W Hs]%reachable_hierarchy Hc Hp Ht Hu H.
  apply authorize_ok in H as [(_ & Hn & _)|(_ & U & (o2 & H2) & Hb)]; [done|]. apply Hb. clear Hb.
  destruct (implicit_bounds _ _ _ _ _ W Hs Hc H2) as [B1 _]. specialize (B1 _ Hu).
  split_and!; [done|set_solver| |].
  - split_and!; simpl; [right; by exists t, l|by left|by left].
  - right. exists u. split; [done|]. right. split; [by intros [? _]|]. destruct Hu as (d & Hd & Hpd & Htd).
    exists d. simpl. split_and!; [done|done|done|by rewrite Htd].
Qed.
(** When the implicit tenants are just the requested one, other tenants' rows play no part. *)
Lemma tenant_isolated o st p q t st' b U : authorize o st p q = Ok (st', b) -> o_tenant q = AStr t ->
  (forall o', get_implicit_tenants o' st' p = Ok (st', U)) -> U ⊆ {[t]} ->
  b = true -> grants st p q (shape_of q).
Proof.
  intros H Ht HU Hs ->. apply authorize_exact in H as [[? _]|(_ & U' & H1 & H2)]; [done|].
  assert (U' = U) as -> by (specialize (H1 id_oracle); specialize (HU id_oracle); congruence).
  destruct (proj1 H2 eq_refl) as (_ & _ & [?|(u & Hu & Hg)]); [done|].
  apply Hs in Hu. apply elem_of_singleton in Hu as ->. destruct q; simpl in *. by subst.
Qed.
Definition w14_ops : list op :=
  [ONewTenant "acme"; OAddTenant 0; ONewTenant "globex"; OAddTenant 1; OAddPrincipal "eve";
   ONewRole "guest"; OAddRole 0; OTenantAddPrincipal 1 "eve" false ["guest"]].
Definition tenant_only (t : string) : opts := Opts (AStr t) ANil ANil ANil ANil.

Lemma stored_list st l : trie_data id_oracle (m_trie st) = l -> forall d, stored st d -> d ∈ l.
Proof. by intros <- d. Qed.
Lemma c14_refuted : exists st p t, reachable st
  /\ ~ own st p t /\ (forall t0, manages st p t0 -> ~ below st t0 t)
  /\ forall o, exists st', authorize o st p (tenant_only t) = Ok (st', true).
Proof.
  exists (ops_state w14_ops), "eve", "acme".
  assert (Hr : reachable (ops_state w14_ops)) by reach_ops w14_ops.
  assert (Hrow : forall d, stored (ops_state w14_ops) d ->
            d = Data (AStr "globex") ANil ANil (AStr "eve") (AStr "guest") (ABool false)).
  { intros d Hd. eapply stored_list in Hd; [|vm_compute; reflexivity]. by apply elem_of_list_singleton in Hd. }
  split; [done|]. split_and!.
  - intros (d & Hd & _ & Ht). apply Hrow in Hd as ->. done.
  - intros t0 (d & Hd & _ & _ & Hm). apply Hrow in Hd as ->. done.
  - intros o.
    assert (Hown : own (ops_state w14_ops) "eve" "globex").
    { exists (Data (AStr "globex") ANil ANil (AStr "eve") (AStr "guest") (ABool false)). split_and!; [|done|done].
      unfold stored. vm_compute. left. }
    destruct (authorize_returns o (ops_state w14_ops) "eve" (tenant_only "acme")) as (st' & b & H).
    + by apply reachable_wf.
    + intros d Hd%Hrow. subst d. split; right; by eexists.
    + split_and!; simpl; try (by left). right. by eexists.
    + intros (t & l & (d & Hd & _ & _ & Hm) & _). apply Hrow in Hd as ->. done.
    + intros g a r l Hg. discriminate Hg.
    + exists st'. rewrite H. f_equal. f_equal.
      eapply (tenant_hole o (ops_state w14_ops) "eve" "acme" 0 "globex"); [exact Hr|vm_compute; reflexivity| |vm_compute; reflexivity|exact Hown|exact H].
      apply (bool_decide_unpack _); vm_compute; exact I.
Qed.
