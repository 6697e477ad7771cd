(** Proofs about Authorize. *)
From Verif Require Export AuthSpec DataProofs RoleHas.

Lemma stored_search o st f ff d : d ∈ search o st f ff <-> stored st d /\ ff f d = true.
Proof.
  unfold search, stored, trie_data, trie_search. rewrite !dfs_all, !elem_of_list_filter. tauto.
Qed.

Lemma elem_of_concat {A} (ls : list (list A)) x : x ∈ concat ls <-> exists l, x ∈ l /\ l ∈ ls.
Proof.
  rewrite elem_of_list_In, in_concat. setoid_rewrite <-elem_of_list_In. naive_solver.
Qed.

Lemma exists_iff {A} (P Q : A -> Prop) : (forall x, P x <-> Q x) -> (exists x, P x) <-> (exists x, Q x).
Proof. naive_solver. Qed.

Lemma contains_ids proj rs x :
  contains (ids_loop proj [] [] rs) x = true <-> exists d, d ∈ rs /\ x = proj d.
Proof. rewrite contains_spec. apply ids_loop_spec. Qed.

Lemma filter_tenants_spec p d :
  filter_tenants_by_principal (row_filter ANil ANil ANil p) d = true
  <-> principal d = p /\ principal d <> ANil /\ tenant d <> ANil.
Proof.
  unfold filter_tenants_by_principal. rewrite andb_true_iff, match_principal_spec, negb_true_iff, is_nil_false.
  simpl. tauto.
Qed.
Lemma get_tenants_by_principal_spec o st p x :
  x ∈ get_tenants_by_principal o st (AStr p)
  <-> exists d, stored st d /\ principal d = AStr p /\ tenant d <> ANil /\ x = tenant d.
Proof.
  unfold get_tenants_by_principal, search_wrapper. rewrite elem_of_compact, elem_of_list_fmap.
  setoid_rewrite stored_search. setoid_rewrite filter_tenants_spec.
  split; [intros (d & ? & ? & ? & ? & ?); exists d; naive_solver|].
  intros (d & ? & E & ? & ->). exists d. rewrite E. naive_solver.
Qed.
Lemma get_tenants_spec o st p d :
  d ∈ get_tenants o st (AStr p) <-> stored st d /\ principal d = AStr p /\ tenant d <> ANil.
Proof.
  unfold get_tenants. rewrite stored_search, filter_tenants_spec.
  split; [naive_solver|]. intros (? & E & ?). rewrite E. naive_solver.
Qed.

Local Ltac filter_unfold :=
  repeat first [rewrite andb_true_iff | rewrite orb_true_iff];
  rewrite ?match_tenant_spec, ?match_namespace_spec, ?match_scope_spec,
    ?match_principal_spec, ?match_role_spec, ?negb_true_iff, ?is_nil_spec, ?is_nil_false; simpl.

Lemma ns_filter_spec t p d :
  filter_namespace_for_principal_by_tenant (row_filter t ANil ANil (AStr p)) d = true
  <-> tenant d = t /\ tenant d <> ANil /\ namespace d <> ANil /\ for_principal d p.
Proof.
  unfold filter_namespace_for_principal_by_tenant, for_principal. simpl. rewrite andb_false_r. simpl.
  destruct (is_nil (namespace d)) eqn:E.
  - apply is_nil_spec in E. naive_solver.
  - apply is_nil_false in E. filter_unfold. destruct (principal d); naive_solver.
Qed.
Lemma scope_filter_spec t p d :
  filter_scope_for_principal_by_tenant (row_filter t ANil ANil (AStr p)) d = true
  <-> tenant d = t /\ tenant d <> ANil /\ scope d <> ANil /\ for_principal d p.
Proof.
  unfold filter_scope_for_principal_by_tenant, for_principal. simpl. rewrite andb_false_r. simpl.
  destruct (is_nil (scope d)) eqn:E.
  - apply is_nil_spec in E. naive_solver.
  - apply is_nil_false in E. filter_unfold. destruct (principal d); naive_solver.
Qed.
Lemma scope_ns_filter_spec t n p d : n <> ANil ->
  filter_scope_for_principal_by_tenant_and_namespace (row_filter t n ANil (AStr p)) d = true
  <-> tenant d = t /\ tenant d <> ANil /\ scope d <> ANil
      /\ (principal d = AStr p \/ principal d = ANil /\ unset_or (namespace d) n).
Proof.
  intros Hn. unfold filter_scope_for_principal_by_tenant_and_namespace, unset_or. simpl.
  rewrite andb_false_r. simpl.
  destruct (is_nil (scope d)) eqn:E.
  - apply is_nil_spec in E. naive_solver.
  - apply is_nil_false in E. filter_unfold. split.
    + intros [[? ?] Hx]. split_and!; [done|done|done|]. destruct Hx as [[[? ?]|[[? ?] ?]]|[? ?]]; auto.
    + intros (? & ? & ? & Hx). split; [done|]. destruct Hx as [Hp|[Hp [Hq|Hq]]].
      * right. split; [by rewrite Hp|done].
      * left. left. done.
      * left. right. split_and!; [by rewrite Hq|done|done].
Qed.

Lemma check_no_activity_spec o st p q :
  forall f, (f = FNS \/ f = FTNS -> o_namespace q <> ANil) ->
  check_no_activity o st p q f = true <-> grants_membership st p q f.
Proof.
  intros f Hn. destruct f; simpl.
  - rewrite contains_spec, get_tenants_by_principal_spec. naive_solver.
  - unfold get_namespace_ids, get_namespace_for_principal_by_tenant. rewrite contains_ids.
    setoid_rewrite stored_search. setoid_rewrite ns_filter_spec. naive_solver.
  - unfold get_scope_ids, get_scopes_for_principal_by_tenant. rewrite contains_ids.
    setoid_rewrite stored_search. setoid_rewrite scope_filter_spec. naive_solver.
  - unfold get_scope_ids, get_scopes_for_principal_by_tenant_and_namespace. rewrite contains_ids.
    setoid_rewrite stored_search. setoid_rewrite scope_ns_filter_spec; [|auto]. naive_solver.
  - unfold get_scope_ids, get_scope_for_principal_by_namespace. rewrite contains_ids.
    assert (Hin : forall d, d ∈ concat (imap (fun i t =>
               get_scopes_for_principal_by_tenant_and_namespace (sub o (S i)) st (AStr p) t (o_namespace q))
               (get_tenants_by_principal (sub o 0) st (AStr p)))
             <-> exists d0, stored st d0 /\ principal d0 = AStr p /\ tenant d0 <> ANil
                  /\ stored st d /\ tenant d = tenant d0 /\ scope d <> ANil
                  /\ (principal d = AStr p \/ principal d = ANil /\ unset_or (namespace d) (o_namespace q))).
    { intros d. rewrite elem_of_concat. split.
      - intros (l & Hd & Hl). apply elem_of_lookup_imap in Hl as (i & t & -> & Ht).
        apply elem_of_list_lookup_2, get_tenants_by_principal_spec in Ht as (d0 & ? & ? & ? & ->).
        apply stored_search in Hd as [? Hd]. apply scope_ns_filter_spec in Hd; [|auto].
        exists d0. naive_solver.
      - intros (d0 & ? & ? & ? & ? & E & ? & ?).
        assert (Ht : tenant d0 ∈ get_tenants_by_principal (sub o 0) st (AStr p)).
        { apply get_tenants_by_principal_spec. by exists d0. }
        apply elem_of_list_lookup in Ht as [i Hi].
        eexists. split; [|apply elem_of_lookup_imap; by eexists i, _].
        apply stored_search. split; [done|]. apply scope_ns_filter_spec; [auto|]. split_and!; [done|by rewrite E|done|done]. }
    setoid_rewrite Hin. split.
    + intros (d & (d0 & ?) & ?). exists d0, d. naive_solver.
    + intros (d0 & d & ?). exists d. split; [|naive_solver]. exists d0. naive_solver.
  - done.
Qed.

(** ** Activity *)
Lemma role_names_ok keep rs l : role_names keep rs = Ok l ->
  forall r, r ∈ l <-> exists d, d ∈ rs /\ keep d = true /\ role d = AStr r.
Proof.
  revert l. induction rs as [|d rs IH]; intros l; simpl.
  - intros [= <-] r. split; [by intros H%elem_of_nil|]. intros (d & H & _). by apply elem_of_nil in H.
  - destruct (negb (is_nil (role d)) && keep d) eqn:E.
    + apply andb_true_iff in E as [E1 E2]. destruct (role d) as [|s| |] eqn:Er; try done.
      rewrite rbind_ok. intros (l' & Hl' & [= <-]) r. rewrite elem_of_cons, (IH _ Hl').
      split.
      * intros [->|(d' & ? & ?)]; [exists d; split; [left|done]|exists d'; split; [by right|done]].
      * intros (d' & [->|?]%elem_of_cons & ? & ?); [left; congruence|right; by exists d'].
    + intros H r. rewrite (IH _ H). split.
      * intros (d' & ? & ?). exists d'. split; [by right|done].
      * intros (d' & [->|?]%elem_of_cons & Hk & Hr); [|by exists d'].
        rewrite Hk, Hr in E. done.
Qed.

Lemma get_roles_by_tenant_nil o st t : get_roles_by_tenant o st t = [].
Proof.
  destruct (get_roles_by_tenant o st t) as [|d l] eqn:E; [done|].
  assert (Hd : d ∈ get_roles_by_tenant o st t) by (rewrite E; left).
  unfold get_roles_by_tenant in Hd. apply stored_search in Hd as [_ Hd].
  unfold filter_role_by_tenant in Hd. apply andb_true_iff in Hd as [_ Hd].
  apply match_role_spec in Hd as [H1 H2]. done.
Qed.

Lemma nil_or_spec x v : nil_or x v = true <-> unset_or x v.
Proof. unfold nil_or, unset_or. by rewrite orb_true_iff, is_nil_spec, any_eq_spec. Qed.

Lemma roles_tn_filter t n p d :
  filter_role_for_principal_by_tenant_and_namespace (row_filter t n ANil (AStr p)) d = true
  <-> role d <> ANil /\ (tenant d = t /\ tenant d <> ANil /\ principal d = AStr p
                         \/ namespace d = n /\ namespace d <> ANil).
Proof.
  unfold filter_role_for_principal_by_tenant_and_namespace. simpl. rewrite andb_false_r. simpl.
  destruct (is_nil (role d)) eqn:E.
  - apply is_nil_spec in E. naive_solver.
  - apply is_nil_false in E. filter_unfold. destruct (principal d); naive_solver.
Qed.
Lemma roles_ts_filter t s p d :
  filter_role_for_principal_by_tenant_and_scope (row_filter t ANil s (AStr p)) d = true
  <-> role d <> ANil /\ (tenant d = t /\ tenant d <> ANil /\ principal d = AStr p
                         \/ scope d = s /\ scope d <> ANil).
Proof.
  unfold filter_role_for_principal_by_tenant_and_scope. simpl. rewrite andb_false_r. simpl.
  destruct (is_nil (role d)) eqn:E.
  - apply is_nil_spec in E. naive_solver.
  - apply is_nil_false in E. filter_unfold. destruct (principal d); naive_solver.
Qed.
Lemma roles_tns_filter t n s p d :
  filter_role_for_principal_by_tenant_namespace_and_scope (row_filter t n s (AStr p)) d = true
  <-> role d <> ANil /\ principal d = AStr p
      /\ (tenant d = t /\ tenant d <> ANil \/ namespace d = n /\ namespace d <> ANil
          \/ scope d = s /\ scope d <> ANil).
Proof.
  unfold filter_role_for_principal_by_tenant_namespace_and_scope. simpl. rewrite andb_false_r. simpl.
  destruct (is_nil (role d)) eqn:E.
  - apply is_nil_spec in E. naive_solver.
  - apply is_nil_false in E. filter_unfold. destruct (principal d); naive_solver.
Qed.

Lemma collect_roles_tns_ok o st p t n s roles allowed :
  collect_roles_tns o st p t n s = Ok (roles, allowed) ->
  allowed = [] /\
  forall r, r ∈ roles <-> exists d, stored st d /\ role d = AStr r /\ principal d = AStr p
      /\ (tenant d = t /\ tenant d <> ANil \/ namespace d = n /\ namespace d <> ANil
          \/ scope d = s /\ scope d <> ANil)
      /\ unset_or (namespace d) n /\ unset_or (scope d) s.
Proof.
  unfold collect_roles_tns. rewrite get_roles_by_tenant_nil. cbn [role_names rbind].
  rewrite rbind_ok. intros (l & Hl & [= <- <-]). split; [done|]. intros r.
  rewrite (role_names_ok _ _ _ Hl). unfold get_roles_tns. setoid_rewrite stored_search.
  setoid_rewrite roles_tns_filter. setoid_rewrite andb_true_iff. setoid_rewrite nil_or_spec.
  apply exists_iff; intros d; assert (role d = AStr r -> role d <> ANil) by congruence; tauto.
Qed.

Definition usable_role (st : state) (p : string) (q : opts) (f : shape) (r : string) : Prop :=
  exists t d, role_tenant st p q f t /\ stored st d /\ role_row p t q f d /\ role d = AStr r.

Lemma collect_ok o st p q f roles allowed :
  match f with
  | FT => collect_roles o st p (o_tenant q)
  | FTN => collect_roles_tn o st p (o_tenant q) (o_namespace q)
  | FTS => collect_roles_ts o st p (o_tenant q) (o_scope q)
  | FNS => collect_roles_ns o st p (o_namespace q) (o_scope q)
  | FTNS => collect_roles_tns o st p (o_tenant q) (o_namespace q) (o_scope q)
  | FNone => Ok ([], [])
  end = Ok (roles, allowed) ->
  allowed = [] /\ forall r, r ∈ roles <-> usable_role st p q f r.
Proof.
  unfold usable_role. destruct f; simpl.
  - unfold collect_roles. rewrite get_roles_by_tenant_nil. simpl. intros [= <- <-]. split; [done|].
    intros r. split; [by intros H%elem_of_nil|]. by intros (t & d & _ & _ & [_ []] & _).
  - unfold collect_roles_tn. rewrite get_roles_by_tenant_nil. cbn [role_names rbind].
    rewrite rbind_ok. intros (l & Hl & [= <- <-]). split; [done|]. intros r.
    rewrite (role_names_ok _ _ _ Hl). unfold get_roles_tn. setoid_rewrite stored_search.
    setoid_rewrite roles_tn_filter. setoid_rewrite nil_or_spec.
    split; [intros (d & H); exists (o_tenant q), d|intros (t & d & -> & H); exists d]; unfold role_row in *; simpl in *;
      assert (role d = AStr r -> role d <> ANil) by congruence; tauto.
  - unfold collect_roles_ts. rewrite get_roles_by_tenant_nil. cbn [role_names rbind].
    rewrite rbind_ok. intros (l & Hl & [= <- <-]). split; [done|]. intros r.
    rewrite (role_names_ok _ _ _ Hl). unfold get_roles_ts. setoid_rewrite stored_search.
    setoid_rewrite roles_ts_filter. setoid_rewrite nil_or_spec.
    split; [intros (d & H); exists (o_tenant q), d|intros (t & d & -> & H); exists d]; unfold role_row in *; simpl in *;
      assert (role d = AStr r -> role d <> ANil) by congruence; tauto.
  - intros H. apply collect_roles_tns_ok in H as [-> H]. split; [done|]. intros r. rewrite H.
    split; [intros (d & H'); exists (o_tenant q), d|intros (t & d & -> & H'); exists d]; unfold role_row in *; simpl in *;
      assert (role d = AStr r -> role d <> ANil) by congruence; tauto.
  - unfold collect_roles_ns. intros H.
    assert (Hts : forall d0, d0 ∈ get_tenants (sub o 0) st (AStr p)
              <-> stored st d0 /\ principal d0 = AStr p /\ tenant d0 <> ANil) by apply get_tenants_spec.
    assert (Hgen : forall i ts roles allowed,
       collect_roles_ns_loop o i st p (o_namespace q) (o_scope q) ts = Ok (roles, allowed) ->
       allowed = [] /\ forall r, r ∈ roles <-> exists d0 d, d0 ∈ ts /\ stored st d /\ role d = AStr r
          /\ role_row p (tenant d0) q FNS d).
    { clear. intros i ts. revert i. induction ts as [|t ts IH]; intros i roles allowed; simpl.
      - intros [= <- <-]. split; [done|]. intros r. split; [by intros H%elem_of_nil|].
        intros (d0 & d & H & _). by apply elem_of_nil in H.
      - rewrite rbind_ok. intros ([r1 a1] & H1 & H). apply rbind_ok in H as ([r2 a2] & H2 & [= <- <-]).
        apply collect_roles_tns_ok in H1 as [-> H1]. apply IH in H2 as [-> H2]. split; [done|].
        intros r. simpl. rewrite elem_of_app, H1, H2. split.
        + intros [(d & H)|(d0 & d & H0 & H)].
          * exists t, d. unfold role_row. split; [left|]. assert (role d = AStr r -> role d <> ANil) by congruence; tauto.
          * exists d0, d. split; [by right|done].
        + intros (d0 & d & [->|Hin]%elem_of_cons & H).
          * left. exists d. unfold role_row in H. tauto.
          * right. by exists d0, d. }
    apply Hgen in H as [-> H]. split; [done|]. intros r. rewrite H. setoid_rewrite Hts. split.
    + intros (d0 & d & (? & ? & ?) & ? & ? & ?). exists (tenant d0), d. split; [by exists d0|done].
    + intros (t & d & (d0 & ? & ? & ? & ->) & ? & ? & ?). exists d0, d. done.
  - intros [= <- <-]. split; [done|]. intros r. split; [by intros H%elem_of_nil|]. by intros (t & d & _ & _ & [_ []] & _).
Qed.

Lemma any_role_has_ok o i st q allowed roles b :
  any_role_has o i st q allowed roles = Ok b ->
  (b = true <-> exists g a r l, o_group q = AStr g /\ o_activity q = AStr a /\ r ∈ roles
                 /\ m_roles st !! r = Some l /\ permits (s_heap st) l g a allowed).
Proof.
  revert i. induction roles as [|r roles IH]; intros i; simpl.
  - intros [= <-]. split; [done|]. intros (g & a & r & l & _ & _ & H & _). by apply elem_of_nil in H.
  - destruct (m_roles st !! r) as [l|] eqn:Hr.
    + destruct (o_group q) as [|g| |] eqn:Hg; try done.
      destruct (o_activity q) as [|a| |] eqn:Ha; try done.
      rewrite rbind_ok. intros (b' & Hb' & H). apply role_has_ok in Hb'. destruct b'.
      * injection H as <-. split; [|done]. intros _. exists g, a, r, l. split_and!; [done|done|left|done|].
        by apply Hb'.
      * rewrite (IH _ H). split.
        -- intros (g' & a' & r' & l' & ? & ? & ? & ? & ?). exists g', a', r', l'. split_and!; [done|done|by right|done|done].
        -- intros (g' & a' & r' & l' & ? & ? & [->|?]%elem_of_cons & ? & Hperm).
           ++ simplify_eq. by apply Hb' in Hperm.
           ++ exists g', a', r', l'. done.
    + intros H. rewrite (IH _ H). split.
      * intros (g' & a' & r' & l' & ? & ? & ? & ? & ?). exists g', a', r', l'. split_and!; [done|done|by right|done|done].
      * intros (g' & a' & r' & l' & ? & ? & [->|?]%elem_of_cons & ? & ?); [congruence|].
        exists g', a', r', l'. done.
Qed.

Lemma check_activity_ok o st p q f b : check_activity o st p q f = Ok b ->
  asks_activity q -> (b = true <-> grants_activity st p q f).
Proof.
  unfold check_activity. intros H [Hg Ha].
  apply is_nil_false in Hg. apply is_nil_false in Ha. rewrite Hg, Ha in H.
  apply rbind_ok in H as ([roles allowed] & Hc & H). apply collect_ok in Hc as [-> Hroles]. cbn [fst snd] in H.
  assert (Hspec : grants_activity st p q f <-> exists g a r l, o_group q = AStr g /\ o_activity q = AStr a
            /\ r ∈ roles /\ m_roles st !! r = Some l /\ permits (s_heap st) l g a []).
  { unfold grants_activity. setoid_rewrite Hroles. unfold usable_role. split.
    - intros (g & a & t & d & r & l & ? & ? & ? & ? & ? & ? & ? & ?).
      exists g, a, r, l. split_and!; [done|done| |done|done]. exists t, d. done.
    - intros (g & a & r & l & ? & ? & (t & d & ? & ? & ? & ?) & ? & ?).
      exists g, a, t, d, r, l. done. }
  rewrite Hspec. destruct roles as [|r0 roles].
  - injection H as <-. split; [done|]. intros (g & a & r & l & _ & _ & Hr & _). by apply elem_of_nil in Hr.
  - apply any_role_has_ok in H. rewrite H.
    setoid_rewrite elem_of_compact_adjacent. done.
Qed.

Definition na_flag (q : opts) : bool := negb (negb (is_nil (o_group q)) && negb (is_nil (o_activity q))).
Lemma na_flag_spec q : if na_flag q then ~ asks_activity q else asks_activity q.
Proof.
  unfold na_flag, asks_activity. destruct (is_nil (o_group q)) eqn:E1, (is_nil (o_activity q)) eqn:E2; simpl;
  rewrite ?is_nil_spec, ?is_nil_false in *; naive_solver.
Qed.

Lemma authorize_one_ok o st p q f b :
  (f = FNS \/ f = FTNS -> o_namespace q <> ANil) ->
  authorize_one o st (na_flag q) p q f = Ok b -> (b = true <-> grants st p q f).
Proof.
  intros Hn H. unfold authorize_one in H. pose proof (na_flag_spec q) as Hq. unfold grants.
  destruct (na_flag q).
  - injection H as <-. rewrite check_no_activity_spec by done. tauto.
  - apply check_activity_ok in H; [|done]. tauto.
Qed.

Lemma tenant_loop_ok o i st p q f ts b :
  (f = FNS \/ f = FTNS -> o_namespace q <> ANil) ->
  ~ grants st p q f ->
  tenant_loop o i st (na_flag q) p q f ts = Ok b ->
  (b = true <-> exists u, u ∈ ts /\ grants st p (set_o_tenant q (AStr u)) f).
Proof.
  intros Hn. revert i q Hn. induction ts as [|t ts IH]; intros i q Hn Hno; simpl.
  - intros [= <-]. split; [done|]. intros (u & H & _). by apply elem_of_nil in H.
  - unfold any_eq. case_bool_decide as Ht.
    + intros H. rewrite (IH _ _ Hn Hno H). split.
      * intros (u & ? & ?). exists u. split; [by right|done].
      * intros (u & [->|?]%elem_of_cons & Hg); [|by exists u].
        rewrite <-Ht in Hg. assert (set_o_tenant q (o_tenant q) = q) as E by by destruct q.
        rewrite E in Hg. done.
    + rewrite rbind_ok. intros (b1 & H1 & H).
      change (na_flag q) with (na_flag (set_o_tenant q (AStr t))) in H1, H.
      apply authorize_one_ok in H1; [|done]. destruct b1.
      * injection H as <-. split; [|done]. intros _. exists t. split; [left|by apply H1].
      * assert (Hno' : ~ grants st p (set_o_tenant q (AStr t)) f) by (intros Hg; by apply H1 in Hg).
        assert (Hn' : f = FNS \/ f = FTNS -> o_namespace (set_o_tenant q (AStr t)) <> ANil) by done.
        rewrite (IH (S i) (set_o_tenant q (AStr t)) Hn' Hno' H). simpl. split.
        -- intros (u & ? & ?). exists u. split; [by right|done].
        -- intros (u & [->|?]%elem_of_cons & Hg); [done|]. by exists u.
Qed.

(** ** Caches *)
Lemma same_but_caches_refl st : same_but_caches st st.
Proof. exists (m_hierarchy st), (m_cache st). by destruct st. Qed.
Lemma same_but_caches_trans st1 st2 st3 :
  same_but_caches st1 st2 -> same_but_caches st2 st3 -> same_but_caches st1 st3.
Proof. intros (h1 & c1 & ->) (h2 & c2 & ->). by exists h2, c2. Qed.
Lemma tenant_children_same o st t st' ds :
  tenant_children o st t = Ok (st', ds) -> same_but_caches st st'.
Proof.
  unfold tenant_children. destruct (m_hierarchy st !! t); [intros [= <- <-]; apply same_but_caches_refl|].
  destruct (m_tenants st !! t); [|intros [= <- <-]; apply same_but_caches_refl].
  rewrite rbind_ok. intros (ds' & _ & [= <- <-]). eexists _, (m_cache st). reflexivity.
Qed.
Lemma implicit_loop_same o i st ex rs st' U :
  implicit_loop o i st ex rs = Ok (st', U) -> same_but_caches st st'.
Proof.
  revert i st ex. induction rs as [|r rs IH]; intros i st ex; simpl.
  - intros [= <- <-]. apply same_but_caches_refl.
  - destruct (tenant r) as [|t| |]; try done. case_bool_decide; [apply IH|].
    destruct (manage r) as [| |[]|]; try apply IH.
    rewrite rbind_ok. intros ([st1 ds] & H1 & Hl). apply rbind_ok in Hl as (ex2 & _ & Hl).
    eapply same_but_caches_trans; [by eapply tenant_children_same|by eapply IH].
Qed.
Lemma implicit_same o st p st' U :
  get_implicit_tenants o st p = Ok (st', U) -> same_but_caches st st'.
Proof.
  unfold get_implicit_tenants. destruct (m_cache st !! p); [intros [= <- <-]; apply same_but_caches_refl|].
  rewrite rbind_ok. intros ([st1 U'] & H & [= <- <-]). apply implicit_loop_same in H.
  eapply same_but_caches_trans; [done|]. eexists (m_hierarchy st1), _. reflexivity.
Qed.
Lemma authorize_same o st p q st' b : authorize o st p q = Ok (st', b) -> same_but_caches st st'.
Proof.
  unfold authorize. case_bool_decide; simpl; [|intros [= <- <-]; apply same_but_caches_refl].
  rewrite rbind_ok. intros ([st1 U] & H1 & Hl). simpl in Hl. apply implicit_same in H1.
  case_bool_decide; [by simplify_eq|]. apply rbind_ok in Hl as (v & _ & Hl).
  destruct v; simpl in Hl; [|by simplify_eq]. apply rbind_ok in Hl as (b1 & _ & Hl).
  destruct b1; [by simplify_eq|]. apply rbind_ok in Hl as (b2 & _ & Hl). by simplify_eq.
Qed.

Lemma grants_caches st st' p q f : same_but_caches st st' -> grants st' p q f <-> grants st p q f.
Proof. intros (hi & ca & ->). by destruct st. Qed.
Lemma valid_request_caches st st' q : same_but_caches st st' -> valid_request st' q <-> valid_request st q.
Proof. intros (hi & ca & ->). by destruct st. Qed.

Lemma validate_ok st q v : validate_resources st q = Ok v -> (v = true <-> valid_request st q).
Proof.
  unfold validate_resources, valid_request, valid_resource.
  destruct (o_tenant q) as [|t| |]; try done; cbn [rbind negb].
  all: try case_bool_decide as Ht; cbn [negb].
  all: try (intros [= <-]; split; [done|]; intros ([?|(t' & l & [= <-] & Hl)] & _); [done|];
            exfalso; apply Ht; by eexists).
  all: destruct (o_namespace q) as [|n| |]; try done; cbn [rbind negb]; try case_bool_decide as Hn; cbn [negb].
  all: try (intros [= <-]; split; [done|]; intros (_ & [?|(n' & [= <-] & ?)] & _); done).
  all: destruct (o_scope q) as [|s| |]; try done; cbn [rbind negb]; try case_bool_decide as Hs; cbn [negb].
  all: try (intros [= <-]; split; [done|]; intros (_ & _ & [?|(s' & [= <-] & ?)]); done).
  all: intros [= <-]; split; [|done]; intros _; split_and!; try (left; done); right; try (by eexists).
  all: destruct Ht as [l Hl]; by eexists _, l.
Qed.

Lemma shape_ns q : shape_of q = FNS \/ shape_of q = FTNS -> o_namespace q <> ANil.
Proof.
  unfold shape_of. destruct (is_nil (o_tenant q)), (is_nil (o_namespace q)) eqn:E, (is_nil (o_scope q)); simpl;
    intros [?|?]; try done; by apply is_nil_false.
Qed.

Lemma authorize_ok o st p q st' b : authorize o st p q = Ok (st', b) ->
  (b = false /\ p ∉ m_principals st /\ st' = st)
  \/ (p ∈ m_principals st /\ exists U, (exists o', get_implicit_tenants o' st p = Ok (st', U))
       /\ (b = true <-> authorized st U p q)).
Proof.
  unfold authorize. case_bool_decide as Hp; simpl.
  2:{ intros [= <- <-]. by left. }
  rewrite rbind_ok. intros ([st1 U] & H1 & H). simpl in H. right. split; [done|].
  pose proof (implicit_same _ _ _ _ _ H1) as Hsame.
  exists U. unfold authorized.
  case_bool_decide as HU.
  { injection H as <- <-. split; [by exists (sub o 0)|]. naive_solver. }
  apply rbind_ok in H as (v & Hv & H). apply validate_ok in Hv.
  rewrite (valid_request_caches _ _ _ Hsame) in Hv.
  destruct v; simpl in H.
  2:{ injection H as <- <-. split; [by exists (sub o 0)|]. naive_solver. }
  fold (na_flag q) in H. apply rbind_ok in H as (b1 & Hb1 & H).
  apply authorize_one_ok in Hb1; [|apply shape_ns]. rewrite (grants_caches _ _ _ _ _ Hsame) in Hb1.
  destruct b1.
  { injection H as <- <-. split; [by exists (sub o 0)|]. naive_solver. }
  apply rbind_ok in H as (b2 & Hb2 & [= <- <-]).
  apply tenant_loop_ok in Hb2; [|apply shape_ns|].
  2:{ rewrite (grants_caches _ _ _ _ _ Hsame). naive_solver. }
  setoid_rewrite elem_of_ordered in Hb2. setoid_rewrite elem_of_elements in Hb2.
  setoid_rewrite (grants_caches _ _ _ _ _ Hsame) in Hb2.
  split; [by exists (sub o 0)|]. rewrite Hb2. split; [|naive_solver].
  intros ?. split_and!; [done|done|naive_solver|by right].
Qed.
