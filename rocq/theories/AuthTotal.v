(** When Authorize and GetImplicitTenants return. *)
From Verif Require Export ImplicitProofs RoleHas.

Lemma tenant_children_returns o st t : state_wf st ->
  (exists st' ds, tenant_children o st t = Ok (st', ds))
  \/ tenant_children o st t = Hang /\ m_hierarchy st !! t = None
     /\ exists l, m_tenants st !! t = Some l /\ ~ tenants_acyclic st l.
Proof.
  intros W. unfold tenant_children. destruct (m_hierarchy st !! t); [left; by eexists _, _|].
  destruct (m_tenants st !! t) as [l|] eqn:Hl; [|left; by eexists _, _].
  destruct (wf_m_tenants _ W _ _ Hl) as (c & Hc & _).
  destruct (tenant_descendants_exact o st l W) as [[(ds & -> & _) _]|[-> Ha]]; [by eexists|left; by eexists _, _|].
  right. split_and!; [done|done|]. by exists l.
Qed.
Lemma add_children_returns ex ds : (forall x, x ∈ ds -> exists s, x = AStr s) -> exists ex', add_children ex ds = Ok ex'.
Proof.
  revert ex. induction ds as [|x ds IH]; intros ex H; simpl; [by eexists|].
  destruct (H x) as [s ->]; [left|]. apply IH. intros y Hy. apply H. by right.
Qed.
Lemma acyclic_same st st' l : same_but_caches st st' -> tenants_acyclic st' l <-> tenants_acyclic st l.
Proof. intros (hi & ca & ->). by destruct st. Qed.

Lemma implicit_loop_returns o i st ex rs : state_wf st ->
  (forall d, d ∈ rs -> exists t, tenant d = AStr t) ->
  (exists st' U, implicit_loop o i st ex rs = Ok (st', U))
  \/ implicit_loop o i st ex rs = Hang
     /\ exists t l, row_manages rs t /\ m_tenants st !! t = Some l /\ m_hierarchy st !! t = None /\ ~ tenants_acyclic st l.
Proof.
  revert i st ex. induction rs as [|r rs IH]; intros i st ex W Hrs; simpl; [left; by eexists _, _|].
  assert (Hrs' : forall d, d ∈ rs -> exists t, tenant d = AStr t) by (intros d Hd; apply Hrs; by right).
  assert (Hcons : forall t, row_manages rs t -> row_manages (r :: rs) t).
  { intros t (d & ? & ?). exists d. split; [by right|done]. }
  destruct (Hrs r) as [t Ht]; [left|]. rewrite Ht.
  assert (Hstep : forall ex1, (exists st' U, implicit_loop o (S i) st ex1 rs = Ok (st', U))
     \/ implicit_loop o (S i) st ex1 rs = Hang
     /\ exists t l, row_manages (r :: rs) t /\ m_tenants st !! t = Some l /\ m_hierarchy st !! t = None /\ ~ tenants_acyclic st l).
  { intros ex1. destruct (IH (S i) st ex1 W Hrs') as [?|[? (t' & l & ? & ?)]]; [by left|right].
    split; [done|]. exists t', l. split; [auto|done]. }
  case_bool_decide; [apply Hstep|]. destruct (manage r) as [| |[]|] eqn:Hm; try apply Hstep.
  destruct (tenant_children_returns (sub o i) st t W) as [(st1 & ds & H1)|(H1 & Hn & l & Hl & Ha)].
  - rewrite H1. cbn [rbind fst snd]. destruct (wf_tenant_children _ _ _ _ _ W H1) as [W1 Hds].
    destruct (add_children_returns ({[t]} ∪ ex) ds Hds) as [ex2 Hex2]. rewrite Hex2. cbn [rbind].
    pose proof (tenant_children_same _ _ _ _ _ H1) as Hsame.
    pose proof (grows_tenant_children _ _ _ _ _ H1) as G.
    destruct (IH (S i) st1 ex2 W1 Hrs') as [?|[? (t' & l & ? & Hl & Hn & Ha)]]; [by left|right].
    split; [done|]. exists t', l. split_and!; [auto| | |by rewrite (acyclic_same _ _ _ Hsame) in Ha].
    + destruct Hsame as (hi & ca & ->). done.
    + destruct (m_hierarchy st !! t') eqn:E; [|done]. rewrite (gr_hierarchy _ _ G _ _ E) in Hn. done.
  - rewrite H1. right. split; [done|]. exists t, l. split_and!; try done. exists r. split; [left|done].
Qed.
Lemma implicit_returns o st p : state_wf st -> stringy_rows st ->
  (exists st' U, get_implicit_tenants o st p = Ok (st', U))
  \/ get_implicit_tenants o st p = Hang /\ manages_cycle st p.
Proof.
  intros W Hst. unfold get_implicit_tenants. destruct (m_cache st !! p); [left; by eexists _, _|].
  destruct (implicit_loop_returns o 1 st ∅
    (search (sub o 0) st (row_filter ANil ANil ANil (AStr p)) filter_tenants_by_principal) W) as [(st' & U & ->)|[-> Hm]].
  - intros d (Hd & _ & Hn)%implicit_rows. destruct (Hst _ Hd) as [[?|?] _]; done.
  - left. by eexists _, _.
  - right. split; [done|]. destruct Hm as (t & l & Hm & ?). exists t, l. split; [|done]. by apply row_manages_manages in Hm.
Qed.

Lemma role_names_returns keep rs : (forall d, d ∈ rs -> stringy (role d)) -> exists l, role_names keep rs = Ok l.
Proof.
  induction rs as [|d rs IH]; intros H; simpl; [by eexists|].
  destruct IH as [l Hl]; [intros d' Hd'; apply H; by right|].
  destruct (negb (is_nil (role d)) && keep d) eqn:E; [|by eexists].
  destruct (H d) as [Hd|[r ->]]; [left| |rewrite Hl; by eexists]. by rewrite Hd in E.
Qed.
Lemma collect_tns_returns o st p t n s : stringy_rows st -> exists ra, collect_roles_tns o st p t n s = Ok ra.
Proof.
  intros Hst. unfold collect_roles_tns. rewrite get_roles_by_tenant_nil. cbn [role_names rbind].
  destruct (role_names_returns (fun d => nil_or (namespace d) n && nil_or (scope d) s) (get_roles_tns (sub o 1) st (AStr p) t n s)) as [l Hl].
  { intros d Hd. unfold get_roles_tns in Hd. apply stored_search in Hd as [Hd _]. by apply Hst. }
  rewrite Hl. by eexists.
Qed.
Lemma collect_returns o st p q f : stringy_rows st -> exists ra,
  match f with
  | FT => collect_roles o st p (o_tenant q)
  | FTN => collect_roles_tn o st p (o_tenant q) (o_namespace q)
  | FTS => collect_roles_ts o st p (o_tenant q) (o_scope q)
  | FNS => collect_roles_ns o st p (o_namespace q) (o_scope q)
  | FTNS => collect_roles_tns o st p (o_tenant q) (o_namespace q) (o_scope q)
  | FNone => Ok ([], [])
  end = Ok ra.
Proof.
  intros Hst. destruct f.
  - unfold collect_roles. rewrite get_roles_by_tenant_nil. by eexists.
  - unfold collect_roles_tn. rewrite get_roles_by_tenant_nil. cbn [role_names rbind].
    destruct (role_names_returns (fun d => nil_or (namespace d) (o_namespace q)) (get_roles_tn (sub o 1) st (AStr p) (o_tenant q) (o_namespace q))) as [l Hl].
    { intros d Hd. unfold get_roles_tn in Hd. apply stored_search in Hd as [Hd _]. by apply Hst. }
    rewrite Hl. by eexists.
  - unfold collect_roles_ts. rewrite get_roles_by_tenant_nil. cbn [role_names rbind].
    destruct (role_names_returns (fun d => nil_or (scope d) (o_scope q)) (get_roles_ts (sub o 1) st (AStr p) (o_tenant q) (o_scope q))) as [l Hl].
    { intros d Hd. unfold get_roles_ts in Hd. apply stored_search in Hd as [Hd _]. by apply Hst. }
    rewrite Hl. by eexists.
  - by apply collect_tns_returns.
  - unfold collect_roles_ns. generalize 1. induction (get_tenants (sub o 0) st (AStr p)) as [|d ds IH]; intros i; simpl; [by eexists|].
    destruct (collect_tns_returns (sub o i) st p (tenant d) (o_namespace q) (o_scope q) Hst) as [ra ->]. simpl.
    destruct (IH (S i)) as [rest ->]. by eexists.
  - by eexists.
Qed.

Lemma any_role_has_panic o i st q allowed roles : state_wf st -> asks_activity q ->
  stringy (o_group q) -> stringy (o_activity q) -> any_role_has o i st q allowed roles <> Panic.
Proof.
  intros W [Hg Ha] [?|[g Eg]] [?|[a Ea]]; try done. revert i. induction roles as [|r roles IH]; intros i; simpl; [done|].
  destruct (m_roles st !! r) as [l|] eqn:Hr; [|apply IH]. rewrite Eg, Ea, rbind_panic. intros [H|([] & _ & H)]; [|done|by eapply IH].
  destruct (wf_m_roles _ W _ _ Hr) as (ro & Hro & _).
  apply (has_fuel_no_panic (S (length (h_roles (s_heap st)))) (sub o i) (s_heap st) l g a allowed); [by apply W|by eexists|done].
Qed.
Lemma any_role_has_hang o i st q allowed roles : state_wf st -> decidable_roles st q ->
  any_role_has o i st q allowed roles <> Hang.
Proof.
  intros W Hdec. revert i. induction roles as [|r roles IH]; intros i; simpl; [done|].
  destruct (m_roles st !! r) as [l|] eqn:Hr; [|apply IH].
  destruct (o_group q) as [|g| |] eqn:Eg; try done. destruct (o_activity q) as [|a| |] eqn:Ea; try done.
  destruct (wf_m_roles _ W _ _ Hr) as (ro & Hro & _).
  destruct (Hdec g a r l Eg Ea Hr) as [Hc Hs].
  destruct (role_has_returns (sub o i) (s_heap st) l g a allowed) as [b ->]; [by apply W|by eexists|done|done|].
  simpl. destruct b; [done|]. apply IH.
Qed.

Lemma check_activity_no_panic o st p q f : state_wf st -> stringy_rows st -> stringy_request q ->
  check_activity o st p q f <> Panic.
Proof.
  intros W Hst (_ & _ & _ & Hg & Ha). unfold check_activity.
  destruct (is_nil (o_group q)) eqn:Eg; [done|]. destruct (is_nil (o_activity q)) eqn:Ea; [done|].
  destruct (collect_returns (sub o 0) st p q f Hst) as [[roles allowed] ->]. cbn [rbind fst snd].
  destruct roles; [done|]. apply any_role_has_panic; [done| |done|done].
  split; by apply is_nil_false.
Qed.
Lemma check_activity_no_hang o st p q f : state_wf st -> stringy_rows st -> decidable_roles st q ->
  check_activity o st p q f <> Hang.
Proof.
  intros W Hst Hdec. unfold check_activity.
  destruct (is_nil (o_group q)) eqn:Eg; [done|]. destruct (is_nil (o_activity q)) eqn:Ea; [done|].
  destruct (collect_returns (sub o 0) st p q f Hst) as [[roles allowed] ->]. cbn [rbind fst snd].
  destruct roles; [done|]. by apply any_role_has_hang.
Qed.
Lemma tenant_loop_cases o i st na p q f ts r :
  tenant_loop o i st na p q f ts = r -> (forall b, r <> Ok b) ->
  exists j u, authorize_one (sub o j) st na p (set_o_tenant q (AStr u)) f = r.
Proof.
  revert i q. induction ts as [|t ts IH]; intros i q; simpl; [by intros <- H; edestruct H|].
  intros H Hr. destruct (any_eq (o_tenant q) (AStr t)); [by eapply IH|].
  destruct (authorize_one (sub o i) st na p (set_o_tenant q (AStr t)) f) as [b| |] eqn:E; simpl in H.
  - destruct b; [by edestruct Hr|]. destruct (IH _ _ H Hr) as (j & u & Hu). by exists j, u.
  - exists i, t. congruence.
  - exists i, t. congruence.
Qed.
Lemma validate_returns st q : stringy_request q -> exists b, validate_resources st q = Ok b.
Proof.
  intros (Ht & Hn & Hs & _). unfold validate_resources, valid_resource.
  destruct Ht as [->|[? ->]], Hn as [->|[? ->]], Hs as [->|[? ->]]; simpl;
    repeat (case_bool_decide; simpl; try by eexists); by eexists.
Qed.
Lemma wf_stringy_same st st' : same_but_caches st st' -> stringy_rows st -> stringy_rows st'.
Proof. intros (hi & ca & ->). by destruct st. Qed.
Lemma decidable_same st st' q : same_but_caches st st' -> decidable_roles st q -> decidable_roles st' q.
Proof. intros (hi & ca & ->). by destruct st. Qed.

Lemma authorize_no_panic o st p q : state_wf st -> stringy_rows st -> stringy_request q -> authorize o st p q <> Panic.
Proof.
  intros W Hst Hq. unfold authorize. case_bool_decide; simpl; [|done].
  destruct (implicit_returns (sub o 0) st p W Hst) as [(st1 & U & H1)|[-> _]]; [|done]. rewrite H1. simpl.
  pose proof (wf_implicit _ _ _ _ _ W H1) as W1. pose proof (implicit_same _ _ _ _ _ H1) as Hsame.
  pose proof (wf_stringy_same _ _ Hsame Hst) as Hst1.
  case_bool_decide; [done|]. destruct (validate_returns st1 q Hq) as [v ->]. simpl. destruct v; simpl; [|done].
  assert (Hone : forall o na q' f, stringy_request q' -> authorize_one o st1 na p q' f <> Panic).
  { intros o' na q' f Hq'. unfold authorize_one. destruct na; [done|]. by apply check_activity_no_panic. }
  rewrite rbind_panic. intros [H'|(b & _ & H')]; [by eapply Hone in H'|]. destruct b; [done|].
  apply rbind_panic in H' as [H'|(b & _ & H')]; [|done].
  apply tenant_loop_cases in H' as (j & u & H'); [|done]. apply Hone in H'; [done|].
  destruct Hq as (_ & ? & ? & ? & ?). split_and!; try done. right. by exists u.
Qed.
Lemma authorize_returns o st p q : state_wf st -> stringy_rows st -> stringy_request q ->
  ~ manages_cycle st p -> decidable_roles st q -> exists st' b, authorize o st p q = Ok (st', b).
Proof.
  intros W Hst Hq Hmc Hdec. destruct (authorize o st p q) as [[st' b]| |] eqn:E; [by eexists _, _|by apply authorize_no_panic in E|].
  exfalso. revert E. unfold authorize. case_bool_decide; simpl; [|done].
  destruct (implicit_returns (sub o 0) st p W Hst) as [(st1 & U & H1)|[_ ?]]; [|done]. rewrite H1. simpl.
  pose proof (wf_implicit _ _ _ _ _ W H1) as W1. pose proof (implicit_same _ _ _ _ _ H1) as Hsame.
  pose proof (wf_stringy_same _ _ Hsame Hst) as Hst1. pose proof (decidable_same _ _ _ Hsame Hdec) as Hdec1.
  case_bool_decide; [done|]. destruct (validate_returns st1 q Hq) as [v ->]. simpl. destruct v; simpl; [|done].
  assert (Hone : forall o na q' f, o_group q' = o_group q -> o_activity q' = o_activity q -> authorize_one o st1 na p q' f <> Hang).
  { intros o' na q' f E1 E2. unfold authorize_one. destruct na; [done|]. apply check_activity_no_hang; [done|done|].
    intros g a. rewrite E1, E2. apply Hdec1. }
  rewrite rbind_hang. intros [H'|(b & _ & H')]; [by eapply Hone in H'|]. destruct b; [done|].
  apply rbind_hang in H' as [H'|(b & _ & H')]; [|done].
  apply tenant_loop_cases in H' as (j & u & H'); [|done]. by apply Hone in H'.
Qed.
