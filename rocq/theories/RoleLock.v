(** What operations can do to a given role and a given group. *)
From Verif Require Export RoleOps.

(** Operations that work on roles and groups. *)
Definition heap_op (x : op) : bool :=
  match x with
  | ONewRole _ | ONewGroup _ | OGroupAdd _ _ | OLock _ | OUnlock _ | ORoleAddDescendant _ _
  | ORoleAddPermission _ _ _ | ORoleAddGroup _ _ | OAddPermissionsToRole _ _ _ => true
  | _ => false
  end.

Lemma set_default_heap st t n st' : tenant_set_default st t n = Ok st' -> s_heap st' = s_heap st.
Proof. unfold tenant_set_default. rewrite rbind_ok. intros (c & _ & [= <-]). by case_bool_decide. Qed.
Lemma tenant_add_descendants_heap st t ds st' : tenant_add_descendants st t ds = Ok st' -> s_heap st' = s_heap st.
Proof.
  revert st. induction ds as [|d ds IH]; intros st; simpl; [by intros [= <-]|].
  destruct (s_tenants st !! t) as [c|]; [|done]. destruct (s_tenants st !! d) as [dc|]; [|done].
  rewrite rbind_ok. intros (st2 & H2 & H). rewrite (IH _ H).
  assert (E : forall st1, match t_default c with None => Ok st1 | Some n => pass_default st1 d n end = Ok st2 ->
              s_heap st2 = s_heap st1).
  { intros st1 H1. destruct (t_default c) as [n|]; [|by simplify_eq].
    unfold pass_default in H1. apply rbind_ok in H1 as (st3 & H3 & H4).
    rewrite (set_default_heap _ _ _ _ H4). by apply rbind_ok in H3 as (c' & _ & [= <-]). }
  rewrite (E _ H2). by destruct (t_desc c !! t_id dc).
Qed.
Lemma tenant_children_heap o st t st' ds : tenant_children o st t = Ok (st', ds) -> s_heap st' = s_heap st.
Proof. intros (hi & ca & ->)%tenant_children_same. done. Qed.

Lemma step_heap o st x st' r : step o st x = Ok (st', r) -> heap_op x = false -> s_heap st' = s_heap st.
Proof.
  destruct x; simpl; try done; intros H _.
  - by injection H as <- <-.
  - unfold ret_loc in H. apply rbind_ok in H as ([st1 l1] & Hh & [= <- <-]). unfold add_role in Hh.
    destruct (h_roles (s_heap st) !! r0) as [ro|]; [|done]. by destruct (m_roles st !! r_id ro); injection Hh as <- <-.
  - unfold ret_loc in H. apply rbind_ok in H as ([st1 l1] & Hh & [= <- <-]). unfold add_attribute_group in Hh.
    destruct (h_groups (s_heap st) !! g) as [ro|]; [|done]. by destruct (m_groups st !! g_id ro); injection Hh as <- <-.
  - unfold ret_loc in H. apply rbind_ok in H as ([st1 l1] & Hh & [= <- <-]). unfold add_tenant in Hh.
    destruct (s_tenants st !! t) as [c|]; [|done].
    by destruct (m_tenants (set_tenant st t _) !! t_id c); injection Hh as <- <-.
  - injection H as <- <-. unfold add_namespace. by case_bool_decide.
  - injection H as <- <-. unfold add_scope. by case_bool_decide.
  - injection H as <- <-. unfold add_principal. by case_bool_decide.
  - injection H as <- <-. unfold add_attribute. by destruct (m_attributes st !! attr_string a).
  - by injection H as <- <-.
  - unfold ret_unit in H. apply rbind_ok in H as (st1 & H & [= <- <-]).
    apply (repeat_op_pres (fun s => s_heap s = s_heap st)) in H; [done| |done].
    intros s n s' Hs H1. by apply rbind_ok in H1 as (c & _ & [= <-]).
  - unfold ret_unit in H. apply rbind_ok in H as (st1 & H & [= <- <-]). by eapply tenant_add_descendants_heap.
  - unfold ret_unit in H. apply rbind_ok in H as (st1 & H & [= <- <-]). by apply rbind_ok in H as (c & _ & [= <-]).
  - unfold ret_unit in H. apply rbind_ok in H as (st1 & H & [= <- <-]). by eapply set_default_heap.
  - unfold ret_unit in H. apply rbind_ok in H as (st1 & H & [= <- <-]). by apply rbind_ok in H as (c & _ & [= <-]).
  - unfold ret_unit in H. apply rbind_ok in H as (st1 & H & [= <- <-]).
    apply (repeat_op_pres (fun s => s_heap s = s_heap st)) in H; [done| |done].
    intros s n s' Hs H1. apply rbind_ok in H1 as (c & _ & H1). by destruct (h_roles (s_heap s) !! n); simplify_eq.
  - unfold ret_unit in H. apply rbind_ok in H as (st1 & H & [= <- <-]).
    apply (repeat_op_pres (fun s => s_heap s = s_heap st)) in H; [done| |done].
    intros s n s' Hs H1. by apply rbind_ok in H1 as (c & _ & [= <-]).
  - unfold ret_err in H. apply rbind_ok in H as ([st1 e] & H & [= <- <-]).
    apply (until_error_pres (fun s => s_heap s = s_heap st)) in H; [done| |done].
    intros s n s' e' Hs H1. apply rbind_ok in H1 as (c & _ & H1).
    destruct (negb _); [by simplify_eq|]. destruct (m_roles s !! n); [|by simplify_eq].
    cbv zeta in H1. by destruct (t_default c); injection H1 as <- <-.
  - unfold ret_err in H. apply rbind_ok in H as ([st1 e] & H & [= <- <-]).
    apply (until_error_pres (fun s => s_heap s = s_heap st)) in H; [done| |done].
    intros s n s' e' Hs H1. apply rbind_ok in H1 as (c & _ & H1).
    destruct (negb _); [by simplify_eq|]. destruct (negb _); [by simplify_eq|].
    cbv zeta in H1. by destruct (t_default c); injection H1 as <- <-.
  - apply rbind_ok in H as ([st1 ds] & H & [= <- <-]). by eapply tenant_children_heap.
  - apply rbind_ok in H as ([st1 ds] & H & [= <- <-]). by apply implicit_same in H as (? & ? & ->).
  - apply rbind_ok in H as ([st1 b] & H & [= <- <-]). by apply authorize_same in H as (? & ? & ->).
Qed.

(** [role_change o' h h' x l]: what one operation does to role [l]. *)
Lemma step_role o st x st' r l ro :
  step o st x = Ok (st', r) -> h_roles (s_heap st) !! l = Some ro -> r_lock ro = true -> x <> OUnlock l ->
  h_roles (s_heap st') !! l = Some ro.
Proof.
  intros H Hl Hlock Hx. destruct (heap_op x) eqn:Ho; [|by rewrite (step_heap _ _ _ _ _ H Ho)].
  destruct x; try done; simpl in H.
  - injection H as <- <-. simpl. by apply lookup_app_l_Some.
  - by injection H as <- <-.
  - apply rbind_ok in H as (h & Hh & [= <- <-]). unfold add_attributes in Hh.
    destruct (h_groups (s_heap st) !! g); by simplify_eq.
  - apply rbind_ok in H as (h & Hh & [= <- <-]). unfold role_set_lock in Hh.
    destruct (h_roles (s_heap st) !! r0) as [r1|] eqn:Hr; [|done]. injection Hh as <-.
    simpl s_heap. rewrite (set_role_lookup _ _ _ _ _ Hr). destruct (decide (r0 = l)) as [->|]; [|done].
    rewrite Hl in Hr. injection Hr as <-. rewrite <-Hlock. by destruct ro.
  - apply rbind_ok in H as (h & Hh & [= <- <-]). unfold role_set_lock in Hh.
    destruct (h_roles (s_heap st) !! r0) as [r1|] eqn:Hr; [|done]. injection Hh as <-.
    simpl s_heap. rewrite (set_role_lookup _ _ _ _ _ Hr). destruct (decide (r0 = l)) as [->|]; [|done]. done.
  - unfold ret_heap in H. apply rbind_ok in H as ([h e] & Hh & [= <- <-]). unfold role_add_descendant in Hh.
    destruct (h_roles (s_heap st) !! r0) as [r1|] eqn:Hr; [|done].
    destruct (r_lock r1) eqn:Hlk; [by injection Hh as <- <-|].
    apply rbind_ok in Hh as (desc & _ & [= <- <-]).
    simpl s_heap. rewrite (set_role_lookup _ _ _ _ _ Hr). destruct (decide (r0 = l)) as [->|]; [|done]. congruence.
  - unfold ret_heap in H. apply rbind_ok in H as ([h e] & Hh & [= <- <-]). simpl s_heap.
    pose proof Hh as Hf. apply add_permission_frame in Hf as (F1 & _).
    destruct (decide (l = r0)) as [<-|Hne]; [|by apply F1].
    unfold role_add_permission in Hh. rewrite Hl, Hlock in Hh. by injection Hh as <- <-.
  - unfold ret_heap in H. apply rbind_ok in H as ([h e] & Hh & [= <- <-]). unfold role_add_group in Hh.
    destruct (h_roles (s_heap st) !! r0) as [r1|] eqn:Hr; [|done].
    destruct (r_lock r1) eqn:Hlk; [by injection Hh as <- <-|].
    destruct (h_groups (s_heap st) !! g) as [g0|]; [|done].
    destruct (r_perms r1 !! g_id g0); injection Hh as <- <-; [done|].
    simpl s_heap. rewrite (set_role_lookup _ _ _ _ _ Hr). destruct (decide (r0 = l)) as [->|]; [|done]. congruence.
  - unfold ret_err in H. apply rbind_ok in H as ([st1 e] & H & [= <- <-]). unfold add_permissions_to_role in H.
    destruct (m_roles st !! r0) as [rl|]; [|by injection H as <- <-].
    destruct (m_groups st !! g) as [gl|]; [|by injection H as <- <-].
    destruct (h_groups (s_heap st) !! gl) as [go|]; [|done].
    destruct (check_attrs go g attrs); [by injection H as <- <-|].
    apply rbind_ok in H as ([h e'] & Hh & [= <- <-]). simpl s_heap.
    pose proof Hh as Hf. apply add_permission_frame in Hf as (F1 & _).
    destruct (decide (l = rl)) as [<-|Hne]; [|by apply F1].
    unfold role_add_permission in Hh. rewrite Hl, Hlock in Hh. by injection Hh as <- <-.
Qed.


Lemma add_permission_private h l0 grp attrs h' e l gl :
  role_add_permission h l0 grp attrs = Ok (h', e) -> gl < length (h_groups h) ->
  private h l gl -> private h' l gl.
Proof.
  unfold role_add_permission. destruct (h_roles h !! l0) as [r|] eqn:Hr; [|done]. intros H Hlt HP.
  destruct (r_lock r); [by injection H as <- <-|].
  destruct (r_perms r !! grp) as [gl0|].
  - destruct (h_groups h !! gl0); [|done]. by injection H as <- <-.
  - injection H as <- <-. intros l' r' k Hne Hr'. simpl in Hr'.
    apply list_lookup_insert_Some in Hr' as [(-> & <- & _)|[_ Hr']]; [|by eapply HP].
    simpl. intros Hk. apply lookup_insert_Some in Hk as [[_ Hk]|[_ Hk]]; [lia|exact (HP _ _ _ Hne Hr Hk)].
Qed.

Lemma step_private o st x st' r l gl :
  step o st x = Ok (st', r) -> gl < length (h_groups (s_heap st)) ->
  private (s_heap st) l gl -> (forall l', x <> ORoleAddGroup l' gl) ->
  private (s_heap st') l gl.
Proof.
  intros H Hlt HP Hx. destruct (heap_op x) eqn:Ho; [|by rewrite (step_heap _ _ _ _ _ H Ho)].
  destruct x; try done; simpl in H.
  - injection H as <- <-. intros l' r' k Hne Hr'. simpl in Hr'.
    apply lookup_app_Some in Hr' as [?|[_ Hr']]; [by eapply HP|].
    apply list_lookup_singleton_Some in Hr' as [_ <-]. simpl. by rewrite lookup_empty.
  - by injection H as <- <-.
  - apply rbind_ok in H as (h & Hh & [= <- <-]). unfold add_attributes in Hh.
    destruct (h_groups (s_heap st) !! g); by simplify_eq.
  - apply rbind_ok in H as (h & Hh & [= <- <-]). unfold role_set_lock in Hh.
    destruct (h_roles (s_heap st) !! r0) as [r1|] eqn:Hr; [|done]. injection Hh as <-.
    intros l' r' k Hne Hr'. simpl s_heap in Hr'. rewrite (set_role_lookup _ _ _ _ _ Hr) in Hr'.
    destruct (decide (r0 = l')) as [->|]; [|by eapply HP]. injection Hr' as <-. exact (HP _ _ _ Hne Hr).
  - apply rbind_ok in H as (h & Hh & [= <- <-]). unfold role_set_lock in Hh.
    destruct (h_roles (s_heap st) !! r0) as [r1|] eqn:Hr; [|done]. injection Hh as <-.
    intros l' r' k Hne Hr'. simpl s_heap in Hr'. rewrite (set_role_lookup _ _ _ _ _ Hr) in Hr'.
    destruct (decide (r0 = l')) as [->|]; [|by eapply HP]. injection Hr' as <-. exact (HP _ _ _ Hne Hr).
  - unfold ret_heap in H. apply rbind_ok in H as ([h e] & Hh & [= <- <-]). unfold role_add_descendant in Hh.
    destruct (h_roles (s_heap st) !! r0) as [r1|] eqn:Hr; [|done].
    destruct (r_lock r1) eqn:Hlk; [by injection Hh as <- <-|].
    apply rbind_ok in Hh as (desc & _ & [= <- <-]).
    intros l' r' k Hne Hr'. simpl s_heap in Hr'. rewrite (set_role_lookup _ _ _ _ _ Hr) in Hr'.
    destruct (decide (r0 = l')) as [->|]; [|by eapply HP]. injection Hr' as <-. exact (HP _ _ _ Hne Hr).
  - unfold ret_heap in H. apply rbind_ok in H as ([h e] & Hh & [= <- <-]). simpl s_heap.
    by eapply add_permission_private.
  - unfold ret_heap in H. apply rbind_ok in H as ([h e] & Hh & [= <- <-]). unfold role_add_group in Hh.
    destruct (h_roles (s_heap st) !! r0) as [r1|] eqn:Hr; [|done].
    destruct (r_lock r1) eqn:Hlk; [by injection Hh as <- <-|].
    destruct (h_groups (s_heap st) !! g) as [g0|]; [|done].
    destruct (r_perms r1 !! g_id g0); injection Hh as <- <-; [done|].
    intros l' r' k Hne Hr'. simpl s_heap in Hr'. rewrite (set_role_lookup _ _ _ _ _ Hr) in Hr'.
    destruct (decide (r0 = l')) as [->|]; [|by eapply HP]. injection Hr' as <-. simpl.
    intros Hk. apply lookup_insert_Some in Hk as [[_ ->]|[_ Hk]]; [by eapply Hx|exact (HP _ _ _ Hne Hr Hk)].
  - unfold ret_err in H. apply rbind_ok in H as ([st1 e] & H & [= <- <-]). unfold add_permissions_to_role in H.
    destruct (m_roles st !! r0) as [rl|]; [|by injection H as <- <-].
    destruct (m_groups st !! g) as [gl'|]; [|by injection H as <- <-].
    destruct (h_groups (s_heap st) !! gl') as [go|]; [|done].
    destruct (check_attrs go g attrs); [by injection H as <- <-|].
    apply rbind_ok in H as ([h e'] & Hh & [= <- <-]). simpl s_heap. by eapply add_permission_private.
Qed.

(** A group to which only a locked role points changes only through AddAttributes on it. *)
Lemma add_permission_group h l0 grp attrs h' e l ro gl g :
  role_add_permission h l0 grp attrs = Ok (h', e) ->
  h_roles h !! l = Some ro -> r_lock ro = true -> private h l gl ->
  h_groups h !! gl = Some g -> h_groups h' !! gl = Some g.
Proof.
  intros H Hl Hlock HP Hg. pose proof H as Hf. apply add_permission_frame in Hf as (_ & _ & _ & F).
  destruct (decide (l0 = l)) as [->|Hne].
  - unfold role_add_permission in H. rewrite Hl, Hlock in H. by injection H as <- <-.
  - apply F; [done|]. intros r Hr. by eapply HP.
Qed.
Lemma step_group o st x st' r l ro gl g :
  step o st x = Ok (st', r) -> h_roles (s_heap st) !! l = Some ro -> r_lock ro = true ->
  private (s_heap st) l gl -> h_groups (s_heap st) !! gl = Some g ->
  (forall attrs, x <> OGroupAdd gl attrs) ->
  h_groups (s_heap st') !! gl = Some g.
Proof.
  intros H Hl Hlock HP Hg Hx. destruct (heap_op x) eqn:Ho; [|by rewrite (step_heap _ _ _ _ _ H Ho)].
  destruct x; try done; simpl in H.
  - by injection H as <- <-.
  - injection H as <- <-. simpl. by apply lookup_app_l_Some.
  - apply rbind_ok in H as (h & Hh & [= <- <-]). unfold add_attributes in Hh.
    destruct (h_groups (s_heap st) !! g0) as [g1|] eqn:Hg1; [|done]. injection Hh as <-. simpl s_heap.
    rewrite (set_group_lookup _ _ _ _ _ Hg1). destruct (decide (g0 = gl)) as [->|]; [|done]. by edestruct Hx.
  - apply rbind_ok in H as (h & Hh & [= <- <-]). unfold role_set_lock in Hh.
    destruct (h_roles (s_heap st) !! r0) as [r1|] eqn:Hr; [|done]. by injection Hh as <-.
  - apply rbind_ok in H as (h & Hh & [= <- <-]). unfold role_set_lock in Hh.
    destruct (h_roles (s_heap st) !! r0) as [r1|] eqn:Hr; [|done]. by injection Hh as <-.
  - unfold ret_heap in H. apply rbind_ok in H as ([h e] & Hh & [= <- <-]). unfold role_add_descendant in Hh.
    destruct (h_roles (s_heap st) !! r0) as [r1|] eqn:Hr; [|done].
    destruct (r_lock r1) eqn:Hlk; [by injection Hh as <- <-|].
    by apply rbind_ok in Hh as (desc & _ & [= <- <-]).
  - unfold ret_heap in H. apply rbind_ok in H as ([h e] & Hh & [= <- <-]). simpl s_heap.
    by eapply add_permission_group.
  - unfold ret_heap in H. apply rbind_ok in H as ([h e] & Hh & [= <- <-]). unfold role_add_group in Hh.
    destruct (h_roles (s_heap st) !! r0) as [r1|] eqn:Hr; [|done].
    destruct (r_lock r1) eqn:Hlk; [by injection Hh as <- <-|].
    destruct (h_groups (s_heap st) !! g0) as [g1|]; [|done].
    by destruct (r_perms r1 !! g_id g1); injection Hh as <- <-.
  - unfold ret_err in H. apply rbind_ok in H as ([st1 e] & H & [= <- <-]). unfold add_permissions_to_role in H.
    destruct (m_roles st !! r0) as [rl|]; [|by injection H as <- <-].
    destruct (m_groups st !! g0) as [gl'|]; [|by injection H as <- <-].
    destruct (h_groups (s_heap st) !! gl') as [go|]; [|done].
    destruct (check_attrs go g0 attrs); [by injection H as <- <-|].
    apply rbind_ok in H as ([h e'] & Hh & [= <- <-]). simpl s_heap. by eapply add_permission_group.
Qed.

Lemma run_locked o i st ops st' outs l ro :
  run o i st ops = Ok (st', outs) -> h_roles (s_heap st) !! l = Some ro -> r_lock ro = true ->
  OUnlock l ∉ ops -> h_roles (s_heap st') !! l = Some ro.
Proof.
  revert i st outs. induction ops as [|x ops IH]; intros i st outs; simpl; [by intros [= <- <-]|].
  rewrite rbind_ok. intros ([st1 r1] & H1 & H) Hl Hlock Hno.
  apply rbind_ok in H as ([st2 r2] & H2 & [= <- <-]). apply not_elem_of_cons in Hno as [Hx Hno].
  eapply IH; [exact H2| |done|done]. by eapply step_role.
Qed.

(** Group [gl] of locked role [l] is out of the reach of [ops]. *)
Lemma run_locked_group o i st ops st' outs l ro gl g :
  run o i st ops = Ok (st', outs) -> h_roles (s_heap st) !! l = Some ro -> r_lock ro = true ->
  OUnlock l ∉ ops -> private (s_heap st) l gl -> h_groups (s_heap st) !! gl = Some g ->
  (forall attrs, OGroupAdd gl attrs ∉ ops) -> (forall l', ORoleAddGroup l' gl ∉ ops) ->
  h_groups (s_heap st') !! gl = Some g.
Proof.
  revert i st outs. induction ops as [|x ops IH]; intros i st outs; simpl; [by intros [= <- <-]|].
  rewrite rbind_ok. intros ([st1 r1] & H1 & H) Hl Hlock Hno HP Hg Ha Hb.
  apply rbind_ok in H as ([st2 r2] & H2 & [= <- <-]). apply not_elem_of_cons in Hno as [Hx Hno].
  assert (Ha' : forall attrs, x <> OGroupAdd gl attrs /\ OGroupAdd gl attrs ∉ ops).
  { intros attrs. specialize (Ha attrs). apply not_elem_of_cons in Ha. naive_solver. }
  assert (Hb' : forall l', x <> ORoleAddGroup l' gl /\ ORoleAddGroup l' gl ∉ ops).
  { intros l'. specialize (Hb l'). apply not_elem_of_cons in Hb. naive_solver. }
  eapply IH; [exact H2| |done|done| | | |].
  - by eapply step_role.
  - eapply step_private; [exact H1|by eapply lookup_lt_Some|done|]. intros l'. apply Hb'.
  - eapply step_group; [exact H1|done|done|done|done|]. intros attrs. apply Ha'.
  - intros attrs. apply Ha'.
  - intros l'. apply Hb'.
Qed.
Lemma run_locked_holds o i st ops st' outs l ro :
  wf_heap (s_heap st) ->
  run o i st ops = Ok (st', outs) -> h_roles (s_heap st) !! l = Some ro -> r_lock ro = true ->
  OUnlock l ∉ ops ->
  (forall grp gl, r_perms ro !! grp = Some gl ->
     private (s_heap st) l gl /\ (forall attrs, OGroupAdd gl attrs ∉ ops) /\ (forall l', ORoleAddGroup l' gl ∉ ops)) ->
  forall grp k a, holds (s_heap st') l grp k a <-> holds (s_heap st) l grp k a.
Proof.
  intros (_ & W2 & _) H Hl Hlock Hno Hp grp k a.
  pose proof (run_locked _ _ _ _ _ _ _ _ H Hl Hlock Hno) as Hl'.
  unfold holds, owns. split.
  - intros (g & (r & gl & Hr & Hk & Hg) & Ha). assert (r = ro) as -> by congruence.
    destruct (W2 _ _ _ _ Hl Hk) as (g' & Hg' & _). destruct (Hp _ _ Hk) as (P1 & P2 & P3).
    pose proof (run_locked_group _ _ _ _ _ _ _ _ _ _ H Hl Hlock Hno P1 Hg' P2 P3) as Hg2.
    assert (g = g') as -> by congruence. exists g'. split; [|done]. by exists ro, gl.
  - intros (g & (r & gl & Hr & Hk & Hg) & Ha). assert (r = ro) as -> by congruence.
    destruct (Hp _ _ Hk) as (P1 & P2 & P3).
    pose proof (run_locked_group _ _ _ _ _ _ _ _ _ _ H Hl Hlock Hno P1 Hg P2 P3) as Hg2.
    exists g. split; [|done]. by exists ro, gl.
Qed.
