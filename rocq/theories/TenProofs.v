(** Proofs about the methods that set a root tenant up. *)
From Verif Require Export RDecProofs RConcProofs TenSpec.

(** ** Rows *)
Lemma with_rows_only st new : rows_only st (with_rows st new).
Proof. rewrite with_rows_eq. unfold rows_only. destruct st. cbn. split_and!; reflexivity. Qed.
Lemma rows_only_refl st : rows_only st st.
Proof. unfold rows_only. split_and!; reflexivity. Qed.
Lemma rows_only_eq st st' : rows_only st st' -> st' = with_trie st (m_trie st').
Proof. destruct st, st'. unfold rows_only. cbn. intros H. destruct_and!. subst. reflexivity. Qed.
Lemma logged_added st log new : logged st log ->
  (forall d d', d ∈ new -> d' ∈ new -> clash d d' -> d = d') -> rows_added st new (with_rows st new).
Proof.
  intros Hl Hinj d. pose proof (wrote_with_rows st new) as Hw. split.
  - intros H. apply (wrote_stored _ _ _ _ _ Hl Hw) in H. unfold rows in H. apply elem_of_survivors in H as (l1 & l2 & E & F).
    apply app_eq_inv in E as [(l & -> & E)|(l & -> & E)].
    + destruct l as [|d0 l]; cbn in E; [left; rewrite <- E; left|]. injection E as <- ->.
      rewrite Forall_app in F. destruct F as [F1 F2]. right. split.
      * apply (logged_stored _ _ _ Hl). unfold rows. apply elem_of_survivors. exists l1, l. split; [reflexivity|exact F1].
      * intros d' Hd'. rewrite Forall_forall in F2. exact (F2 d' Hd').
    + left. rewrite E. apply elem_of_app. right. left.
  - intros [Hd|[Hd Hn]].
    + apply (wrote_stored _ _ _ _ _ Hl Hw). apply survivors_app_r. destruct (survivors_has new d Hd) as (d' & Hd' & E).
      assert (Hi : d' ∈ new) by (unfold rows in Hd'; apply elem_of_survivors in Hd' as (? & ? & -> & _); set_solver).
      rewrite <- (Hinj d' d Hi Hd E). exact Hd'.
    + apply (wrote_keeps _ _ _ _ _ Hl Hw Hd). apply Forall_forall. intros d' Hd'. exact (Hn d' Hd').
Qed.
Lemma with_rows_adds st new r : reachable st -> r = Ok (with_rows st new) ->
  (forall d d', d ∈ new -> d' ∈ new -> clash d d' -> d = d') -> adds st new r.
Proof.
  intros [log Hl]%reachable_logged -> Hinj. exists (with_rows st new). split; [reflexivity|]. split; [apply with_rows_only|].
  exact (logged_added st log new Hl Hinj).
Qed.
Lemma clash_ns t n n' : clash (ns_row t n) (ns_row t n') -> ns_row t n = ns_row t n'.
Proof. unfold clash. rewrite !row_path_unfold. cbn. intros [=]. congruence. Qed.
Lemma clash_scope t n n' : clash (scope_row t n) (scope_row t n') -> scope_row t n = scope_row t n'.
Proof. unfold clash. rewrite !row_path_unfold. cbn. intros [=]. congruence. Qed.
Lemma clash_role t n n' : clash (tenant_role_row t n) (tenant_role_row t n') -> tenant_role_row t n = tenant_role_row t n'.
Proof. unfold clash. rewrite !row_path_unfold. cbn. intros [=]. congruence. Qed.

(** One call repeated *)
Lemma repeat_rows {A} (f : state -> A -> res state) (g : A -> data) st xs :
  (forall rs x, x ∈ xs -> f (with_rows st rs) x = Ok (with_rows st (rs ++ [g x]))) -> repeat_op f st xs = Ok (with_rows st (map g xs)).
Proof.
  intros Hf.
  assert (G : forall xs' rs, (forall x, x ∈ xs' -> x ∈ xs) -> repeat_op f (with_rows st rs) xs' = Ok (with_rows st (rs ++ map g xs'))).
  { induction xs' as [|x xs' IH]; intros rs Hin; cbn; [rewrite app_nil_r; reflexivity|].
    rewrite (Hf rs x); [|apply Hin; left]. cbn. rewrite (IH (rs ++ [g x])); [|intros y Hy; apply Hin; right; exact Hy].
    rewrite <- app_assoc. reflexivity. }
  exact (G xs [] (fun x H => H)).
Qed.
Lemma managed_rows st t c rs : s_tenants st !! t = Some c -> t_managed c = true -> managed_tenant (with_rows st rs) t = Ok c.
Proof. intros H1 H2. apply managed_ok; rewrite with_rows_eq; split; [exact H1|exact H2]. Qed.
Lemma managed_no st t : ~ has_manager st t -> managed_tenant st t = Panic.
Proof.
  intros H. unfold managed_tenant. destruct (s_tenants st !! t) as [c|] eqn:E; [|reflexivity].
  destruct (t_managed c) eqn:M; [|reflexivity]. destruct H. exists c. split; assumption.
Qed.
Lemma managed_dec st t : has_manager st t \/ ~ has_manager st t.
Proof.
  unfold has_manager. destruct (s_tenants st !! t) as [c|] eqn:E; [|right; intros (c & H & _); discriminate].
  destruct (t_managed c) eqn:M; [left; exists c; split; [reflexivity|exact M]|right]. intros (c' & [= <-] & M'). congruence.
Qed.

Lemma namespaces_exact st t c ns : s_tenants st !! t = Some c -> t_managed c = true ->
  tenant_add_namespaces st t ns = Ok (with_rows st (map (ns_row (t_id c)) ns)).
Proof.
  intros Hc Hm. unfold tenant_add_namespaces. apply (repeat_rows _ (ns_row (t_id c))). intros rs n _. unfold tenant_add_namespace.
  rewrite (managed_rows st t c rs Hc Hm). cbn [rbind]. rewrite <- with_rows_snoc. reflexivity.
Qed.
Lemma scopes_exact st t c ss : s_tenants st !! t = Some c -> t_managed c = true ->
  tenant_add_scopes st t ss = Ok (with_rows st (map (scope_row (t_id c)) ss)).
Proof.
  intros Hc Hm. unfold tenant_add_scopes. apply (repeat_rows _ (scope_row (t_id c))). intros rs n _. unfold tenant_add_scope.
  rewrite (managed_rows st t c rs Hc Hm). cbn [rbind]. rewrite <- with_rows_snoc. reflexivity.
Qed.
Definition role_name (st : state) (r : nat) : string := match h_roles (s_heap st) !! r with Some ro => r_id ro | None => "" end.
Lemma heap_rows st rs : s_heap (with_rows st rs) = s_heap st.
Proof. rewrite with_rows_eq. destruct st. reflexivity. Qed.
Lemma roles_exact st t c rs : s_tenants st !! t = Some c -> t_managed c = true -> (forall r, r ∈ rs -> is_Some (h_roles (s_heap st) !! r)) ->
  tenant_add_roles st t rs = Ok (with_rows st (map (fun r => tenant_role_row (t_id c) (role_name st r)) rs)).
Proof.
  intros Hc Hm Hr. unfold tenant_add_roles. apply (repeat_rows _ (fun r => tenant_role_row (t_id c) (role_name st r))). intros new r Hin. unfold tenant_add_role.
  rewrite (managed_rows st t c new Hc Hm). cbn [rbind]. rewrite heap_rows. unfold role_name. destruct (Hr r Hin) as [ro Hro]. rewrite Hro.
  rewrite <- with_rows_snoc. reflexivity.
Qed.
Lemma scopes_to_namespace_exact st t c n s : s_tenants st !! t = Some c -> t_managed c = true ->
  tenant_add_scopes_to_namespace st t n s = Ok (with_rows st [ns_scope_row (t_id c) n s]).
Proof. intros Hc Hm. unfold tenant_add_scopes_to_namespace. rewrite (proj2 (managed_ok st t c) (conj Hc Hm)). reflexivity. Qed.
Lemma member_exact st t c p n r : s_tenants st !! t = Some c -> t_managed c = true ->
  tenant_add_principal_in_namespace st t p n r = Ok (with_rows st [member_row (t_id c) n p r]).
Proof. intros Hc Hm. unfold tenant_add_principal_in_namespace. rewrite (proj2 (managed_ok st t c) (conj Hc Hm)). reflexivity. Qed.

(** ** C97 *)
Lemma map_apart {A} (g : A -> data) l : (forall x y, clash (g x) (g y) -> g x = g y) -> forall d d', d ∈ map g l -> d' ∈ map g l -> clash d d' -> d = d'.
Proof.
  intros H d d' Hd Hd' C. apply elem_of_list_In, in_map_iff in Hd as (x & <- & _). apply elem_of_list_In, in_map_iff in Hd' as (y & <- & _). exact (H x y C).
Qed.
Lemma one_apart (x : data) : forall d d', d ∈ [x] -> d' ∈ [x] -> clash d d' -> d = d'.
Proof. intros d d' Hd Hd' _. apply elem_of_list_singleton in Hd, Hd'. congruence. Qed.
Lemma c97_namespaces st t c ns : reachable st -> s_tenants st !! t = Some c -> t_managed c = true ->
  adds st (map (ns_row (t_id c)) ns) (tenant_add_namespaces st t ns).
Proof. intros R Hc Hm. apply (with_rows_adds _ _ _ R (namespaces_exact st t c ns Hc Hm)). apply map_apart. apply clash_ns. Qed.
Lemma c97_scopes st t c ss : reachable st -> s_tenants st !! t = Some c -> t_managed c = true ->
  adds st (map (scope_row (t_id c)) ss) (tenant_add_scopes st t ss).
Proof. intros R Hc Hm. apply (with_rows_adds _ _ _ R (scopes_exact st t c ss Hc Hm)). apply map_apart. apply clash_scope. Qed.
Lemma c97_roles st t c rs ids : reachable st -> s_tenants st !! t = Some c -> t_managed c = true ->
  Forall2 (fun r id => r_id <$> h_roles (s_heap st) !! r = Some id) rs ids ->
  adds st (map (tenant_role_row (t_id c)) ids) (tenant_add_roles st t rs).
Proof.
  intros R Hc Hm F.
  assert (Hr : forall r, r ∈ rs -> is_Some (h_roles (s_heap st) !! r)).
  { intros r Hi. apply elem_of_list_lookup in Hi as [i Hi]. destruct (Forall2_lookup_l _ _ _ _ _ F Hi) as (id & _ & E).
    destruct (h_roles (s_heap st) !! r) as [ro|]; [exists ro; reflexivity|discriminate]. }
  assert (E : map (fun r => tenant_role_row (t_id c) (role_name st r)) rs = map (tenant_role_row (t_id c)) ids).
  { clear -F. induction F as [|r id rs ids H F IH]; [reflexivity|]. cbn [map]. rewrite IH. f_equal. unfold role_name.
    destruct (h_roles (s_heap st) !! r); cbn in H; [|discriminate]. injection H as ->. reflexivity. }
  pose proof (roles_exact st t c rs Hc Hm Hr) as H. rewrite E in H.
  apply (with_rows_adds _ _ _ R H). apply map_apart. apply clash_role.
Qed.
Lemma c97_scopes_to_namespace st t c n s : reachable st -> s_tenants st !! t = Some c -> t_managed c = true ->
  adds st [ns_scope_row (t_id c) n s] (tenant_add_scopes_to_namespace st t n s).
Proof. intros R Hc Hm. apply (with_rows_adds _ _ _ R (scopes_to_namespace_exact st t c n s Hc Hm)). apply one_apart. Qed.
Lemma c97_member st t c p n r : reachable st -> s_tenants st !! t = Some c -> t_managed c = true ->
  adds st [member_row (t_id c) n p r] (tenant_add_principal_in_namespace st t p n r).
Proof. intros R Hc Hm. apply (with_rows_adds _ _ _ R (member_exact st t c p n r Hc Hm)). apply one_apart. Qed.
Lemma c97_add_data st d : reachable st -> adds st [d] (Ok (add_data st d)).
Proof. intros R. apply (with_rows_adds _ _ _ R); [reflexivity|]. apply one_apart. Qed.
(** The calls that tell errors *)
Lemma c97_add_principal st t c p md rs : reachable st -> s_tenants st !! t = Some c -> t_managed c = true ->
  let ok := fun r => p ∈ m_principals st /\ is_Some (m_roles st !! r) in
  exists done e, tenant_add_principal st t p md rs = Ok e /\ adds st (done ≫= role_rows c p md) (Ok e.1)
    /\ Forall ok done /\ (rs = done /\ e.2 = None \/ exists r rest, rs = done ++ r :: rest /\ ~ ok r /\ e.2 <> None).
Proof.
  intros R Hc Hm ok. destruct (add_principal_exact st t c p md rs Hc Hm) as [[F E]|(rs1 & r & rs2 & e & -> & F & Hn & E)].
  - exists rs, (with_rows st (rs ≫= role_rows c p md), None). split; [exact E|]. split; [|split; [exact F|left; split; reflexivity]].
    apply (with_rows_adds _ _ _ R); [reflexivity|]. intros d d'. apply role_rows_inj.
  - exists rs1, (with_rows st (rs1 ≫= role_rows c p md), Some e). split; [exact E|]. split; [|split; [exact F|right; exists r, rs2; split; [reflexivity|]; split; [exact Hn|discriminate]]].
    apply (with_rows_adds _ _ _ R); [reflexivity|]. intros d d'. apply role_rows_inj.
Qed.
Lemma c97_assign_scopes st t c p md ss : reachable st -> s_tenants st !! t = Some c -> t_managed c = true ->
  let ok := fun s => p ∈ m_principals st /\ s ∈ m_scopes st in
  exists done e, tenant_assign_scopes st t p md ss = Ok e /\ adds st (done ≫= scope_rows c p md) (Ok e.1)
    /\ Forall ok done /\ (ss = done /\ e.2 = None \/ exists s rest, ss = done ++ s :: rest /\ ~ ok s /\ e.2 <> None).
Proof.
  intros R Hc Hm ok. destruct (assign_scopes_exact st t c p md ss Hc Hm) as [[F E]|(rs1 & r & rs2 & e & -> & F & Hn & E)].
  - exists ss, (with_rows st (ss ≫= scope_rows c p md), None). split; [exact E|]. split; [|split; [exact F|left; split; reflexivity]].
    apply (with_rows_adds _ _ _ R); [reflexivity|]. intros d d'. apply scope_rows_inj.
  - exists rs1, (with_rows st (rs1 ≫= scope_rows c p md), Some e). split; [exact E|]. split; [|split; [exact F|right; exists r, rs2; split; [reflexivity|]; split; [exact Hn|discriminate]]].
    apply (with_rows_adds _ _ _ R); [reflexivity|]. intros d d'. apply scope_rows_inj.
Qed.
(** Without a manager *)
Lemma repeat_panic {A} (f : state -> A -> res state) st xs : (forall x, f st x = Panic) -> repeat_op f st xs = match xs with [] => Ok st | _ => Panic end.
Proof. intros H. destruct xs as [|x xs]; [reflexivity|]. cbn. rewrite H. reflexivity. Qed.
Lemma until_panic {A} (f : state -> A -> res (state * goerr)) st xs : (forall x, f st x = Panic) -> until_error f st xs = match xs with [] => Ok (st, None) | _ => Panic end.
Proof. intros H. destruct xs as [|x xs]; [reflexivity|]. cbn. rewrite H. reflexivity. Qed.
Lemma c97_no_manager o st t x : ~ has_manager st t ->
  match x with
  | OTenantAddScopesToNamespace t' _ _ | OTenantSetDefault t' _ | OTenantAddPrincipalInNamespace t' _ _ _ => t' = t
  | OTenantAddNamespaces t' ns => t' = t /\ ns <> []
  | OTenantAddRoles t' rs => t' = t /\ rs <> []
  | OTenantAddScopes t' ss => t' = t /\ ss <> []
  | OTenantAddPrincipal t' _ _ rs => t' = t /\ rs <> []
  | OTenantAssignScopes t' _ _ ss => t' = t /\ ss <> []
  | _ => False
  end -> step o st x = Panic.
Proof.
  intros Hn%managed_no. destruct x; try contradiction; cbn [step].
  - intros [-> Hx]. unfold tenant_add_namespaces. rewrite repeat_panic; [destruct ns; [destruct Hx; reflexivity|reflexivity]|].
    intros x. unfold tenant_add_namespace. rewrite Hn. reflexivity.
  - intros ->. unfold tenant_add_scopes_to_namespace. rewrite Hn. reflexivity.
  - intros ->. unfold tenant_set_default. rewrite Hn. reflexivity.
  - intros ->. unfold tenant_add_principal_in_namespace. rewrite Hn. reflexivity.
  - intros [-> Hx]. unfold tenant_add_roles. rewrite repeat_panic; [destruct rs; [destruct Hx; reflexivity|reflexivity]|].
    intros x. unfold tenant_add_role. rewrite Hn. reflexivity.
  - intros [-> Hx]. unfold tenant_add_scopes. rewrite repeat_panic; [destruct ss; [destruct Hx; reflexivity|reflexivity]|].
    intros x. unfold tenant_add_scope. rewrite Hn. reflexivity.
  - intros [-> Hx]. unfold tenant_add_principal. rewrite until_panic; [destruct rs; [destruct Hx; reflexivity|reflexivity]|].
    intros x. unfold tenant_add_principal_with_role. rewrite Hn. reflexivity.
  - intros [-> Hx]. unfold tenant_assign_scopes. rewrite until_panic; [destruct ss; [destruct Hx; reflexivity|reflexivity]|].
    intros x. unfold tenant_add_scope_to_principal. rewrite Hn. reflexivity.
Qed.

(** NewTenant, SetDefaultNamespace *)
Definition objects_only (st st' : state) : Prop := rows_only (with_tenant_objs st (s_tenants st')) st' /\ m_trie st' = m_trie st.
Lemma c97_new_tenant st id : let (l, st') := new_tenant st id in
  s_tenants st !! l = None /\ st' = with_tenant_objs st (s_tenants st')
  /\ s_tenants st' !! l = Some (Tenant id ∅ None false) /\ forall l', l' <> l -> s_tenants st' !! l' = s_tenants st !! l'.
Proof.
  unfold new_tenant. split; [apply lookup_ge_None_2; lia|]. split; [reflexivity|]. cbn. split.
  - rewrite lookup_app_r by lia. rewrite Nat.sub_diag. reflexivity.
  - intros l' Hn. destruct (decide (l' < length (s_tenants st))) as [H|H]; [apply lookup_app_l; exact H|].
    rewrite lookup_app_r by lia. rewrite (lookup_ge_None_2 (s_tenants st)) by lia. apply lookup_ge_None_2. cbn. lia.
Qed.
Lemma c97_set_default st t c n : s_tenants st !! t = Some c -> t_managed c = true ->
  exists st', tenant_set_default st t n = Ok st' /\ st' = with_tenant_objs st (s_tenants st')
    /\ (forall l, l <> t -> s_tenants st' !! l = s_tenants st !! l)
    /\ exists c', s_tenants st' !! t = Some c' /\ t_id c' = t_id c /\ t_desc c' = t_desc c /\ t_managed c' = true
         /\ (n ∈ m_namespaces st -> t_default c' = Some n) /\ (n ∉ m_namespaces st -> t_default c' = t_default c).
Proof.
  intros Hc Hm. unfold tenant_set_default. rewrite (proj2 (managed_ok st t c) (conj Hc Hm)). cbn [rbind].
  assert (Hlt : t < length (s_tenants st)) by (apply lookup_lt_is_Some; exists c; exact Hc).
  case_bool_decide as Hn.
  - eexists. split; [reflexivity|]. unfold set_tenant. cbn. split; [reflexivity|]. split; [intros l Hl; apply list_lookup_insert_ne; congruence|].
    eexists. split; [apply list_lookup_insert; exact Hlt|]. cbn. split_and!; [reflexivity|reflexivity|exact Hm|reflexivity|]. intros H. destruct (H Hn).
  - exists st. split; [reflexivity|]. split; [destruct st; reflexivity|]. split; [reflexivity|].
    exists c. split_and!; [exact Hc|reflexivity|reflexivity|exact Hm| |reflexivity]. intros H. destruct (Hn H).
Qed.

(** AddDescendant *)
Definition objs_rows (st : state) (ts : list tenant_obj) (new : list data) : state := with_rows (with_tenant_objs st ts) new.
Lemma objs_rows_again st ts new ts' new' : objs_rows (objs_rows st ts new) ts' new' = objs_rows st ts' (new ++ new').
Proof. unfold objs_rows. rewrite !with_rows_eq, foldl_app. destruct st. reflexivity. Qed.
Lemma objs_rows_ts st ts new : s_tenants (objs_rows st ts new) = ts.
Proof. unfold objs_rows. rewrite with_rows_eq. destruct st. reflexivity. Qed.
Lemma objs_rows_ns st ts new : m_namespaces (objs_rows st ts new) = m_namespaces st.
Proof. unfold objs_rows. rewrite with_rows_eq. destruct st. reflexivity. Qed.
Lemma objs_rows_none st : objs_rows st (s_tenants st) [] = st.
Proof. unfold objs_rows. destruct st. reflexivity. Qed.
Definition linked_all (st : state) (t : nat) (n : option string) (ds : list nat) (ts : list tenant_obj) : Prop :=
  forall l, match s_tenants st !! l, ts !! l with
            | Some x, Some y => after_linking st t n ds l x y
            | None, None => True
            | _, _ => False
            end.
Lemma linked_nil st t n : linked_all st t n [] (s_tenants st).
Proof.
  intros l. destruct (s_tenants st !! l) as [x|]; [|exact I]. split; [reflexivity|]. split; [reflexivity|]. split.
  - rewrite decide_False; [reflexivity|apply not_elem_of_nil].
  - intros k. destruct (t_desc x !! k); [reflexivity|]. cbn. destruct (decide (l = t)); reflexivity.
Qed.
(** One descendant: the link … *)
Lemma linked_one st t c d dc : s_tenants st !! t = Some c -> s_tenants st !! d = Some dc -> linked_all st t None [d]
  (s_tenants (match t_desc c !! t_id dc with Some _ => st
    | None => set_tenant st t (Tenant (t_id c) (<[t_id dc := d]> (t_desc c)) (t_default c) (t_managed c)) end)).
Proof.
  intros Hc Hd l.
  assert (Hlt : t < length (s_tenants st)) by (apply lookup_lt_is_Some; exists c; exact Hc).
  destruct (t_desc c !! t_id dc) as [d0|] eqn:E.
  - destruct (s_tenants st !! l) as [x|] eqn:Hx; [|exact I]. split; [reflexivity|]. split; [reflexivity|]. split; [destruct (decide _); reflexivity|].
    intros k. destruct (t_desc x !! k) eqn:Ek; [reflexivity|]. destruct (decide (l = t)) as [->|]; [|reflexivity].
    cbn. rewrite Hd. cbn. destruct (decide (Some (t_id dc) = Some k)) as [[= <-]|]; [|reflexivity]. congruence.
  - unfold set_tenant. cbn [s_tenants with_tenant_objs]. destruct (decide (l = t)) as [->|Hn].
    + rewrite list_lookup_insert by exact Hlt. rewrite Hc. split; [reflexivity|]. split; [reflexivity|]. split; [destruct (decide _); reflexivity|].
      intros k. cbn [t_desc]. rewrite decide_True by reflexivity. cbn. rewrite Hd. cbn. destruct (decide (k = t_id dc)) as [->|Hk].
      * rewrite lookup_insert, E, decide_True by reflexivity. reflexivity.
      * rewrite lookup_insert_ne by congruence. rewrite decide_False by congruence. destruct (t_desc c !! k); reflexivity.
    + rewrite list_lookup_insert_ne by congruence. destruct (s_tenants st !! l) as [x|]; [|exact I]. split; [reflexivity|]. split; [reflexivity|].
      split; [destruct (decide _); reflexivity|]. intros k. rewrite decide_False by exact Hn. destruct (t_desc x !! k); reflexivity.
Qed.
(** … and the namespace *)
Lemma linked_default st t d ts y m : linked_all st t None [d] ts -> ts !! d = Some y ->
  linked_all st t (Some m) [d] (<[d := Tenant (t_id y) (t_desc y) (Some m) (t_managed y)]> ts).
Proof.
  intros H Hy l. assert (Hlt : d < length ts) by (apply lookup_lt_is_Some; exists y; exact Hy).
  specialize (H l). destruct (decide (l = d)) as [->|Hn].
  - rewrite list_lookup_insert by exact Hlt. rewrite Hy in H. destruct (s_tenants st !! d) as [x|]; [|exact H].
    destruct H as (H1 & H2 & H3 & H4). split; [exact H1|]. split; [exact H2|]. split; [|exact H4]. rewrite decide_True by (left). reflexivity.
  - rewrite list_lookup_insert_ne by congruence. destruct (s_tenants st !! l) as [x|], (ts !! l) as [z|]; try exact H.
    destruct H as (H1 & H2 & H3 & H4). split; [exact H1|]. split; [exact H2|]. split; [|exact H4].
    rewrite decide_False in H3 by (rewrite elem_of_list_singleton; exact Hn). rewrite decide_False by (rewrite elem_of_list_singleton; exact Hn). exact H3.
Qed.
Lemma linked_id st t n ds ts l : linked_all st t n ds ts -> t_id <$> ts !! l = t_id <$> s_tenants st !! l.
Proof.
  intros H. specialize (H l). destruct (s_tenants st !! l), (ts !! l); try contradiction; [|reflexivity]. destruct H as (E & _). cbn. congruence.
Qed.
Lemma first_called_same st st' ds k : (forall l, t_id <$> s_tenants st' !! l = t_id <$> s_tenants st !! l) -> first_called st' ds k = first_called st ds k.
Proof. intros H. induction ds as [|d ds IH]; [reflexivity|]. cbn. rewrite H, IH. reflexivity. Qed.
Lemma passed_same st st' n ds : (forall l, t_id <$> s_tenants st' !! l = t_id <$> s_tenants st !! l) -> passed_rows st' n ds = passed_rows st n ds.
Proof.
  intros H. destruct n as [m|]; [|reflexivity]. unfold passed_rows. induction ds as [|d ds IH]; [reflexivity|]. cbn. cbn in IH. rewrite IH. specialize (H d).
  destruct (s_tenants st' !! d), (s_tenants st !! d); try discriminate; [|reflexivity]. cbn in H. injection H as ->. reflexivity.
Qed.
Lemma linked_cons st t n d ds ts new ts' : linked_all st t n [d] ts -> linked_all (objs_rows st ts new) t n ds ts' -> linked_all st t n (d :: ds) ts'.
Proof.
  intros H1 H2 l.
  assert (Hid : forall l, t_id <$> s_tenants (objs_rows st ts new) !! l = t_id <$> s_tenants st !! l) by (intros l0; rewrite objs_rows_ts; exact (linked_id _ _ _ _ _ l0 H1)).
  pose proof (fun k => first_called_same st (objs_rows st ts new) ds k Hid) as Hfc.
  specialize (H1 l). specialize (H2 l). rewrite objs_rows_ts in H2. destruct (s_tenants st !! l) as [x|], (ts !! l) as [y|], (ts' !! l) as [z|]; try contradiction; [|exact I].
  destruct H1 as (A1 & A2 & A3 & A4), H2 as (B1 & B2 & B3 & B4). split; [congruence|]. split; [congruence|]. split.
  - rewrite B3, A3. destruct (decide (l ∈ ds)) as [Hi|Hi].
    + rewrite (decide_True (P := l ∈ d :: ds)) by (right; exact Hi). destruct n; [reflexivity|]. destruct (decide _); reflexivity.
    + destruct (decide (l ∈ [d])) as [Hd|Hd].
      * apply elem_of_list_singleton in Hd as ->. rewrite decide_True by left. reflexivity.
      * rewrite decide_False; [reflexivity|]. intros [->|Hx]%elem_of_cons; [destruct Hd; left|exact (Hi Hx)].
  - intros k. rewrite B4, A4. destruct (t_desc x !! k) as [d0|]; [reflexivity|]. destruct (decide (l = t)) as [->|]; [|reflexivity].
    cbn [first_called]. destruct (decide (t_id <$> s_tenants st !! d = Some k)); [reflexivity|]. rewrite Hfc. reflexivity.
Qed.
Lemma descendants_exact st t c ds : (forall l x m, s_tenants st !! l = Some x -> t_default x = Some m -> m ∈ m_namespaces st) ->
  s_tenants st !! t = Some c -> (forall d, d ∈ ds -> is_Some (s_tenants st !! d)) ->
  (t_default c <> None -> forall d, d ∈ ds -> has_manager st d) ->
  exists ts, tenant_add_descendants st t ds = Ok (objs_rows st ts (passed_rows st (t_default c) ds)) /\ linked_all st t (t_default c) ds ts.
Proof.
  revert st c. induction ds as [|d ds IH]; intros st c Hdef Hc Hex Hman.
  { exists (s_tenants st). split; [|apply linked_nil]. assert (E : passed_rows st (t_default c) [] = []) by (destruct (t_default c); reflexivity).
    rewrite E, objs_rows_none. reflexivity. }
  cbn [tenant_add_descendants]. rewrite Hc. destruct (Hex d) as [dc Hd]; [left|]. rewrite Hd.
  set (st1 := match t_desc c !! t_id dc with Some _ => st | None => _ end).
  pose proof (linked_one st t c d dc Hc Hd) as L1. fold st1 in L1.
  assert (E1 : st1 = objs_rows st (s_tenants st1) []).
  { unfold st1. destruct (t_desc c !! t_id dc); [symmetry; apply objs_rows_none|]. unfold objs_rows, set_tenant. destruct st; reflexivity. }
  assert (S : exists ts2, (match t_default c with None => Ok st1 | Some n => pass_default st1 d n end) = Ok (objs_rows st ts2 (passed_rows st (t_default c) [d]))
              /\ linked_all st t (t_default c) [d] ts2).
  { destruct (t_default c) as [m|] eqn:Em.
    - destruct (Hman) with (d := d) as (dc' & Hd' & Hmd); [discriminate|left|]. rewrite Hd in Hd'. injection Hd' as <-.
      pose proof (L1 d) as Ld. rewrite Hd in Ld. destruct (s_tenants st1 !! d) as [y|] eqn:Hy; [|contradiction]. destruct Ld as (I1 & I2 & _).
      assert (My : t_managed y = true) by congruence.
      assert (Hmns : m ∈ m_namespaces st1) by (rewrite E1, objs_rows_ns; exact (Hdef t c m Hc Em)).
      eexists. split; [|exact (linked_default st t d (s_tenants st1) y m L1 Hy)].
      unfold pass_default, tenant_add_namespace. rewrite (proj2 (managed_ok st1 d y) (conj Hy My)). cbn [rbind].
      unfold tenant_set_default. assert (Hy2 : s_tenants (add_data st1 (Data (AStr (t_id y)) (AStr m) ANil ANil ANil ANil)) !! d = Some y) by exact Hy.
      rewrite (proj2 (managed_ok _ d y) (conj Hy2 My)). cbn [rbind].
      rewrite bool_decide_true by exact Hmns. rewrite E1 at 1. cbn [passed_rows omap]. cbn. rewrite Hd. cbn. rewrite I1.
      unfold set_tenant, objs_rows, with_rows, add_data. destruct st; cbn. destruct st1; cbn. reflexivity.
    - exists (s_tenants st1). split; [|exact L1]. rewrite E1 at 1. reflexivity. }
  destruct S as (ts2 & E2 & L2). rewrite E2. cbn [rbind]. set (st2 := objs_rows st ts2 (passed_rows st (t_default c) [d])).
  assert (Hts : s_tenants st2 = ts2) by apply objs_rows_ts.
  assert (Hid : forall l, t_id <$> s_tenants st2 !! l = t_id <$> s_tenants st !! l) by (intros l; rewrite Hts; exact (linked_id _ _ _ _ _ l L2)).
  pose proof (L2 t) as Lt. rewrite Hc in Lt. destruct (ts2 !! t) as [c2|] eqn:Hc2; [|contradiction].
  assert (D2 : t_default c2 = t_default c).
  { destruct Lt as (_ & _ & -> & _). destruct (decide _); [|reflexivity]. destruct (t_default c); reflexivity. }
  destruct (IH st2 c2) as (ts3 & E3 & L3).
  - intros l x m Hx Hm. rewrite Hts in Hx. unfold st2. rewrite objs_rows_ns. pose proof (L2 l) as Ll. rewrite Hx in Ll.
    destruct (s_tenants st !! l) as [x0|] eqn:Hx0; [|contradiction]. destruct Ll as (_ & _ & Ed & _). rewrite Hm in Ed.
    destruct (decide (l ∈ [d])); [destruct (t_default c) as [m'|] eqn:Em|].
    + injection Ed as ->. exact (Hdef t c m' Hc Em).
    + exact (Hdef l x0 m Hx0 (eq_sym Ed)).
    + exact (Hdef l x0 m Hx0 (eq_sym Ed)).
  - rewrite Hts. exact Hc2.
  - intros d' Hd'. destruct (Hex d') as [x Hx]; [right; exact Hd'|]. specialize (Hid d'). rewrite Hx in Hid.
    destruct (s_tenants st2 !! d') as [y|]; [exists y; reflexivity|discriminate].
  - rewrite D2. intros Hn d' Hd'. destruct (Hman Hn d') as (x & Hx & Hmx); [right; exact Hd'|]. pose proof (L2 d') as Ll. rewrite Hx in Ll.
    destruct (ts2 !! d') as [y|] eqn:Hy; [|contradiction]. destruct Ll as (_ & M & _). exists y. rewrite Hts. split; [exact Hy|congruence].
  - exists ts3. rewrite D2 in E3, L3. split; [|exact (linked_cons _ _ _ _ _ _ _ _ L2 L3)].
    rewrite E3. f_equal. rewrite (passed_same st st2 _ ds Hid). unfold st2 at 1. rewrite objs_rows_again. f_equal.
    destruct (t_default c); [|reflexivity]. unfold passed_rows. rewrite <- omap_app. reflexivity.
Qed.
Lemma passed_apart st n ds : forall d d', d ∈ passed_rows st n ds -> d' ∈ passed_rows st n ds -> clash d d' -> d = d'.
Proof.
  intros d d' Hd Hd'. destruct n as [m|]; [|apply elem_of_nil in Hd; contradiction]. apply elem_of_list_omap in Hd as (x & _ & Hx), Hd' as (y & _ & Hy).
  destruct (s_tenants st !! x), (s_tenants st !! y); try discriminate. injection Hx as <-. injection Hy as <-.
  unfold clash. rewrite !row_path_unfold. cbn. intros [=]. congruence.
Qed.
Lemma reachable_defaults st : reachable st -> forall l x m, s_tenants st !! l = Some x -> t_default x = Some m -> m ∈ m_namespaces st.
Proof. intros R. apply (wf_t_default st). exact (proj1 (reachable_hierarchy st R)). Qed.
Lemma objs_logged st ts log : logged st log -> logged (with_tenant_objs st ts) log.
Proof. destruct st. exact (fun H => H). Qed.
Lemma c97_add_descendant st t c ds : reachable st -> s_tenants st !! t = Some c -> (forall d, d ∈ ds -> is_Some (s_tenants st !! d)) ->
  (t_default c <> None -> forall d, d ∈ ds -> has_manager st d) ->
  exists st', tenant_add_descendants st t ds = Ok st' /\ rows_only (with_tenant_objs st (s_tenants st')) st'
    /\ rows_added st (passed_rows st (t_default c) ds) st'
    /\ forall l, match s_tenants st !! l, s_tenants st' !! l with
                 | Some x, Some y => after_linking st t (t_default c) ds l x y
                 | None, None => True
                 | _, _ => False
                 end.
Proof.
  intros R Hc Hex Hman. destruct (descendants_exact st t c ds (reachable_defaults st R) Hc Hex Hman) as (ts & E & L).
  eexists. split; [exact E|]. rewrite objs_rows_ts. split; [apply with_rows_only|]. split; [|exact L].
  destruct (reachable_logged st R) as [log Hl]. exact (logged_added (with_tenant_objs st ts) log _ (objs_logged st ts log Hl) (passed_apart st _ ds)).
Qed.
Lemma descendants_app st t ds1 ds2 : tenant_add_descendants st t (ds1 ++ ds2) = (let! st' := tenant_add_descendants st t ds1 in tenant_add_descendants st' t ds2).
Proof.
  revert st. induction ds1 as [|d ds1 IH]; intros st; [reflexivity|]. cbn [app tenant_add_descendants].
  destruct (s_tenants st !! t), (s_tenants st !! d); try reflexivity. cbv zeta.
  match goal with |- rbind ?m _ = _ => destruct m as [st2| |] end; cbn [rbind]; [apply IH|reflexivity|reflexivity].
Qed.
Lemma c97_add_descendant_panics st t ds : reachable st -> ds <> [] ->
  ~ ((exists c, s_tenants st !! t = Some c /\ (t_default c <> None -> forall d, d ∈ ds -> has_manager st d)) /\ forall d, d ∈ ds -> is_Some (s_tenants st !! d)) ->
  tenant_add_descendants st t ds = Panic.
Proof.
  intros R Hne Hn. destruct (s_tenants st !! t) as [c|] eqn:Hc.
  2: { destruct ds as [|d ds]; [destruct Hne; reflexivity|]. cbn. rewrite Hc. reflexivity. }
  set (bad := fun d => s_tenants st !! d = None \/ t_default c <> None /\ ~ has_manager st d).
  assert (Dec : forall d, {bad d} + {~ bad d}).
  { intros d. unfold bad. destruct (s_tenants st !! d) as [x|] eqn:Hx; [|left; left; reflexivity].
    destruct (t_default c) as [m|]; [|right; intros [H|[H _]]; [discriminate|apply H; reflexivity]].
    destruct (t_managed x) eqn:Mx.
    - right. intros [H|[_ H]]; [discriminate|]. apply H. exists x. split; assumption.
    - left. right. split; [discriminate|]. intros (y & Hy & My). rewrite Hx in Hy. injection Hy as <-. congruence. }
  assert (F : (forall d, d ∈ ds -> ~ bad d) \/ exists ds1 d ds2, ds = ds1 ++ d :: ds2 /\ bad d /\ forall d, d ∈ ds1 -> ~ bad d).
  { clear -Dec. induction ds as [|d ds IH]; [left; intros d H; apply elem_of_nil in H; contradiction|].
    destruct (Dec d) as [B|B]; [right; exists [], d, ds; split; [reflexivity|]; split; [exact B|]; intros x H; apply elem_of_nil in H; contradiction|].
    destruct IH as [IH|(ds1 & d' & ds2 & -> & B' & F)].
    - left. intros x [->|H]%elem_of_cons; [exact B|exact (IH x H)].
    - right. exists (d :: ds1), d', ds2. split; [reflexivity|]. split; [exact B'|]. intros x [->|H]%elem_of_cons; [exact B|exact (F x H)]. }
  assert (G : forall d, ~ bad d -> is_Some (s_tenants st !! d) /\ (t_default c <> None -> has_manager st d)).
  { intros d B. split.
    - destruct (s_tenants st !! d) as [x|] eqn:Hx; [exists x; reflexivity|]. destruct B. left. exact Hx.
    - intros Hd. destruct (managed_dec st d) as [H|H]; [exact H|]. destruct B. right. split; assumption. }
  destruct F as [F|(ds1 & d & ds2 & -> & B & F)].
  { destruct Hn. split.
    - exists c. split; [reflexivity|]. intros Hd d Hi. exact (proj2 (G d (F d Hi)) Hd).
    - intros d Hi. exact (proj1 (G d (F d Hi))). }
  destruct (descendants_exact st t c ds1 (reachable_defaults st R) Hc) as (ts & E & L).
  { intros x Hi. exact (proj1 (G x (F x Hi))). }
  { intros Hd x Hi. exact (proj2 (G x (F x Hi)) Hd). }
  rewrite descendants_app, E. cbn [rbind]. set (st1 := objs_rows _ _ _). assert (Hts : s_tenants st1 = ts) by apply objs_rows_ts. clearbody st1. clear E.
  cbn [tenant_add_descendants]. rewrite Hts. pose proof (L t) as Lt. pose proof (L d) as Ld. rewrite Hc in Lt.
  destruct (ts !! t) as [c1|] eqn:Hc1; [|contradiction].
  destruct (s_tenants st !! d) as [x|] eqn:Hx; [|destruct (ts !! d); [contradiction|reflexivity]]. destruct (ts !! d) as [y|] eqn:Hy; [|contradiction].
  destruct B as [B|[Hd Hm]]; [congruence|].
  assert (D1 : t_default c1 = t_default c) by (destruct Lt as (_ & _ & -> & _); destruct (decide _); [|reflexivity]; destruct (t_default c); reflexivity).
  rewrite D1. destruct (t_default c) as [m|]; [|destruct Hd; reflexivity]. unfold pass_default, tenant_add_namespace. rewrite managed_no; [reflexivity|].
  assert (Hyx : t_managed y = t_managed x) by exact (proj1 (proj2 Ld)).
  assert (Fx : t_managed x <> true) by (intros M; apply Hm; exists x; split; assumption).
  intros (z & Hz & Mz). assert (Hzm : t_managed z = t_managed x).
  { destruct (t_desc c1 !! t_id y); [rewrite Hts, Hy in Hz; injection Hz as <-; exact Hyx|]. cbn in Hz. rewrite Hts in Hz.
    destruct (decide (d = t)) as [->|Hne'].
    - rewrite list_lookup_insert in Hz by (apply lookup_lt_is_Some; exists c1; exact Hc1). injection Hz as <-. cbn. rewrite Hc1 in Hy. injection Hy as <-. exact Hyx.
    - rewrite list_lookup_insert_ne in Hz by congruence. rewrite Hy in Hz. injection Hz as <-. exact Hyx. }
  congruence.
Qed.

(** ** C98 *)
Lemma c98_passed st t c m ds st' d y : reachable st -> s_tenants st !! t = Some c -> t_default c = Some m -> tenant_add_descendants st t ds = Ok st' ->
  d ∈ ds -> s_tenants st' !! d = Some y -> t_default y = Some m /\ stored st' (ns_row (t_id y) m).
Proof.
  intros R Hc Em H Hi Hy.
  assert (Hne : ds <> []) by (intros ->; apply elem_of_nil in Hi; contradiction).
  assert (C : (forall d, d ∈ ds -> has_manager st d) /\ forall d, d ∈ ds -> is_Some (s_tenants st !! d)).
  { assert (Hm : forall d, d ∈ ds -> has_manager st d).
    { intros x Hx. destruct (managed_dec st x) as [M|M]; [exact M|]. rewrite (c97_add_descendant_panics st t ds R Hne) in H; [discriminate|].
      intros [(c' & Hc' & F) _]. rewrite Hc in Hc'. injection Hc' as <-. apply M, F; [rewrite Em; discriminate|exact Hx]. }
    split; [exact Hm|]. intros x Hx. destruct (Hm x Hx) as (z & Hz & _). exists z. exact Hz. }
  destruct C as [C1 C2]. destruct (c97_add_descendant st t c ds R Hc C2 (fun _ => C1)) as (st2 & E & _ & A & L). rewrite H in E. injection E as <-.
  pose proof (L d) as Ld. rewrite Hy in Ld. destruct (s_tenants st !! d) as [x|] eqn:Hx; [|contradiction]. destruct Ld as (I1 & _ & D & _). split.
  - rewrite D, decide_True by exact Hi. rewrite Em. reflexivity.
  - apply A. left. rewrite Em. apply elem_of_list_omap. exists d. split; [exact Hi|]. rewrite Hx, I1. reflexivity.
Qed.
Lemma c98_set_later st t n st' d y : tenant_set_default st t n = Ok st' -> d <> t -> s_tenants st' !! d = Some y -> s_tenants st !! d = Some y.
Proof.
  intros H Hd Hy. assert (M : has_manager st t) by (destruct (managed_dec st t) as [M|M]; [exact M|]; unfold tenant_set_default in H; rewrite (managed_no st t M) in H; discriminate).
  destruct M as (c & Hc & Hm). destruct (c97_set_default st t c n Hc Hm) as (st2 & E & _ & Ho & _). rewrite H in E. injection E as <-. rewrite <- (Ho d Hd). exact Hy.
Qed.

(** ** C99 *)
Definition keeps_managed (st st' : state) : Prop := forall l y, s_tenants st' !! l = Some y -> t_managed y = true ->
  exists x, s_tenants st !! l = Some x /\ t_id x = t_id y /\ t_managed x = true.
Lemma km_same st st' : s_tenants st' = s_tenants st -> keeps_managed st st'.
Proof. intros E l y Hy My. rewrite E in Hy. exists y. split_and!; [exact Hy|reflexivity|exact My]. Qed.
Lemma km_trans st1 st2 st3 : keeps_managed st1 st2 -> keeps_managed st2 st3 -> keeps_managed st1 st3.
Proof.
  intros A B l z Hz Mz. destruct (B l z Hz Mz) as (y & Hy & Iy & My). destruct (A l y Hy My) as (x & Hx & Ix & Mx). exists x. split_and!; [exact Hx|congruence|exact Mx].
Qed.
Lemma km_set st t c c' : s_tenants st !! t = Some c -> t_id c' = t_id c -> t_managed c' = t_managed c -> keeps_managed st (set_tenant st t c').
Proof.
  intros Hc I M l y Hy My. unfold set_tenant in Hy. cbn in Hy. destruct (decide (l = t)) as [->|Hn].
  - rewrite list_lookup_insert in Hy by (apply lookup_lt_is_Some; exists c; exact Hc). injection Hy as <-. exists c. split_and!; [exact Hc|congruence|congruence].
  - rewrite list_lookup_insert_ne in Hy by congruence. exists y. split_and!; [exact Hy|reflexivity|exact My].
Qed.
Lemma km_default st t n st' : tenant_set_default st t n = Ok st' -> keeps_managed st st'.
Proof.
  unfold tenant_set_default. intros H. apply rbind_ok in H as (c & Hc & [= <-]). apply managed_ok in Hc as [Hc Hm].
  case_bool_decide; [|apply km_same; reflexivity]. apply (km_set st t c); [exact Hc|reflexivity|reflexivity].
Qed.
Lemma km_descendants st t ds st' : tenant_add_descendants st t ds = Ok st' -> keeps_managed st st'.
Proof.
  revert st. induction ds as [|d ds IH]; intros st; cbn [tenant_add_descendants]; [intros [= <-]; apply km_same; reflexivity|].
  destruct (s_tenants st !! t) as [c|] eqn:Hc; [|discriminate]. destruct (s_tenants st !! d) as [dc|] eqn:Hd; [|discriminate].
  intros H. apply rbind_ok in H as (st2 & H2 & H). apply (km_trans st st2 st'); [|exact (IH st2 H)].
  set (st1 := match t_desc c !! t_id dc with Some _ => st | None => _ end) in H2.
  apply (km_trans st st1 st2); [unfold st1; destruct (t_desc c !! t_id dc); [apply km_same; reflexivity|apply (km_set st t c); [exact Hc|reflexivity|reflexivity]]|].
  destruct (t_default c) as [m|]; [|injection H2 as <-; apply km_same; reflexivity]. unfold pass_default in H2. apply rbind_ok in H2 as (st3 & H3 & H4).
  apply (km_trans st1 st3 st2); [|exact (km_default _ _ _ _ H4)]. unfold tenant_add_namespace in H3. apply rbind_ok in H3 as (c3 & _ & [= <-]). apply km_same. reflexivity.
Qed.
Lemma km_repeat {A} (f : state -> A -> res state) st xs st' :
  (forall st x st', f st x = Ok st' -> s_tenants st' = s_tenants st) -> repeat_op f st xs = Ok st' -> keeps_managed st st'.
Proof.
  intros Hf H. apply km_same. apply (repeat_op_pres (fun s => s_tenants s = s_tenants st) f st xs st'); [|reflexivity|exact H].
  intros s x s' Hs H'. rewrite <- Hs. exact (Hf s x s' H').
Qed.
Lemma km_until {A} (f : state -> A -> res (state * goerr)) st xs st' e :
  (forall st x st' e, f st x = Ok (st', e) -> s_tenants st' = s_tenants st) -> until_error f st xs = Ok (st', e) -> keeps_managed st st'.
Proof.
  intros Hf H. apply km_same. apply (until_error_pres (fun s => s_tenants s = s_tenants st) f st xs st' e); [|reflexivity|exact H].
  intros s x s' e' Hs H'. rewrite <- Hs. exact (Hf s x s' e' H').
Qed.
Lemma step_managed o st x st' r : step o st x = Ok (st', r) -> (forall t, x <> OAddTenant t) -> keeps_managed st st'.
Proof.
  intros H Hx. destruct x; cbn [step] in H;
    try (injection H as <- <-; apply km_same; reflexivity);
    try (apply rbind_ok in H as (h & _ & [= <- <-]); apply km_same; reflexivity).
  - injection H as <- <-. intros l y Hy My. unfold new_tenant in Hy. cbn in Hy. apply lookup_app_Some in Hy as [Hy|[_ Hy]]; [exists y; split_and!; [exact Hy|reflexivity|exact My]|].
    apply list_lookup_singleton_Some in Hy as [_ <-]. discriminate.
  - apply rbind_ok in H as ([st1 l] & H & [= <- <-]). unfold add_role in H. apply km_same.
    destruct (h_roles (s_heap st) !! r0) as [ro|]; [|discriminate]. destruct (m_roles st !! r_id ro); injection H as <- <-; reflexivity.
  - apply rbind_ok in H as ([st1 l] & H & [= <- <-]). unfold add_attribute_group in H. apply km_same.
    destruct (h_groups (s_heap st) !! g) as [ro|]; [|discriminate]. destruct (m_groups st !! g_id ro); injection H as <- <-; reflexivity.
  - destruct (Hx t). reflexivity.
  - injection H as <- <-. apply km_same. unfold add_namespace. case_bool_decide; reflexivity.
  - injection H as <- <-. apply km_same. unfold add_scope. case_bool_decide; reflexivity.
  - injection H as <- <-. apply km_same. unfold add_principal. case_bool_decide; reflexivity.
  - injection H as <- <-. apply km_same. unfold add_attribute. destruct (m_attributes st !! attr_string a); reflexivity.
  - apply rbind_ok in H as ([st1 e] & H & [= <- <-]). unfold add_permissions_to_role in H. apply km_same.
    destruct (m_roles st !! r0) as [rl|]; [|injection H as <- <-; reflexivity].
    destruct (m_groups st !! g) as [gl|]; [|injection H as <- <-; reflexivity].
    destruct (h_groups (s_heap st) !! gl) as [go|]; [|discriminate].
    destruct (check_attrs go g attrs); [injection H as <- <-; reflexivity|].
    apply rbind_ok in H as ([h e'] & Hh & [= <- <-]). reflexivity.
  - apply rbind_ok in H as (st1 & H & [= <- <-]). revert H. apply km_repeat.
    intros st0 x st2 H2. unfold tenant_add_namespace in H2. apply rbind_ok in H2 as (c & _ & [= <-]). reflexivity.
  - apply rbind_ok in H as (st1 & H & [= <- <-]). exact (km_descendants _ _ _ _ H).
  - apply rbind_ok in H as (st1 & H & [= <- <-]). unfold tenant_add_scopes_to_namespace in H. apply rbind_ok in H as (c & _ & [= <-]). apply km_same. reflexivity.
  - apply rbind_ok in H as (st1 & H & [= <- <-]). exact (km_default _ _ _ _ H).
  - apply rbind_ok in H as (st1 & H & [= <- <-]). unfold tenant_add_principal_in_namespace in H. apply rbind_ok in H as (c & _ & [= <-]). apply km_same. reflexivity.
  - apply rbind_ok in H as (st1 & H & [= <- <-]). revert H. apply km_repeat.
    intros st0 x st2 H2. unfold tenant_add_role in H2. apply rbind_ok in H2 as (c & _ & H2). destruct (h_roles (s_heap st0) !! x); [|discriminate]. injection H2 as <-. reflexivity.
  - apply rbind_ok in H as (st1 & H & [= <- <-]). revert H. apply km_repeat.
    intros st0 x st2 H2. unfold tenant_add_scope in H2. apply rbind_ok in H2 as (c & _ & [= <-]). reflexivity.
  - apply rbind_ok in H as ([st1 e] & H & [= <- <-]). revert H. apply km_until.
    intros st0 x st2 e2 H2. unfold tenant_add_principal_with_role in H2. apply rbind_ok in H2 as (c & _ & H2).
    destruct (negb _); [injection H2 as <- <-; reflexivity|]. destruct (m_roles st0 !! x); [|injection H2 as <- <-; reflexivity]. injection H2 as <- <-.
    destruct (t_default c); reflexivity.
  - apply rbind_ok in H as ([st1 e] & H & [= <- <-]). revert H. apply km_until.
    intros st0 x st2 e2 H2. unfold tenant_add_scope_to_principal in H2. apply rbind_ok in H2 as (c & _ & H2).
    destruct (negb _); [injection H2 as <- <-; reflexivity|]. destruct (negb _); [injection H2 as <- <-; reflexivity|]. injection H2 as <- <-.
    destruct (t_default c); reflexivity.
  - apply rbind_ok in H as ([st1 ds] & H & [= <- <-]). apply tenant_children_same in H as (hi & ca & ->). apply km_same. reflexivity.
  - apply rbind_ok in H as ([st1 ds] & H & [= <- <-]). apply implicit_same in H as (hi & ca & ->). apply km_same. reflexivity.
  - apply rbind_ok in H as ([st1 b] & H & [= <- <-]). apply authorize_same in H as (hi & ca & ->). apply km_same. reflexivity.
Qed.
Lemma add_tenant_case (x : op) : (exists t, x = OAddTenant t) \/ forall t, x <> OAddTenant t.
Proof. destruct x; try (right; discriminate). left. eexists. reflexivity. Qed.
Lemma managed_registered st : reachable st -> forall l c, s_tenants st !! l = Some c -> t_managed c = true -> registered_tenant st (t_id c).
Proof.
  apply (reachable_inv (fun st => forall l c, s_tenants st !! l = Some c -> t_managed c = true -> registered_tenant st (t_id c))).
  - intros l c H. discriminate.
  - intros o st0 x st' r IH H l c' Hc' Hm. pose proof (step_grows _ _ _ _ _ H) as G.
    assert (Mono : forall k, registered_tenant st0 k -> registered_tenant st' k) by (intros k [d Hd]; exists d; exact (gr_m_tenants _ _ G k d Hd)).
    destruct (add_tenant_case x) as [[t ->]|Hx].
    + cbn in H. unfold add_tenant in H. destruct (s_tenants st0 !! t) as [c|] eqn:Hc; [|discriminate].
      assert (Hst : s_tenants st' = <[t := Tenant (t_id c) (t_desc c) (t_default c) true]> (s_tenants st0) /\ registered_tenant st' (t_id c)).
      { cbn in H. destruct (m_tenants st0 !! t_id c) as [d|] eqn:E; cbn in H; injection H as <- _; (split; [reflexivity|]); unfold registered_tenant; cbn.
        - exists d. exact E.
        - exists t. apply lookup_insert. }
      destruct Hst as [Es Hr]. rewrite Es in Hc'. destruct (decide (l = t)) as [->|Hn].
      * rewrite list_lookup_insert in Hc' by (apply lookup_lt_is_Some; exists c; exact Hc). injection Hc' as <-. exact Hr.
      * rewrite list_lookup_insert_ne in Hc' by congruence. exact (Mono _ (IH l c' Hc' Hm)).
    + destruct (step_managed _ _ _ _ _ H Hx l c' Hc' Hm) as (c & Hc & I & M). rewrite <- I. exact (Mono _ (IH l c Hc M)).
Qed.
Lemma names_grows st st' d : grows st st' -> names_registered st d -> names_registered st' d.
Proof.
  intros G (A & B & C & D & E). split_and!.
  - destruct A as [A|(t & A & [l Hl])]; [left; exact A|right; exists t; split; [exact A|]]. exists l. exact (gr_m_tenants _ _ G t l Hl).
  - destruct B as [B|(n & B & Hn)]; [left; exact B|right; exists n; split; [exact B|]]. exact (gr_m_namespaces _ _ G n Hn).
  - destruct C as [C|(n & C & Hn)]; [left; exact C|right; exists n; split; [exact C|]]. exact (gr_m_scopes _ _ G n Hn).
  - destruct D as [D|(n & D & Hn)]; [left; exact D|right; exists n; split; [exact D|]]. exact (gr_m_principals _ _ G n Hn).
  - destruct E as [E|(r & E & [l Hl])]; [left; exact E|right; exists r; split; [exact E|]]. exists l. exact (gr_m_roles _ _ G r l Hl).
Qed.
(** What a call that may write rows writes *)
Definition written_by (st : state) (x : op) (new : list data) (st' : state) : Prop :=
  wrote st st' new /\ forall d, d ∈ new -> (unchecked x \/ names_registered st d) /\ (x = OAddData d \/ manage d = ANil \/ names_registered st d).
Lemma written_none st x st' : m_trie st' = m_trie st -> exists new, written_by st x new st'.
Proof. intros H. exists []. split; [exact (wrote_nil _ _ H)|]. intros d Hd. apply elem_of_nil in Hd. contradiction. Qed.
Lemma written_map {A} st x (g : A -> data) (l : list A) st' : unchecked x -> (forall a, manage (g a) = ANil) -> st' = with_rows st (map g l) -> exists new, written_by st x new st'.
Proof.
  intros U M ->. exists (map g l). split; [apply wrote_with_rows|]. intros d Hd. apply elem_of_list_In, in_map_iff in Hd as (a & <- & _).
  split; [left; exact U|right; left; apply M].
Qed.
Lemma nr_role st c t p md r d : reachable st -> s_tenants st !! t = Some c -> t_managed c = true -> p ∈ m_principals st -> is_Some (m_roles st !! r) ->
  d ∈ role_rows c p md r -> names_registered st d.
Proof.
  intros R Hc Hm Hp Hr Hd. pose proof (managed_registered st R t c Hc Hm) as Ht. pose proof (fun m => reachable_defaults st R t c m Hc) as Hn.
  unfold role_rows in Hd. apply elem_of_cons in Hd as [->|Hd].
  - split_and!; cbn; [right; exists (t_id c); split; [reflexivity|exact Ht]|left; reflexivity|left; reflexivity|right; exists p; split; [reflexivity|exact Hp]|right; exists r; split; [reflexivity|exact Hr]].
  - destruct (t_default c) as [m|]; [|apply elem_of_nil in Hd; contradiction]. apply elem_of_list_singleton in Hd as ->.
    split_and!; cbn; [right; exists (t_id c); split; [reflexivity|exact Ht]|right; exists m; split; [reflexivity|exact (Hn m eq_refl)]|left; reflexivity|right; exists p; split; [reflexivity|exact Hp]|right; exists r; split; [reflexivity|exact Hr]].
Qed.
Lemma nr_scope st c t p md s d : reachable st -> s_tenants st !! t = Some c -> t_managed c = true -> p ∈ m_principals st -> s ∈ m_scopes st ->
  d ∈ scope_rows c p md s -> names_registered st d.
Proof.
  intros R Hc Hm Hp Hs Hd. pose proof (managed_registered st R t c Hc Hm) as Ht. pose proof (fun m => reachable_defaults st R t c m Hc) as Hn.
  unfold scope_rows in Hd. apply elem_of_cons in Hd as [->|Hd].
  - split_and!; cbn; [right; exists (t_id c); split; [reflexivity|exact Ht]|left; reflexivity|right; exists s; split; [reflexivity|exact Hs]|right; exists p; split; [reflexivity|exact Hp]|left; reflexivity].
  - destruct (t_default c) as [m|]; [|apply elem_of_nil in Hd; contradiction]. apply elem_of_list_singleton in Hd as ->.
    split_and!; cbn; [right; exists (t_id c); split; [reflexivity|exact Ht]|right; exists m; split; [reflexivity|exact (Hn m eq_refl)]|right; exists s; split; [reflexivity|exact Hs]|right; exists p; split; [reflexivity|exact Hp]|left; reflexivity].
Qed.
Lemma step_rows o st x st' r : reachable st -> step o st x = Ok (st', r) -> exists new, written_by st x new st'.
Proof.
  intros R H.
  assert (M : forall t, ~ has_manager st t -> step o st x = Ok (st', r) -> match x with
    | OTenantAddScopesToNamespace t' _ _ | OTenantSetDefault t' _ | OTenantAddPrincipalInNamespace t' _ _ _ => t' <> t
    | OTenantAddNamespaces t' ns => t' = t -> ns = []
    | OTenantAddRoles t' rs => t' = t -> rs = []
    | OTenantAddScopes t' ss => t' = t -> ss = []
    | OTenantAddPrincipal t' _ _ rs => t' = t -> rs = []
    | OTenantAssignScopes t' _ _ ss => t' = t -> ss = []
    | _ => True
    end).
  { clear H. intros t Hn H. pose proof (c97_no_manager o st t x Hn) as P. destruct x; try exact I; intros E.
    all: try (rewrite (P E) in H; discriminate).
    all: match goal with |- ?l = [] => destruct l; [reflexivity|]; rewrite P in H; [discriminate|split; [exact E|discriminate]] end. }
  destruct x; cbn [step] in H;
    try (injection H as <- <-; apply written_none; reflexivity);
    try (apply rbind_ok in H as (h & _ & [= <- <-]); apply written_none; reflexivity).
  - apply rbind_ok in H as ([st1 l] & H & [= <- <-]). unfold add_role in H. apply written_none.
    destruct (h_roles (s_heap st) !! r0) as [ro|]; [|discriminate]. destruct (m_roles st !! r_id ro); injection H as <- <-; reflexivity.
  - apply rbind_ok in H as ([st1 l] & H & [= <- <-]). unfold add_attribute_group in H. apply written_none.
    destruct (h_groups (s_heap st) !! g) as [ro|]; [|discriminate]. destruct (m_groups st !! g_id ro); injection H as <- <-; reflexivity.
  - apply rbind_ok in H as ([st1 l] & H & [= <- <-]). unfold add_tenant in H. apply written_none.
    destruct (s_tenants st !! t) as [c|]; [|discriminate]. destruct (m_tenants (set_tenant st t _) !! t_id c); injection H as <- <-; reflexivity.
  - injection H as <- <-. apply written_none. unfold add_namespace. case_bool_decide; reflexivity.
  - injection H as <- <-. apply written_none. unfold add_scope. case_bool_decide; reflexivity.
  - injection H as <- <-. apply written_none. unfold add_principal. case_bool_decide; reflexivity.
  - injection H as <- <-. apply written_none. unfold add_attribute. destruct (m_attributes st !! attr_string a); reflexivity.
  - injection H as <- <-. exists [d]. split; [reflexivity|]. intros d' ->%elem_of_list_singleton. split; [left; exact I|left; reflexivity].
  - apply rbind_ok in H as ([st1 e] & H & [= <- <-]). unfold add_permissions_to_role in H. apply written_none.
    destruct (m_roles st !! r0) as [rl|]; [|injection H as <- <-; reflexivity].
    destruct (m_groups st !! g) as [gl|]; [|injection H as <- <-; reflexivity].
    destruct (h_groups (s_heap st) !! gl) as [go|]; [|discriminate].
    destruct (check_attrs go g attrs); [injection H as <- <-; reflexivity|].
    apply rbind_ok in H as ([h e'] & Hh & [= <- <-]). reflexivity.
  - destruct (managed_dec st t) as [(c & Hc & Hm)|Hn].
    + rewrite (namespaces_exact st t c ns Hc Hm) in H. injection H as <- <-. apply (written_map st _ (ns_row (t_id c)) ns); [exact I|intros ?; reflexivity|reflexivity].
    + pose proof (M t Hn H eq_refl) as ->. cbn in H. injection H as <- <-. apply written_none. reflexivity.
  - apply rbind_ok in H as (st1 & H & [= <- <-]). destruct ds as [|d0 ds0] eqn:Eds; [injection H as <-; apply written_none; reflexivity|].
    rewrite <- Eds in *. assert (Hne : ds <> []) by (rewrite Eds; discriminate). clear Eds M.
    destruct (s_tenants st !! t) as [c|] eqn:Hc.
    2: { rewrite (c97_add_descendant_panics st t ds R Hne) in H; [discriminate|]. intros [(c & Hc' & _) _]. congruence. }
    assert (Hex : forall d, d ∈ ds -> is_Some (s_tenants st !! d)).
    { intros d Hd. destruct (s_tenants st !! d) as [y|] eqn:Hy; [exists y; reflexivity|].
      rewrite (c97_add_descendant_panics st t ds R Hne) in H; [discriminate|]. intros [_ F]. destruct (F d Hd) as [y Hy']. congruence. }
    assert (Hman : t_default c <> None -> forall d, d ∈ ds -> has_manager st d).
    { intros Hdf d Hd. destruct (managed_dec st d) as [My|My]; [exact My|].
      rewrite (c97_add_descendant_panics st t ds R Hne) in H; [discriminate|]. intros [(c' & Hc' & F) _]. rewrite Hc in Hc'. injection Hc' as <-. exact (My (F Hdf d Hd)). }
    destruct (descendants_exact st t c ds (reachable_defaults st R) Hc Hex Hman) as (ts & E & L). rewrite E in H. injection H as <-.
    exists (passed_rows st (t_default c) ds). split.
    + unfold objs_rows. exact (wrote_with_rows (with_tenant_objs st ts) _).
    + intros d Hd. assert (Nr : names_registered st d); [|split; [right; exact Nr|right; right; exact Nr]].
      destruct (t_default c) as [m|] eqn:Em; [|apply elem_of_nil in Hd; contradiction].
      apply elem_of_list_omap in Hd as (l & Hl & Hd). destruct (Hman ltac:(discriminate) l Hl) as (y & Hy & My). rewrite Hy in Hd. injection Hd as <-.
      split_and!; cbn; [right; exists (t_id y); split; [reflexivity|exact (managed_registered st R l y Hy My)]|right; exists m; split; [reflexivity|exact (reachable_defaults st R t c m Hc Em)]|left; reflexivity|left; reflexivity|left; reflexivity].
  - destruct (managed_dec st t) as [(c & Hc & Hm)|Hn]; [|destruct (M t Hn H eq_refl)].
    rewrite (scopes_to_namespace_exact st t c n s Hc Hm) in H. injection H as <- <-. apply (written_map st _ (fun _ : unit => ns_scope_row (t_id c) n s) [tt]); [exact I|intros ?; reflexivity|reflexivity].
  - apply rbind_ok in H as (st1 & H & [= <- <-]). apply written_none. exact (set_default_trie _ _ _ _ H).
  - destruct (managed_dec st t) as [(c & Hc & Hm)|Hn]; [|destruct (M t Hn H eq_refl)].
    rewrite (member_exact st t c u n r0 Hc Hm) in H. injection H as <- <-. apply (written_map st _ (fun _ : unit => member_row (t_id c) n u r0) [tt]); [exact I|intros ?; reflexivity|reflexivity].
  - destruct (managed_dec st t) as [(c & Hc & Hm)|Hn].
    + apply rbind_ok in H as (st1 & H & [= <- <-]).
      assert (Hex : exists new, wrote st st1 new /\ Forall (fun d => manage d = ANil) new).
      { assert (W : writes (fun d => manage d = ANil) st st1); [|exact W]. revert H. apply repeat_writes.
        intros st0 x st2 H2. unfold tenant_add_role in H2. apply rbind_ok in H2 as (c2 & _ & H2). destruct (h_roles (s_heap st0) !! x); [|discriminate]. injection H2 as <-. apply writes_one. reflexivity. }
      destruct Hex as (new & W & F). exists new. split; [exact W|]. intros d Hd. split; [left; exact I|right; left]. rewrite Forall_forall in F. exact (F d Hd).
    + pose proof (M t Hn H eq_refl) as ->. cbn in H. injection H as <- <-. apply written_none. reflexivity.
  - destruct (managed_dec st t) as [(c & Hc & Hm)|Hn].
    + rewrite (scopes_exact st t c ss Hc Hm) in H. injection H as <- <-. apply (written_map st _ (scope_row (t_id c)) ss); [exact I|intros ?; reflexivity|reflexivity].
    + pose proof (M t Hn H eq_refl) as ->. cbn in H. injection H as <- <-. apply written_none. reflexivity.
  - destruct (managed_dec st t) as [(c & Hc & Hm)|Hn].
    + assert (G : exists new, wrote st st' new /\ forall d, d ∈ new -> names_registered st d).
      { destruct (add_principal_exact st t c p md rs Hc Hm) as [[F E]|(rs1 & r1 & rs2 & e & -> & F & _ & E)]; rewrite E in H; injection H as <- <-.
        - exists (rs ≫= role_rows c p md). split; [apply wrote_with_rows|]. intros d (r2 & Hd & Hr)%elem_of_list_bind. rewrite Forall_forall in F. destruct (F r2 Hr) as [Hp Hr2].
          exact (nr_role st c t p md r2 d R Hc Hm Hp Hr2 Hd).
        - exists (rs1 ≫= role_rows c p md). split; [apply wrote_with_rows|]. intros d (r2 & Hd & Hr)%elem_of_list_bind. rewrite Forall_forall in F. destruct (F r2 Hr) as [Hp Hr2].
          exact (nr_role st c t p md r2 d R Hc Hm Hp Hr2 Hd). }
      destruct G as (new & W & F). exists new. split; [exact W|]. intros d Hd. split; [right; exact (F d Hd)|right; right; exact (F d Hd)].
    + pose proof (M t Hn H eq_refl) as ->. cbn in H. injection H as <- <-. apply written_none. reflexivity.
  - destruct (managed_dec st t) as [(c & Hc & Hm)|Hn].
    + assert (G : exists new, wrote st st' new /\ forall d, d ∈ new -> names_registered st d).
      { destruct (assign_scopes_exact st t c p md ss Hc Hm) as [[F E]|(rs1 & r1 & rs2 & e & -> & F & _ & E)]; rewrite E in H; injection H as <- <-.
        - exists (ss ≫= scope_rows c p md). split; [apply wrote_with_rows|]. intros d (r2 & Hd & Hr)%elem_of_list_bind. rewrite Forall_forall in F. destruct (F r2 Hr) as [Hp Hr2].
          exact (nr_scope st c t p md r2 d R Hc Hm Hp Hr2 Hd).
        - exists (rs1 ≫= scope_rows c p md). split; [apply wrote_with_rows|]. intros d (r2 & Hd & Hr)%elem_of_list_bind. rewrite Forall_forall in F. destruct (F r2 Hr) as [Hp Hr2].
          exact (nr_scope st c t p md r2 d R Hc Hm Hp Hr2 Hd). }
      destruct G as (new & W & F). exists new. split; [exact W|]. intros d Hd. split; [right; exact (F d Hd)|right; right; exact (F d Hd)].
    + pose proof (M t Hn H eq_refl) as ->. cbn in H. injection H as <- <-. apply written_none. reflexivity.
  - apply rbind_ok in H as ([st1 ds] & H & [= <- <-]). apply tenant_children_same in H as (hi & ca & ->). apply written_none. reflexivity.
  - apply rbind_ok in H as ([st1 ds] & H & [= <- <-]). apply implicit_same in H as (hi & ca & ->). apply written_none. reflexivity.
  - apply rbind_ok in H as ([st1 b] & H & [= <- <-]). apply authorize_same in H as (hi & ca & ->). apply written_none. reflexivity.
Qed.
(** By induction on the history, from its end *)
Lemma run_snoc o i st ops x st' outs : run o i st (ops ++ [x]) = Ok (st', outs) ->
  exists st1 outs1 r, run o i st ops = Ok (st1, outs1) /\ step (sub o (i + length ops)) st1 x = Ok (st', r).
Proof.
  revert i st outs. induction ops as [|y ops IH]; intros i st outs H; cbn in H.
  - apply rbind_ok in H as ([st1 r] & H1 & [= <- <-]). exists st, [], r. split; [reflexivity|]. cbn [length]. rewrite Nat.add_0_r. exact H1.
  - apply rbind_ok in H as ([st1 r] & H1 & H). apply rbind_ok in H as ([st2 outs2] & H2 & [= <- <-]). destruct (IH (S i) st1 outs2 H2) as (st3 & outs3 & r3 & H3 & H4).
    exists st3, (r :: outs3), r3. cbn. rewrite H1. cbn. cbn in H3. rewrite H3. cbn. split; [reflexivity|]. rewrite Nat.add_succ_r. exact H4.
Qed.
Lemma c99_gen (Q : data -> Prop) (ok : op -> Prop) o ops st outs :
  (forall x st st' new d, ok x -> written_by st x new st' -> d ∈ new -> Q d -> names_registered st d) ->
  run o 0 init_state ops = Ok (st, outs) -> Forall ok ops -> forall d, stored st d -> Q d -> names_registered st d.
Proof.
  intros HQ. revert st outs. induction ops as [|x ops IH] using rev_ind; intros st outs H F d Hd Hq.
  - injection H as <- _. exfalso. unfold stored, trie_data in Hd. cbn in Hd. apply elem_of_nil in Hd. exact Hd.
  - apply run_snoc in H as (st1 & outs1 & r & H1 & H2). apply Forall_app in F as [F1 F2]. apply Forall_inv in F2.
    assert (R : reachable st1) by (exists o, ops, outs1; exact H1). destruct (step_rows _ _ _ _ _ R H2) as (new & Hw).
    destruct (reachable_logged st1 R) as [log Hl]. apply (names_grows st1 st d (step_grows _ _ _ _ _ H2)).
    destruct (wrote_origin _ _ _ _ _ Hl (proj1 Hw) Hd) as [Hs|Hn]; [exact (IH st1 outs1 H1 F1 d Hs Hq)|exact (HQ x st1 st new d F2 Hw Hn Hq)].
Qed.
Lemma c99_checked o ops st outs d : run o 0 init_state ops = Ok (st, outs) -> Forall (fun x => ~ unchecked x) ops -> stored st d -> names_registered st d.
Proof.
  intros H F Hd. apply (c99_gen (fun _ => True) (fun x => ~ unchecked x) o ops st outs); [|exact H|exact F|exact Hd|exact I].
  intros x s s' new e Hok [_ W] He _. destruct (W e He) as [[Hu|Hn] _]; [destruct (Hok Hu)|exact Hn].
Qed.
Lemma c99_flagged o ops st outs d : run o 0 init_state ops = Ok (st, outs) -> Forall (fun x => forall e, x <> OAddData e) ops -> stored st d ->
  manage d <> ANil -> names_registered st d.
Proof.
  intros H F Hd Hm. apply (c99_gen (fun d => manage d <> ANil) (fun x => forall e, x <> OAddData e) o ops st outs); [|exact H|exact F|exact Hd|exact Hm].
  intros x s s' new e Hok [_ W] He Hq. destruct (W e He) as [_ [Hu|[Hn|Hn]]]; [destruct (Hok e Hu)|destruct (Hq Hn)|exact Hn].
Qed.

(** ** C100 *)
Lemma until_shift {A} (f : state -> A -> res (state * goerr)) (P : A -> data -> Prop) st xs :
  (forall x, x ∈ xs -> exists g e, (forall d, d ∈ g -> P x d) /\ forall rs, f (with_rows st rs) x = Ok (with_rows st (rs ++ g), e)) ->
  exists new e, (forall d, d ∈ new -> exists x, x ∈ xs /\ P x d) /\ forall rs, until_error f (with_rows st rs) xs = Ok (with_rows st (rs ++ new), e).
Proof.
  induction xs as [|x xs IH]; intros Hf.
  - exists [], None. split; [intros d Hd; apply elem_of_nil in Hd; contradiction|]. intros rs. cbn. rewrite app_nil_r. reflexivity.
  - destruct (Hf x) as (g & e & Hg & E); [left|]. destruct e as [e|].
    + exists g, (Some e). split; [intros d Hd; exists x; split; [left|exact (Hg d Hd)]|]. intros rs. cbn [until_error]. rewrite E. reflexivity.
    + destruct IH as (new & e & Hn & E'); [intros y Hy; apply Hf; right; exact Hy|]. exists (g ++ new), e. split.
      * intros d [Hd|Hd]%elem_of_app; [exists x; split; [left|exact (Hg d Hd)]|]. destruct (Hn d Hd) as (y & Hy & HP). exists y. split; [right; exact Hy|exact HP].
      * intros rs. cbn [until_error]. rewrite E. cbn [rbind]. rewrite E', app_assoc. reflexivity.
Qed.
Lemma fields_rows st rs : m_principals (with_rows st rs) = m_principals st /\ m_roles (with_rows st rs) = m_roles st /\ m_scopes (with_rows st rs) = m_scopes st /\ s_tenants (with_rows st rs) = s_tenants st.
Proof. rewrite with_rows_eq. destruct st. cbn. split_and!; reflexivity. Qed.
Lemma shift_principal st t c p md rs0 : s_tenants st !! t = Some c -> t_managed c = true ->
  exists new e, (forall d, d ∈ new -> exists r, r ∈ rs0 /\ d ∈ role_rows c p md r)
    /\ forall rs, tenant_add_principal (with_rows st rs) t p md rs0 = Ok (with_rows st (rs ++ new), e).
Proof.
  intros Hc Hm. unfold tenant_add_principal. apply (until_shift (fun st r => tenant_add_principal_with_role st t p r md) (fun r d => d ∈ role_rows c p md r)). intros r _.
  assert (E : forall rs, tenant_add_principal_with_role (with_rows st rs) t p r md =
    if negb (bool_decide (p ∈ m_principals st)) then Ok (with_rows st rs, err_no_principal) else
    match m_roles st !! r with None => Ok (with_rows st rs, err_no_role) | Some _ => Ok (with_rows st (rs ++ role_rows c p md r), None) end).
  { intros rs. unfold tenant_add_principal_with_role. rewrite (managed_rows st t c rs Hc Hm). cbn [rbind]. destruct (fields_rows st rs) as (-> & -> & _).
    destruct (negb _); [reflexivity|]. destruct (m_roles st !! r); [|reflexivity]. f_equal. f_equal. rewrite <- with_rows_snoc. unfold role_rows. destruct (t_default c); reflexivity. }
  destruct (negb (bool_decide (p ∈ m_principals st))).
  - exists [], err_no_principal. split; [intros d Hd; apply elem_of_nil in Hd; contradiction|]. intros rs. rewrite E, app_nil_r. reflexivity.
  - destruct (m_roles st !! r).
    + exists (role_rows c p md r), None. split; [exact (fun d H => H)|]. exact E.
    + exists [], err_no_role. split; [intros d Hd; apply elem_of_nil in Hd; contradiction|]. intros rs. rewrite E, app_nil_r. reflexivity.
Qed.
Lemma shift_scopes st t c p md ss : s_tenants st !! t = Some c -> t_managed c = true ->
  exists new e, (forall d, d ∈ new -> exists s, s ∈ ss /\ d ∈ scope_rows c p md s)
    /\ forall rs, tenant_assign_scopes (with_rows st rs) t p md ss = Ok (with_rows st (rs ++ new), e).
Proof.
  intros Hc Hm. unfold tenant_assign_scopes. apply (until_shift (fun st s => tenant_add_scope_to_principal st t p s md) (fun s d => d ∈ scope_rows c p md s)). intros s _.
  assert (E : forall rs, tenant_add_scope_to_principal (with_rows st rs) t p s md =
    if negb (bool_decide (p ∈ m_principals st)) then Ok (with_rows st rs, err_no_principal) else
    if negb (bool_decide (s ∈ m_scopes st)) then Ok (with_rows st rs, err_no_scope) else Ok (with_rows st (rs ++ scope_rows c p md s), None)).
  { intros rs. unfold tenant_add_scope_to_principal. rewrite (managed_rows st t c rs Hc Hm). cbn [rbind]. destruct (fields_rows st rs) as (-> & _ & -> & _).
    destruct (negb _); [reflexivity|]. destruct (negb _); [reflexivity|]. f_equal. f_equal. rewrite <- with_rows_snoc. unfold scope_rows. destruct (t_default c); reflexivity. }
  destruct (negb (bool_decide (p ∈ m_principals st))).
  - exists [], err_no_principal. split; [intros d Hd; apply elem_of_nil in Hd; contradiction|]. intros rs. rewrite E, app_nil_r. reflexivity.
  - destruct (negb (bool_decide (s ∈ m_scopes st))).
    + exists [], err_no_scope. split; [intros d Hd; apply elem_of_nil in Hd; contradiction|]. intros rs. rewrite E, app_nil_r. reflexivity.
    + exists (scope_rows c p md s), None. split; [exact (fun d H => H)|]. exact E.
Qed.
(** What a call that only stores rows does depends on nothing that such calls change. *)
Definition does (st : state) (x : op) (new : list data) (r : out) : Prop :=
  (forall d, d ∈ new -> may_store st x d) /\ forall o rs, step o (with_rows st rs) x = Ok (with_rows st (rs ++ new), r).
Lemma manager_rows st rs t : has_manager (with_rows st rs) t -> has_manager st t.
Proof. unfold has_manager. destruct (fields_rows st rs) as (_ & _ & _ & ->). exact (fun H => H). Qed.
Lemma does_nothing st x r : (forall o rs, step o (with_rows st rs) x = Ok (with_rows st rs, r)) -> exists new r, does st x new r.
Proof. intros H. exists [], r. split; [intros d Hd; apply elem_of_nil in Hd; contradiction|]. intros o rs. rewrite app_nil_r. apply H. Qed.
Lemma does_map {A} st x (g : A -> data) l : (forall a, a ∈ l -> may_store st x (g a)) -> (forall o rs, step o (with_rows st rs) x = Ok (with_rows (with_rows st rs) (map g l), RUnit)) ->
  exists new r, does st x new r.
Proof.
  intros Hm H. exists (map g l), RUnit. split; [intros d Hd; apply elem_of_list_In, in_map_iff in Hd as (a & <- & Ha); apply Hm; apply elem_of_list_In; exact Ha|].
  intros o rs. rewrite H, with_rows_snoc. reflexivity.
Qed.
Lemma does_or_panics st x : only_stores x -> (exists new r, does st x new r) \/ forall o rs, step o (with_rows st rs) x = Panic.
Proof.
  intros Hx.
  assert (M : forall t, ~ has_manager st t -> forall rs, ~ has_manager (with_rows st rs) t) by (intros t Hn rs H; exact (Hn (manager_rows st rs t H))).
  assert (T : forall rs t c, s_tenants st !! t = Some c -> s_tenants (with_rows st rs) !! t = Some c) by (intros rs t c H; destruct (fields_rows st rs) as (_ & _ & _ & ->); exact H).
  destruct x; try contradiction.
  - left. apply (does_map st _ (fun _ : unit => d) [tt]); [intros _ _; reflexivity|]. intros o rs. reflexivity.
  - destruct (managed_dec st t) as [(c & Hc & Hm)|Hn].
    + left. apply (does_map st _ (ns_row (t_id c)) ns); [intros n Hi; exists c, n; split_and!; [exact Hc|exact Hi|reflexivity]|].
      intros o rs. cbn [step]. rewrite (namespaces_exact (with_rows st rs) t c ns (T rs t c Hc) Hm). reflexivity.
    + destruct ns as [|n ns]; [left; apply (does_nothing st _ RUnit); reflexivity|]. right. intros o rs. apply (c97_no_manager _ _ t); [apply M; exact Hn|split; [reflexivity|discriminate]].
  - destruct (managed_dec st t) as [(c & Hc & Hm)|Hn].
    + left. apply (does_map st _ (fun _ : unit => ns_scope_row (t_id c) n s) [tt]); [intros _ _; exists c; split; [exact Hc|reflexivity]|].
      intros o rs. cbn [step]. rewrite (scopes_to_namespace_exact (with_rows st rs) t c n s (T rs t c Hc) Hm). reflexivity.
    + right. intros o rs. apply (c97_no_manager _ _ t); [apply M; exact Hn|reflexivity].
  - destruct (managed_dec st t) as [(c & Hc & Hm)|Hn].
    + left. apply (does_map st _ (fun _ : unit => member_row (t_id c) n u r) [tt]); [intros _ _; exists c; split; [exact Hc|reflexivity]|].
      intros o rs. cbn [step]. rewrite (member_exact (with_rows st rs) t c u n r (T rs t c Hc) Hm). reflexivity.
    + right. intros o rs. apply (c97_no_manager _ _ t); [apply M; exact Hn|reflexivity].
  - destruct (managed_dec st t) as [(c & Hc & Hm)|Hn].
    + destruct (decide (Forall (fun r => is_Some (h_roles (s_heap st) !! r)) rs)) as [F|F].
      * left. rewrite Forall_forall in F. apply (does_map st _ (fun r => tenant_role_row (t_id c) (role_name st r)) rs).
        -- intros r Hi. destruct (F r Hi) as [ro Hro]. exists c, r, ro. split_and!; [exact Hc|exact Hi|exact Hro|]. unfold role_name. rewrite Hro. reflexivity.
        -- intros o new. cbn [step]. rewrite (roles_exact (with_rows st new) t c rs (T new t c Hc) Hm); [|rewrite heap_rows; exact F].
           cbn. f_equal. f_equal. f_equal. apply map_ext. intros r. unfold role_name. rewrite heap_rows. reflexivity.
      * right. intros o new. cbn [step]. unfold tenant_add_roles.
        assert (G : forall new, repeat_op (fun st r => tenant_add_role st t r) (with_rows st new) rs = Panic); [|rewrite G; reflexivity].
        clear new. induction rs as [|r rs IH]; [destruct F; constructor|]. intros new. cbn [repeat_op]. unfold tenant_add_role at 1. rewrite (managed_rows st t c new Hc Hm). cbn [rbind]. rewrite heap_rows.
        destruct (h_roles (s_heap st) !! r) as [ro|] eqn:Hr; [|reflexivity]. cbn [rbind].
        change (add_data (with_rows st new) (Data (AStr (t_id c)) ANil ANil ANil (AStr (r_id ro)) ANil)) with (with_rows (with_rows st new) [Data (AStr (t_id c)) ANil ANil ANil (AStr (r_id ro)) ANil]).
        rewrite with_rows_snoc. apply IH; [exact I|]. intros F'. apply F. constructor; [exists ro; exact Hr|exact F'].
    + destruct rs as [|r rs]; [left; apply (does_nothing st _ RUnit); reflexivity|]. right. intros o new. apply (c97_no_manager _ _ t); [apply M; exact Hn|split; [reflexivity|discriminate]].
  - destruct (managed_dec st t) as [(c & Hc & Hm)|Hn].
    + left. apply (does_map st _ (scope_row (t_id c)) ss); [intros n Hi; exists c, n; split_and!; [exact Hc|exact Hi|reflexivity]|].
      intros o rs. cbn [step]. rewrite (scopes_exact (with_rows st rs) t c ss (T rs t c Hc) Hm). reflexivity.
    + destruct ss as [|n ss]; [left; apply (does_nothing st _ RUnit); reflexivity|]. right. intros o rs. apply (c97_no_manager _ _ t); [apply M; exact Hn|split; [reflexivity|discriminate]].
  - destruct (managed_dec st t) as [(c & Hc & Hm)|Hn].
    + left. destruct (shift_principal st t c p md rs Hc Hm) as (new & e & Hn & E). exists new, (RErr e). split.
      * intros d Hd. destruct (Hn d Hd) as (r & Hr & Hd'). exists c, r. split_and!; assumption.
      * intros o rs0. cbn [step]. rewrite E. reflexivity.
    + destruct rs as [|r rs]; [left; apply (does_nothing st _ (RErr None)); reflexivity|]. right. intros o new. apply (c97_no_manager _ _ t); [apply M; exact Hn|split; [reflexivity|discriminate]].
  - destruct (managed_dec st t) as [(c & Hc & Hm)|Hn].
    + left. destruct (shift_scopes st t c p md ss Hc Hm) as (new & e & Hn & E). exists new, (RErr e). split.
      * intros d Hd. destruct (Hn d Hd) as (r & Hr & Hd'). exists c, r. split_and!; assumption.
      * intros o rs0. cbn [step]. rewrite E. reflexivity.
    + destruct ss as [|r ss]; [left; apply (does_nothing st _ (RErr None)); reflexivity|]. right. intros o new. apply (c97_no_manager _ _ t); [apply M; exact Hn|split; [reflexivity|discriminate]].
Qed.
(** A run of such calls: each call with what it does *)
Definition done_by := (op * list data * out)%type.
Definition all_new (tr : list done_by) : list data := concat (map (fun c => c.1.2) tr).
Definition does_all (st : state) (tr : list done_by) : Prop := forall c, c ∈ tr -> does st c.1.1 c.1.2 c.2.
Lemma run_does o st ops : Forall only_stores ops -> forall i rs st' outs, run o i (with_rows st rs) ops = Ok (st', outs) ->
  exists tr, map (fun c : done_by => c.1.1) tr = ops /\ map (fun c : done_by => c.2) tr = outs /\ does_all st tr /\ st' = with_rows st (rs ++ all_new tr).
Proof.
  intros F. induction F as [|x ops Hx F IH]; intros i rs st' outs H; cbn [run] in H.
  - injection H as <- <-. exists []. split; [reflexivity|]. split; [reflexivity|]. split; [intros c Hc; apply elem_of_nil in Hc; contradiction|]. unfold all_new. cbn. rewrite app_nil_r. reflexivity.
  - destruct (does_or_panics st x Hx) as [(new & r & D)|P]; [|rewrite P in H; discriminate].
    rewrite (proj2 D) in H. cbn [rbind fst snd] in H. apply rbind_ok in H as ([st2 outs2] & H & [= <- <-]).
    destruct (IH (S i) (rs ++ new) st2 outs2 H) as (tr & <- & <- & D' & ->). exists ((x, new, r) :: tr).
    split; [reflexivity|]. split; [reflexivity|]. split.
    + intros c [->|Hc]%elem_of_cons; [exact D|exact (D' c Hc)].
    + unfold all_new. cbn. rewrite app_assoc. reflexivity.
Qed.
Lemma does_run o st tr : does_all st tr -> forall i rs,
  run o i (with_rows st rs) (map (fun c : done_by => c.1.1) tr) = Ok (with_rows st (rs ++ all_new tr), map (fun c : done_by => c.2) tr).
Proof.
  induction tr as [|[[x new] r] tr IH]; intros D i rs.
  - unfold all_new. cbn. rewrite app_nil_r. reflexivity.
  - cbn [map run fst snd]. destruct (D (x, new, r)) as [_ E]; [left|]. cbn in E. rewrite E. cbn [rbind fst snd].
    rewrite IH by (intros c Hc; apply D; right; exact Hc). cbn [rbind fst snd]. unfold all_new. cbn. rewrite app_assoc. reflexivity.
Qed.
Lemma zip_maps (tr : list done_by) : zip (map (fun c : done_by => c.1.1) tr) (map (fun c : done_by => c.2) tr) = map (fun c : done_by => (c.1.1, c.2)) tr.
Proof. induction tr as [|c tr IH]; [reflexivity|]. cbn. rewrite <- IH. reflexivity. Qed.
Lemma elem_all_new tr d : d ∈ all_new tr <-> exists c, c ∈ tr /\ d ∈ c.1.2.
Proof.
  unfold all_new. induction tr as [|c tr IH]; cbn.
  - split; [intros H; apply elem_of_nil in H; contradiction|]. intros (c & H & _). apply elem_of_nil in H. contradiction.
  - rewrite elem_of_app, IH. split.
    + intros [H|(c' & Hc & H)]; [exists c; split; [left|exact H]|exists c'; split; [right; exact Hc|exact H]].
    + intros (c' & [->|Hc]%elem_of_cons & H); [left; exact H|right; exists c'; split; assumption].
Qed.
Lemma permuted o i st ops1 ops2 st1 outs1 : Forall only_stores ops1 -> run o i st ops1 = Ok (st1, outs1) -> ops2 ≡ₚ ops1 ->
  exists tr1 tr2, tr1 ≡ₚ tr2 /\ does_all st tr1 /\ does_all st tr2 /\ map (fun c : done_by => c.1.1) tr1 = ops1 /\ map (fun c : done_by => c.1.1) tr2 = ops2
    /\ map (fun c : done_by => c.2) tr1 = outs1 /\ st1 = with_rows st (all_new tr1)
    /\ forall o' i', run o' i' st ops2 = Ok (with_rows st (all_new tr2), map (fun c : done_by => c.2) tr2).
Proof.
  intros F H P. destruct (run_does o st ops1 F i [] st1 outs1 H) as (tr1 & E1 & E2 & D & Est). rewrite <- E1 in P.
  apply Permutation_map_inv in P as (tr2 & E3 & P). exists tr1, tr2.
  assert (D2 : does_all st tr2) by (intros c Hc; apply D; rewrite P; exact Hc).
  split_and!; [exact P|exact D|exact D2|exact E1|symmetry; exact E3|exact E2|exact Est|]. intros o' i'. rewrite E3. exact (does_run o' st tr2 D2 i' []).
Qed.
Lemma c100_runs o i st ops1 ops2 st1 outs1 o' i' : Forall only_stores ops1 -> run o i st ops1 = Ok (st1, outs1) -> ops2 ≡ₚ ops1 ->
  exists st2 outs2, run o' i' st ops2 = Ok (st2, outs2) /\ rows_only st1 st2 /\ zip ops2 outs2 ≡ₚ zip ops1 outs1.
Proof.
  intros F H P. destruct (permuted o i st ops1 ops2 st1 outs1 F H P) as (tr1 & tr2 & Pt & _ & _ & <- & <- & <- & -> & R).
  eexists _, _. split; [apply R|]. split.
  - rewrite !with_rows_eq. unfold rows_only. destruct st. cbn. split_and!; reflexivity.
  - rewrite !zip_maps. apply Permutation_map. symmetry. exact Pt.
Qed.
Lemma apart_new st tr : does_all st tr -> apart st (map (fun c : done_by => c.1.1) tr) -> forall d d', d ∈ all_new tr -> d' ∈ all_new tr -> clash d d' -> d = d'.
Proof.
  intros D A d d' (c & Hc & Hd)%elem_all_new (c' & Hc' & Hd')%elem_all_new. apply (A c.1.1 c'.1.1).
  - apply elem_of_list_In, in_map_iff. exists c. split; [reflexivity|apply elem_of_list_In; exact Hc].
  - apply elem_of_list_In, in_map_iff. exists c'. split; [reflexivity|apply elem_of_list_In; exact Hc'].
  - exact (proj1 (D c Hc) d Hd).
  - exact (proj1 (D c' Hc') d' Hd').
Qed.
Lemma permuted_rows o i st ops1 ops2 st1 outs1 o' i' st2 outs2 : reachable st -> Forall only_stores ops1 -> apart st ops1 ->
  run o i st ops1 = Ok (st1, outs1) -> ops2 ≡ₚ ops1 -> run o' i' st ops2 = Ok (st2, outs2) ->
  exists new1 new2, st1 = with_rows st new1 /\ st2 = with_rows st new2 /\ forall d, stored st1 d <-> stored st2 d.
Proof.
  intros R F A H P H2. destruct (permuted o i st ops1 ops2 st1 outs1 F H P) as (tr1 & tr2 & Pt & D1 & D2 & <- & <- & <- & -> & Hr).
  rewrite Hr in H2. injection H2 as <- _. exists (all_new tr1), (all_new tr2). split; [reflexivity|]. split; [reflexivity|]. intros d.
  destruct (reachable_logged st R) as [log Hl].
  assert (A2 : apart st (map (fun c : done_by => c.1.1) tr2)).
  { intros x x' e e' Hx Hx'. apply A; [rewrite <- P; exact Hx|rewrite <- P; exact Hx']. }
  rewrite (logged_added st log (all_new tr1) Hl (apart_new st tr1 D1 A) d), (logged_added st log (all_new tr2) Hl (apart_new st tr2 D2 A2) d).
  assert (E : forall e, e ∈ all_new tr1 <-> e ∈ all_new tr2).
  { intros e. rewrite !elem_all_new. split; intros (c & Hc & He); exists c; (split; [|exact He]); [rewrite <- Pt|rewrite Pt]; exact Hc. }
  rewrite E. split; (intros [Hd|[Hd Hn]]; [left; exact Hd|right; split; [exact Hd|]]); intros d' Hd'; apply Hn, E, Hd'.
Qed.
Lemma c100_rows o i st ops1 ops2 st1 outs1 o' i' st2 outs2 d : reachable st -> Forall only_stores ops1 -> apart st ops1 ->
  run o i st ops1 = Ok (st1, outs1) -> ops2 ≡ₚ ops1 -> run o' i' st ops2 = Ok (st2, outs2) -> stored st1 d <-> stored st2 d.
Proof. intros R F A H P H2. destruct (permuted_rows _ _ _ _ _ _ _ _ _ _ _ R F A H P H2) as (n1 & n2 & _ & _ & E). exact (E d). Qed.

(** A decision looks at the rows as a set. *)
Lemma authorized_stored st tr1 tr2 U p q : (forall d, stored (with_trie st tr1) d <-> stored (with_trie st tr2) d) ->
  authorized (with_trie st tr1) U p q -> authorized (with_trie st tr2) U p q.
Proof.
  intros E (H1 & H2 & H3 & H4). split; [exact H1|]. split; [exact H2|]. split; [exact H3|].
  assert (G : forall q f, grants (with_trie st tr1) p q f -> grants (with_trie st tr2) p q f).
  { intros q' f [[A (g & a & t & d & r & l & G1 & G2 & G3 & G4 & G5 & G6 & G7 & G8)]|[A G]].
    - left. split; [exact A|]. exists g, a, t, d, r, l. split_and!; [exact G1|exact G2| |apply E; exact G4|exact G5|exact G6|exact G7|exact G8].
      destruct f; try exact G3. destruct G3 as (d0 & S0 & G3). exists d0. split; [apply E; exact S0|exact G3].
    - right. split; [exact A|]. destruct f; cbn in *.
      all: try (destruct G as (d & S & G); exists d; split; [apply E; exact S|exact G]).
      + destruct G as (d0 & d & S0 & P0 & T0 & S & G). exists d0, d. split; [apply E; exact S0|]. split; [exact P0|]. split; [exact T0|]. split; [apply E; exact S|exact G].
      + exact G. }
  destruct H4 as [H4|(u & Hu & H4)]; [left; exact (G _ _ H4)|right; exists u; split; [exact Hu|exact (G _ _ H4)]].
Qed.
Lemma reaches_stored st tr1 tr2 p t : (forall d, stored (with_trie st tr1) d <-> stored (with_trie st tr2) d) ->
  reaches (with_trie st tr1) p t -> reaches (with_trie st tr2) p t.
Proof.
  intros E [(d & S & H)|(t0 & (d & S & H) & B)]; [left; exists d; split; [apply E; exact S|exact H]|right; exists t0; split; [exists d; split; [apply E; exact S|exact H]|exact B]].
Qed.
Lemma answers_stored st new1 new2 p q b1 b2 : reachable st -> (forall d, stored (with_rows st new1) d <-> stored (with_rows st new2) d) ->
  settled (with_rows st new1) [] p -> may_answer (with_rows st new1) p q b1 -> may_answer (with_rows st new2) p q b2 -> b1 = true -> b2 = true.
Proof.
  intros [W Hs]%reachable_hierarchy E Hset M1 M2 Hb.
  pose proof (wf_rows st new1 W) as W1. pose proof (wf_rows st new2 W) as W2. pose proof (sound_rows st new1 Hs) as S1. pose proof (sound_rows st new2 Hs) as S2.
  destruct (m_cache st !! p) as [U|] eqn:Hc.
  - assert (C1 : m_cache (with_rows st new1) !! p = Some U) by (rewrite cache_rows; exact Hc). assert (C2 : m_cache (with_rows st new2) !! p = Some U) by (rewrite cache_rows; exact Hc).
    apply (seq_cached _ p U q b2 C2 M2). apply (seq_cached _ p U q b1 C1 M1) in Hb. rewrite (with_rows_eq st new1), (with_rows_eq st new2) in E. rewrite (with_rows_eq st new1) in Hb. rewrite (with_rows_eq st new2).
    exact (authorized_stored st _ _ U p q E Hb).
  - assert (C1 : m_cache (with_rows st new1) !! p = None) by (rewrite cache_rows; exact Hc). assert (C2 : m_cache (with_rows st new2) !! p = None) by (rewrite cache_rows; exact Hc).
    destruct Hset as [Hset|(Hf & Hco & Hag)]; [destruct (Hset C1)|]. change (with_rows (with_rows st new1) []) with (with_rows st new1) in Hag.
    assert (Hag2 : flags_agree (with_rows st new2) p) by (intros d d' A A'; apply Hag; apply E; assumption).
    assert (Hf2 : hierarchy_fresh (with_rows st new2)) by (rewrite with_rows_eq in *; exact Hf).
    assert (Hco2 : tenants_coherent (with_rows st new2)) by (rewrite with_rows_eq in *; exact Hco).
    destruct (seq_exact _ p q b1 W1 S1 Hf Hco Hag C1 M1) as (U1 & E1 & _). destruct (seq_exact _ p q b2 W2 S2 Hf2 Hco2 Hag2 C2 M2) as (U2 & _ & E2).
    destruct (E1 Hb) as [HU Ha]. rewrite (with_rows_eq st new1) in E, HU, Ha. rewrite (with_rows_eq st new2) in E, E2. apply (E2 U1).
    + intros t Ht. apply (reaches_stored st _ _ p t E). apply HU. exact Ht.
    + exact (authorized_stored st _ _ U1 p q E Ha).
Qed.
Lemma settled_stored st new1 new2 p : (forall d, stored (with_rows st new1) d <-> stored (with_rows st new2) d) -> settled (with_rows st new1) [] p -> settled (with_rows st new2) [] p.
Proof.
  intros E [H|(Hf & Hco & Hag)]; [left; rewrite cache_rows in *; exact H|right].
  split; [rewrite with_rows_eq in *; exact Hf|]. split; [rewrite with_rows_eq in *; exact Hco|]. intros d d' A A'. apply Hag; apply E; assumption.
Qed.
Lemma c100_answers o i st ops1 ops2 st1 outs1 o' i' st2 outs2 p q b1 b2 : reachable st -> Forall only_stores ops1 -> apart st ops1 ->
  run o i st ops1 = Ok (st1, outs1) -> ops2 ≡ₚ ops1 -> run o' i' st ops2 = Ok (st2, outs2) -> settled st1 [] p ->
  may_answer st1 p q b1 -> may_answer st2 p q b2 -> b1 = b2.
Proof.
  intros R F A H P H2 Hset M1 M2. destruct (permuted_rows _ _ _ _ _ _ _ _ _ _ _ R F A H P H2) as (n1 & n2 & -> & -> & E).
  pose proof (answers_stored st n1 n2 p q b1 b2 R E Hset M1 M2) as L1.
  assert (E' : forall d, stored (with_rows st n2) d <-> stored (with_rows st n1) d) by (intros d; symmetry; apply E).
  pose proof (answers_stored st n2 n1 p q b2 b1 R E' (settled_stored st n1 n2 p E Hset) M2 M1) as L2.
  destruct b1, b2; try reflexivity; [symmetry; exact (L1 eq_refl)|exact (L2 eq_refl)].
Qed.
(** Two rows that clash: the later one wins. *)
Lemma c100_clash st d d' : reachable st -> clash d d' -> d <> d' ->
  stored (with_rows st [d; d']) d' /\ ~ stored (with_rows st [d; d']) d.
Proof.
  intros [log Hl]%reachable_logged C Hn. pose proof (wrote_with_rows st [d; d']) as Hw. split.
  - apply (wrote_has _ _ _ [d] _ [] Hl Hw). constructor.
  - intros H. apply (wrote_stored _ _ _ _ _ Hl Hw) in H. unfold rows in H. apply elem_of_survivors in H as (l1 & l2 & E & F).
    destruct l2 as [|e l2 _] using rev_ind.
    + change (log ++ [d; d']) with (log ++ [d] ++ [d']) in E. rewrite app_assoc in E. apply app_inj_tail in E as [_ E]. congruence.
    + change (log ++ [d; d']) with (log ++ [d] ++ [d']) in E. rewrite app_assoc in E. rewrite app_comm_cons, app_assoc in E. apply app_inj_tail in E as [_ <-].
      apply Forall_app in F as [_ F]. apply Forall_inv in F. apply F. symmetry. exact C.
Qed.
