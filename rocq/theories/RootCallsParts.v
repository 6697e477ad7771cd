(** What each call does to the parts of a root manager. *)
From Verif Require Import NameProofs TenProofs.
From Verif Require V1CallsStep.
From Verif Require Export RootCallsRole.
From Verif Require Import RootCallsSpec.

Definition f_id (st : state) (t : nat) : option string := t_id <$> s_tenants st !! t.
Definition f_default (st : state) (t : nat) : option string := s_tenants st !! t ≫= t_default.
Definition f_link (st : state) (t : nat) (k : string) : option nat := s_tenants st !! t ≫= (fun c => t_desc c !! k).

(** The tenants, if the call changes them *)
Lemma form_tenants o st x st' y : step o st x = Ok (st', y) ->
  match x with ONewTenant _ | OTenantSetDefault _ _ | OAddTenant _ | OTenantAddDescendant _ _ => True | _ => s_tenants st' = s_tenants st end.
Proof.
  intros H. apply step_form in H. destruct x; cbn [form] in H; try exact I; first [destruct H as (? & ->); reflexivity|destruct H as (? & ? & ->); reflexivity].
Qed.
Lemma set_default_spec st t n st' : tenant_set_default st t n = Ok st' -> exists c, s_tenants st !! t = Some c /\
  st' = if bool_decide (n ∈ m_namespaces st) then set_tenant st t (Tenant (t_id c) (t_desc c) (Some n) (t_managed c)) else st.
Proof.
  unfold tenant_set_default. intros H. apply rbind_ok in H as (c & Hc & [= <-]). exists c. split; [|reflexivity]. apply managed_ok in Hc. exact (proj1 Hc).
Qed.
Lemma add_tenant_spec st t st' l : add_tenant st t = Ok (st', l) -> exists c, s_tenants st !! t = Some c
  /\ s_tenants st' = <[t := Tenant (t_id c) (t_desc c) (t_default c) true]> (s_tenants st)
  /\ m_tenants st' = match m_tenants st !! t_id c with Some _ => m_tenants st | None => <[t_id c := t]> (m_tenants st) end.
Proof.
  unfold add_tenant. destruct (s_tenants st !! t) as [c|]; [|discriminate]. cbv zeta. intros H. exists c. split; [reflexivity|].
  change (m_tenants (set_tenant st t (Tenant (t_id c) (t_desc c) (t_default c) true))) with (m_tenants st) in H.
  destruct (m_tenants st !! t_id c); injection H as <- <-; (split; reflexivity).
Qed.
(** A call of AddDescendant that returned *)
Lemma descendants_spec st t ds st' : reachable st -> tenant_add_descendants st t ds = Ok st' -> ds = [] /\ st' = st \/ exists c, s_tenants st !! t = Some c
  /\ (forall d, d ∈ ds -> is_Some (s_tenants st !! d)) /\ rows_added st (passed_rows st (t_default c) ds) st' /\ linked_all st t (t_default c) ds (s_tenants st').
Proof.
  intros R H. destruct ds as [|d0 ds0] eqn:Eds; [left; injection H as <-; split; reflexivity|]. right.
  rewrite <- Eds in *. assert (Hne : ds <> []) by (rewrite Eds; discriminate). clear Eds.
  destruct (s_tenants st !! t) as [c|] eqn:Hc.
  2: { rewrite (c97_add_descendant_panics st t ds R Hne) in H; [discriminate|]. intros [(c & Hc' & _) _]. congruence. }
  assert (Hex : forall d, d ∈ ds -> is_Some (s_tenants st !! d)).
  { intros d Hd. destruct (s_tenants st !! d) as [y|] eqn:Hy; [exists y; reflexivity|].
    rewrite (c97_add_descendant_panics st t ds R Hne) in H; [discriminate|]. intros [_ F]. destruct (F d Hd) as [y Hy']. congruence. }
  assert (Hman : t_default c <> None -> forall d, d ∈ ds -> has_manager st d).
  { intros Hdf d Hd. destruct (managed_dec st d) as [My|My]; [exact My|].
    rewrite (c97_add_descendant_panics st t ds R Hne) in H; [discriminate|]. intros [(c' & Hc' & F) _]. rewrite Hc in Hc'. injection Hc' as <-. exact (My (F Hdf d Hd)). }
  destruct (c97_add_descendant st t c ds R Hc Hex Hman) as (s1 & E & _ & A & L). rewrite E in H. injection H as <-.
  exists c. split; [reflexivity|]. split; [exact Hex|]. split; [exact A|exact L].
Qed.
Lemma set_f {A} (f : tenant_obj -> A) (ts : list tenant_obj) t c c' l : ts !! t = Some c -> f c' = f c -> f <$> <[t := c']> ts !! l = f <$> ts !! l.
Proof.
  intros Hc E. destruct (decide (l = t)) as [D|D].
  - subst l. rewrite list_lookup_insert by (apply lookup_lt_is_Some; exists c; exact Hc). rewrite Hc. cbn. rewrite E. reflexivity.
  - rewrite list_lookup_insert_ne by (intros E0; exact (D (eq_sym E0))). reflexivity.
Qed.
Lemma set_b {A} (f : tenant_obj -> option A) (ts : list tenant_obj) t c c' l : ts !! t = Some c -> f c' = f c -> (<[t := c']> ts !! l ≫= f) = (ts !! l ≫= f).
Proof.
  intros Hc E. destruct (decide (l = t)) as [D|D].
  - subst l. rewrite list_lookup_insert by (apply lookup_lt_is_Some; exists c; exact Hc). rewrite Hc. exact E.
  - rewrite list_lookup_insert_ne by (intros E0; exact (D (eq_sym E0))). reflexivity.
Qed.
Lemma snoc_lookup {A} (l : list A) a i : (l ++ [a]) !! i = if decide (i = length l) then Some a else l !! i.
Proof.
  case_decide as D; [subst i; rewrite lookup_app_r, Nat.sub_diag by lia; reflexivity|].
  destruct (decide (i < length l)) as [H|H]; [apply lookup_app_l; exact H|]. rewrite lookup_app_r by lia. rewrite (lookup_ge_None_2 l) by lia. apply lookup_ge_None_2. cbn. lia.
Qed.
(** Names *)
Lemma step_tid o st x st' y t id : reachable st -> step o st x = Ok (st', y) -> f_id st' t = Some id <-> (ONewTenant id, RLoc t) = (x, y) \/ f_id st t = Some id.
Proof.
  intros R H. pose proof (form_tenants _ _ _ _ _ H) as F.
  assert (Q : (forall i, x <> ONewTenant i) -> f_id st' t = f_id st t -> f_id st' t = Some id <-> (ONewTenant id, RLoc t) = (x, y) \/ f_id st t = Some id).
  { intros N ->. split; [right; assumption|]. intros [[= E _]|E]; [destruct (N id); congruence|exact E]. }
  destruct x; try (apply Q; [discriminate|unfold f_id; rewrite F; reflexivity]); clear F; cbn [step] in H.
  - injection H as <- <-. unfold new_tenant, f_id. cbn [fst snd with_tenant_objs s_tenants]. rewrite snoc_lookup. case_decide as D.
    + subst t. rewrite (lookup_ge_None_2 (s_tenants st)) by lia. cbn. split; [intros [= ->]; left; reflexivity|]. intros [[= ->]|?]; [reflexivity|discriminate].
    + split; [right; assumption|]. intros [[= _ E]|E]; [contradiction|exact E].
  - apply rbind_ok in H as ([s1 l] & H & [= <- <-]). destruct (add_tenant_spec _ _ _ _ H) as (c & Hc & E & _). apply Q; [discriminate|].
    unfold f_id. cbn [fst]. rewrite E. apply (set_f t_id _ _ c); [exact Hc|reflexivity].
  - apply rbind_ok in H as (s1 & H & [= <- <-]). apply Q; [discriminate|]. destruct (descendants_spec _ _ _ _ R H) as [[_ ->]|(c & _ & _ & _ & L)]; [reflexivity|].
    unfold f_id. exact (linked_id _ _ _ _ _ t L).
  - apply rbind_ok in H as (s1 & H & [= <- <-]). destruct (set_default_spec _ _ _ _ H) as (c & Hc & ->). apply Q; [discriminate|]. case_bool_decide; [|reflexivity].
    unfold f_id. apply (set_f t_id _ _ c); [exact Hc|reflexivity].
Qed.
(** Links *)
Lemma first_called_in st ds k d : first_called st ds k = Some d <-> first_in (fun l => f_id st l = Some k) ds d.
Proof.
  induction ds as [|a ds IH]; cbn [first_called]; [split; [discriminate|intros (l1 & l2 & E & _); destruct l1; discriminate]|]. fold (f_id st a). case_decide as D.
  - split; [intros [= <-]; exists [], ds; split; [reflexivity|split; [exact D|constructor]]|].
    intros (l1 & l2 & E & _ & F). destruct l1 as [|b l1]; injection E as -> E; [reflexivity|]. inversion F as [|? ? N _]. contradiction.
  - rewrite IH. split.
    + intros (l1 & l2 & -> & Hd & F). exists (a :: l1), l2. split; [reflexivity|]. split; [exact Hd|constructor; assumption].
    + intros (l1 & l2 & E & Hd & F). destruct l1 as [|b l1]; injection E as -> E; [contradiction|]. inversion F as [|? ? _ F']. exists l1, l2. split; [exact E|split; assumption].
Qed.
Lemma step_link o st x st' y t k d : reachable st -> step o st x = Ok (st', y) ->
  f_link st' t k = Some d <-> f_link st t k = Some d \/ f_link st t k = None /\ exists ds, x = OTenantAddDescendant t ds /\ first_in (fun l => f_id st l = Some k) ds d.
Proof.
  intros R H. pose proof (form_tenants _ _ _ _ _ H) as F.
  assert (Q : (forall ds, x <> OTenantAddDescendant t ds) -> f_link st' t k = f_link st t k ->
    f_link st' t k = Some d <-> f_link st t k = Some d \/ f_link st t k = None /\ exists ds, x = OTenantAddDescendant t ds /\ first_in (fun l => f_id st l = Some k) ds d).
  { intros N ->. split; [left; assumption|]. intros [E|(_ & ds & E & _)]; [exact E|destruct (N ds E)]. }
  destruct x; try (apply Q; [discriminate|unfold f_link; rewrite F; reflexivity]); clear F; cbn [step] in H.
  - injection H as <- <-. apply Q; [discriminate|]. unfold new_tenant, f_link. cbn [fst snd with_tenant_objs s_tenants]. rewrite snoc_lookup. case_decide as D; [|reflexivity].
    subst t. rewrite (lookup_ge_None_2 (s_tenants st)) by lia. cbn. apply lookup_empty.
  - apply rbind_ok in H as ([s1 l] & H & [= <- <-]). destruct (add_tenant_spec _ _ _ _ H) as (c & Hc & E & _). apply Q; [discriminate|].
    unfold f_link. cbn [fst]. rewrite E. apply (set_b (fun c => t_desc c !! k) _ _ c); [exact Hc|reflexivity].
  - apply rbind_ok in H as (s1 & H & [= <- <-]). destruct (descendants_spec _ _ _ _ R H) as [[-> ->]|(c & Hc & _ & _ & L)].
    { split; [left; assumption|]. intros [E|(_ & ds & [= _ <-] & l1 & l2 & E & _)]; [exact E|destruct l1; discriminate]. }
    specialize (L t). unfold f_link. destruct (s_tenants st !! t) as [x|] eqn:Ex, (s_tenants s1 !! t) as [y|] eqn:Ey; try contradiction.
    + destruct L as (_ & _ & _ & L). cbn [mbind option_bind]. rewrite (L k). destruct (t_desc x !! k) as [d0|].
      * split; [left; assumption|]. intros [E|[E _]]; [exact E|discriminate].
      * destruct (decide (t = t0)) as [D|D].
        -- subst t0. rewrite first_called_in. split.
           ++ intros Hd. right. split; [reflexivity|]. exists ds. split; [reflexivity|exact Hd].
           ++ intros [?|(_ & ds0 & [= <-] & Hd)]; [discriminate|exact Hd].
        -- split; [discriminate|]. intros [?|(_ & ds0 & [= E _] & _)]; [discriminate|destruct (D (eq_sym E))].
    + cbn. split; [discriminate|]. intros [?|(_ & ds0 & [= E _] & _)]; [discriminate|]. subst t0. congruence.
  - apply rbind_ok in H as (s1 & H & [= <- <-]). destruct (set_default_spec _ _ _ _ H) as (c & Hc & ->). apply Q; [discriminate|]. case_bool_decide; [|reflexivity].
    unfold f_link. apply (set_b (fun c => t_desc c !! k) _ _ c); [exact Hc|reflexivity].
Qed.
(** Default namespaces *)
Lemma step_default o st x st' y t n : reachable st -> step o st x = Ok (st', y) ->
  let now m := x = OTenantSetDefault t m /\ m ∈ m_namespaces st \/ exists t' ds, x = OTenantAddDescendant t' ds /\ t ∈ ds /\ f_default st t' = Some m in
  f_default st' t = Some n <-> now n \/ (forall m, ~ now m) /\ f_default st t = Some n.
Proof.
  intros R H now. pose proof (form_tenants _ _ _ _ _ H) as F.
  assert (Q : (forall m, ~ now m) -> f_default st' t = f_default st t -> f_default st' t = Some n <-> now n \/ (forall m, ~ now m) /\ f_default st t = Some n).
  { intros N ->. split; [intros E; right; split; assumption|]. intros [E|[_ E]]; [destruct (N _ E)|exact E]. }
  assert (N0 : (forall m, x <> OTenantSetDefault t m) -> (forall t' ds, x <> OTenantAddDescendant t' ds) -> forall m, ~ now m).
  { intros N1 N2 m [[E _]|(t' & ds & E & _)]; [exact (N1 _ E)|exact (N2 _ _ E)]. }
  destruct x; try (apply Q; [apply N0; discriminate|unfold f_default; rewrite F; reflexivity]); clear F; cbn [step] in H.
  - injection H as <- <-. apply Q; [apply N0; discriminate|]. unfold new_tenant, f_default. cbn [fst snd with_tenant_objs s_tenants]. rewrite snoc_lookup. case_decide as D; [|reflexivity].
    subst t. rewrite (lookup_ge_None_2 (s_tenants st)) by lia. reflexivity.
  - apply rbind_ok in H as ([s1 l] & H & [= <- <-]). destruct (add_tenant_spec _ _ _ _ H) as (c & Hc & E & _). apply Q; [apply N0; discriminate|].
    unfold f_default. cbn [fst]. rewrite E. apply (set_b t_default _ _ c); [exact Hc|reflexivity].
  - clear N0. apply rbind_ok in H as (s1 & H & [= <- <-]). destruct (descendants_spec _ _ _ _ R H) as [[-> ->]|(c & Hc & Hex & _ & L)].
    { apply Q; [|reflexivity]. intros m [[? _]|(t' & ds & [= _ <-] & Ht & _)]; [discriminate|destruct (not_elem_of_nil _ Ht)]. }
    specialize (L t). unfold f_default. destruct (s_tenants st !! t) as [x|] eqn:Ex, (s_tenants s1 !! t) as [y|] eqn:Ey; try contradiction.
    + destruct L as (_ & _ & L & _). cbn [mbind option_bind]. rewrite L.
      assert (Now : forall m, now m <-> t ∈ ds /\ t_default c = Some m).
      { intros m. split.
        - intros [[? _]|(t' & ds' & [= <- <-] & Ht & E)]; [discriminate|]. unfold f_default in E. rewrite Hc in E. split; [exact Ht|exact E].
        - intros [Ht E]. right. exists t0, ds. split; [reflexivity|]. split; [exact Ht|]. unfold f_default. rewrite Hc. exact E. }
      rewrite (Now n). case_decide as D.
      * destruct (t_default c) as [m|] eqn:Em.
        -- split; [intros E; left; split; assumption|]. intros [[_ E]|[N _]]; [exact E|]. destruct (N m). apply Now. split; [exact D|reflexivity].
        -- split; [intros E; right; split; [|exact E]|intros [[_ ?]|[_ E]]; [discriminate|exact E]]. intros m0 Hm. apply Now in Hm as [_ Hm]. discriminate.
      * split; [intros E; right; split; [|exact E]|intros [[Ht _]|[_ E]]; [contradiction|exact E]]. intros m0 Hm. apply Now in Hm as [Hm _]. contradiction.
    + cbn. split; [discriminate|]. intros [[[? _]|(t' & ds' & [= <- <-] & Ht & E)]|[_ ?]]; [discriminate| |discriminate].
      destruct (Hex t Ht) as [z Hz]. congruence.
  - clear N0. apply rbind_ok in H as (s1 & H & [= <- <-]). destruct (set_default_spec _ _ _ _ H) as (c & Hc & ->).
    case_bool_decide as B.
    + destruct (decide (t = t0)) as [D|D].
      * subst t0. unfold f_default at 1. cbn [set_tenant with_tenant_objs s_tenants]. rewrite list_lookup_insert by (apply lookup_lt_is_Some; exists c; exact Hc). cbn [mbind option_bind t_default]. split.
        -- intros [= <-]. left. left. split; [reflexivity|exact B].
        -- intros [[[[= ->] _]|(t' & ds & ? & _)]|[N _]]; [reflexivity|discriminate|]. destruct (N n0). left. split; [reflexivity|exact B].
      * apply Q; [intros m [[[= E _] _]|(t' & ds & ? & _)]; [destruct (D (eq_sym E))|discriminate]|]. unfold f_default. cbn [set_tenant with_tenant_objs s_tenants].
        rewrite list_lookup_insert_ne by (intros E0; exact (D (eq_sym E0))). reflexivity.
    + apply Q; [|reflexivity]. intros m [[[= _ <-] Hm]|(t' & ds & ? & _)]; [contradiction|discriminate].
Qed.
(** The registers *)
Lemma step_mtenants o st x st' y id t : step o st x = Ok (st', y) ->
  m_tenants st' !! id = Some t <-> m_tenants st !! id = Some t \/ m_tenants st !! id = None /\ x = OAddTenant t /\ f_id st t = Some id.
Proof.
  intros H. pose proof (step_form _ _ _ _ _ H) as F.
  destruct x; try (assert (E : m_tenants st' = m_tenants st) by (cbn [form] in F; first [destruct F as (? & ->); reflexivity|destruct F as (? & ? & ->); reflexivity]);
    rewrite E; split; [left; assumption|intros [Ht|(_ & ? & _)]; [exact Ht|discriminate]]).
  clear F. cbn [step] in H. apply rbind_ok in H as ([s1 l] & H & [= <- <-]). destruct (add_tenant_spec _ _ _ _ H) as (c & Hc & _ & E). cbn [fst]. rewrite E. clear E.
  assert (Hi : f_id st t0 = Some (t_id c)) by (unfold f_id; rewrite Hc; reflexivity).
  destruct (m_tenants st !! t_id c) as [d|] eqn:Ed.
  - split; [left; assumption|]. intros [Ht|(N & [= <-] & Ht)]; [exact Ht|]. congruence.
  - destruct (decide (id = t_id c)) as [D|D].
    + subst id. rewrite lookup_insert, Ed. split; [intros [= <-]; right; split; [reflexivity|split; [reflexivity|exact Hi]]|]. intros [?|(_ & [= ->] & _)]; [discriminate|reflexivity].
    + rewrite lookup_insert_ne by (intros E0; exact (D (eq_sym E0))). split; [left; assumption|]. intros [Ht|(_ & [= <-] & Ht)]; [exact Ht|]. congruence.
Qed.
Lemma step_mroles o st x st' y id l : step o st x = Ok (st', y) ->
  m_roles st' !! id = Some l <-> m_roles st !! id = Some l \/ m_roles st !! id = None /\ x = OAddRole l /\ has_id (s_heap st) l id.
Proof.
  intros H. pose proof (step_form _ _ _ _ _ H) as F.
  destruct x; try (assert (E : m_roles st' = m_roles st) by (cbn [form] in F; first [destruct F as (? & ->); reflexivity|destruct F as (? & ? & ->); reflexivity]);
    rewrite E; split; [left; assumption|intros [Ht|(_ & ? & _)]; [exact Ht|discriminate]]).
  clear F. cbn [step] in H. apply rbind_ok in H as ([s1 l0] & H & [= <- <-]). cbn [fst]. unfold add_role in H. unfold has_id.
  destruct (h_roles (s_heap st) !! r) as [ro|] eqn:Er; [|discriminate]. destruct (m_roles st !! r_id ro) as [d|] eqn:Ed; injection H as <- <-.
  - split; [left; assumption|]. intros [Ht|(N & [= <-] & r' & Hr & Hi)]; [exact Ht|]. congruence.
  - cbn [with_m_roles m_roles]. destruct (decide (id = r_id ro)) as [D|D].
    + subst id. rewrite lookup_insert, Ed. split; [intros [= <-]; right; split; [reflexivity|split; [reflexivity|exists ro; split; [exact Er|reflexivity]]]|]. intros [?|(_ & [= ->] & _)]; [discriminate|reflexivity].
    + rewrite lookup_insert_ne by (intros E0; exact (D (eq_sym E0))). split; [left; assumption|]. intros [Ht|(_ & [= <-] & r' & Hr & Hi)]; [exact Ht|]. congruence.
Qed.
Lemma step_namespaces o st x st' y n : step o st x = Ok (st', y) -> n ∈ m_namespaces st' <-> x = OAddNamespace n \/ n ∈ m_namespaces st.
Proof.
  intros H. pose proof (step_form _ _ _ _ _ H) as F.
  destruct x; try (assert (E : m_namespaces st' = m_namespaces st) by (cbn [form] in F; first [destruct F as (? & ->); reflexivity|destruct F as (? & ? & ->); reflexivity]);
    rewrite E; split; [right; assumption|intros [?|Ht]; [discriminate|exact Ht]]).
  clear F. injection H as <- <-. unfold add_namespace. case_bool_decide as B.
  - split; [right; assumption|]. intros [[= ->]|Hn]; assumption.
  - cbn [with_m_namespaces m_namespaces]. rewrite elem_of_union, elem_of_singleton. split; (intros [E|E]; [left|right; exact E]); congruence.
Qed.
Lemma step_scopes o st x st' y n : step o st x = Ok (st', y) -> n ∈ m_scopes st' <-> x = OAddScope n \/ n ∈ m_scopes st.
Proof.
  intros H. pose proof (step_form _ _ _ _ _ H) as F.
  destruct x; try (assert (E : m_scopes st' = m_scopes st) by (cbn [form] in F; first [destruct F as (? & ->); reflexivity|destruct F as (? & ? & ->); reflexivity]);
    rewrite E; split; [right; assumption|intros [?|Ht]; [discriminate|exact Ht]]).
  clear F. injection H as <- <-. unfold add_scope. case_bool_decide as B.
  - split; [right; assumption|]. intros [[= ->]|Hn]; assumption.
  - cbn [with_m_scopes m_scopes]. rewrite elem_of_union, elem_of_singleton. split; (intros [E|E]; [left|right; exact E]); congruence.
Qed.
Lemma step_principals o st x st' y n : step o st x = Ok (st', y) -> n ∈ m_principals st' <-> x = OAddPrincipal n \/ n ∈ m_principals st.
Proof.
  intros H. pose proof (step_form _ _ _ _ _ H) as F.
  destruct x; try (assert (E : m_principals st' = m_principals st) by (cbn [form] in F; first [destruct F as (? & ->); reflexivity|destruct F as (? & ? & ->); reflexivity]);
    rewrite E; split; [right; assumption|intros [?|Ht]; [discriminate|exact Ht]]).
  clear F. injection H as <- <-. unfold add_principal. case_bool_decide as B.
  - split; [right; assumption|]. intros [[= ->]|Hn]; assumption.
  - cbn [with_m_principals m_principals]. rewrite elem_of_union, elem_of_singleton. split; (intros [E|E]; [left|right; exact E]); congruence.
Qed.
