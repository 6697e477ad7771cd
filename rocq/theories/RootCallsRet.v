(** When calls return. *)
From Verif Require Import RootCor3 AuthTotal NameProofs TenProofs.
From Verif Require V1CallsStep.
From Verif Require Export RootCallsFresh.
From Verif Require Import RootRetSpec.

(** ** Tenants with a manager *)
Definition f_managed (st : state) (t : nat) : option bool := t_managed <$> s_tenants st !! t.
Lemma step_managed o st x st' y t : reachable st -> step o st x = Ok (st', y) -> f_managed st' t = Some true <-> x = OAddTenant t \/ f_managed st t = Some true.
Proof.
  intros R H. pose proof (form_tenants _ _ _ _ _ H) as F.
  assert (Q : x <> OAddTenant t -> f_managed st' t = f_managed st t -> f_managed st' t = Some true <-> x = OAddTenant t \/ f_managed st t = Some true).
  { intros N ->. split; [intros E; right; exact E|intros [E|E]; [destruct (N E)|exact E]]. }
  destruct x; try (apply Q; [discriminate|unfold f_managed; rewrite F; reflexivity]); clear F; cbn [step] in H.
  - injection H as <- <-. clear Q. unfold new_tenant, f_managed. cbn [fst snd with_tenant_objs s_tenants]. rewrite snoc_lookup. case_decide as D.
    + subst t. rewrite (lookup_ge_None_2 (s_tenants st)) by lia. cbn. split; [discriminate|intros [?|?]; discriminate].
    + split; [intros E; right; exact E|intros [?|E]; [discriminate|exact E]].
  - apply rbind_ok in H as ([s1 l] & H & [= <- <-]). destruct (add_tenant_spec _ _ _ _ H) as (c & Hc & E & _). clear Q. unfold f_managed. cbn [fst]. rewrite E.
    destruct (decide (t = t0)) as [D|D].
    + subst t0. rewrite list_lookup_insert by (apply lookup_lt_is_Some; exists c; exact Hc). cbn. split; [intros _; left; reflexivity|reflexivity].
    + rewrite list_lookup_insert_ne by (intros E0; exact (D (eq_sym E0))). split; [intros M; right; exact M|intros [[= E0]|M]; [destruct (D (eq_sym E0))|exact M]].
  - apply rbind_ok in H as (s1 & H & [= <- <-]). apply Q; [discriminate|]. destruct (descendants_spec _ _ _ _ R H) as [[-> ->]|(c & Hc & Hex & _ & L)]; [reflexivity|].
    specialize (L t). unfold f_managed. destruct (s_tenants st !! t) as [x|], (s_tenants s1 !! t) as [y|]; try contradiction; [|reflexivity].
    destruct L as (_ & L & _). cbn. rewrite L. reflexivity.
  - apply rbind_ok in H as (s1 & H & [= <- <-]). apply Q; [discriminate|]. destruct (set_default_spec _ _ _ _ H) as (c & Hc & ->). unfold f_managed.
    case_bool_decide; [|reflexivity]. cbn [set_tenant with_tenant_objs s_tenants]. apply (set_f t_managed _ _ c); [exact Hc|reflexivity].
Qed.
Lemma managed_all o ops st outs t : run o 0 init_state ops = Ok (st, outs) -> f_managed st t = Some true <-> called (log_of ops outs) (OAddTenant t).
Proof.
  revert st outs. induction ops as [|x ops IH] using rev_ind; intros st outs H.
  - injection H as <- <-. split; [discriminate|]. intros N. destruct (not_elem_of_nil _ N).
  - apply run_last in H as (s1 & outs1 & y & H1 & H2 & -> & L). rewrite (log_last _ _ _ _ L), called_cons, <- (IH _ _ H1).
    rewrite (step_managed _ _ _ _ _ t (ex_intro _ o (ex_intro _ ops (ex_intro _ outs1 H1))) H2). split; (intros [E|E]; [left; symmetry; exact E|right; exact E]).
Qed.
Lemma manager_f st t : has_manager st t <-> f_managed st t = Some true.
Proof.
  unfold has_manager, f_managed. split.
  - intros (c & Hc & M). rewrite Hc. cbn. congruence.
  - intros H. destruct (s_tenants st !! t) as [c|]; [|discriminate]. exists c. split; [reflexivity|]. cbn in H. congruence.
Qed.

(** ** The calls that ask nothing *)
Lemma desc_loop_returns h m ds : (forall d, d ∈ ds -> is_Some (h_roles h !! d)) -> exists m', add_descendants_loop h m ds = Ok m'.
Proof.
  revert m. induction ds as [|d ds IH]; intros m H; cbn; [eexists; reflexivity|]. destruct (H d) as [r Hr]; [left|]. rewrite Hr.
  apply IH. intros d' Hd'. apply H. right. exact Hd'.
Qed.
Lemma permission_returns h l grp attrs : wf_heap h -> is_Some (h_roles h !! l) -> exists r, role_add_permission h l grp attrs = Ok r.
Proof.
  intros (_ & W & _) [r Hr]. unfold role_add_permission. rewrite Hr. destruct (r_lock r); [eexists; reflexivity|]. destruct (r_perms r !! grp) as [gl|] eqn:E; [|eexists; reflexivity].
  destruct (W _ _ _ _ Hr E) as (g & Hg & _). rewrite Hg. eexists. reflexivity.
Qed.
Section returns.
  Context (h : log) (st : state) (T : tells h st) (M : forall t, has_manager st t <-> called h (OAddTenant t)).
  Lemma named_role l id : role_named h l id -> is_Some (h_roles (s_heap st) !! l).
  Proof. intros H. apply (tl_rname _ _ T) in H as (r & Hr & _). exists r. exact Hr. Qed.
  Lemma named_group l id : group_named h l id -> is_Some (h_groups (s_heap st) !! l).
  Proof. intros H. apply group_v1, (V1CallsRole.th_group _ _ (proj2 (tl_heap _ _ T))) in H as (g & Hg & _). exists g. exact Hg. Qed.
  Lemma named_tenant t id : tenant_named h t id -> is_Some (s_tenants st !! t).
  Proof. intros H. apply (tl_tname _ _ T) in H. unfold f_id in H. destruct (s_tenants st !! t) as [c|]; [exists c; reflexivity|discriminate]. Qed.
  (** The call returns, or panics because a tenant is not registered *)
  Definition fine (r : res (state * out)) (E : Prop) : Prop := (exists s, r = Ok s) /\ ~ E \/ r = Panic /\ E.
  Lemma fine_ok r (E : Prop) : (exists s, r = Ok s) -> ~ E -> fine r E.
  Proof. intros H N. left. split; assumption. Qed.
  Lemma fine_managed o t x (E : Prop) : (E -> ~ called h (OAddTenant t)) -> (called h (OAddTenant t) -> exists s, step o st x = Ok s) ->
    (~ called h (OAddTenant t) -> E /\ step o st x = Panic \/ ~ E /\ exists s, step o st x = Ok s) -> fine (step o st x) E.
  Proof.
    intros HE H1 H2. destruct (managed_dec st t) as [C|C]; rewrite M in C; [left; split; [exact (H1 C)|intros He; exact (HE He C)]|].
    destruct (H2 C) as [[He Hp]|[Hn Hs]]; [right|left]; split; assumption.
  Qed.
  Lemma ret_ok {A} (r : res A) (f : A -> state * out) : (exists a, r = Ok a) -> exists s, (let! a := r in Ok (f a)) = Ok s.
  Proof. intros [a ->]. eexists. reflexivity. Qed.
  Lemma adds_ok st1 new r : adds st1 new r -> exists s, r = Ok s.
  Proof. intros (s & -> & _). eexists. reflexivity. Qed.
  Lemma no_manager o t x : ~ called h (OAddTenant t) -> match x with
    | OTenantAddScopesToNamespace t' _ _ | OTenantSetDefault t' _ | OTenantAddPrincipalInNamespace t' _ _ _ => t' = t
    | OTenantAddNamespaces t' ns => t' = t /\ ns <> []
    | OTenantAddRoles t' rs => t' = t /\ rs <> []
    | OTenantAddScopes t' ss => t' = t /\ ss <> []
    | OTenantAddPrincipal t' _ _ rs => t' = t /\ rs <> []
    | OTenantAssignScopes t' _ _ ss => t' = t /\ ss <> []
    | _ => False
    end -> step o st x = Panic.
  Proof. intros N. apply c97_no_manager. rewrite M. exact N. Qed.
  Lemma list_cases {A} (l : list A) : l = [] \/ l <> [].
  Proof. destruct l; [left; reflexivity|right; discriminate]. Qed.

  Lemma step_fine o x : pointers_made h x -> ~ asks x -> fine (step o st x) (too_early h x).
  Proof.
    intros P NA. pose proof (tl_reach _ _ T) as R. pose proof (told_heap_wf _ _ T) as W.
    destruct x; cbn [pointers_made] in P; cbn [asks] in NA; try (destruct (NA I)); clear NA;
      try (apply fine_ok; [eexists; reflexivity|intros []]); cbn [too_early].
    - apply fine_ok; [|intros []]. destruct P as (id & P). apply named_group in P as [g' Hg]. apply ret_ok. unfold add_attributes. rewrite Hg. eexists. reflexivity.
    - apply fine_ok; [|intros []]. destruct P as (id & P). apply named_role in P as [r' Hr]. apply ret_ok. unfold role_set_lock. rewrite Hr. eexists. reflexivity.
    - apply fine_ok; [|intros []]. destruct P as (id & P). apply named_role in P as [r' Hr]. apply ret_ok. unfold role_set_lock. rewrite Hr. eexists. reflexivity.
    - apply fine_ok; [|intros []]. destruct P as ((id & P) & D). apply named_role in P as [r' Hr]. apply ret_ok. unfold role_add_descendant. rewrite Hr.
      destruct (r_lock r'); [eexists; reflexivity|]. destruct (desc_loop_returns (s_heap st) (r_desc r') ds) as [m Hm].
      { intros d Hd. destruct (D d Hd) as (i & Hi). exact (named_role _ _ Hi). }
      rewrite Hm. eexists. reflexivity.
    - apply fine_ok; [|intros []]. destruct P as (id & P). apply ret_ok. apply permission_returns; [exact W|exact (named_role _ _ P)].
    - apply fine_ok; [|intros []]. destruct P as ((id & P) & (gid & G)). apply named_role in P as [r' Hr]. apply named_group in G as [g' Hg]. apply ret_ok. unfold role_add_group. rewrite Hr.
      destruct (r_lock r'); [eexists; reflexivity|]. rewrite Hg. destruct (r_perms r' !! g_id g'); eexists; reflexivity.
    - apply fine_ok; [|intros []]. destruct P as (id & P). apply named_role in P as [r' Hr]. apply ret_ok. unfold add_role. rewrite Hr. destruct (m_roles st !! r_id r'); eexists; reflexivity.
    - apply fine_ok; [|intros []]. destruct P as (id & P). apply named_group in P as [r' Hr]. apply ret_ok. unfold add_attribute_group. rewrite Hr. destruct (m_groups st !! g_id r'); eexists; reflexivity.
    - apply fine_ok; [|intros []]. destruct P as (id & P). apply named_tenant in P as [c Hc]. apply ret_ok. unfold add_tenant. rewrite Hc. cbv zeta. destruct (_ !! t_id c); eexists; reflexivity.
    - apply fine_ok; [|intros []]. apply ret_ok. unfold add_permissions_to_role. pose proof (proj1 (reachable_hierarchy st R)) as WS.
      destruct (m_roles st !! r) as [l|] eqn:El; [|eexists; reflexivity]. destruct (m_groups st !! g) as [gl|] eqn:Eg; [|eexists; reflexivity].
      destruct (wf_m_groups _ WS _ _ Eg) as (g' & Hg & _). rewrite Hg. destruct (check_attrs g' g attrs); [eexists; reflexivity|].
      destruct (wf_m_roles _ WS _ _ El) as (r' & Hr & _). destruct (permission_returns (s_heap st) l g attrs W (ex_intro _ r' Hr)) as [hr ->]. eexists. reflexivity.
    - apply (fine_managed o t); [intros [_ N]; exact N| |].
      + intros C. apply M in C as (c & Hc & Hm). apply ret_ok. exact (adds_ok _ _ _ (c97_namespaces st t c ns R Hc Hm)).
      + intros C. destruct (list_cases ns) as [->|N]; [right; split; [intros [N _]; exact (N eq_refl)|eexists; reflexivity]|left]. split; [split; assumption|]. apply (no_manager o t); [exact C|split; [reflexivity|exact N]].
    - destruct P as [(id & P) D]. apply named_tenant in P as [c Hc].
      assert (Hex : forall d, d ∈ ds -> is_Some (s_tenants st !! d)) by (intros d Hd; destruct (D d Hd) as (i & Hi); exact (named_tenant _ _ Hi)).
      assert (Df : forall n, default_of h t n <-> t_default c = Some n) by (intros n; rewrite (tl_def _ _ T); unfold f_default; rewrite Hc; reflexivity).
      assert (X : (exists d, d ∈ ds /\ ~ has_manager st d) \/ forall d, d ∈ ds -> has_manager st d).
      { clear -ds. induction ds as [|d ds IH]; [right; intros d H; destruct (not_elem_of_nil _ H)|]. destruct (managed_dec st d) as [C|C]; [|left; exists d; split; [left|exact C]].
        destruct IH as [(d' & Hd' & N)|IH]; [left; exists d'; split; [right; exact Hd'|exact N]|right]. intros d' [->|Hd']%elem_of_cons; [exact C|exact (IH _ Hd')]. }
      destruct X as [(d & Hd & N)|X].
      + destruct (t_default c) as [n|] eqn:En.
        * right. split; [|exists n, d; split; [apply Df; reflexivity|split; [exact Hd|rewrite <- M; exact N]]]. cbn [step]. rewrite (c97_add_descendant_panics st t ds R); [reflexivity| |].
          { intros ->. destruct (not_elem_of_nil _ Hd). }
          intros [(c' & Hc' & F) _]. rewrite Hc in Hc'. injection Hc' as <-. apply N, F; [rewrite En; discriminate|exact Hd].
        * apply fine_ok; [|intros (n & d' & E & _); apply Df in E; discriminate]. apply ret_ok.
          destruct (c97_add_descendant st t c ds R Hc Hex) as (s1 & E & _); [intros K; destruct (K En)|]. exists s1. exact E.
      + apply fine_ok; [|intros (n & d & _ & Hd & N); apply N, M, X, Hd]. apply ret_ok.
        destruct (c97_add_descendant st t c ds R Hc Hex) as (s1 & E & _); [intros _; exact X|]. exists s1. exact E.
    - apply (fine_managed o t); [intros N; exact N| |].
      + intros C. apply M in C as (c & Hc & Hm). apply ret_ok. exact (adds_ok _ _ _ (c97_scopes_to_namespace st t c n s R Hc Hm)).
      + intros C. left. split; [exact C|]. apply (no_manager o t); [exact C|reflexivity].
    - apply (fine_managed o t); [intros N; exact N| |].
      + intros C. apply M in C as (c & Hc & Hm). apply ret_ok. destruct (c97_set_default st t c n Hc Hm) as (s1 & E & _). exists s1. exact E.
      + intros C. left. split; [exact C|]. apply (no_manager o t); [exact C|reflexivity].
    - apply (fine_managed o t); [intros N; exact N| |].
      + intros C. apply M in C as (c & Hc & Hm). apply ret_ok. exact (adds_ok _ _ _ (c97_member st t c u n r R Hc Hm)).
      + intros C. left. split; [exact C|]. apply (no_manager o t); [exact C|reflexivity].
    - destruct P as [_ D]. apply (fine_managed o t); [intros [_ N]; exact N| |].
      + intros C. apply M in C as (c & Hc & Hm). apply ret_ok. eexists. apply (roles_exact st t c rs Hc Hm). intros l Hl. destruct (D l Hl) as (i & Hi). exact (named_role _ _ Hi).
      + intros C. destruct (list_cases rs) as [->|N]; [right; split; [intros [N _]; exact (N eq_refl)|eexists; reflexivity]|left]. split; [split; assumption|]. apply (no_manager o t); [exact C|split; [reflexivity|exact N]].
    - apply (fine_managed o t); [intros [_ N]; exact N| |].
      + intros C. apply M in C as (c & Hc & Hm). apply ret_ok. exact (adds_ok _ _ _ (c97_scopes st t c ss R Hc Hm)).
      + intros C. destruct (list_cases ss) as [->|N]; [right; split; [intros [N _]; exact (N eq_refl)|eexists; reflexivity]|left]. split; [split; assumption|]. apply (no_manager o t); [exact C|split; [reflexivity|exact N]].
    - apply (fine_managed o t); [intros [_ N]; exact N| |].
      + intros C. apply M in C as (c & Hc & Hm). apply ret_ok. destruct (c97_add_principal st t c p md rs R Hc Hm) as (done & e & E & _). exists e. exact E.
      + intros C. destruct (list_cases rs) as [->|N]; [right; split; [intros [N _]; exact (N eq_refl)|eexists; reflexivity]|left]. split; [split; assumption|]. apply (no_manager o t); [exact C|split; [reflexivity|exact N]].
    - apply (fine_managed o t); [intros [_ N]; exact N| |].
      + intros C. apply M in C as (c & Hc & Hm). apply ret_ok. destruct (c97_assign_scopes st t c p md ss R Hc Hm) as (done & e & E & _). exists e. exact E.
      + intros C. destruct (list_cases ss) as [->|N]; [right; split; [intros [N _]; exact (N eq_refl)|eexists; reflexivity]|left]. split; [split; assumption|]. apply (no_manager o t); [exact C|split; [reflexivity|exact N]].
  Qed.
End returns.
Lemma c112_exact o ops st outs o' x : run o 0 init_state ops = Ok (st, outs) -> groups_made (log_of ops outs) -> pointers_made (log_of ops outs) x -> ~ asks x ->
  ((exists st' y, step o' st x = Ok (st', y)) <-> ~ too_early (log_of ops outs) x) /\ (step o' st x = Panic <-> too_early (log_of ops outs) x) /\ step o' st x <> Hang.
Proof.
  intros H GM P NA.
  assert (M : forall t, has_manager st t <-> called (log_of ops outs) (OAddTenant t)) by (intros t; rewrite manager_f; exact (managed_all _ _ _ _ t H)).
  destruct (step_fine _ _ (tells_all _ _ _ _ H GM) M o' x P NA) as [[([st' y] & E) N]|[E N]]; rewrite E; split_and!.
  - split; [intros _; exact N|intros _; exists st', y; reflexivity].
  - split; [discriminate|intros Y; destruct (N Y)].
  - discriminate.
  - split; [intros (? & ? & ?); discriminate|intros Y; destruct (Y N)].
  - split; [intros _; exact N|reflexivity].
  - discriminate.
Qed.

(** ** The calls that ask *)
Lemma row_textual h d : rows_textual h -> row_made h d -> textual (tenant d) /\ textual (role d).
Proof.
  intros RT Hd. assert (A : exists h' x, called h x /\ stores h' x d).
  { clear RT. induction h as [|e h IH]; [destruct Hd|]. destruct Hd as [Hd|Hd].
    - exists h, e.1. split; [left|exact Hd].
    - destruct (IH Hd) as (h' & x & Hx & Hs). exists h', x. split; [right; exact Hx|exact Hs]. }
  destruct A as (h' & x & Hx & Hs). destruct x; cbn [stores] in Hs; try contradiction.
  - subst d0. exact (RT d Hx).
  - destruct Hs as (id & n & _ & _ & ->). split; [right; eexists; reflexivity|left; reflexivity].
  - destruct Hs as (l & id & n & _ & _ & _ & ->). split; [right; eexists; reflexivity|left; reflexivity].
  - destruct Hs as (id & _ & ->). split; [right; eexists; reflexivity|left; reflexivity].
  - destruct Hs as (id & _ & ->). split; right; eexists; reflexivity.
  - destruct Hs as (id & l & r & _ & _ & _ & ->). split; right; eexists; reflexivity.
  - destruct Hs as (id & s & _ & _ & ->). split; [right; eexists; reflexivity|left; reflexivity].
  - destruct Hs as (id & n & r & _ & _ & _ & _ & ->). split; right; eexists; reflexivity.
  - destruct Hs as (id & n & s & _ & _ & _ & _ & ->). split; [right; eexists; reflexivity|left; reflexivity].
Qed.
Lemma rtc_impl {A} (R S : A -> A -> Prop) x y : (forall a b, R a b -> S a b) -> rtc R x y -> rtc S x y.
Proof. intros H T. induction T as [a|a b c E _ IH]; [apply rtc_refl|eapply rtc_l; [apply H; exact E|exact IH]]. Qed.
Section asked.
  Context (h : log) (st : state) (T : tells h st).
  Lemma told_circle l : ~ tenants_acyclic st l -> ~ ~ tenant_circle h l.
  Proof.
    intros N C. apply N. intros (m & H1 & H2). apply C. exists m. split; [revert H1; apply rtc_impl|revert H2; apply tc_impl]; intros a b E; apply (told_link _ _ T); exact E.
  Qed.
  Lemma told_role_circle l : cyclic_from (s_heap st) l -> role_circle h l.
  Proof.
    intros (m & H1 & H2). exists m. split; [revert H1; apply rtc_impl|revert H2; apply tc_impl]; intros a b E; apply (told_edge h st (tl_heap _ _ T)); exact E.
  Qed.
  Lemma told_attr l grp g k : owns (s_heap st) l grp g -> is_Some (g_perms g !! k) -> exists a, attr_string a = k /\ role_attr h l grp a.
  Proof.
    intros H K. pose proof (proj2 (tl_heap _ _ T)) as G. apply owns_points in H as (gl & E & Hg).
    assert (K0 : V1CallsRole.g_has (s_heap st) gl k) by (exists g; split; assumption). destruct (V1CallsRole.made_dec (v1 h) gl) as [M|M].
    - apply (V1CallsRole.th_has _ _ G gl k M) in K0 as (a & Ha & Hh). exists a. split; [exact Ha|]. right. exists gl.
      split; [apply (store_v1 h l grp (Handed gl)), (V1CallsRole.th_handed _ _ G); split; assumption|apply handed_v1; exact Hh].
    - apply (V1CallsRole.th_keeps _ _ G l grp gl k M E) in K0 as (a & Ha & Hh). exists a. split; [exact Ha|]. left.
      split; [apply (store_v1 h l grp Own), (V1CallsRole.th_own _ _ G); exists gl; split; assumption|apply given_v1; exact Hh].
  Qed.
  Lemma told_decide q : roles_decide h q -> decidable_roles st q.
  Proof.
    intros D g a r l Hg Ha Hl. apply (tl_rreg _ _ T) in Hl. destruct (D g a r l Hg Ha Hl) as [C S]. split; [intros N; apply C, told_role_circle, N|].
    intros d gr Hd Ho (k & at_ & Hk & Lo). destruct (told_attr _ _ _ k Ho (ex_intro _ at_ Hk)) as (a' & <- & Hat). apply (S d a'); [|exact Hat|exact Lo].
    revert Hd. apply rtc_impl. intros x y E. apply (told_edge h st (tl_heap _ _ T)). exact E.
  Qed.
  Lemma told_textual : rows_textual h -> stringy_rows st.
  Proof. intros RT d Hd. exact (row_textual h d RT (tl_rows _ _ T d Hd)). Qed.
  Lemma told_manages_circle p : ~ manages_circle h p -> ~ manages_cycle st p.
  Proof.
    intros N (t & l & Hm & Hl & _ & C). apply (told_circle _ C). intros Ci. apply N. exists t, l. split; [exact (told_manages _ _ T _ _ Hm)|]. split; [apply (tl_reg _ _ T); exact Hl|exact Ci].
  Qed.
End asked.
Lemma c113_authorize o ops st outs o' p q : run o 0 init_state ops = Ok (st, outs) -> groups_made (log_of ops outs) ->
  rows_textual (log_of ops outs) -> request_textual q -> ~ manages_circle (log_of ops outs) p -> roles_decide (log_of ops outs) q ->
  exists st' b, authorize o' st p q = Ok (st', b).
Proof.
  intros H GM RT Q C D. pose proof (tells_all _ _ _ _ H GM) as T. apply authorize_reachable_returns.
  - exact (tl_reach _ _ T).
  - exact (told_textual _ _ T RT).
  - unfold request_textual in Q. rewrite !Forall_cons in Q. destruct Q as (Q1 & Q2 & Q3 & Q4 & Q5 & _). repeat (split; [assumption|]). assumption.
  - exact (told_manages_circle _ _ T _ C).
  - exact (told_decide _ _ T _ D).
Qed.
Lemma c113_tenants o ops st outs o' p : run o 0 init_state ops = Ok (st, outs) -> groups_made (log_of ops outs) ->
  rows_textual (log_of ops outs) -> ~ manages_circle (log_of ops outs) p -> exists st' U, get_implicit_tenants o' st p = Ok (st', U).
Proof.
  intros H GM RT C. pose proof (tells_all _ _ _ _ H GM) as T.
  destruct (implicit_returns o' st p (proj1 (reachable_hierarchy st (tl_reach _ _ T))) (told_textual _ _ T RT)) as [R|[_ N]]; [exact R|].
  destruct (told_manages_circle _ _ T _ C N).
Qed.
Lemma c113_children o ops st outs o' t : run o 0 init_state ops = Ok (st, outs) -> groups_made (log_of ops outs) ->
  (forall l, tenant_at (log_of ops outs) t l -> ~ tenant_circle (log_of ops outs) l) -> exists st' ds, tenant_children o' st t = Ok (st', ds).
Proof.
  intros H GM C. pose proof (tells_all _ _ _ _ H GM) as T.
  destruct (tenant_children_returns o' st t (proj1 (reachable_hierarchy st (tl_reach _ _ T)))) as [R|(_ & _ & l & Hl & N)]; [exact R|].
  destruct (told_circle _ _ T _ N). apply C, (tl_reg _ _ T). exact Hl.
Qed.
Lemma c113_total o ops st outs o' p q : run o 0 init_state ops = Ok (st, outs) -> groups_made (log_of ops outs) ->
  rows_textual (log_of ops outs) -> request_textual q -> ~ manages_circle (log_of ops outs) p -> roles_decide (log_of ops outs) q ->
  keeps_names_apart ops -> asked_last (log_of ops outs) p -> links_registered (log_of ops outs) -> flags_alike (log_of ops outs) p ->
  exists st' b, authorize o' st p q = Ok (st', b) /\ (b = true <-> granted (log_of ops outs) p q).
Proof.
  intros H GM RT Q C D K AL LR FA. destruct (c113_authorize o ops st outs o' p q H GM RT Q C D) as (st' & b & E). exists st', b. split; [exact E|].
  exact (c111_exact o ops st outs o' p q st' b H GM K AL LR FA E).
Qed.
