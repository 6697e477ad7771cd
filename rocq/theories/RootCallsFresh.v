(** Root decisions when everything is set up before anything is asked. *)
From Verif Require Import NameProofs TenProofs RootCor.
From Verif Require Export RootCallsDec.
From Verif Require Import NameSpec RootCallsSpec.

(** ** Rows are kept, if names are apart *)
Lemma step_keeps sort_of o ops st outs o2 x st' y d : run o 0 init_state ops = Ok (st, outs) -> Forall (names_kept sort_of) ops -> names_kept sort_of x -> step o2 st x = Ok (st', y) ->
  stored st d -> stored st' d.
Proof.
  intros H1 F1 F2 H2 Hd. pose proof (run_tidy _ _ _ _ _ _ _ _ (tidy_init sort_of) F1 H1) as T1. destruct (tidy_rebase _ _ _ T1) as (log & T2 & B).
  exact (tidy_base _ _ _ _ (step_tidy _ _ _ _ _ _ _ T2 F2 H2) (B d Hd)).
Qed.
Lemma rows_all sort_of o ops st outs d : run o 0 init_state ops = Ok (st, outs) -> Forall (names_kept sort_of) ops -> groups_made (log_of ops outs) ->
  row_made (log_of ops outs) d -> stored st d.
Proof.
  revert st outs. induction ops as [|x ops IH] using rev_ind; intros st outs H F GM Hd.
  - injection H as <- <-. destruct Hd.
  - apply run_last in H as (s1 & outs1 & y & H1 & H2 & -> & L). rewrite (log_last _ _ _ _ L) in *. apply Forall_app in F as [F1 F2]. apply Forall_inv in F2.
    pose proof (tells_all _ _ _ _ H1 (proj2 GM)) as T. destruct (step_stores _ _ _ _ _ _ T H2) as (new & A & SN).
    destruct Hd as [Hd|Hd]; [apply A; left; apply SN; exact Hd|]. specialize (IH _ _ H1 F1 (proj2 GM) Hd).
    exact (step_keeps _ _ _ _ _ _ _ _ _ d H1 F1 F2 H2 IH).
Qed.

(** ** What is remembered stays right, if everything is set up before anything is asked *)
Definition right (st : state) (p : string) (U : gset string) : Prop :=
  forall u, u ∈ U <-> RootSpec.own st p u \/ exists t0, RootSpec.manages st p t0 /\ RootSpec.below st t0 u.
Record fresh (h : log) (st : state) (p : string) : Prop := {
  fr_links : (forall x, called h x -> ~ asks x) -> m_hierarchy st = ∅;
  fr_none : (forall x, called h x -> ~ asks_of p x) -> m_cache st !! p = None;
  fr_hier : hierarchy_fresh st;
  fr_cache : forall U, m_cache st !! p = Some U -> tenants_coherent st -> flags_agree st p -> right st p U
}.
(** Calls that register and link no tenant *)
Record alike (st st' : state) : Prop := {
  al_reg : m_tenants st' = m_tenants st;
  al_edge : forall l m, tenant_edge st' l m <-> tenant_edge st l m;
  al_link : forall t k, f_link st' t k = f_link st t k;
  al_name : forall l m d, tenant_edge st l m -> tenant_id_at st' m d <-> tenant_id_at st m d
}.
Definition same_rows (st st' : state) (p : string) : Prop := forall d, principal d = AStr p -> stored st' d <-> stored st d.
Lemma tc_target {A} (R : A -> A -> Prop) x y : tc R x y -> exists z, R z y.
Proof. intros T. induction T as [a b E|a b c E _ IH]; [exists a; exact E|exact IH]. Qed.
Lemma alike_below st st' t d : alike st st' -> RootSpec.below st' t d <-> RootSpec.below st t d.
Proof.
  intros A. unfold RootSpec.below. rewrite (al_reg _ _ A). split; intros (l & m & Hl & Hm & Hi); exists l, m; (split; [exact Hl|]).
  - assert (Hm' : tc (tenant_edge st) l m) by (revert Hm; apply tc_impl; intros a b E; apply (al_edge _ _ A); exact E). split; [exact Hm'|].
    destruct (tc_target _ _ _ Hm') as (z & Hz). apply (al_name _ _ A _ _ _ Hz). exact Hi.
  - split; [revert Hm; apply tc_impl; intros a b E; apply (al_edge _ _ A); exact E|]. destruct (tc_target _ _ _ Hm) as (z & Hz). apply (al_name _ _ A _ _ _ Hz). exact Hi.
Qed.
Lemma alike_own st st' p t : same_rows st st' p -> RootSpec.own st' p t <-> RootSpec.own st p t.
Proof. intros A. split; intros (d & Hd & Hp & H); exists d; (split; [apply (A d Hp); exact Hd|split; [exact Hp|exact H]]). Qed.
Lemma alike_manages st st' p t : same_rows st st' p -> RootSpec.manages st' p t <-> RootSpec.manages st p t.
Proof. intros A. split; intros (d & Hd & Hp & H); exists d; (split; [apply (A d Hp); exact Hd|split; [exact Hp|exact H]]). Qed.
Lemma alike_right st st' p U : alike st st' -> same_rows st st' p -> right st p U -> right st' p U.
Proof.
  intros A S H u. rewrite (H u), (alike_own _ _ _ _ S). apply or_iff_compat_l. split; intros (t0 & Hm & Hb); exists t0; (split; [apply (alike_manages _ _ _ _ S); exact Hm|apply (alike_below _ _ _ _ A); exact Hb]).
Qed.
Lemma alike_flags st st' p : same_rows st st' p -> flags_agree st' p -> flags_agree st p.
Proof. intros A H d d' Hd Hd' Hp Hp'. apply (A _ Hp) in Hd. apply (A _ Hp') in Hd'. exact (H d d' Hd Hd' Hp Hp'). Qed.
Lemma coherent_link st : tenants_coherent st <-> forall t k d d', f_link st t k = Some d -> m_tenants st !! k = Some d' -> d' = d.
Proof.
  unfold tenants_coherent, f_link. split.
  - intros H t k d d' Hd. destruct (s_tenants st !! t) as [c|] eqn:E; [|discriminate]. exact (H t c k d d' E Hd).
  - intros H l c k d d' E Hd. apply (H l). rewrite E. exact Hd.
Qed.
Lemma alike_coherent st st' : alike st st' -> tenants_coherent st' -> tenants_coherent st.
Proof. intros A. rewrite !coherent_link, (al_reg _ _ A). intros H t k d d' Hd. apply (H t). rewrite (al_link _ _ A). exact Hd. Qed.
Lemma step_alike o st x st' y : reachable st -> step o st x = Ok (st', y) -> ~ links x -> alike st st'.
Proof.
  intros R H N.
  assert (L : forall t k, f_link st' t k = f_link st t k).
  { intros t k. pose proof (fun d => step_link _ _ _ _ _ t k d R H) as L.
    assert (L' : forall d, f_link st' t k = Some d <-> f_link st t k = Some d).
    { intros d. rewrite (L d). split; [|left; assumption]. intros [Hd|(_ & ds & -> & _)]; [exact Hd|destruct (N I)]. }
    destruct (f_link st t k) as [d|] eqn:Ed; [apply L'; reflexivity|]. destruct (f_link st' t k) as [d|] eqn:Ed'; [|reflexivity]. destruct (proj1 (L' d) eq_refl). reflexivity. }
  assert (EL : forall s l m, tenant_edge s l m <-> exists k, f_link s l k = Some m).
  { intros s l m. etransitivity; [apply tenant_edge_desc|]. unfold f_link. split.
    - intros (c & k & Hc & Hk). exists k. rewrite Hc. exact Hk.
    - intros (k & Hk). destruct (s_tenants s !! l) as [c|]; [|discriminate]. exists c, k. split; [reflexivity|exact Hk]. }
  split.
  - apply map_eq. intros k. pose proof (fun t => step_mtenants _ _ _ _ _ k t H) as M.
    assert (M' : forall t, m_tenants st' !! k = Some t <-> m_tenants st !! k = Some t).
    { intros t. rewrite (M t). split; [|left; assumption]. intros [Hd|(_ & -> & _)]; [exact Hd|destruct (N I)]. }
    destruct (m_tenants st !! k) as [d|] eqn:Ed; [apply M'; reflexivity|]. destruct (m_tenants st' !! k) as [d|] eqn:Ed'; [|reflexivity]. destruct (proj1 (M' d) eq_refl). reflexivity.
  - intros l m. rewrite !EL. split; intros (k & Hk); exists k; [rewrite <- L|rewrite L]; exact Hk.
  - exact L.
  - intros l m d Hm. pose proof (proj1 (reachable_hierarchy st R)) as W. apply tenant_edge_desc in Hm as (c & k & Hc & Hk).
    destruct (wf_t_desc _ W _ _ _ _ Hc Hk) as (c1 & Hc1 & E1). destruct (gr_tenants _ _ (step_grows _ _ _ _ _ H) _ _ Hc1) as (c2 & Hc2 & E2 & _).
    unfold tenant_id_at. rewrite Hc1, Hc2. split; intros (c3 & [= <-] & E3); eexists; (split; [reflexivity|]); congruence.
Qed.
(** Queries keep the remembered descendants right. *)
Lemma fresh_children o st t st' ds : state_wf st -> hierarchy_sound st -> hierarchy_fresh st -> tenant_children o st t = Ok (st', ds) -> hierarchy_fresh st'.
Proof.
  intros W Hs Hf H. pose proof (tenant_children_same _ _ _ _ _ H) as Hsame. destruct (tenant_children_ok _ _ _ _ _ W Hs H) as (_ & _ & _ & Hh).
  intros t' ds' d Ht' Hb. apply (below_same _ _ _ _ Hsame) in Hb. destruct (Hh _ _ Ht') as [E|E]; [exact (Hf _ _ _ E Hb)|exact (E d Hb)].
Qed.
Lemma fresh_loop o i st ex rs st' U : state_wf st -> hierarchy_sound st -> hierarchy_fresh st -> implicit_loop o i st ex rs = Ok (st', U) -> hierarchy_fresh st'.
Proof.
  revert i st ex. induction rs as [|r rs IH]; intros i st ex W Hs Hf H; cbn [implicit_loop] in H; [injection H as <- <-; exact Hf|].
  destruct (tenant r) as [|t| |]; try discriminate. case_bool_decide; [exact (IH _ _ _ W Hs Hf H)|].
  destruct (manage r) as [| |[]|]; try exact (IH _ _ _ W Hs Hf H).
  apply rbind_ok in H as ([s1 ds] & H1 & H). apply rbind_ok in H as (ex2 & _ & H). cbn [fst snd] in *.
  destruct (tenant_children_ok _ _ _ _ _ W Hs H1) as (Hs1 & _). destruct (wf_tenant_children _ _ _ _ _ W H1) as [W1 _].
  exact (IH _ _ _ W1 Hs1 (fresh_children _ _ _ _ _ W Hs Hf H1) H).
Qed.
Lemma fresh_implicit o st p st' U : state_wf st -> hierarchy_sound st -> hierarchy_fresh st -> get_implicit_tenants o st p = Ok (st', U) -> hierarchy_fresh st'.
Proof.
  intros W Hs Hf. unfold get_implicit_tenants. destruct (m_cache st !! p); [intros [= <- <-]; exact Hf|].
  intros H. apply rbind_ok in H as ([s1 U1] & H & [= <- <-]). exact (fresh_loop _ _ _ _ _ _ _ W Hs Hf H).
Qed.
Lemma step_cache_of o st x st' y p U : step o st x = Ok (st', y) -> m_cache st !! p = None -> m_cache st' !! p = Some U -> asks_of p x.
Proof.
  intros H N HU. pose proof (step_form _ _ _ _ _ H) as F.
  destruct x; try (exfalso; assert (E : m_cache st' = m_cache st) by (cbn [form] in F; first [destruct F as (? & ->); reflexivity|destruct F as (? & ? & ->); reflexivity]); rewrite E in HU; congruence); clear F; cbn [step] in H.
  - apply rbind_ok in H as ([s1 ds] & H & [= <- <-]). apply tenant_children_cache in H. cbn [fst] in HU. rewrite H in HU. congruence.
  - apply rbind_ok in H as ([s1 U1] & H & [= <- <-]). cbn [fst] in HU. destruct (implicit_cache _ _ _ _ _ H _ _ HU) as [E|[-> _]]; [congruence|reflexivity].
  - apply rbind_ok in H as ([s1 b] & H & [= <- <-]). cbn [fst] in HU. destruct (authorize_asks _ _ _ _ _ _ H) as [->|(U1 & H1)]; [congruence|].
    destruct (implicit_cache _ _ _ _ _ H1 _ _ HU) as [E|[-> _]]; [congruence|reflexivity].
Qed.
Lemma fresh_step o h st x st' y p : tells h st -> fresh h st p -> (links x -> forall z, called h z -> ~ asks z) ->
  (forall d, stores h x d -> principal d = AStr p -> forall z, called h z -> ~ asks_of p z) -> (forall d, stored st d -> stored st' d) ->
  step o st x = Ok (st', y) -> fresh ((x, y) :: h) st' p.
Proof.
  intros T F SL SR KEEP H. destruct (reachable_hierarchy st (tl_reach _ _ T)) as [W Hs].
  assert (Dec : links x \/ ~ links x) by (destruct x; cbn; tauto). assert (Dea : asks x \/ ~ asks x) by (destruct x; cbn; tauto).
  assert (LA : links x -> ~ asks x) by (destruct x; cbn; tauto). assert (OA : forall z, asks_of p z -> asks z) by (intros z; destruct z; cbn; tauto).
  assert (EH : ~ asks x -> m_hierarchy st' = m_hierarchy st /\ m_cache st' = m_cache st).
  { intros N. pose proof (step_form _ _ _ _ _ H) as G. destruct x; cbn [form asks] in *; try (destruct (N I)); first [destruct G as (? & ->); split; reflexivity|destruct G as (? & ? & ->); split; reflexivity]. }
  assert (NC : ~ asks_of p x -> m_cache st !! p = None -> m_cache st' !! p = None).
  { intros N E. destruct (m_cache st' !! p) as [U|] eqn:EU; [|reflexivity]. exfalso. destruct Dea as [Ax|Nx]; [|destruct (EH Nx) as [_ E2]; rewrite E2 in EU; congruence].
    apply N. exact (step_cache_of _ _ _ _ _ _ _ H E EU). }
  split.
  - intros N. destruct Dea as [Ax|Nx]; [destruct (N x); [apply called_cons; left; reflexivity|exact Ax]|]. destruct (EH Nx) as [-> _].
    apply (fr_links _ _ _ F). intros z Hz. apply N, called_cons. right. exact Hz.
  - intros N. apply NC; [apply N, called_cons; left; reflexivity|]. apply (fr_none _ _ _ F). intros z Hz. apply N, called_cons. right. exact Hz.
  - destruct Dec as [Lx|Nl].
    + destruct (EH (LA Lx)) as [E1 _]. intros t ds d Ht. rewrite E1, (fr_links _ _ _ F (SL Lx)), lookup_empty in Ht. discriminate.
    + pose proof (step_alike _ _ _ _ _ (tl_reach _ _ T) H Nl) as A. destruct Dea as [Ax|Nx].
      * destruct x; cbn [asks] in Ax; try contradiction; cbn [step] in H.
        -- apply rbind_ok in H as ([s1 ds] & H & [= <- <-]). exact (fresh_children _ _ _ _ _ W Hs (fr_hier _ _ _ F) H).
        -- apply rbind_ok in H as ([s1 ds] & H & [= <- <-]). exact (fresh_implicit _ _ _ _ _ W Hs (fr_hier _ _ _ F) H).
        -- apply rbind_ok in H as ([s1 b] & H & [= <- <-]). destruct (authorize_asks _ _ _ _ _ _ H) as [E|(U & H1)]; cbn [fst].
           ++ rewrite E. exact (fr_hier _ _ _ F).
           ++ exact (fresh_implicit _ _ _ _ _ W Hs (fr_hier _ _ _ F) H1).
      * destruct (EH Nx) as [E1 _]. intros t ds d Ht Hb. rewrite E1 in Ht. apply (alike_below _ _ _ _ A) in Hb. exact (fr_hier _ _ _ F _ _ _ Ht Hb).
  - intros U HU Co Fl. destruct Dec as [Lx|Nl].
    + destruct (EH (LA Lx)) as [_ E2]. rewrite E2, (fr_none _ _ _ F) in HU; [discriminate|]. intros z Hz Az. exact (SL Lx z Hz (OA z Az)).
    + pose proof (step_alike _ _ _ _ _ (tl_reach _ _ T) H Nl) as A. destruct (step_stores _ _ _ _ _ _ T H) as (new & RA & SN).
      destruct (decide (Exists (fun d => principal d = AStr p) new)) as [X|X].
      * apply Exists_exists in X as (d & Hd & Hp). apply SN in Hd. rewrite NC in HU; [discriminate| |exact (fr_none _ _ _ F (SR d Hd Hp))].
        intros Az. destruct x; cbn [stores asks_of] in *; contradiction.
      * assert (S : same_rows st st' p).
        { intros d Hp. split; [|apply KEEP]. intros Hd. apply RA in Hd as [Hd|[Hd _]]; [|exact Hd]. destruct X. apply Exists_exists. exists d. split; assumption. }
        apply (alike_coherent _ _ A) in Co. apply (alike_flags _ _ _ S) in Fl. apply (alike_right _ _ _ _ A S).
        destruct (m_cache st !! p) as [U0|] eqn:E0.
        -- pose proof (gr_cache _ _ (step_grows _ _ _ _ _ H) _ _ E0) as E1. rewrite E1 in HU. injection HU as <-. exact (fr_cache _ _ _ F _ E0 Co Fl).
        -- destruct (step_cache _ _ _ _ _ _ _ H HU) as [E|(o' & s1 & E)]; [congruence|]. exact (implicit_exact _ _ _ _ _ W Hs (fr_hier _ _ _ F) Co Fl E0 E).
Qed.
Lemma fresh_all sort_of o ops st outs p : run o 0 init_state ops = Ok (st, outs) -> Forall (names_kept sort_of) ops -> groups_made (log_of ops outs) -> asked_last (log_of ops outs) p ->
  fresh (log_of ops outs) st p.
Proof.
  revert st outs. induction ops as [|x ops IH] using rev_ind; intros st outs H K GM AL.
  - injection H as <- <-. split.
    + intros _. reflexivity.
    + intros _. apply lookup_empty.
    + intros t ds d Ht. cbn in Ht. rewrite lookup_empty in Ht. discriminate.
    + intros U HU. cbn in HU. rewrite lookup_empty in HU. discriminate.
  - apply run_last in H as (s1 & outs1 & y & H1 & H2 & -> & L). rewrite (log_last _ _ _ _ L) in *. apply Forall_app in K as [K1 K2]. apply Forall_inv in K2.
    destruct AL as [[AL1 AL2] AL3].
    apply (fresh_step (sub o (0 + length ops)) _ _ _ _ _ _ (tells_all _ _ _ _ H1 (proj2 GM)) (IH _ _ H1 K1 (proj2 GM) AL3) AL1 AL2); [|exact H2].
    intros d. exact (step_keeps _ _ _ _ _ _ _ _ _ d H1 K1 K2 H2).
Qed.

(** ** Everything granted is allowed *)
Section exact.
  Context (h : log) (st : state) (T : tells h st) (ROWS : forall d, row_made h d -> stored st d).
  Lemma rows_are d : stored st d <-> row_made h d.
  Proof. split; [apply (tl_rows _ _ T)|apply ROWS]. Qed.
  Lemma grants_are p t q : grants st p (set_o_tenant q t) (shape_of q) <-> if asked (o_group q) && asked (o_activity q) then does h p t q else enters h p t q.
  Proof.
    split; [exact (told_grants h st T p t q)|]. intros H. apply grants_by. destruct (asked (o_group q) && asked (o_activity q)).
    - apply (allows_more _ _ (role_allows h) _ _ _ (told_allows h st T)). exact (does_more (row_made h) _ _ _ _ _ ROWS H).
    - exact (enters_more (row_made h) _ _ _ _ ROWS H).
  Qed.
  Lemma own_is p t : RootSpec.own st p t <-> own h p t.
  Proof. split; intros (d & Hd & H); exists d; (split; [apply rows_are; exact Hd|exact H]). Qed.
  Lemma manages_is p t : RootSpec.manages st p t <-> manages h p t.
  Proof. split; intros (d & Hd & H); exists d; (split; [apply rows_are; exact Hd|exact H]). Qed.
  Lemma reaches_is p u : (RootSpec.own st p u \/ exists t0, RootSpec.manages st p t0 /\ RootSpec.below st t0 u) <-> reaches h p u.
  Proof.
    unfold reaches. rewrite own_is. apply or_iff_compat_l. split; intros (t0 & Hm & Hb); exists t0; (split; [apply manages_is; exact Hm|apply (told_below _ _ T); exact Hb]).
  Qed.
  Lemma granted_is o p q st' b : fresh h st p -> links_registered h -> flags_alike h p -> authorize o st p q = Ok (st', b) -> b = true <-> granted h p q.
  Proof.
    intros F LR FA H. pose proof H as H0. apply authorize_ok in H0 as [(-> & Hp & _)|(Hp & U & (o2 & H2) & Hb)].
    { split; [discriminate|]. intros (Hc & _). apply (tl_pr _ _ T) in Hc. contradiction. }
    destruct (reachable_hierarchy st (tl_reach _ _ T)) as [W Hs].
    assert (Co : tenants_coherent st) by (apply coherent_link; intros t k d d' Hd Hd'; apply (LR t k d d'); [apply (tl_link _ _ T), Hd|apply (tl_reg _ _ T), Hd']).
    assert (Fl : flags_agree st p) by (intros d d' Hd Hd'; apply (FA d d'); apply rows_are; assumption).
    assert (HU : forall u, u ∈ U <-> reaches h p u).
    { intros u. rewrite <- reaches_is. destruct (m_cache st !! p) as [U0|] eqn:E.
      - pose proof H2 as H3. unfold get_implicit_tenants in H3. rewrite E in H3. injection H3 as _ <-. exact (fr_cache _ _ _ F _ E Co Fl u).
      - exact (implicit_exact _ _ _ _ _ W Hs (fr_hier _ _ _ F) Co Fl E H2 u). }
    split; [intros ->; exact (told_granted h st T o p q st' H)|]. intros (_ & (u0 & Hu0) & Hk & t & Ht & Hg). apply Hb. split; [exact Hp|]. split.
    - intros ->. assert (N : u0 ∈ (∅ : gset string)) by (apply HU; left; exact Hu0). destruct (not_elem_of_empty _ N).
    - split; [apply (told_known _ _ T); exact Hk|]. apply grants_are in Hg. destruct Ht as [->|(u & -> & Hu)].
      + left. rewrite set_same in Hg. exact Hg.
      + right. exists u. split; [apply HU; exact Hu|exact Hg].
  Qed.
End exact.
Lemma c111_exact o ops st outs o' p q st' b : run o 0 init_state ops = Ok (st, outs) -> groups_made (log_of ops outs) -> keeps_names_apart ops ->
  asked_last (log_of ops outs) p -> links_registered (log_of ops outs) -> flags_alike (log_of ops outs) p ->
  authorize o' st p q = Ok (st', b) -> b = true <-> granted (log_of ops outs) p q.
Proof.
  intros H GM (sort_of & K) AL LR FA. apply (granted_is _ _ (tells_all _ _ _ _ H GM)); [|exact (fresh_all _ _ _ _ _ _ H K GM AL)|exact LR|exact FA].
  intros d. exact (rows_all sort_of _ _ _ _ d H K GM).
Qed.
