(** The calls made tell the state of a v1 manager. *)
From Verif Require Import V1Code V1Inv V1Setup.
From Verif Require Export V1CallsRole.

Record tells (h : log) (st : ustate) : Prop := {
  tl_wf : u_wf st;
  tl_roles : tells_roles h (u_heap st);
  tl_groups : tells_groups h (u_heap st);
  tl_tname : forall t id, tenant_named h t id <-> t_ids st !! t = Some id;
  tl_nname : forall l id, namespace_named h l id <-> n_ids st !! l = Some id;
  tl_reg : forall id t, tenant_at h id t <-> u_reg st !! id = Some t;
  tl_rreg : forall id l, role_at h id l <-> u_roles st !! id = Some l;
  tl_prin : forall p, called h (UAddPrincipal p) <-> p ∈ u_principals st;
  tl_ns : forall t n l, ns_in h t n l <-> f_ns st t n = Some l;
  tl_def : forall t l, default_of h t l <-> f_def st t = Some l;
  tl_trole : forall t r, role_in h t r <-> r ∈ f_roles st t;
  tl_tscope : forall t s, scope_in h t s <-> s ∈ f_scopes st t;
  tl_nscope : forall l s, ns_scope h l s <-> s ∈ n_scopes st l;
  tl_nrole : forall l r, ns_role h l r <-> r ∈ n_roles st l;
  tl_rows : forall s : string, s ∈ u_rows st <-> exists row, row_made h row /\ s = row_string row;
  tl_clean : forall row, row_made h row -> clean_row row;
  tl_tclean : forall t id, tenant_named h t id -> clean id;
  tl_nclean : forall l id, namespace_named h l id -> clean id;
  tl_rclean : forall l id, role_named h l id -> clean id;
  tl_sclean : forall t s, scope_in h t s -> clean s
}.

(** ** Names *)
Lemma list_grown (l : list string) (b : string) i a : (l ++ [b]) !! i = Some a <-> l !! i = Some a \/ i = length l /\ a = b.
Proof.
  rewrite lookup_app_Some, list_lookup_singleton_Some. split.
  - intros [H|(Hl & E & <-)]; [left; exact H|right; split; [lia|reflexivity]].
  - intros [H|[-> ->]]; [left; exact H|right; split; [lia|split; [lia|reflexivity]]].
Qed.
Lemma step_tname o st x st' y t id : ustep o st x = Ok (st', y) -> t_ids st' !! t = Some id <-> (UNewTenant id, YLoc t) = (x, y) \/ t_ids st !! t = Some id.
Proof.
  intros H. rewrite (step_t_ids _ _ _ _ _ H). destruct x; try (cbn [new_tenant_id]; rewrite app_nil_r; split; [right; assumption|intros [?|?]; [discriminate|assumption]]).
  cbn [new_tenant_id]. rewrite list_grown. cbn [ustep] in H. injection H as _ <-. cbn [u_new_tenant snd].
  assert (E : length (t_ids st) = length (u_tenants st)) by apply fmap_length. rewrite E. split.
  - intros [H|[-> ->]]; [right; exact H|left; reflexivity].
  - intros [[= -> ->]|H]; [right; split; reflexivity|left; exact H].
Qed.
Lemma step_nname o st x st' y t id : ustep o st x = Ok (st', y) -> n_ids st' !! t = Some id <-> (UNewNamespace id, YLoc t) = (x, y) \/ n_ids st !! t = Some id.
Proof.
  intros H. rewrite (step_n_ids _ _ _ _ _ H). destruct x; try (cbn [new_ns_id]; rewrite app_nil_r; split; [right; assumption|intros [?|?]; [discriminate|assumption]]).
  cbn [new_ns_id]. rewrite list_grown. cbn [ustep] in H. injection H as _ <-. cbn [u_new_namespace snd].
  assert (E : length (n_ids st) = length (u_nss st)) by apply fmap_length. rewrite E. split.
  - intros [H|[-> ->]]; [right; exact H|left; reflexivity].
  - intros [[= -> ->]|H]; [right; split; reflexivity|left; exact H].
Qed.
Lemma reg_grown (m : gmap string nat) k v k' v' : m !! k = None -> <[k := v]> m !! k' = Some v' <-> m !! k' = Some v' \/ m !! k' = None /\ k' = k /\ v' = v.
Proof.
  intros N. destruct (decide (k = k')) as [D|D].
  - subst k'. rewrite lookup_insert, N. split; [intros [= <-]; right; split; [reflexivity|split; reflexivity]|intros [?|(_ & _ & ->)]; [discriminate|reflexivity]].
  - rewrite lookup_insert_ne by exact D. split; [left; assumption|]. intros [H|(_ & E & _)]; [exact H|destruct (D (eq_sym E))].
Qed.
Lemma step_reg o st x st' y id t : ustep o st x = Ok (st', y) ->
  u_reg st' !! id = Some t <-> u_reg st !! id = Some t \/ u_reg st !! id = None /\ x = UAddTenant t /\ t_ids st !! t = Some id.
Proof.
  intros H. pose proof (step_apart _ _ _ _ _ H) as F.
  destruct x; try (rewrite (ap_reg _ _ _ _ _ _ _ _ _ F eq_refl); split; [left; assumption|intros [?|(_ & ? & _)]; [assumption|discriminate]]).
  cbn [ustep] in H. unfold uret_loc in H. rewrite rbind_ok in H. destruct H as ([s1 k] & H & [= <- _]). unfold u_add_tenant in H.
  destruct (u_tenants st !! t0) as [c|] eqn:E; [|discriminate]. cbn [uw_tenants u_reg] in H.
  assert (Ei : t_ids st !! t0 = Some (ut_id c)) by (unfold t_ids; rewrite list_lookup_fmap, E; reflexivity). clear F.
  destruct (u_reg st !! ut_id c) as [t'|] eqn:Er; injection H as <- _; cbn [uw_reg uw_tenants u_reg fst].
  - split; [left; assumption|]. intros [H|(N & [= ->] & H)]; [exact H|congruence].
  - rewrite (reg_grown _ _ _ _ _ Er). split; (intros [H|(N & H1 & H2)]; [left; exact H|right; split; [exact N|]]).
    + subst. split; [reflexivity|exact Ei].
    + injection H1 as ->. split; [congruence|reflexivity].
Qed.
Lemma step_rreg o st x st' y id l : ustep o st x = Ok (st', y) ->
  u_roles st' !! id = Some l <-> u_roles st !! id = Some l \/ u_roles st !! id = None /\ x = UAddRole l /\ has_id (u_heap st) l id.
Proof.
  intros H. pose proof (step_apart _ _ _ _ _ H) as F.
  destruct x; try (rewrite (ap_roles _ _ _ _ _ _ _ _ _ F eq_refl); split; [left; assumption|intros [?|(_ & ? & _)]; [assumption|discriminate]]).
  cbn [ustep] in H. unfold uret_loc in H. rewrite rbind_ok in H. destruct H as ([s1 k] & H & [= <- _]). unfold u_add_role in H.
  destruct (h_roles (u_heap st) !! r) as [c|] eqn:E; [|discriminate]. clear F.
  destruct (u_roles st !! r_id c) as [t'|] eqn:Er; injection H as <- _; cbn [uw_roles u_roles fst].
  - split; [left; assumption|]. intros [H|(N & [= ->] & z & Hz & H)]; [exact H|]. congruence.
  - rewrite (reg_grown _ _ _ _ _ Er). split; (intros [H|(N & H1 & H2)]; [left; exact H|right; split; [exact N|]]).
    + subst. split; [reflexivity|exists c; split; [exact E|reflexivity]].
    + injection H1 as ->. destruct H2 as (z & Hz & H2). split; [congruence|reflexivity].
Qed.
Lemma step_prin o st x st' y p : ustep o st x = Ok (st', y) -> p ∈ u_principals st' <-> x = UAddPrincipal p \/ p ∈ u_principals st.
Proof.
  intros H. pose proof (step_apart _ _ _ _ _ H) as F.
  destruct x; try (rewrite (ap_principals _ _ _ _ _ _ _ _ _ F eq_refl); split; [right; assumption|intros [?|?]; [discriminate|assumption]]).
  cbn [ustep] in H. injection H as <- _. cbn [uw_principals u_principals]. rewrite elem_of_union, elem_of_singleton. split.
  - intros [->|?]; [left; reflexivity|right; assumption].
  - intros [[= ->]|?]; [left; reflexivity|right; assumption].
Qed.
(** ** Rows *)
Lemma told_assigned h st b : (forall s : string, s ∈ u_rows st <-> exists row, row_made h row /\ s = row_string row) -> (forall row, row_made h row -> clean_row row) ->
  assigned st b <-> row_made h b.
Proof.
  intros R C. split.
  - intros (s & Hs & Hr). apply R in Hs as (row & Hm & ->). apply (reads_string_clean _ _ (C _ Hm)) in Hr. subst b. exact Hm.
  - intros Hm. exists (row_string b). split; [apply R; exists b; split; [exact Hm|reflexivity]|]. apply reads_string_clean; [exact (C _ Hm)|reflexivity].
Qed.
Lemma told_member h st p id b : tells h st -> member st p id b <-> row_made h b /\ tp_principal b = p /\ tp_tenant b = id.
Proof. intros T. unfold member. rewrite (told_assigned h st b (tl_rows _ _ T) (tl_clean _ _ T)). reflexivity. Qed.
Lemma told_tenant h st t c id : tells h st -> u_tenants st !! t = Some c -> tenant_named h t id <-> id = ut_id c.
Proof. intros T E. rewrite (tl_tname _ _ T). unfold t_ids. rewrite list_lookup_fmap, E. cbn. split; [intros [= <-]; reflexivity|intros ->; reflexivity]. Qed.
Lemma told_ns h st l m id : tells h st -> u_nss st !! l = Some m -> namespace_named h l id <-> id = un_id m.
Proof. intros T E. rewrite (tl_nname _ _ T). unfold n_ids. rewrite list_lookup_fmap, E. cbn. split; [intros [= <-]; reflexivity|intros ->; reflexivity]. Qed.
Lemma told_trole h st t c r : tells h st -> u_tenants st !! t = Some c -> role_in h t r <-> r ∈ ut_roles c.
Proof. intros T E. rewrite (tl_trole _ _ T), (f_roles_at _ _ _ E). reflexivity. Qed.
Lemma told_tscope h st t c r : tells h st -> u_tenants st !! t = Some c -> scope_in h t r <-> r ∈ ut_scopes c.
Proof. intros T E. rewrite (tl_tscope _ _ T), (f_scopes_at _ _ _ E). reflexivity. Qed.
Lemma told_nsin h st t c n l : tells h st -> u_tenants st !! t = Some c -> ns_in h t n l <-> ut_namespaces c !! n = Some l.
Proof. intros T E. rewrite (tl_ns _ _ T), (f_ns_at _ _ _ _ E). reflexivity. Qed.
Lemma told_here h st t c n : tells h st -> u_tenants st !! t = Some c -> here h t n <-> in_default st c n.
Proof.
  intros T E. unfold here, in_default. split; (intros [H|H]; [left; exact H|right]).
  - destruct H as (l & Hd & Hn). apply (tl_def _ _ T) in Hd. unfold f_def in Hd. rewrite E in Hd. cbn in Hd.
    destruct (uwf_default _ (tl_wf _ _ T) _ _ _ E Hd) as [m Hm]. exists l, m. split; [exact Hd|split; [exact Hm|]]. apply (told_ns _ _ _ _ _ T Hm). exact Hn.
  - destruct H as (l & m & Hd & Hm & ->). exists l. split; [apply (tl_def _ _ T); unfold f_def; rewrite E; exact Hd|]. apply (told_ns _ _ _ _ _ T Hm). reflexivity.
Qed.
Definition rows_grow (st : ustate) (X : trow -> Prop) (st' : ustate) : Prop := forall s : string, s ∈ u_rows st' <-> s ∈ u_rows st \/ exists row, X row /\ s = row_string row.
Lemma grow_none st st' (X : trow -> Prop) : u_rows st' = u_rows st -> (forall row, ~ X row) -> rows_grow st X st'.
Proof. intros E N s. rewrite E. split; [left; assumption|]. intros [H|(row & H & _)]; [exact H|destruct (N _ H)]. Qed.
Lemma grow_ext st st' (X Y : trow -> Prop) : (forall row, X row <-> Y row) -> rows_grow st X st' -> rows_grow st Y st'.
Proof. intros E G s. rewrite (G s). split; (intros [H|(row & H & D)]; [left; exact H|right; exists row; split; [apply E; exact H|exact D]]). Qed.
Lemma step_rows o h st x st' y : tells h st -> ustep o st x = Ok (st', y) -> rows_grow st (assigns (row_made h) h x) st'.
Proof.
  intros T H. pose proof (step_apart _ _ _ _ _ H) as F. pose proof (tl_wf _ _ T) as W.
  destruct x; try (apply grow_none; [exact (ap_rows _ _ _ _ _ _ _ _ _ F eq_refl)|intros row []]);
    cbn [ustep] in H; unfold uret in H; rewrite rbind_ok in H; destruct H as (s1 & H & [= <- _]); clear F; cbn [assigns].
  - assert (Hc : exists c, u_tenants st !! t = Some c) by (unfold u_add_principal_role in H; destruct (u_tenants st !! t); [eexists; reflexivity|discriminate]).
    destruct Hc as (c & Hc).
    assert (Hn : exists n, match ns with None => n = "" | Some l => exists m, u_nss st !! l = Some m /\ n = un_id m end).
    { destruct ns as [l|]; [|exists ""; reflexivity]. unfold u_add_principal_role in H. rewrite Hc, rbind_ok in H. destruct H as (k & H & _).
      destruct (u_nss st !! l) as [m|]; [exists (un_id m), m; split; reflexivity|discriminate]. }
    destruct Hn as (n & Hn). destruct (adds_principal_role _ _ _ _ _ _ _ _ _ _ Hc Hn H) as [_ A]. eapply grow_ext; [|exact A].
    intros row. cbn beta. split.
    + intros ->. exists (ut_id c), n. split; [apply (told_tenant _ _ _ _ _ T Hc); reflexivity|]. split; [|reflexivity].
      destruct ns as [l|]; [|exact Hn]. destruct Hn as (m & Hm & ->). apply (told_ns _ _ _ _ _ T Hm). reflexivity.
    + intros (id & n' & Hi & Hn' & ->). apply (told_tenant _ _ _ _ _ T Hc) in Hi. subst id. f_equal.
      destruct ns as [l|]; [|congruence]. destruct Hn as (m & Hm & ->). apply (told_ns _ _ _ _ _ T Hm) in Hn'. exact Hn'.
  - destruct ss as [|s0 ss].
    { cbn in H. injection H as <-. apply grow_none; [reflexivity|]. intros row (id & l & s & _ & _ & Hr & _). destruct (reached_nil _ _ Hr). }
    destruct (u_tenants st !! t) as [c|] eqn:E; [|unfold ut_add_scopes_to_namespace in H; cbn [u_while] in H; rewrite E in H; discriminate].
    destruct (ut_namespaces c !! ns) as [l0|] eqn:En.
    + destruct (uwf_ns _ W _ _ _ _ E En) as (m & Hm & Ei). destruct (add_scopes_to_namespace_ok _ _ _ _ _ _ _ _ E En Hm H) as (pre & Ha & [_ A]).
      eapply grow_ext; [|exact A]. intros row. cbn beta. split.
      * intros (s & Hs & ->). exists (ut_id c), l0, s. split; [apply (told_tenant _ _ _ _ _ T E); reflexivity|].
        split; [apply (told_nsin _ _ _ _ _ _ T E); exact En|]. split; [|rewrite Ei; reflexivity]. apply (accepted_reached _ _ _ _ Ha) in Hs.
        eapply reached_ext; [|exact Hs]. intros z. apply (told_tscope _ _ _ _ _ T E).
      * intros (id & l & s & Hi & _ & Hr & ->). apply (told_tenant _ _ _ _ _ T E) in Hi. subst id. exists s. split; [|rewrite Ei; reflexivity].
        apply (accepted_reached _ _ _ _ Ha). eapply reached_ext; [|exact Hr]. intros z. symmetry. apply (told_tscope _ _ _ _ _ T E).
    + destruct (unknown_namespace_ok _ _ _ _ (s0 :: ss) E En) as [E1 _]. rewrite E1 in H. injection H as <-. apply grow_none; [reflexivity|].
      intros row (id & l & s & _ & Hl & _). apply (told_nsin _ _ _ _ _ _ T E) in Hl. congruence.
  - destruct rs as [|r0 rs].
    { cbn in H. injection H as <-. apply grow_none; [reflexivity|]. intros row (id & r & n & _ & Hr & _). destruct (not_elem_of_nil _ Hr). }
    destruct (u_tenants st !! t) as [c|] eqn:E; [|unfold ut_add_principal in H; cbn [u_each] in H; rewrite E in H; discriminate].
    destruct (add_principal_adds _ _ _ _ _ _ W E H) as [_ A]. eapply grow_ext; [|exact A]. intros row. cbn beta. split.
    + intros (r & Hr & Hi & n & Hn & ->). exists (ut_id c), r, n. split; [apply (told_tenant _ _ _ _ _ T E); reflexivity|]. split; [exact Hr|].
      split; [apply (told_trole _ _ _ _ _ T E); exact Hi|]. split; [apply (told_here _ _ _ _ _ T E); exact Hn|reflexivity].
    + intros (id & r & n & Hi & Hr & Hin & Hn & ->). apply (told_tenant _ _ _ _ _ T E) in Hi. subst id. exists r. split; [exact Hr|].
      split; [apply (told_trole _ _ _ _ _ T E); exact Hin|]. exists n. split; [apply (told_here _ _ _ _ _ T E); exact Hn|reflexivity].
  - destruct (u_tenants st !! t) as [c|] eqn:E; [|unfold ut_add_principal_in_namespace in H; rewrite E in H; discriminate].
    destruct (ut_namespaces c !! ns) as [l0|] eqn:En.
    + destruct (uwf_ns _ W _ _ _ _ E En) as (m & Hm & Ei). destruct (add_principal_in_namespace_adds _ _ _ _ _ _ _ _ _ _ W E En Hm H) as [_ A].
      eapply grow_ext; [|exact A]. intros row. cbn beta. split.
      * intros (r & -> & Hr). exists (ut_id c), l0, r. split; [apply (told_tenant _ _ _ _ _ T E); reflexivity|].
        split; [apply (told_nsin _ _ _ _ _ _ T E); exact En|]. split; [rewrite Ei; reflexivity|]. destruct rs as [|r0 rs].
        -- right. split; [reflexivity|]. destruct Hr as [Hr|(b & Hb & H1 & H2 & H3)]; [left; exact Hr|right]. apply (told_member _ _ _ _ _ T) in Hb as (Hb & Hp & Ht).
           exists b. split; [exact Hb|]. split; [exact Hp|]. split; [exact Ht|]. split; [exact H1|]. split; [exact H2|exact H3].
        -- left. destruct Hr as [H1 H2]. split; [exact H1|apply (told_trole _ _ _ _ _ T E); exact H2].
      * intros (id & l & r & Hi & _ & -> & Hr). apply (told_tenant _ _ _ _ _ T E) in Hi. subst id. exists r. split; [rewrite Ei; reflexivity|]. destruct rs as [|r0 rs].
        -- destruct Hr as [[Hr _]|[_ Hr]]; [destruct (not_elem_of_nil _ Hr)|]. destruct Hr as [Hr|(b & Hb & Hp & Ht & H1 & H2 & H3)]; [left; exact Hr|right].
           exists b. split; [apply (told_member _ _ _ _ _ T); split; [exact Hb|split; [exact Hp|exact Ht]]|split; [exact H1|split; [exact H2|exact H3]]].
        -- destruct Hr as [[H1 H2]|[? _]]; [|discriminate]. split; [exact H1|apply (told_trole _ _ _ _ _ T E); exact H2].
    + unfold ut_add_principal_in_namespace in H. rewrite E, En in H. injection H as <-. apply grow_none; [reflexivity|].
      intros row (id & l & r & _ & Hl & _). apply (told_nsin _ _ _ _ _ _ T E) in Hl. congruence.
  - destruct (u_tenants st !! t) as [c|] eqn:E; [|unfold ut_assign_scopes in H; rewrite E in H; discriminate].
    destruct (assign_scopes_adds _ _ _ _ _ _ _ W E H) as [_ A]. eapply grow_ext; [|exact A]. intros row. cbn beta. split.
    + intros (b & Hb & s & Hs & Hin & Hr). apply (told_member _ _ _ _ _ T) in Hb as (Hb & Hp & Ht). exists (ut_id c), s, b. split; [apply (told_tenant _ _ _ _ _ T E); reflexivity|].
      split; [exact Hs|]. split; [apply (told_tscope _ _ _ _ _ T E); exact Hin|]. split; [exact Hb|]. split; [exact Hp|]. split; [exact Ht|].
      destruct Hr as [Hr|(n & Hn & Hr)]; [left; exact Hr|right; exists n; split; [apply (told_here _ _ _ _ _ T E); exact Hn|exact Hr]].
    + intros (id & s & b & Hi & Hs & Hin & Hb & Hp & Ht & Hr). apply (told_tenant _ _ _ _ _ T E) in Hi. subst id.
      exists b. split; [apply (told_member _ _ _ _ _ T); split; [exact Hb|split; [exact Hp|exact Ht]]|]. exists s. split; [exact Hs|]. split; [apply (told_tscope _ _ _ _ _ T E); exact Hin|].
      destruct Hr as [Hr|(n & Hn & Hr)]; [left; exact Hr|right; exists n; split; [apply (told_here _ _ _ _ _ T E); exact Hn|exact Hr]].
  - destruct ss as [|s0 ss].
    { cbn in H. injection H as <-. apply grow_none; [reflexivity|]. intros row (id & s & b & n & _ & Hr & _). destruct (not_elem_of_nil _ Hr). }
    destruct (u_tenants st !! t) as [c|] eqn:E; [|unfold ut_assign_scopes_with_role in H; rewrite E in H; discriminate].
    destruct (assign_scopes_with_role_adds _ _ _ _ _ _ _ _ W E H) as [_ A]. eapply grow_ext; [|exact A]. intros row. cbn beta. split.
    + intros ((b & Hb) & Hro & s & Hs & Hin & n & Hn & Hr). apply (told_member _ _ _ _ _ T) in Hb as (Hb & Hp & Ht). exists (ut_id c), s, b, n. split; [apply (told_tenant _ _ _ _ _ T E); reflexivity|].
      split; [exact Hs|]. split; [apply (told_tscope _ _ _ _ _ T E); exact Hin|]. split; [apply (told_trole _ _ _ _ _ T E); exact Hro|]. split; [exact Hb|]. split; [exact Hp|]. split; [exact Ht|].
      split; [apply (told_here _ _ _ _ _ T E); exact Hn|exact Hr].
    + intros (id & s & b & n & Hi & Hs & Hin & Hro & Hb & Hp & Ht & Hn & Hr). apply (told_tenant _ _ _ _ _ T E) in Hi. subst id.
      split; [exists b; apply (told_member _ _ _ _ _ T); split; [exact Hb|split; [exact Hp|exact Ht]]|]. split; [apply (told_trole _ _ _ _ _ T E); exact Hro|].
      exists s. split; [exact Hs|]. split; [apply (told_tscope _ _ _ _ _ T E); exact Hin|]. exists n. split; [apply (told_here _ _ _ _ _ T E); exact Hn|exact Hr].
Qed.
Lemma clean_empty : clean "".
Proof. intros H. destruct (not_elem_of_nil _ H). Qed.
Lemma named_grown h e l id : role_named h l id -> role_named (e :: h) l id.
Proof. intros H. right. exact H. Qed.
Lemma role_in_clean h t r : (forall l id, role_named h l id -> clean id) -> role_in h t r -> clean r.
Proof.
  induction h as [|e h IH]; intros C; [intros []|]. intros [(ls & l & _ & _ & H)|H].
  - apply (C l). right. exact H.
  - apply IH; [|exact H]. intros l id Hl. apply (C l). right. exact Hl.
Qed.
Lemma assigns_clean h st x row : tells h st -> plain_names x -> assigns (row_made h) h x row -> clean_row row.
Proof.
  intros T P.
  assert (Hns : forall t n l, ns_in h t n l -> clean n).
  { intros t n l H. apply (tl_ns _ _ T) in H. unfold f_ns in H. destruct (u_tenants st !! t) as [c|] eqn:E; [|discriminate]. cbn in H.
    destruct (uwf_ns _ (tl_wf _ _ T) _ _ _ _ E H) as (m & Hm & <-). apply (tl_nclean _ _ T l). apply (told_ns _ _ _ _ _ T Hm). reflexivity. }
  assert (Hro : forall t r, role_in h t r -> clean r) by (intros t r H; exact (role_in_clean h t r (tl_rclean _ _ T) H)).
  assert (Hhe : forall t n, here h t n -> clean n) by (intros t n [->|(l & _ & H)]; [exact clean_empty|exact (tl_nclean _ _ T _ _ H)]).
  destruct x; cbn [assigns plain_names] in *; try contradiction.
  - destruct P as (P1 & P2 & P3). intros (id & n & Hi & Hn & ->). split; [exact P1|]. split; [exact P2|]. split; [exact (tl_tclean _ _ T _ _ Hi)|]. split; [|exact P3].
    cbn [tp_ns]. destruct ns; [exact (tl_nclean _ _ T _ _ Hn)|rewrite Hn; exact clean_empty].
  - intros (id & l & s & Hi & Hl & (l1 & l2 & _ & _ & Hs) & ->). split; [exact clean_empty|]. split; [exact clean_empty|]. split; [exact (tl_tclean _ _ T _ _ Hi)|].
    split; [exact (Hns _ _ _ Hl)|exact (tl_sclean _ _ T _ _ Hs)].
  - intros (id & r & n & Hi & _ & Hr & Hn & ->). split; [exact P|]. split; [exact (Hro _ _ Hr)|]. split; [exact (tl_tclean _ _ T _ _ Hi)|]. split; [exact (Hhe _ _ Hn)|exact clean_empty].
  - intros (id & l & r & Hi & Hl & -> & Hr). split; [exact P|]. split; [|split; [exact (tl_tclean _ _ T _ _ Hi)|split; [exact (Hns _ _ _ Hl)|exact clean_empty]]].
    cbn [tp_role]. destruct Hr as [[_ Hr]|[_ [->|(b & Hb & _ & _ & _ & _ & <-)]]]; [exact (Hro _ _ Hr)|exact clean_empty|apply (tl_clean _ _ T _ Hb)].
  - intros (id & s & b & Hi & _ & Hs & Hb & _ & _ & Hr). apply (tl_clean _ _ T) in Hb. pose proof (tl_tclean _ _ T _ _ Hi) as Ci. pose proof (tl_sclean _ _ T _ _ Hs) as Cs.
    destruct Hr as [->|(n & Hn & ->)]; (split; [exact P|]).
    + split; [exact clean_empty|split; [exact Ci|split; [exact clean_empty|exact Cs]]].
    + split; [apply Hb|split; [exact Ci|split; [exact (Hhe _ _ Hn)|exact Cs]]].
  - intros (id & s & b & n & Hi & _ & Hs & Hr & _ & _ & _ & Hn & ->). split; [exact P|]. split; [exact (Hro _ _ Hr)|]. split; [exact (tl_tclean _ _ T _ _ Hi)|].
    split; [exact (Hhe _ _ Hn)|exact (tl_sclean _ _ T _ _ Hs)].
Qed.

(** ** The heap *)
Lemma permission_roles hp l grp attrs hp' e : role_add_permission hp l grp attrs = Ok (hp', e) ->
  (forall l id, has_id hp' l id <-> has_id hp l id) /\ (forall l id, f_desc hp' l id = f_desc hp l id) /\ (e <> None -> hp' = hp).
Proof.
  unfold role_add_permission. destruct (h_roles hp !! l) as [r|] eqn:E; [|discriminate]. destruct (r_lock r); [intros [= <- <-]; split; [reflexivity|split; [reflexivity|reflexivity]]|].
  destruct (r_perms r !! grp) as [gl|].
  - destruct (h_groups hp !! gl); [|discriminate]. intros [= <- <-]. split; [reflexivity|split; [reflexivity|intros N; destruct (N eq_refl)]].
  - intros [= <- <-]. split; [|split; [|intros N; destruct (N eq_refl)]].
    + apply (set_role_id hp l r _ E). reflexivity.
    + apply (set_role_desc hp l r _ E). reflexivity.
Qed.
Lemma hand_roles hp l gl hp' e : role_add_group hp l gl = Ok (hp', e) ->
  (forall l id, has_id hp' l id <-> has_id hp l id) /\ (forall l id, f_desc hp' l id = f_desc hp l id) /\ (e <> None -> hp' = hp).
Proof.
  unfold role_add_group. destruct (h_roles hp !! l) as [r|] eqn:E; [|discriminate]. destruct (r_lock r); [intros [= <- <-]; split; [reflexivity|split; [reflexivity|reflexivity]]|].
  destruct (h_groups hp !! gl) as [g|]; [|discriminate]. destruct (r_perms r !! g_id g) as [gl'|].
  - intros [= <- <-]. split; [reflexivity|split; [reflexivity|reflexivity]].
  - intros [= <- <-]. split; [|split; [|intros N; destruct (N eq_refl)]].
    + apply (set_role_id hp l r _ E). reflexivity.
    + apply (set_role_desc hp l r _ E). reflexivity.
Qed.
Lemma permissions_to_role st r grp attrs st' e : u_add_permissions_to_role st r grp attrs = Ok (st', e) ->
  (u_heap st' = u_heap st /\ e <> None) \/ exists l hp', u_roles st !! r = Some l /\ role_add_permission (u_heap st) l grp attrs = Ok (hp', e) /\ u_heap st' = hp'.
Proof.
  unfold u_add_permissions_to_role. destruct (u_roles st !! r) as [l|]; [|intros [= <- <-]; left; split; [reflexivity|discriminate]].
  destruct (u_groups st !! grp) as [gl|]; [|intros [= <- <-]; left; split; [reflexivity|discriminate]]. destruct (h_groups _ !! gl) as [g|]; [|discriminate].
  destruct (u_check_attrs g grp attrs); [intros [= <- <-]; left; split; [reflexivity|discriminate]|]. rewrite rbind_ok. intros ([hp' e'] & H & [= <- <-]).
  right. exists l, hp'. split; [reflexivity|split; [exact H|reflexivity]].
Qed.
Lemma lock_same hp l b hp' : role_set_lock hp l b = Ok hp' ->
  (forall l id, has_id hp' l id <-> has_id hp l id) /\ (forall l id, f_desc hp' l id = f_desc hp l id) /\ (forall l id, f_perms hp' l id = f_perms hp l id) /\ h_groups hp' = h_groups hp.
Proof.
  unfold role_set_lock. destruct (h_roles hp !! l) as [r|] eqn:E; [|discriminate]. intros [= <-]. split; [|split; [|split]].
  - apply (set_role_id hp l r _ E). reflexivity.
  - apply (set_role_desc hp l r _ E). reflexivity.
  - apply (set_role_perms hp l r _ E). reflexivity.
  - reflexivity.
Qed.
Lemma descend_same hp l ds hp' e : role_add_descendant hp l ds = Ok (hp', e) -> (forall l id, f_perms hp' l id = f_perms hp l id) /\ h_groups hp' = h_groups hp.
Proof.
  unfold role_add_descendant. destruct (h_roles hp !! l) as [r|] eqn:E; [|discriminate]. destruct (r_lock r); [intros [= <- _]; split; reflexivity|].
  rewrite rbind_ok. intros (desc & _ & [= <- _]). split; [|reflexivity]. apply (set_role_perms hp l r _ E). reflexivity.
Qed.
Lemma step_roles o h st x st' y : ustep o st x = Ok (st', y) -> tells_roles h (u_heap st) -> tells_roles ((x, y) :: h) (u_heap st').
Proof.
  intros H T. pose proof (step_apart _ _ _ _ _ H) as F.
  assert (Q : forall hp', (forall id, x <> UNewRole id) -> (forall l ds, x <> URoleAddDescendent l ds) -> (forall l id, has_id hp' l id <-> has_id (u_heap st) l id) ->
    (forall l id, f_desc hp' l id = f_desc (u_heap st) l id) -> tells_roles ((x, y) :: h) hp').
  { intros hp' N1 N2 E1 E2. apply (roles_quiet h (u_heap st)); [apply named_skip; exact N1|apply subs_skip; intros l ds [= E _]; exact (N2 _ _ E)|exact E1|exact E2|exact T]. }
  destruct x; try (rewrite (ap_heap _ _ _ _ _ _ _ _ _ F eq_refl); apply Q; [discriminate|discriminate|intros; reflexivity|intros; reflexivity]); clear F;
    cbn [ustep] in H; unfold uret_heap in H; rewrite ?rbind_ok in H.
  - injection H as <- <-. apply roles_new. exact T.
  - injection H as <- <-. apply Q; [discriminate|discriminate|intros; reflexivity|intros; reflexivity].
  - destruct H as (hp & H & [= <- <-]). unfold add_attributes in H. destruct (h_groups _ !! g); [|discriminate]. injection H as <-. apply Q; [discriminate|discriminate|intros; reflexivity|intros; reflexivity].
  - destruct H as (hp & H & [= <- <-]). destruct (lock_same _ _ _ _ H) as (E1 & E2 & _). apply Q; [discriminate|discriminate|exact E1|exact E2].
  - destruct H as (hp & H & [= <- <-]). destruct (lock_same _ _ _ _ H) as (E1 & E2 & _). apply Q; [discriminate|discriminate|exact E1|exact E2].
  - destruct H as ([hp e] & H & [= <- <-]). exact (roles_desc _ _ _ _ _ _ H T).
  - destruct H as ([hp e] & H & [= <- <-]). destruct (permission_roles _ _ _ _ _ _ H) as (E1 & E2 & _). apply Q; [discriminate|discriminate|exact E1|exact E2].
  - destruct H as ([hp e] & H & [= <- <-]). destruct (hand_roles _ _ _ _ _ H) as (E1 & E2 & _). apply Q; [discriminate|discriminate|exact E1|exact E2].
  - destruct H as ([s1 e] & H & [= <- <-]). cbn [fst snd] in *. destruct (permissions_to_role _ _ _ _ _ _ H) as [[E _]|(l & hp' & _ & H' & E)].
    + rewrite E. apply Q; [discriminate|discriminate|intros; reflexivity|intros; reflexivity].
    + rewrite E. destruct (permission_roles _ _ _ _ _ _ H') as (E1 & E2 & _). apply Q; [discriminate|discriminate|exact E1|exact E2].
Qed.
Lemma step_groups o h st x st' y : tells h st -> groups_made ((x, y) :: h) -> ustep o st x = Ok (st', y) -> tells_groups ((x, y) :: h) (u_heap st').
Proof.
  intros T0 GM H. pose proof (step_apart _ _ _ _ _ H) as F. pose proof (tl_groups _ _ T0) as T. pose proof (uwf_heap _ (tl_wf _ _ T0)) as W.
  assert (Q : forall hp', (forall id, x <> UNewGroup id) -> (forall gl at', x <> UGroupAdd gl at') -> (forall l grp attrs, ~ accepts h (x, y) l grp attrs) ->
    (forall l gl, (x, y) <> (URoleAddGroup l gl, YErr None)) -> (forall l grp, f_perms hp' l grp = f_perms (u_heap st) l grp) -> h_groups hp' = h_groups (u_heap st) ->
    tells_groups ((x, y) :: h) hp').
  { intros hp' N1 N2 N3 N4 E1 E2. apply (groups_quiet h (u_heap st)); [apply groups_skip; exact N1|apply adds_skip; exact N2|apply stores_skip; assumption|apply given_skip; exact N3|exact E1| | |exact T].
    - intros gl g Hg. exists g. rewrite E2. split; [exact Hg|reflexivity].
    - intros gl k. unfold g_has. rewrite E2. reflexivity. }
  destruct x; try (rewrite (ap_heap _ _ _ _ _ _ _ _ _ F eq_refl); apply Q; [discriminate|discriminate|intros l0 grp0 attrs0 [?|(r0 & ? & _)]; discriminate|discriminate|intros; reflexivity|reflexivity]); clear F;
    cbn [ustep] in H; unfold uret_heap in H; rewrite ?rbind_ok in H.
  - injection H as <- <-. apply Q; [discriminate|discriminate|intros l0 grp0 attrs0 [?|(r0 & ? & _)]; discriminate|discriminate|intros; apply new_perms|reflexivity].
  - injection H as <- <-. apply groups_new; assumption.
  - destruct H as (hp & H & [= <- <-]). destruct GM as [M _]. exact (groups_add _ _ _ _ _ M H T).
  - destruct H as (hp & H & [= <- <-]). destruct (lock_same _ _ _ _ H) as (_ & _ & E1 & E2). apply Q; [discriminate|discriminate|intros l0 grp0 attrs0 [?|(r0 & ? & _)]; discriminate|discriminate|exact E1|exact E2].
  - destruct H as (hp & H & [= <- <-]). destruct (lock_same _ _ _ _ H) as (_ & _ & E1 & E2). apply Q; [discriminate|discriminate|intros l0 grp0 attrs0 [?|(r0 & ? & _)]; discriminate|discriminate|exact E1|exact E2].
  - destruct H as ([hp e] & H & [= <- <-]). destruct (descend_same _ _ _ _ _ H) as (E1 & E2). apply Q; [discriminate|discriminate|intros l0 grp0 attrs0 [?|(r0 & ? & _)]; discriminate|discriminate|exact E1|exact E2].
  - destruct H as ([hp [e|]] & H & [= <- <-]).
    + destruct (permission_roles _ _ _ _ _ _ H) as (_ & _ & E). cbn [u_heap uw_heap fst snd]. rewrite E by discriminate.
      apply Q; [discriminate|discriminate|intros l0 grp0 attrs0 [?|(r0 & ? & _)]; discriminate|discriminate|intros; reflexivity|reflexivity].
    + apply (groups_permission h (u_heap st) _ r grp attrs); [exact W| |discriminate|discriminate|discriminate|exact H|exact T].
      intros l' grp' attrs'. split.
      * intros [[= -> -> ->]|(r0 & ? & _)]; [split; [reflexivity|split; reflexivity]|discriminate].
      * intros (-> & -> & ->). left. reflexivity.
  - destruct H as ([hp [e|]] & H & [= <- <-]).
    + destruct (hand_roles _ _ _ _ _ H) as (_ & _ & E). cbn [u_heap uw_heap fst snd]. rewrite E by discriminate.
      apply Q; [discriminate|discriminate|intros l0 grp0 attrs0 [?|(r0 & ? & _)]; discriminate|discriminate|intros; reflexivity|reflexivity].
    + destruct GM as [M _]. exact (groups_hand _ _ _ _ _ M H T).
  - destruct H as ([s1 e] & H & [= <- <-]). cbn [fst snd] in *. destruct (permissions_to_role _ _ _ _ _ _ H) as [[E N]|(l & hp' & Hr & H' & E)]; rewrite E.
    + apply Q; [discriminate|discriminate| |discriminate|intros; reflexivity|reflexivity]. intros l0 grp0 attrs0 [?|(r0 & [= _ _ _ E0] & _)]; [discriminate|exact (N E0)].
    + destruct e as [e|].
      * destruct (permission_roles _ _ _ _ _ _ H') as (_ & _ & E1). rewrite E1 by discriminate.
        apply Q; [discriminate|discriminate|intros l0 grp0 attrs0 [?|(r0 & ? & _)]; discriminate|discriminate|intros; reflexivity|reflexivity].
      * apply (groups_permission h (u_heap st) _ l g attrs); [exact W| |discriminate|discriminate|discriminate|exact H'|exact T].
        intros l' grp' attrs'. split.
        -- intros [?|(r0 & [= -> -> ->] & Hr0)]; [discriminate|]. apply (tl_rreg _ _ T0) in Hr0. split; [congruence|split; reflexivity].
        -- intros (-> & -> & ->). right. exists r. split; [reflexivity|]. apply (tl_rreg _ _ T0). exact Hr.
Qed.

(** ** Every call *)
Lemma cons_iff {A} (a b : A) l : a ∈ b :: l <-> a = b \/ a ∈ l.
Proof. apply elem_of_cons. Qed.
Lemma tells_step o h st x st' y : tells h st -> plain_names x -> groups_made ((x, y) :: h) -> ustep o st x = Ok (st', y) -> tells ((x, y) :: h) st'.
Proof.
  intros T P GM H. pose proof (tl_wf _ _ T) as W. pose proof (step_rows _ _ _ _ _ _ T H) as GR.
  assert (SR : forall l id, role_named h l id <-> has_id (u_heap st) l id) by apply (tl_roles _ _ T).
  split.
  - exact (proj1 (step_good _ _ _ _ _ H W)).
  - exact (step_roles _ _ _ _ _ _ H (tl_roles _ _ T)).
  - exact (step_groups _ _ _ _ _ _ T GM H).
  - intros t id. rewrite (step_tname _ _ _ _ _ t id H), <- (tl_tname _ _ T). apply cons_iff.
  - intros t id. rewrite (step_nname _ _ _ _ _ t id H), <- (tl_nname _ _ T). apply cons_iff.
  - intros id. apply (first_entry _ _ _ (u_reg st !! id) _ (fun t => x = UAddTenant t /\ t_ids st !! t = Some id)).
    + intros t. apply (tl_reg _ _ T).
    + intros t. cbn [fst]. rewrite (tl_tname _ _ T). reflexivity.
    + intros t. exact (step_reg _ _ _ _ _ id t H).
  - intros id. apply (first_entry _ _ _ (u_roles st !! id) _ (fun l => x = UAddRole l /\ has_id (u_heap st) l id)).
    + intros t. apply (tl_rreg _ _ T).
    + intros t. cbn [fst]. rewrite SR. reflexivity.
    + intros t. exact (step_rreg _ _ _ _ _ id t H).
  - intros p. rewrite called_cons, (step_prin _ _ _ _ _ p H), (tl_prin _ _ T). split; (intros [E|E]; [left; exact (eq_sym E)|right; exact E]).
  - intros t n. apply (first_entry _ _ _ (f_ns st t n) _ (fun l => exists ls, x = UTAddNamespace t ls /\ first_in (fun l' => n_ids st !! l' = Some n) ls l)).
    + intros l. apply (tl_ns _ _ T).
    + intros l. cbn [fst]. split; intros (ls & E & l1 & l2 & E1 & Ha & Hb); exists ls; (split; [exact E|]); exists l1, l2; (split; [exact E1|]);
        (split; [apply (tl_nname _ _ T); exact Ha|]); (eapply Forall_impl; [exact Hb|]); intros b N Hn; apply N, (tl_nname _ _ T), Hn.
    + intros l. exact (step_ns _ _ _ _ _ t n l H).
  - intros t l.
    assert (DO : default_of ((x, y) :: h) t l <-> (exists n, x = UTSetDefault t n /\ ns_in h t n l) \/ (forall b, ~ exists n, x = UTSetDefault t n /\ ns_in h t n b) /\ default_of h t l) by reflexivity.
    rewrite DO, (step_def _ _ _ _ _ t H). clear DO.
    destruct x; try (rewrite (tl_def _ _ T); split; [intros [(n9 & ? & _)|[_ Hd]]; [discriminate|exact Hd]|intros Hd; right; split; [intros b (n9 & ? & _); discriminate|exact Hd]]).
    case_decide as D.
    + subst t0. destruct (f_ns st t ns) as [l0|] eqn:E.
      * split.
        -- intros [(n & [= <-] & Hn)|[N _]]; [apply (tl_ns _ _ T) in Hn; congruence|]. destruct (N l0). exists ns. split; [reflexivity|apply (tl_ns _ _ T); exact E].
        -- intros [= <-]. left. exists ns. split; [reflexivity|apply (tl_ns _ _ T); exact E].
      * rewrite <- (tl_def _ _ T). split.
        -- intros [(n & [= <-] & Hn)|[_ Hd]]; [apply (tl_ns _ _ T) in Hn; congruence|exact Hd].
        -- intros Hd. right. split; [|exact Hd]. intros b (n & [= <-] & Hn). apply (tl_ns _ _ T) in Hn. congruence.
    + rewrite <- (tl_def _ _ T). split.
      * intros [(n & [= ? _] & _)|[_ Hd]]; [contradiction|exact Hd].
      * intros Hd. right. split; [|exact Hd]. intros b (n & [= ? _] & _). contradiction.
  - intros t r. rewrite (step_troles _ _ _ _ _ t r H), <- (tl_trole _ _ T). unfold role_in at 1. cbn [ever fst]. fold (role_in h t r). split.
    + intros [(ls & l & E & Hl & Hr)|Hi]; [right; exists ls, l; split; [exact E|split; [exact Hl|apply SR; exact Hr]]|left; exact Hi].
    + intros [Hi|(ls & l & E & Hl & Hr)]; [right; exact Hi|left; exists ls, l; split; [exact E|split; [exact Hl|apply SR; exact Hr]]].
  - intros t s. rewrite (step_tscopes _ _ _ _ _ t s H), <- (tl_tscope _ _ T). unfold scope_in. split.
    + intros (ss & Hc & Hs). apply called_cons in Hc as [E|Hc]; [right; exists ss; split; [exact (eq_sym E)|exact Hs]|left; exists ss; split; assumption].
    + intros [(ss & Hc & Hs)|(ss & E & Hs)]; exists ss; (split; [apply called_cons|exact Hs]); [right; exact Hc|left; exact (eq_sym E)].
  - intros l s. rewrite (step_nscopes _ _ _ _ _ l s W H), <- (tl_nscope _ _ T). unfold ns_scope at 1. cbn [ever fst]. fold (ns_scope h l s).
    etransitivity; [apply Logic.or_comm|]. apply or_iff_compat_l. destruct x; try reflexivity.
    + rewrite (tl_def _ _ T). reflexivity.
    + rewrite (tl_ns _ _ T). apply and_iff_compat_l. apply reached_ext. intros z. apply (tl_tscope _ _ T).
  - intros l r. rewrite (step_nroles _ _ _ _ _ l r W H), <- (tl_nrole _ _ T). unfold ns_role at 1. cbn [ever fst]. fold (ns_role h l r).
    etransitivity; [apply Logic.or_comm|]. apply or_iff_compat_l. destruct x; try reflexivity.
    + rewrite (tl_ns _ _ T). apply and_iff_compat_l. apply reached_ext. intros z. apply (tl_trole _ _ T).
    + apply and_iff_compat_l. split; intros (z & Hz & Hr); exists z; (split; [exact Hz|apply SR; exact Hr]).
  - intros s. rewrite (GR s), (tl_rows _ _ T s). cbn [row_made fst]. split.
    + intros [(row & Hm & E)|(row & Hm & E)]; exists row; (split; [|exact E]); [left; exact Hm|right; exact Hm].
    + intros (row & [Hm|Hm] & E); [left|right]; exists row; (split; [exact Hm|exact E]).
  - intros row [Hm|Hm]; [exact (tl_clean _ _ T _ Hm)|exact (assigns_clean _ _ _ _ T P Hm)].
  - intros t id Hn. apply cons_iff in Hn as [[= <- _]|Hn]; [exact P|exact (tl_tclean _ _ T _ _ Hn)].
  - intros t id Hn. apply cons_iff in Hn as [[= <- _]|Hn]; [exact P|exact (tl_nclean _ _ T _ _ Hn)].
  - intros t id Hn. apply cons_iff in Hn as [[= <- _]|Hn]; [exact P|exact (tl_rclean _ _ T _ _ Hn)].
  - intros t s (ss & Hc & Hs). apply called_cons in Hc as [<-|Hc]; [|apply (tl_sclean _ _ T t); exists ss; split; assumption].
    cbn [plain_names] in P. rewrite Forall_forall in P. exact (P _ Hs).
Qed.
Lemma tells_start : tells [] u_init.
Proof.
  split.
  - exact u_wf_init.
  - exact roles_start.
  - exact groups_start.
  - intros t id. split; [intros N; destruct (not_elem_of_nil _ N)|discriminate].
  - intros t id. split; [intros N; destruct (not_elem_of_nil _ N)|discriminate].
  - intros id t. split; [intros []|]. cbn. rewrite lookup_empty. discriminate.
  - intros id t. split; [intros []|]. cbn. rewrite lookup_empty. discriminate.
  - intros p. split; [intros N; destruct (not_elem_of_nil _ N)|]. cbn. intros N. destruct (not_elem_of_empty _ N).
  - intros t n l. split; [intros []|discriminate].
  - intros t l. split; [intros []|discriminate].
  - intros t r. split; [intros []|]. intros N. destruct (not_elem_of_empty _ N).
  - intros t r. split; [intros (ss & N & _); destruct (not_elem_of_nil _ N)|]. intros N. destruct (not_elem_of_empty _ N).
  - intros t r. split; [intros []|]. intros N. destruct (not_elem_of_empty _ N).
  - intros t r. split; [intros []|]. intros N. destruct (not_elem_of_empty _ N).
  - intros s. split; [intros N; destruct (not_elem_of_empty _ N)|]. intros (row & [] & _).
  - intros row [].
  - intros t id N. destruct (not_elem_of_nil _ N).
  - intros t id N. destruct (not_elem_of_nil _ N).
  - intros t id N. destruct (not_elem_of_nil _ N).
  - intros t s (ss & N & _). destruct (not_elem_of_nil _ N).
Qed.
Lemma tells_run o i st h ops st' outs : urun o i st ops = Ok (st', outs) -> Forall plain_names ops -> groups_made (log_of ops outs ++ h) -> tells h st ->
  tells (log_of ops outs ++ h) st'.
Proof.
  revert i st h outs. induction ops as [|x ops IH]; intros i st h outs H P GM T; cbn [urun] in H.
  - injection H as <- <-. exact T.
  - rewrite rbind_ok in H. destruct H as ([s1 y] & H1 & H). rewrite rbind_ok in H. destruct H as ([s2 ys] & H2 & [= <- <-]). cbn [fst snd] in *.
    inversion P as [|? ? Px Ps]; subst.
    assert (E : log_of (x :: ops) (y :: ys) ++ h = log_of ops ys ++ (x, y) :: h).
    { unfold log_of. cbn [zip zip_with]. rewrite reverse_cons, <- app_assoc. reflexivity. }
    rewrite E in *. apply (IH _ _ _ _ H2 Ps GM). apply (tells_step _ _ _ _ _ _ T Px (always_app _ _ _ GM) H1).
Qed.
Lemma tells_all o ops st outs : urun o 0 u_init ops = Ok (st, outs) -> Forall plain_names ops -> groups_made (log_of ops outs) -> tells (log_of ops outs) st.
Proof.
  intros H P GM. pose proof (tells_run o 0 u_init [] ops st outs H P) as L. rewrite app_nil_r in L. exact (L GM tells_start).
Qed.
