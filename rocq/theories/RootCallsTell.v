(** The state of a root manager told from the calls made. *)
From Verif Require Import NameProofs TenProofs.
From Verif Require V1CallsStep.
From Verif Require Export RootCallsParts.
From Verif Require Import RootCallsSpec.

Record tells (h : log) (st : state) : Prop := {
  tl_reach : reachable st;
  tl_heap : tells_heap h (s_heap st);
  tl_tname : forall t id, tenant_named h t id <-> f_id st t = Some id;
  tl_reg : forall id t, tenant_at h id t <-> m_tenants st !! id = Some t;
  tl_rreg : forall id l, role_at h id l <-> m_roles st !! id = Some l;
  tl_ns : forall n, called h (OAddNamespace n) <-> n ∈ m_namespaces st;
  tl_sc : forall n, called h (OAddScope n) <-> n ∈ m_scopes st;
  tl_pr : forall n, called h (OAddPrincipal n) <-> n ∈ m_principals st;
  tl_link : forall t k d, sub_named h t k d <-> f_link st t k = Some d;
  tl_def : forall t n, default_of h t n <-> f_default st t = Some n;
  tl_rows : forall d, stored st d -> row_made h d;
  tl_cache : forall p U u, m_cache st !! p = Some U -> u ∈ U -> reaches h p u
}.
Lemma tl_rname h st : tells h st -> forall l id, role_named h l id <-> has_id (s_heap st) l id.
Proof. intros T l id. rewrite role_v1. apply (V1CallsRole.th_role _ _ (proj1 (tl_heap _ _ T))). Qed.

(** ** Rows *)
Lemma no_rows st st' : m_trie st' = m_trie st -> rows_added st [] st'.
Proof. intros E d. unfold stored. rewrite E. split; [intros H; right; split; [exact H|intros d' N; destruct (not_elem_of_nil _ N)]|]. intros [N|[H _]]; [destruct (not_elem_of_nil _ N)|exact H]. Qed.
Lemma adds_ok st new r st' : adds st new r -> r = Ok st' -> rows_added st new st'.
Proof. intros (s1 & -> & _ & A) [= <-]. exact A. Qed.
(** The elements accepted are those reached. *)
Lemma accepted_are_reached {A} (P : A -> Prop) xs done e : Forall P done -> (xs = done /\ e = None \/ exists a (rest : list A), xs = done ++ a :: rest /\ ~ P a /\ e <> (None : goerr)) ->
  forall a, a ∈ done <-> reached P xs a.
Proof.
  intros F H a.
  assert (L : forall rest, (forall b, head rest = Some b -> ~ P b) -> a ∈ done <-> reached P (done ++ rest) a).
  { clear H. intros rest. revert F. induction done as [|b done IH]; intros F Hn; cbn [app].
    - split; [intros N; destruct (not_elem_of_nil _ N)|]. destruct rest as [|b rest]; intros Hr; [destruct (V1CallsStep.reached_nil _ _ Hr)|]. apply V1CallsStep.reached_cons in Hr as [Hb _]. destruct (Hn b eq_refl Hb).
    - inversion F as [|? ? Hb F']; subst. rewrite elem_of_cons, V1CallsStep.reached_cons, (IH F' Hn). tauto. }
  destruct H as [[-> _]|(b & rest & -> & N & _)].
  - rewrite <- (app_nil_r done) at 2. apply L. discriminate.
  - apply L. intros c [= <-]. exact N.
Qed.
Lemma default_dec h st t c v : tells h st -> s_tenants st !! t = Some c -> whole_or_default h t v <-> v = ANil \/ exists n, t_default c = Some n /\ v = AStr n.
Proof.
  intros T Hc. unfold whole_or_default. apply or_iff_compat_l. assert (E : f_default st t = t_default c) by (unfold f_default; rewrite Hc; reflexivity). rewrite <- E.
  split; intros (n & H1 & H2); exists n; (split; [|]); try assumption; apply (tl_def _ _ T); assumption.
Qed.
Lemma named_at h st t c id : tells h st -> s_tenants st !! t = Some c -> tenant_named h t id <-> id = t_id c.
Proof. intros T Hc. rewrite (tl_tname _ _ T). unfold f_id. rewrite Hc. cbn. split; [intros [= <-]; reflexivity|intros ->; reflexivity]. Qed.
Lemma role_rows_in h st t c p md r d : tells h st -> s_tenants st !! t = Some c -> d ∈ role_rows c p md r <-> exists n, whole_or_default h t n /\ d = Data (AStr (t_id c)) n ANil (AStr p) (AStr r) (ABool md).
Proof.
  intros T Hc. unfold role_rows. rewrite elem_of_cons. destruct (t_default c) as [m|] eqn:E; split.
  - intros [->| ->%elem_of_list_singleton]; [exists ANil; split; [left; reflexivity|reflexivity]|]. exists (AStr m). split; [apply (default_dec _ _ _ _ _ T Hc); right; exists m; split; [exact E|reflexivity]|reflexivity].
  - intros (n & Hn & ->). apply (default_dec _ _ _ _ _ T Hc) in Hn as [->|(m' & E' & ->)]; [left; reflexivity|right]. apply elem_of_list_singleton. congruence.
  - intros [->|N]; [exists ANil; split; [left; reflexivity|reflexivity]|destruct (not_elem_of_nil _ N)].
  - intros (n & Hn & ->). apply (default_dec _ _ _ _ _ T Hc) in Hn as [->|(m' & E' & ->)]; [left; reflexivity|]. congruence.
Qed.
Lemma scope_rows_in h st t c p md s d : tells h st -> s_tenants st !! t = Some c -> d ∈ scope_rows c p md s <-> exists n, whole_or_default h t n /\ d = Data (AStr (t_id c)) n (AStr s) (AStr p) ANil (ABool md).
Proof.
  intros T Hc. unfold scope_rows. rewrite elem_of_cons. destruct (t_default c) as [m|] eqn:E; split.
  - intros [->| ->%elem_of_list_singleton]; [exists ANil; split; [left; reflexivity|reflexivity]|]. exists (AStr m). split; [apply (default_dec _ _ _ _ _ T Hc); right; exists m; split; [exact E|reflexivity]|reflexivity].
  - intros (n & Hn & ->). apply (default_dec _ _ _ _ _ T Hc) in Hn as [->|(m' & E' & ->)]; [left; reflexivity|right]. apply elem_of_list_singleton. congruence.
  - intros [->|N]; [exists ANil; split; [left; reflexivity|reflexivity]|destruct (not_elem_of_nil _ N)].
  - intros (n & Hn & ->). apply (default_dec _ _ _ _ _ T Hc) in Hn as [->|(m' & E' & ->)]; [left; reflexivity|]. congruence.
Qed.
Lemma reached_in {A} (P : A -> Prop) l a : reached P l a -> a ∈ l.
Proof. intros (l1 & l2 & -> & _ & _). apply elem_of_app. right. left. Qed.
Lemma role_name_at st r ro : h_roles (s_heap st) !! r = Some ro -> role_name st r = r_id ro.
Proof. intros E. unfold role_name. rewrite E. reflexivity. Qed.
Lemma step_stores o h st x st' y : tells h st -> step o st x = Ok (st', y) -> exists new, rows_added st new st' /\ forall d, d ∈ new <-> stores h x d.
Proof.
  intros T H. pose proof (tl_reach _ _ T) as R.
  assert (Q : m_trie st' = m_trie st -> (forall d, ~ stores h x d) -> exists new, rows_added st new st' /\ forall d, d ∈ new <-> stores h x d).
  { intros E N. exists []. split; [apply no_rows; exact E|]. intros d. split; [intros Hd; destruct (not_elem_of_nil _ Hd)|intros Hd; destruct (N _ Hd)]. }
  assert (M : forall t, ~ has_manager st t -> step o st x = Ok (st', y) -> match x with
    | OTenantAddScopesToNamespace t' _ _ | OTenantSetDefault t' _ | OTenantAddPrincipalInNamespace t' _ _ _ => t' <> t
    | OTenantAddNamespaces t' ns => t' = t -> ns = []
    | OTenantAddRoles t' rs => t' = t -> rs = []
    | OTenantAddScopes t' ss => t' = t -> ss = []
    | OTenantAddPrincipal t' _ _ rs => t' = t -> rs = []
    | OTenantAssignScopes t' _ _ ss => t' = t -> ss = []
    | _ => True
    end).
  { clear H Q. intros t Hn H. pose proof (c97_no_manager o st t x Hn) as P. destruct x; try exact I; intros E.
    all: try (rewrite (P E) in H; discriminate).
    all: match goal with |- ?l = [] => destruct l; [reflexivity|]; rewrite P in H; [discriminate|split; [exact E|discriminate]] end. }
  pose proof (step_form _ _ _ _ _ H) as F.
  destruct x; try (apply Q; [cbn [form] in F; first [destruct F as (? & ->); reflexivity|destruct F as (? & ? & ->); reflexivity]|intros d []]); clear F; cbn [step] in H.
  - injection H as <- <-. exists [d]. split; [exact (adds_ok _ _ _ _ (c97_add_data st d R) eq_refl)|]. intros d'. apply elem_of_list_singleton.
  - destruct (managed_dec st t) as [(c & Hc & Hm)|Hn].
    + apply rbind_ok in H as (s1 & H & [= <- <-]). eexists. split; [exact (adds_ok _ _ _ _ (c97_namespaces st t c ns R Hc Hm) H)|]. intros d. cbn [stores]. rewrite elem_of_list_fmap. split.
      * intros (n & -> & Hn). exists (t_id c), n. split; [apply (named_at _ _ _ _ _ T Hc); reflexivity|]. split; [exact Hn|reflexivity].
      * intros (id & n & Hi & Hn & ->). apply (named_at _ _ _ _ _ T Hc) in Hi as ->. exists n. split; [reflexivity|exact Hn].
    + pose proof (M t Hn H eq_refl) as ->. cbn in H. injection H as <- <-. apply Q; [reflexivity|]. intros d (id & n & _ & Hn' & _). destruct (not_elem_of_nil _ Hn').
  - apply rbind_ok in H as (s1 & H & [= <- <-]). destruct (descendants_spec _ _ _ _ R H) as [[-> ->]|(c & Hc & Hex & A & _)].
    { apply Q; [reflexivity|]. intros d (l & id & n & Hl & _). destruct (not_elem_of_nil _ Hl). }
    exists (passed_rows st (t_default c) ds). split; [exact A|]. intros d. cbn [stores]. split.
    + unfold passed_rows. destruct (t_default c) as [m|] eqn:Em; [|intros N; destruct (not_elem_of_nil _ N)]. intros (l & Hl & Hd)%elem_of_list_omap.
      destruct (s_tenants st !! l) as [x|] eqn:Ex; [|discriminate]. injection Hd as <-. exists l, (t_id x), m. split; [exact Hl|]. split; [apply (named_at _ _ _ _ _ T Ex); reflexivity|].
      split; [apply (tl_def _ _ T); unfold f_default; rewrite Hc; exact Em|reflexivity].
    + intros (l & id & n & Hl & Hi & Hd & ->). apply (tl_def _ _ T) in Hd. unfold f_default in Hd. rewrite Hc in Hd. cbn [mbind option_bind] in Hd. rewrite Hd. unfold passed_rows.
      apply elem_of_list_omap. exists l. split; [exact Hl|]. apply (tl_tname _ _ T) in Hi. unfold f_id in Hi. destruct (s_tenants st !! l) as [x|]; [|discriminate]. cbn in Hi. injection Hi as <-. reflexivity.
  - destruct (managed_dec st t) as [(c & Hc & Hm)|Hn]; [|destruct (M t Hn H eq_refl)]. apply rbind_ok in H as (s1 & H & [= <- <-]).
    eexists. split; [exact (adds_ok _ _ _ _ (c97_scopes_to_namespace st t c n s R Hc Hm) H)|]. intros d. cbn [stores]. rewrite elem_of_list_singleton. split.
    + intros ->. exists (t_id c). split; [apply (named_at _ _ _ _ _ T Hc); reflexivity|reflexivity].
    + intros (id & Hi & ->). apply (named_at _ _ _ _ _ T Hc) in Hi as ->. reflexivity.
  - destruct (managed_dec st t) as [(c & Hc & Hm)|Hn]; [|destruct (M t Hn H eq_refl)]. apply rbind_ok in H as (s1 & H & [= <- <-]).
    eexists. split; [exact (adds_ok _ _ _ _ (c97_member st t c u n r R Hc Hm) H)|]. intros d. cbn [stores]. rewrite elem_of_list_singleton. split.
    + intros ->. exists (t_id c). split; [apply (named_at _ _ _ _ _ T Hc); reflexivity|reflexivity].
    + intros (id & Hi & ->). apply (named_at _ _ _ _ _ T Hc) in Hi as ->. reflexivity.
  - destruct (managed_dec st t) as [(c & Hc & Hm)|Hn].
    + apply rbind_ok in H as (s1 & H & [= <- <-]).
      assert (Hr : forall r, r ∈ rs -> is_Some (h_roles (s_heap st) !! r)).
      { clear -H. unfold tenant_add_roles in H. revert st H. induction rs as [|a rs IH]; intros st H r Hr; [destruct (not_elem_of_nil _ Hr)|]. cbn [repeat_op] in H. apply rbind_ok in H as (s2 & H2 & H).
        unfold tenant_add_role in H2. apply rbind_ok in H2 as (c & _ & H2). destruct (h_roles (s_heap st) !! a) as [ro|] eqn:Er; [|discriminate]. injection H2 as <-.
        apply elem_of_cons in Hr as [->|Hr]; [exists ro; exact Er|]. exact (IH _ H _ Hr). }
      assert (F2 : Forall2 (fun r id => r_id <$> h_roles (s_heap st) !! r = Some id) rs (role_name st <$> rs)).
      { apply Forall2_fmap_r, Forall_Forall2_diag, Forall_forall. intros r Hi. destruct (Hr r Hi) as [ro E]. unfold compose. rewrite (role_name_at _ _ _ E), E. reflexivity. }
      eexists. split; [exact (adds_ok _ _ _ _ (c97_roles st t c rs _ R Hc Hm F2) H)|]. intros d. cbn [stores]. rewrite elem_of_list_fmap. split.
      * intros (n & -> & (r & -> & Hi)%elem_of_list_fmap). exists (t_id c), r, (role_name st r). split; [apply (named_at _ _ _ _ _ T Hc); reflexivity|]. split; [exact Hi|]. split; [|reflexivity].
        apply (tl_rname _ _ T). destruct (Hr r Hi) as [ro E]. exists ro. split; [exact E|]. rewrite (role_name_at _ _ _ E). reflexivity.
      * intros (id & l & r & Hi & Hl & Hn & ->). apply (named_at _ _ _ _ _ T Hc) in Hi as ->. exists r. split; [reflexivity|]. apply elem_of_list_fmap. exists l. split; [|exact Hl].
        apply (tl_rname _ _ T) in Hn as (ro & E & <-). rewrite (role_name_at _ _ _ E). reflexivity.
    + pose proof (M t Hn H eq_refl) as ->. cbn in H. injection H as <- <-. apply Q; [reflexivity|]. intros d (id & l & r & _ & Hl & _). destruct (not_elem_of_nil _ Hl).
  - destruct (managed_dec st t) as [(c & Hc & Hm)|Hn].
    + apply rbind_ok in H as (s1 & H & [= <- <-]). eexists. split; [exact (adds_ok _ _ _ _ (c97_scopes st t c ss R Hc Hm) H)|]. intros d. cbn [stores]. rewrite elem_of_list_fmap. split.
      * intros (n & -> & Hn). exists (t_id c), n. split; [apply (named_at _ _ _ _ _ T Hc); reflexivity|]. split; [exact Hn|reflexivity].
      * intros (id & n & Hi & Hn & ->). apply (named_at _ _ _ _ _ T Hc) in Hi as ->. exists n. split; [reflexivity|exact Hn].
    + pose proof (M t Hn H eq_refl) as ->. cbn in H. injection H as <- <-. apply Q; [reflexivity|]. intros d (id & n & _ & Hn' & _). destruct (not_elem_of_nil _ Hn').
  - destruct (managed_dec st t) as [(c & Hc & Hm)|Hn].
    + apply rbind_ok in H as ([s1 e] & H & [= <- <-]). destruct (c97_add_principal st t c p md rs R Hc Hm) as (don & e' & H' & A & F & D). rewrite H in H'. injection H' as <-. cbn [fst snd] in *.
      exists (don ≫= role_rows c p md). split; [exact (adds_ok _ _ _ _ A eq_refl)|]. intros d. cbn [stores].
      pose proof (accepted_are_reached _ _ _ _ F D) as AR. rewrite elem_of_list_bind. split.
      * intros (r & Hd & Hr). apply (role_rows_in _ _ _ _ _ _ _ _ T Hc) in Hd as (n & Hn & ->). apply AR in Hr as (l1 & l2 & E & F1 & [Hp Hr]).
        exists (t_id c), n, r. split; [apply (named_at _ _ _ _ _ T Hc); reflexivity|]. split; [exact Hn|]. split; [apply (tl_pr _ _ T); exact Hp|]. split; [|reflexivity].
        exists l1, l2. split; [exact E|]. split; [|destruct Hr as [l Hr]; exists l; apply (tl_rreg _ _ T); exact Hr].
        eapply Forall_impl; [exact F1|]. intros b [_ [l Hl]]. exists l. apply (tl_rreg _ _ T). exact Hl.
      * intros (id & n & r & Hi & Hn & Hp & (l1 & l2 & E & F1 & Hr) & ->). apply (named_at _ _ _ _ _ T Hc) in Hi as ->. exists r. split; [apply (role_rows_in _ _ _ _ _ _ _ _ T Hc); exists n; split; [exact Hn|reflexivity]|].
        apply (tl_pr _ _ T) in Hp. apply AR. exists l1, l2. split; [exact E|]. split; [|split; [exact Hp|destruct Hr as [l Hr]; exists l; apply (tl_rreg _ _ T); exact Hr]].
        eapply Forall_impl; [exact F1|]. intros b [l Hl]. split; [exact Hp|exists l; apply (tl_rreg _ _ T); exact Hl].
    + pose proof (M t Hn H eq_refl) as ->. cbn in H. injection H as <- <-. apply Q; [reflexivity|]. intros d (id & n & r & _ & _ & _ & Hr & _). destruct (V1CallsStep.reached_nil _ _ Hr).
  - destruct (managed_dec st t) as [(c & Hc & Hm)|Hn].
    + apply rbind_ok in H as ([s1 e] & H & [= <- <-]). destruct (c97_assign_scopes st t c p md ss R Hc Hm) as (don & e' & H' & A & F & D). rewrite H in H'. injection H' as <-. cbn [fst snd] in *.
      exists (don ≫= scope_rows c p md). split; [exact (adds_ok _ _ _ _ A eq_refl)|]. intros d. cbn [stores].
      pose proof (accepted_are_reached _ _ _ _ F D) as AR. rewrite elem_of_list_bind. split.
      * intros (r & Hd & Hr). apply (scope_rows_in _ _ _ _ _ _ _ _ T Hc) in Hd as (n & Hn & ->). apply AR in Hr as (l1 & l2 & E & F1 & [Hp Hr]).
        exists (t_id c), n, r. split; [apply (named_at _ _ _ _ _ T Hc); reflexivity|]. split; [exact Hn|]. split; [apply (tl_pr _ _ T); exact Hp|]. split; [|reflexivity].
        exists l1, l2. split; [exact E|]. split; [|apply (tl_sc _ _ T); exact Hr].
        eapply Forall_impl; [exact F1|]. intros b [_ Hl]. apply (tl_sc _ _ T). exact Hl.
      * intros (id & n & r & Hi & Hn & Hp & (l1 & l2 & E & F1 & Hr) & ->). apply (named_at _ _ _ _ _ T Hc) in Hi as ->. exists r. split; [apply (scope_rows_in _ _ _ _ _ _ _ _ T Hc); exists n; split; [exact Hn|reflexivity]|].
        apply (tl_pr _ _ T) in Hp. apply AR. exists l1, l2. split; [exact E|]. split; [|split; [exact Hp|apply (tl_sc _ _ T); exact Hr]].
        eapply Forall_impl; [exact F1|]. intros b Hl. split; [exact Hp|apply (tl_sc _ _ T); exact Hl].
    + pose proof (M t Hn H eq_refl) as ->. cbn in H. injection H as <- <-. apply Q; [reflexivity|]. intros d (id & n & r & _ & _ & _ & Hr & _). destruct (V1CallsStep.reached_nil _ _ Hr).
Qed.

(** ** What has been told stays so *)
Lemma tc_impl {A} (R S : A -> A -> Prop) x y : (forall a b, R a b -> S a b) -> tc R x y -> tc S x y.
Proof. intros H T. induction T as [a b E|a b c E _ IH]; [apply tc_once, H, E|eapply tc_l; [apply H; exact E|exact IH]]. Qed.
Lemma reaches_more e h p u : reaches h p u -> reaches (e :: h) p u.
Proof.
  assert (M : forall d, row_made h d -> row_made (e :: h) d) by (intros d Hd; right; exact Hd).
  intros [(d & Hd & H)|(t0 & (d & Hd & H) & l & m & Hl & Hm & Hi)]; [left; exists d; split; [exact (M d Hd)|exact H]|right]. exists t0.
  split; [exists d; split; [exact (M d Hd)|exact H]|]. exists l, m. split; [left; exact Hl|]. split.
  - revert Hm. apply tc_impl. intros a b (k & Hk). exists k. left. exact Hk.
  - right. exact Hi.
Qed.
Section told.
  Context (h : log) (st : state) (T : tells h st).
  Lemma told_link a b : tenant_edge st a b <-> sub_tenant h a b.
  Proof.
    unfold sub_tenant. etransitivity; [apply tenant_edge_desc|]. split.
    - intros (c & k & Hc & Hk). exists k. apply (tl_link _ _ T). unfold f_link. rewrite Hc. exact Hk.
    - intros (k & Hk). apply (tl_link _ _ T) in Hk. unfold f_link in Hk. destruct (s_tenants st !! a) as [c|]; [|discriminate]. exists c, k. split; [reflexivity|exact Hk].
  Qed.
  Lemma told_name m d : tenant_id_at st m d <-> tenant_named h m d.
  Proof.
    rewrite (tl_tname _ _ T). unfold tenant_id_at, f_id. split.
    - intros (c & Hc & <-). rewrite Hc. reflexivity.
    - intros H. destruct (s_tenants st !! m) as [c|]; [|discriminate]. exists c. split; [reflexivity|]. cbn in H. congruence.
  Qed.
  Lemma told_below t d : RootSpec.below st t d <-> below h t d.
  Proof.
    unfold RootSpec.below, below. split; intros (l & m & Hl & Hm & Hi); exists l, m; (split; [apply (tl_reg _ _ T); exact Hl|]); (split; [|apply told_name; exact Hi]);
      revert Hm; apply tc_impl; intros a b E; apply told_link; exact E.
  Qed.
  Lemma told_own p t : RootSpec.own st p t -> own h p t.
  Proof. intros (d & Hd & H). exists d. split; [apply (tl_rows _ _ T); exact Hd|exact H]. Qed.
  Lemma told_manages p t : RootSpec.manages st p t -> manages h p t.
  Proof. intros (d & Hd & H). exists d. split; [apply (tl_rows _ _ T); exact Hd|exact H]. Qed.
  Lemma told_implicit o p st' U u : get_implicit_tenants o st p = Ok (st', U) -> u ∈ U -> reaches h p u.
  Proof.
    intros H Hu. destruct (m_cache st !! p) as [U0|] eqn:E.
    - pose proof H as H0. unfold get_implicit_tenants in H0. rewrite E in H0. injection H0 as _ <-. exact (tl_cache _ _ T _ _ _ E Hu).
    - destruct (reachable_hierarchy st (tl_reach _ _ T)) as [W Hs]. destruct (implicit_bounds _ _ _ _ _ W Hs E H) as [_ B].
      destruct (B u Hu) as [Ho|(t0 & Hm & Hb)]; [left; apply told_own; exact Ho|right]. exists t0. split; [apply told_manages; exact Hm|apply told_below; exact Hb].
  Qed.
End told.

(** ** The cache of implicit tenants *)
Lemma implicit_cache o st p st' U : get_implicit_tenants o st p = Ok (st', U) -> forall p' U', m_cache st' !! p' = Some U' -> m_cache st !! p' = Some U' \/ p' = p /\ U' = U.
Proof.
  unfold get_implicit_tenants. destruct (m_cache st !! p) as [U0|] eqn:E; [intros [= <- <-] p' U' H'; left; exact H'|].
  intros H p' U' H'. apply rbind_ok in H as ([s1 U1] & H & [= <- <-]). apply grows_implicit_loop in H as [_ Hc]. cbn [fst snd] in *. cbn [with_cache m_cache] in H'. rewrite Hc in H'.
  destruct (decide (p' = p)) as [D|D].
  - subst p'. rewrite lookup_insert in H'. injection H' as <-. right. split; reflexivity.
  - rewrite lookup_insert_ne in H' by (intros E0; exact (D (eq_sym E0))). left. exact H'.
Qed.
Lemma authorize_asks o st p q st' b : authorize o st p q = Ok (st', b) -> st' = st \/ exists U, get_implicit_tenants (sub o 0) st p = Ok (st', U).
Proof.
  unfold authorize. destruct (negb _); [intros [= <- _]; left; reflexivity|]. intros H. apply rbind_ok in H as ([s1 U] & H1 & H). right. exists U. cbn [fst snd] in H.
  assert (E : st' = s1); [|subst s1; exact H1]. case_bool_decide; [injection H as <- _; reflexivity|]. apply rbind_ok in H as (v & _ & H). destruct (negb v); [injection H as <- _; reflexivity|].
  apply rbind_ok in H as (b1 & _ & H). destruct b1; [injection H as <- _; reflexivity|]. apply rbind_ok in H as (b2 & _ & [= <- _]). reflexivity.
Qed.
Lemma step_cache o st x st' y p U : step o st x = Ok (st', y) -> m_cache st' !! p = Some U -> m_cache st !! p = Some U \/ exists o' st1, get_implicit_tenants o' st p = Ok (st1, U).
Proof.
  intros H HU. pose proof (step_form _ _ _ _ _ H) as F.
  destruct x; try (left; assert (E : m_cache st' = m_cache st) by (cbn [form] in F; first [destruct F as (? & ->); reflexivity|destruct F as (? & ? & ->); reflexivity]); rewrite <- E; exact HU); clear F; cbn [step] in H.
  - apply rbind_ok in H as ([s1 ds] & H & [= <- <-]). apply tenant_children_cache in H. left. cbn [fst] in HU. rewrite <- H. exact HU.
  - apply rbind_ok in H as ([s1 U1] & H & [= <- <-]). cbn [fst] in HU. destruct (implicit_cache _ _ _ _ _ H _ _ HU) as [E|[-> ->]]; [left; exact E|right]. exists o, s1. exact H.
  - apply rbind_ok in H as ([s1 b] & H & [= <- <-]). cbn [fst] in HU. destruct (authorize_asks _ _ _ _ _ _ H) as [->|(U1 & H1)]; [left; exact HU|].
    destruct (implicit_cache _ _ _ _ _ H1 _ _ HU) as [E|[-> ->]]; [left; exact E|right]. eexists _, _. exact H1.
Qed.

(** ** Every call *)
Lemma called_cons x y h z : called ((x, y) :: h) z <-> z = x \/ called h z.
Proof. unfold called. cbn [fmap list_fmap fst]. apply elem_of_cons. Qed.
Lemma cons_iff {A} (a b : A) l : a ∈ b :: l <-> a = b \/ a ∈ l.
Proof. apply elem_of_cons. Qed.
Lemma first_in_ext {A} (P Q : A -> Prop) l a : (forall x, P x <-> Q x) -> first_in P l a <-> first_in Q l a.
Proof. apply first_in_iff. Qed.
Lemma tells_step o h st x st' y : tells h st -> groups_made ((x, y) :: h) -> step o st x = Ok (st', y) -> reachable st' -> tells ((x, y) :: h) st'.
Proof.
  intros T GM H R'. pose proof (tl_reach _ _ T) as R. pose proof (proj1 (reachable_hierarchy st R)) as W.
  pose proof (step_stores _ _ _ _ _ _ T H) as (new & A & SN).
  split.
  - exact R'.
  - split; [exact (step_heap_roles _ _ _ _ _ _ H (proj1 (tl_heap _ _ T)))|].
    exact (step_heap_groups _ _ _ _ _ _ H (wf_roles_heap _ W) (tl_rreg _ _ T) GM (proj2 (tl_heap _ _ T))).
  - intros t id. rewrite (step_tid _ _ _ _ _ t id R H), <- (tl_tname _ _ T). apply cons_iff.
  - intros id. apply (first_entry _ _ _ (m_tenants st !! id) _ (fun t => x = OAddTenant t /\ f_id st t = Some id)).
    + intros t. apply (tl_reg _ _ T).
    + intros t. cbn [fst]. rewrite (tl_tname _ _ T). reflexivity.
    + intros t. exact (step_mtenants _ _ _ _ _ id t H).
  - intros id. apply (first_entry _ _ _ (m_roles st !! id) _ (fun l => x = OAddRole l /\ has_id (s_heap st) l id)).
    + intros t. apply (tl_rreg _ _ T).
    + intros t. cbn [fst]. rewrite (tl_rname _ _ T). reflexivity.
    + intros t. exact (step_mroles _ _ _ _ _ id t H).
  - intros n. rewrite called_cons, (step_namespaces _ _ _ _ _ n H), (tl_ns _ _ T). split; (intros [E|E]; [left; exact (eq_sym E)|right; exact E]).
  - intros n. rewrite called_cons, (step_scopes _ _ _ _ _ n H), (tl_sc _ _ T). split; (intros [E|E]; [left; exact (eq_sym E)|right; exact E]).
  - intros n. rewrite called_cons, (step_principals _ _ _ _ _ n H), (tl_pr _ _ T). split; (intros [E|E]; [left; exact (eq_sym E)|right; exact E]).
  - intros t k. apply (first_entry _ _ _ (f_link st t k) _ (fun d => exists ds, x = OTenantAddDescendant t ds /\ first_in (fun l => f_id st l = Some k) ds d)).
    + intros d. apply (tl_link _ _ T).
    + intros d. cbn [fst]. split; intros (ds & E & Hd); exists ds; (split; [exact E|]); revert Hd; apply first_in_iff; intros l; [symmetry|]; apply (tl_tname _ _ T).
    + intros d. exact (step_link _ _ _ _ _ t k d R H).
  - intros t n. rewrite (step_default _ _ _ _ _ t n R H). cbn [default_of fst]. rewrite (tl_def _ _ T t n).
    assert (NW : forall m, (x = OTenantSetDefault t m /\ called h (OAddNamespace m) \/ exists t' ds, x = OTenantAddDescendant t' ds /\ t ∈ ds /\ default_of h t' m)
      <-> (x = OTenantSetDefault t m /\ m ∈ m_namespaces st \/ exists t' ds, x = OTenantAddDescendant t' ds /\ t ∈ ds /\ f_default st t' = Some m)).
    { intros m. rewrite (tl_ns _ _ T m). apply or_iff_compat_l. split; intros (t' & ds & E & Ht & Hd); exists t', ds; (split; [exact E|]); (split; [exact Ht|]); apply (tl_def _ _ T); exact Hd. }
    rewrite (NW n). apply or_iff_compat_l, and_iff_compat_r. split; intros N m Hm; apply (N m), NW, Hm.
  - intros d Hd. apply A in Hd as [Hd|[Hd _]]; [left; apply SN; exact Hd|right; exact (tl_rows _ _ T _ Hd)].
  - intros p U u HU Hu. apply reaches_more. destruct (step_cache _ _ _ _ _ _ _ H HU) as [E|(o' & s1 & E)]; [exact (tl_cache _ _ T _ _ _ E Hu)|exact (told_implicit _ _ T _ _ _ _ _ E Hu)].
Qed.
Lemma tells_start : tells [] init_state.
Proof.
  split.
  - exists id_oracle, [], []. reflexivity.
  - split; [exact V1CallsRole.roles_start|exact V1CallsRole.groups_start].
  - intros t id. split; [intros N; destruct (not_elem_of_nil _ N)|discriminate].
  - intros id t. split; [intros []|]. cbn. rewrite lookup_empty. discriminate.
  - intros id t. split; [intros []|]. cbn. rewrite lookup_empty. discriminate.
  - intros n. split; [intros N; destruct (not_elem_of_nil _ N)|]. cbn. intros N. destruct (not_elem_of_empty _ N).
  - intros n. split; [intros N; destruct (not_elem_of_nil _ N)|]. cbn. intros N. destruct (not_elem_of_empty _ N).
  - intros n. split; [intros N; destruct (not_elem_of_nil _ N)|]. cbn. intros N. destruct (not_elem_of_empty _ N).
  - intros t n l. split; [intros []|discriminate].
  - intros t l. split; [intros []|discriminate].
  - intros d Hd. destruct (not_elem_of_nil _ Hd).
  - intros p U u HU. cbn in HU. rewrite lookup_empty in HU. discriminate.
Qed.
