(** Proofs about root decisions beside new rows. *)
From Verif Require Export RootCor3 ImplicitProofs AuthProofs RDecSpec.

(** ** If nobody adds anything *)
Lemma sub_undisturbed (o : oracle) (st : state) (k : nat) : sub_found (undisturbed o st) k = undisturbed (sub o k) st.
Proof. reflexivity. Qed.
Lemma undisturbed_collect (o : oracle) (st : state) (p : string) (q : opts) (f : shape) :
  w_collect (undisturbed o st) p q f =
    match f with
    | FT => collect_roles o st p (o_tenant q)
    | FTN => collect_roles_tn o st p (o_tenant q) (o_namespace q)
    | FTS => collect_roles_ts o st p (o_tenant q) (o_scope q)
    | FNS => collect_roles_ns o st p (o_namespace q) (o_scope q)
    | FTNS => collect_roles_tns o st p (o_tenant q) (o_namespace q) (o_scope q)
    | FNone => Ok ([], [])
    end.
Proof.
  destruct f; try reflexivity. cbn. unfold w_roles_ns, collect_roles_ns. change (w_tenants (sub_found (undisturbed o st) 0) (AStr p)) with (get_tenants (sub o 0) st (AStr p)).
  generalize 1. induction (get_tenants (sub o 0) st (AStr p)) as [|t ts IH]; intros i; [reflexivity|]. cbn.
  rewrite IH. reflexivity.
Qed.
Lemma undisturbed_one (o : oracle) (st st1 : state) (na : bool) (p : string) (q : opts) (f : shape) : m_trie st1 = m_trie st ->
  w_one o (undisturbed o st) st1 na p q f = authorize_one o st1 na p q f.
Proof.
  intros E. assert (U : forall o, undisturbed o st = undisturbed o st1) by (intros; unfold undisturbed; rewrite E; reflexivity).
  rewrite U. unfold w_one, authorize_one. destruct na.
  - destruct f; reflexivity.
  - unfold w_activity, check_activity. rewrite sub_undisturbed, undisturbed_collect. reflexivity.
Qed.
Lemma undisturbed_loop (st st1 : state) (na : bool) (p : string) (f : shape) (ts : list string) : m_trie st1 = m_trie st -> forall o i q,
  w_tenant_loop o (undisturbed o st) i st1 na p q f ts = tenant_loop o i st1 na p q f ts.
Proof.
  intros E. induction ts as [|t ts IH]; intros o i q; [reflexivity|]. cbn [w_tenant_loop tenant_loop].
  rewrite sub_undisturbed, (undisturbed_one (sub o i) st st1 na p _ f E), !IH. reflexivity.
Qed.
Lemma same_trie (st st' : state) : same_but_caches st st' -> m_trie st' = m_trie st.
Proof. intros (hi & ca & ->). reflexivity. Qed.
Lemma undisturbed_authorize (o : oracle) (st : state) (p : string) (q : opts) :
  w_root_authorize o (undisturbed o st) st p q = authorize o st p q.
Proof.
  unfold w_root_authorize, authorize. destruct (negb (bool_decide (p ∈ m_principals st))); [reflexivity|].
  change (w_implicit (sub o 0) (sub_found (undisturbed o st) 0) st p) with (get_implicit_tenants (sub o 0) st p).
  destruct (get_implicit_tenants (sub o 0) st p) as [[st1 U]| |] eqn:E; [|reflexivity..]. cbn [rbind fst snd].
  pose proof (same_trie st st1 (implicit_same _ _ _ _ _ E)) as Ht.
  destruct (bool_decide (U = ∅)); [reflexivity|]. destruct (validate_resources st1 q) as [v| |]; [|reflexivity..]. cbn [rbind].
  destruct (negb v); [reflexivity|]. rewrite !sub_undisturbed, (undisturbed_one _ st st1 _ p q _ Ht).
  rewrite (undisturbed_loop st st1 _ p _ _ Ht). reflexivity.
Qed.

(** ** The checks, between the rows of [lo] and those of [hi] *)
Definition within (lo hi : state) (w : found) : Prop :=
  forall a cb d, (stored lo d -> cb d = true -> d ∈ w a cb) /\ (d ∈ w a cb -> stored hi d /\ cb d = true).
Lemma within_sub (lo hi : state) (w : found) (k : nat) : within lo hi w -> within lo hi (sub_found w k).
Proof. intros H a cb d. apply H. Qed.
(** [hi] has the registries and roles of [lo]. *)
Definition same_roles (lo hi : state) : Prop := m_roles hi = m_roles lo /\ s_heap hi = s_heap lo.

Section checks.
  Context (lo hi : state).

  Lemma w_up (w : found) (f : data) (ff : data -> data -> bool) (d : data) : within lo hi w -> d ∈ w_search w f ff -> stored hi d /\ ff f d = true.
  Proof. intros H. apply H. Qed.
  Lemma w_down (w : found) (f : data) (ff : data -> data -> bool) (d : data) : within lo hi w -> stored lo d -> ff f d = true -> d ∈ w_search w f ff.
  Proof. intros H. apply H. Qed.

  Lemma w_tbp (w : found) (p : string) (x : any) : within lo hi w ->
    (x ∈ w_tenants_by_principal w (AStr p) -> exists d, stored hi d /\ principal d = AStr p /\ tenant d <> ANil /\ x = tenant d)
    /\ (forall d, stored lo d -> principal d = AStr p -> tenant d <> ANil -> tenant d ∈ w_tenants_by_principal w (AStr p)).
  Proof.
    intros H. unfold w_tenants_by_principal. split.
    - rewrite elem_of_compact, elem_of_list_fmap. intros (d & -> & Hd). apply (w_up w) in Hd as [Hs Hf]; [|exact H].
      apply filter_tenants_spec in Hf as (Hp & _ & Ht). exists d. split_and!; [exact Hs|exact Hp|exact Ht|reflexivity].
    - intros d Hs Hp Ht. rewrite elem_of_compact, elem_of_list_fmap. exists d. split; [reflexivity|]. apply (w_down w); [exact H|exact Hs|].
      apply filter_tenants_spec. split_and!; [exact Hp|rewrite Hp; discriminate|exact Ht].
  Qed.
  Lemma w_tn (w : found) (p : string) (d : data) : within lo hi w ->
    (d ∈ w_tenants w (AStr p) -> stored hi d /\ principal d = AStr p /\ tenant d <> ANil)
    /\ (stored lo d -> principal d = AStr p -> tenant d <> ANil -> d ∈ w_tenants w (AStr p)).
  Proof.
    intros H. unfold w_tenants. split.
    - intros Hd. apply (w_up w) in Hd as [Hs Hf]; [|exact H]. apply filter_tenants_spec in Hf as (Hp & _ & Ht). split_and!; assumption.
    - intros Hs Hp Ht. apply (w_down w); [exact H|exact Hs|]. apply filter_tenants_spec. split_and!; [exact Hp|rewrite Hp; discriminate|exact Ht].
  Qed.

  Lemma w_no_activity_between (w : found) (p : string) (q : opts) (f : shape) :
    within lo hi w -> (f = FNS \/ f = FTNS -> o_namespace q <> ANil) ->
    (w_no_activity w p q f = true -> grants_membership hi p q f) /\ (grants_membership lo p q f -> w_no_activity w p q f = true).
  Proof.
    intros H Hn. destruct f; cbn [w_no_activity grants_membership].
    - split.
      + rewrite contains_spec. intros Hi. apply (w_tbp w p (o_tenant q) H) in Hi as (d & Hs & Hp & Ht & E). exists d. rewrite E. split_and!; [assumption..|reflexivity|exact Ht].
      + intros (d & Hs & Hp & E & Ht). rewrite contains_spec, <- E. apply (w_tbp w p ANil H); assumption.
    - unfold get_namespace_ids. rewrite contains_ids. split.
      + intros (d & Hd & E). apply (w_up w) in Hd as [Hs Hf]; [|exact H]. apply ns_filter_spec in Hf as (H1 & H2 & H3 & H4).
        exists d. split_and!; [exact Hs|exact H1|exact H2|symmetry; exact E|exact H3|exact H4].
      + intros (d & Hs & H1 & H2 & E & H3 & H4). exists d. split; [|symmetry; exact E]. apply (w_down w); [exact H|exact Hs|].
        apply ns_filter_spec. split_and!; assumption.
    - unfold get_scope_ids. rewrite contains_ids. split.
      + intros (d & Hd & E). apply (w_up w) in Hd as [Hs Hf]; [|exact H]. apply scope_filter_spec in Hf as (H1 & H2 & H3 & H4).
        exists d. split_and!; [exact Hs|exact H1|exact H2|symmetry; exact E|exact H3|exact H4].
      + intros (d & Hs & H1 & H2 & E & H3 & H4). exists d. split; [|symmetry; exact E]. apply (w_down w); [exact H|exact Hs|].
        apply scope_filter_spec. split_and!; assumption.
    - unfold get_scope_ids, w_scopes_tn. rewrite contains_ids. assert (Hn' : o_namespace q <> ANil) by (apply Hn; right; reflexivity). split.
      + intros (d & Hd & E). apply (w_up w) in Hd as [Hs Hf]; [|exact H]. apply scope_ns_filter_spec in Hf as (H1 & H2 & H3 & H4); [|exact Hn'].
        exists d. split_and!; [exact Hs|exact H1|exact H2|symmetry; exact E|exact H3|exact H4].
      + intros (d & Hs & H1 & H2 & E & H3 & H4). exists d. split; [|symmetry; exact E]. apply (w_down w); [exact H|exact Hs|].
        apply scope_ns_filter_spec; [exact Hn'|]. split_and!; assumption.
    - unfold get_scope_ids, w_scopes_n. rewrite contains_ids. assert (Hn' : o_namespace q <> ANil) by (apply Hn; left; reflexivity). split.
      + intros (d & Hd & E). apply elem_of_concat in Hd as (l & Hd & Hl). apply elem_of_lookup_imap in Hl as (i & t & -> & Ht).
        apply elem_of_list_lookup_2 in Ht. apply (w_tbp _ p t (within_sub _ _ w 0 H)) in Ht as (d0 & Hs0 & Hp0 & Ht0 & ->).
        apply (w_up (sub_found w (S i))) in Hd as [Hs Hf]; [|apply within_sub; exact H].
        apply scope_ns_filter_spec in Hf as (H1 & H2 & H3 & H4); [|exact Hn'].
        exists d0, d. split_and!; [exact Hs0|exact Hp0|exact Ht0|exact Hs|exact H1|symmetry; exact E|exact H3|exact H4].
      + intros (d0 & d & Hs0 & Hp0 & Ht0 & Hs & H1 & E & H3 & H4). exists d. split; [|symmetry; exact E]. apply elem_of_concat.
        pose proof (proj2 (w_tbp (sub_found w 0) p ANil (within_sub _ _ w 0 H)) d0 Hs0 Hp0 Ht0) as Ht.
        apply elem_of_list_lookup in Ht as [i Hi]. eexists. split; [|apply elem_of_lookup_imap; eexists i, _; split; [reflexivity|exact Hi]].
        apply (w_down (sub_found w (S i))); [apply within_sub; exact H|exact Hs|]. apply scope_ns_filter_spec; [exact Hn'|].
        split_and!; [exact H1|rewrite H1; exact Ht0|exact H3|exact H4].
    - split; [discriminate|intros []].
  Qed.

  Lemma w_no_allowed (w : found) (t : any) : within lo hi w -> w_search w (row_filter t ANil ANil ANil) filter_role_by_tenant = [].
  Proof.
    intros H. destruct (w_search w (row_filter t ANil ANil ANil) filter_role_by_tenant) as [|d l] eqn:E; [reflexivity|].
    assert (Hd : d ∈ w_search w (row_filter t ANil ANil ANil) filter_role_by_tenant) by (rewrite E; left).
    apply (w_up w) in Hd as [_ Hd]; [|exact H]. unfold filter_role_by_tenant in Hd. apply andb_true_iff in Hd as [_ Hd].
    apply match_role_spec in Hd as [H1 H2]. cbn in H2. destruct (H2 H1) || destruct (H1 H2).
  Qed.
  Lemma role_names_between (w : found) (f : data) (ff : data -> data -> bool) (keep : data -> bool) (l : list string) (P : data -> Prop) :
    within lo hi w -> role_names keep (w_search w f ff) = Ok l ->
    (forall d r, role d = AStr r -> (ff f d = true /\ keep d = true <-> P d)) ->
    (forall r, r ∈ l -> exists d, stored hi d /\ P d /\ role d = AStr r)
    /\ (forall d r, stored lo d -> P d -> role d = AStr r -> r ∈ l).
  Proof.
    intros H Hl HP. split.
    - intros r Hr. apply (role_names_ok _ _ _ Hl) in Hr as (d & Hd & Hk & E). apply (w_up w) in Hd as [Hs Hf]; [|exact H].
      exists d. split_and!; [exact Hs|apply (HP d r E); split; assumption|exact E].
    - intros d r Hs Hd E. apply (role_names_ok _ _ _ Hl). apply (HP d r E) in Hd as [Hf Hk]. exists d.
      split_and!; [apply (w_down w); assumption|exact Hk|exact E].
  Qed.
  Definition tns_row (p : string) (t n s : any) (d : data) : Prop :=
    principal d = AStr p /\ (tenant d = t /\ tenant d <> ANil \/ namespace d = n /\ namespace d <> ANil \/ scope d = s /\ scope d <> ANil)
      /\ unset_or (namespace d) n /\ unset_or (scope d) s.
  Lemma w_roles_tns_between (w : found) (p : string) (t n s : any) (roles allowed : list string) : within lo hi w ->
    w_roles_tns w p t n s = Ok (roles, allowed) ->
    allowed = [] /\ (forall r, r ∈ roles -> exists d, stored hi d /\ tns_row p t n s d /\ role d = AStr r)
      /\ (forall d r, stored lo d -> tns_row p t n s d -> role d = AStr r -> r ∈ roles).
  Proof.
    intros H. unfold w_roles_tns. rewrite w_no_allowed by (apply within_sub; exact H). cbn [role_names rbind].
    rewrite rbind_ok. intros (l & Hl & [= <- <-]). split; [reflexivity|].
    apply (role_names_between (sub_found w 1) _ _ _ _ (tns_row p t n s) (within_sub _ _ w 1 H) Hl).
    intros d r E. rewrite roles_tns_filter, andb_true_iff, !nil_or_spec. unfold tns_row. assert (role d <> ANil) by congruence. tauto.
  Qed.
  Lemma w_collect_between (w : found) (p : string) (q : opts) (f : shape) (roles allowed : list string) : within lo hi w ->
    w_collect w p q f = Ok (roles, allowed) ->
    allowed = [] /\ (forall r, r ∈ roles -> usable_role hi p q f r) /\ (forall r, usable_role lo p q f r -> r ∈ roles).
  Proof.
    intros H. unfold usable_role. destruct f; cbn [w_collect].
    - unfold w_roles. rewrite w_no_allowed by exact H. cbn. intros [= <- <-]. split_and!; [reflexivity| |].
      + intros r Hr. apply elem_of_nil in Hr. contradiction.
      + intros r (t & d & _ & _ & [_ []] & _).
    - unfold w_roles_tn. rewrite w_no_allowed by (apply within_sub; exact H). cbn [role_names rbind].
      rewrite rbind_ok. intros (l & Hl & [= <- <-]). split; [reflexivity|].
      destruct (role_names_between (sub_found w 1) _ _ _ _ (fun d => role_row p (o_tenant q) q FTN d) (within_sub _ _ w 1 H) Hl) as [Hu Hd].
      { intros d r E. rewrite roles_tn_filter, nil_or_spec. unfold role_row. assert (role d <> ANil) by congruence. tauto. }
      split.
      + intros r Hr. destruct (Hu r Hr) as (d & Hs & HP & E). exists (o_tenant q), d. split_and!; [reflexivity|assumption..].
      + intros r (t & d & Ht & Hs & HP & E). cbn in Ht. subst t. exact (Hd d r Hs HP E).
    - unfold w_roles_ts. rewrite w_no_allowed by (apply within_sub; exact H). cbn [role_names rbind].
      rewrite rbind_ok. intros (l & Hl & [= <- <-]). split; [reflexivity|].
      destruct (role_names_between (sub_found w 1) _ _ _ _ (fun d => role_row p (o_tenant q) q FTS d) (within_sub _ _ w 1 H) Hl) as [Hu Hd].
      { intros d r E. rewrite roles_ts_filter, nil_or_spec. unfold role_row. assert (role d <> ANil) by congruence. tauto. }
      split.
      + intros r Hr. destruct (Hu r Hr) as (d & Hs & HP & E). exists (o_tenant q), d. split_and!; [reflexivity|assumption..].
      + intros r (t & d & Ht & Hs & HP & E). cbn in Ht. subst t. exact (Hd d r Hs HP E).
    - intros Hc. destruct (w_roles_tns_between w _ _ _ _ _ _ H Hc) as (-> & Hu & Hd). split; [reflexivity|]. split.
      + intros r Hr. destruct (Hu r Hr) as (d & Hs & HP & E). exists (o_tenant q), d. split_and!; [reflexivity|exact Hs| |exact E].
        split; [congruence|exact HP].
      + intros r (t & d & Ht & Hs & [_ HP] & E). cbn in Ht. subst t. exact (Hd d r Hs HP E).
    - unfold w_roles_ns. intros Hc.
      assert (G : forall ts i roles allowed, w_roles_ns_loop w i p (o_namespace q) (o_scope q) ts = Ok (roles, allowed) ->
        allowed = [] /\ (forall r, r ∈ roles -> exists d0 d, d0 ∈ ts /\ stored hi d /\ tns_row p (tenant d0) (o_namespace q) (o_scope q) d /\ role d = AStr r)
        /\ (forall d0 d r, d0 ∈ ts -> stored lo d -> tns_row p (tenant d0) (o_namespace q) (o_scope q) d -> role d = AStr r -> r ∈ roles)).
      { clear roles allowed Hc. induction ts as [|t ts IH]; intros i roles allowed; cbn [w_roles_ns_loop].
        - intros [= <- <-]. split_and!; [reflexivity| |].
          + intros r Hr. apply elem_of_nil in Hr. contradiction.
          + intros d0 d r Hr. apply elem_of_nil in Hr. contradiction.
        - rewrite rbind_ok. intros ([r1 a1] & H1 & H2). apply rbind_ok in H2 as ([r2 a2] & H2 & [= <- <-]). cbn [fst snd].
          apply w_roles_tns_between in H1 as (-> & U1 & D1); [|apply within_sub; exact H]. destruct (IH (S i) r2 a2 H2) as (-> & U2 & D2). split_and!; [reflexivity| |].
          + intros r Hr. apply elem_of_app in Hr as [Hr|Hr].
            * destruct (U1 r Hr) as (d & Hd). exists t, d. split; [left|exact Hd].
            * destruct (U2 r Hr) as (d0 & d & H0 & Hd). exists d0, d. split; [right; exact H0|exact Hd].
          + intros d0 d r Hi Hs HP E. apply elem_of_app. apply elem_of_cons in Hi as [->|Hi]; [left; exact (D1 d r Hs HP E)|right; exact (D2 d0 d r Hi Hs HP E)]. }
      destruct (G _ _ _ _ Hc) as (-> & U & D). split_and!; [reflexivity| |].
      + intros r Hr. destruct (U r Hr) as (d0 & d & H0 & Hs & HP & E). apply (w_tn (sub_found w 0) p d0 (within_sub _ _ w 0 H)) in H0 as (S0 & P0 & T0).
        exists (tenant d0), d. split_and!; [exists d0; split_and!; [assumption..|reflexivity]|exact Hs| |exact E]. split; [congruence|exact HP].
      + intros r (t & d & (d0 & S0 & P0 & T0 & ->) & Hs & [_ HP] & E). apply (D d0 d r); [|exact Hs|exact HP|exact E].
        apply (w_tn (sub_found w 0) p d0 (within_sub _ _ w 0 H)); assumption.
    - intros [= <- <-]. split_and!; [reflexivity| |].
      + intros r Hr. apply elem_of_nil in Hr. contradiction.
      + intros r (t & d & _ & _ & [_ []] & _).
  Qed.

  Context (st1 : state) (Hlo : same_roles lo st1) (Hhi : same_roles hi st1).
  Lemma usable_grants (st : state) (p : string) (q : opts) (f : shape) (g a r : string) (l : nat) : same_roles st st1 ->
    usable_role st p q f r -> o_group q = AStr g -> o_activity q = AStr a -> m_roles st1 !! r = Some l -> permits (s_heap st1) l g a [] ->
    grants_activity st p q f.
  Proof.
    intros [-> ->] (t & d & Ht & Hs & Hr & E) Hg Ha Hl Hp. exists g, a, t, d, r, l. split_and!; assumption.
  Qed.
  Lemma w_activity_between (o : oracle) (w : found) (p : string) (q : opts) (f : shape) (b : bool) : within lo hi w ->
    w_activity o w st1 p q f = Ok b -> asks_activity q ->
    (b = true -> grants_activity hi p q f) /\ (grants_activity lo p q f -> b = true).
  Proof.
    intros H Hb [Hg Ha]. unfold w_activity in Hb. apply is_nil_false in Hg. apply is_nil_false in Ha. rewrite Hg, Ha in Hb.
    apply rbind_ok in Hb as ([roles allowed] & Hc & Hb). apply w_collect_between in Hc as (-> & Hu & Hd); [|apply within_sub; exact H].
    cbn [fst snd] in Hb.
    assert (K : b = true <-> exists g a r l, o_group q = AStr g /\ o_activity q = AStr a /\ r ∈ roles /\ m_roles st1 !! r = Some l /\ permits (s_heap st1) l g a []).
    { destruct roles as [|r0 roles].
      - injection Hb as <-. split; [discriminate|]. intros (g & a & r & l & _ & _ & Hr & _). apply elem_of_nil in Hr. contradiction.
      - apply any_role_has_ok in Hb. rewrite Hb. setoid_rewrite elem_of_compact_adjacent. reflexivity. }
    rewrite K. split.
    - intros (g & a & r & l & Eg & Ea & Hr & Hl & Hp). exact (usable_grants hi p q f g a r l Hhi (Hu r Hr) Eg Ea Hl Hp).
    - intros (g & a & t & d & r & l & Eg & Ea & Ht & Hs & Hr & E & Hl & Hp). destruct Hlo as [E1 E2]. rewrite <- E1 in Hl. rewrite <- E2 in Hp.
      exists g, a, r, l. split_and!; [exact Eg|exact Ea| |exact Hl|exact Hp]. apply Hd. exists t, d. split_and!; assumption.
  Qed.
  Lemma w_one_between (o : oracle) (w : found) (p : string) (q : opts) (f : shape) (b : bool) : within lo hi w ->
    (f = FNS \/ f = FTNS -> o_namespace q <> ANil) -> w_one o w st1 (na_flag q) p q f = Ok b ->
    (b = true -> grants hi p q f) /\ (grants lo p q f -> b = true).
  Proof.
    intros H Hn Hb. unfold w_one in Hb. pose proof (na_flag_spec q) as Hq. unfold grants. destruct (na_flag q).
    - injection Hb as <-. destruct (w_no_activity_between w p q f H Hn) as [Hu Hd]. split.
      + intros E. right. split; [exact Hq|exact (Hu E)].
      + intros [[Ha _]|[_ Hm]]; [destruct (Hq Ha)|exact (Hd Hm)].
    - destruct (w_activity_between o w p q f b H Hb Hq) as [Hu Hd]. split.
      + intros E. left. split; [exact Hq|exact (Hu E)].
      + intros [[_ Hm]|[Ha _]]; [exact (Hd Hm)|destruct (Ha Hq)].
  Qed.
  Lemma w_loop_between (o : oracle) (w : found) (p : string) (f : shape) (ts : list string) : within lo hi w -> forall i q b,
    (f = FNS \/ f = FTNS -> o_namespace q <> ANil) -> ~ grants lo p q f ->
    w_tenant_loop o w i st1 (na_flag q) p q f ts = Ok b ->
    (b = true -> exists u, u ∈ ts /\ grants hi p (set_o_tenant q (AStr u)) f)
    /\ ((exists u, u ∈ ts /\ grants lo p (set_o_tenant q (AStr u)) f) -> b = true).
  Proof.
    intros H. induction ts as [|t ts IH]; intros i q b Hn Hno; cbn [w_tenant_loop].
    - intros [= <-]. split; [discriminate|]. intros (u & Hu & _). apply elem_of_nil in Hu. contradiction.
    - unfold any_eq. case_bool_decide as Ht.
      + intros Hb. destruct (IH (S i) q b Hn Hno Hb) as [Hu Hd]. split.
        * intros E. destruct (Hu E) as (u & Hi & Hg). exists u. split; [right; exact Hi|exact Hg].
        * intros (u & Hi & Hg). apply elem_of_cons in Hi as [->|Hi]; [|apply Hd; exists u; split; assumption].
          rewrite <- Ht in Hg. assert (E : set_o_tenant q (o_tenant q) = q) by (destruct q; reflexivity). rewrite E in Hg. destruct (Hno Hg).
      + rewrite rbind_ok. intros (b1 & H1 & Hb).
        change (na_flag q) with (na_flag (set_o_tenant q (AStr t))) in H1, Hb.
        destruct (w_one_between (sub o i) (sub_found w i) p (set_o_tenant q (AStr t)) f b1 (within_sub _ _ w i H) Hn H1) as [Hu1 Hd1]. destruct b1.
        * injection Hb as <-. split; [|reflexivity]. intros _. exists t. split; [left|exact (Hu1 eq_refl)].
        * assert (Hno' : ~ grants lo p (set_o_tenant q (AStr t)) f) by (intros Hg; specialize (Hd1 Hg); discriminate).
          destruct (IH (S i) (set_o_tenant q (AStr t)) b Hn Hno' Hb) as [Hu Hd]. split.
          -- intros E. destruct (Hu E) as (u & Hi & Hg). exists u. split; [right; exact Hi|exact Hg].
          -- intros (u & Hi & Hg). apply elem_of_cons in Hi as [->|Hi]; [destruct (Hno' Hg)|]. apply Hd. exists u. split; assumption.
  Qed.
End checks.

(** ** The whole decision *)
Lemma w_implicit_same (o : oracle) (w : found) (st st' : state) (p : string) (U : gset string) :
  w_implicit o w st p = Ok (st', U) -> same_but_caches st st'.
Proof.
  unfold w_implicit. destruct (m_cache st !! p); [intros [= <- <-]; apply same_but_caches_refl|].
  rewrite rbind_ok. intros ([st1 U'] & H & [= <- <-]). apply implicit_loop_same in H.
  eapply same_but_caches_trans; [exact H|]. eexists (m_hierarchy st1), _. reflexivity.
Qed.
Lemma same_roles_caches (st st' : state) : same_but_caches st st' -> same_roles st st'.
Proof. intros (hi & ca & ->). split; reflexivity. Qed.
Lemma same_roles_rows (st st' : state) (new : list data) : same_roles st st' -> same_roles (with_rows st new) st'.
Proof. rewrite with_rows_eq. intros [E1 E2]. split; [exact E1|exact E2]. Qed.
Lemma valid_request_rows (st : state) (new : list data) (q : opts) : valid_request (with_rows st new) q <-> valid_request st q.
Proof. rewrite with_rows_eq. reflexivity. Qed.
Lemma below_rows (st : state) (new : list data) (t d : string) : below (with_rows st new) t d <-> below st t d.
Proof. rewrite with_rows_eq. reflexivity. Qed.
Lemma principals_rows (st : state) (new : list data) : m_principals (with_rows st new) = m_principals st.
Proof. rewrite with_rows_eq. reflexivity. Qed.
Lemma cache_rows (st : state) (new : list data) : m_cache (with_rows st new) = m_cache st.
Proof. rewrite with_rows_eq. reflexivity. Qed.
Lemma fresh_rows (st : state) (new : list data) : hierarchy_fresh st -> hierarchy_fresh (with_rows st new).
Proof. rewrite with_rows_eq. intros H. exact H. Qed.
Lemma coherent_rows (st : state) (new : list data) : tenants_coherent st -> tenants_coherent (with_rows st new).
Proof. rewrite with_rows_eq. intros H. exact H. Qed.
Lemma sound_rows (st : state) (new : list data) : hierarchy_sound st -> hierarchy_sound (with_rows st new).
Proof. rewrite with_rows_eq. intros H. exact H. Qed.
Lemma wf_rows (st : state) (new : list data) : state_wf st -> state_wf (with_rows st new).
Proof. rewrite with_rows_eq. intros []. split; assumption. Qed.

Lemma w_authorize_ok (o : oracle) (w : found) (st : state) (new : list data) (p : string) (q : opts) (st' : state) (b : bool) :
  within st (with_rows st new) w -> w_root_authorize o w st p q = Ok (st', b) ->
  (b = false /\ p ∉ m_principals st /\ st' = st)
  \/ (p ∈ m_principals st /\ exists U, w_implicit (sub o 0) (sub_found w 0) st p = Ok (st', U)
       /\ (b = true -> authorized (with_rows st new) U p q) /\ (authorized st U p q -> b = true)).
Proof.
  intros Hw. unfold w_root_authorize. case_bool_decide as Hp; cbn [negb].
  2:{ intros [= <- <-]. left. split_and!; [reflexivity|exact Hp|reflexivity]. }
  rewrite rbind_ok. intros ([st1 U] & H1 & H). cbn [fst snd] in H. right. split; [exact Hp|].
  pose proof (same_roles_caches _ _ (w_implicit_same _ _ _ _ _ _ H1)) as Rlo.
  pose proof (same_roles_rows _ _ new Rlo) as Rhi.
  pose proof (valid_request_caches _ _ q (w_implicit_same _ _ _ _ _ _ H1)) as Hval.
  exists U. unfold authorized. rewrite principals_rows, valid_request_rows. case_bool_decide as HU.
  { injection H as <- <-. split_and!; [exact H1|discriminate|]. intros (_ & HU' & _). destruct (HU' HU). }
  apply rbind_ok in H as (v & Hv & H). apply validate_ok in Hv. rewrite Hval in Hv. destruct v; cbn [negb] in H.
  2:{ injection H as <- <-. split_and!; [exact H1|discriminate|]. intros (_ & _ & Hq & _). apply Hv in Hq. exact Hq. }
  assert (Hq : valid_request st q) by (apply Hv; reflexivity). clear Hv Hval.
  fold (na_flag q) in H. apply rbind_ok in H as (b1 & Hb1 & H).
  destruct (w_one_between st (with_rows st new) st1 Rlo Rhi (sub o 1) (sub_found w 1) p q (shape_of q) b1 (within_sub _ _ w 1 Hw) (shape_ns q) Hb1) as [Hu1 Hd1].
  destruct b1.
  { injection H as <- <-. split_and!; [exact H1| |reflexivity]. intros _. split_and!; [exact Hp|exact HU|exact Hq|left; exact (Hu1 eq_refl)]. }
  apply rbind_ok in H as (b2 & Hb2 & [= <- <-]).
  assert (Hno : ~ grants st p q (shape_of q)) by (intros Hg; specialize (Hd1 Hg); discriminate).
  destruct (w_loop_between st (with_rows st new) st1 Rlo Rhi (sub o 2) (sub_found w 2) p (shape_of q) (ordered (sub o 3) (elements U))
    (within_sub _ _ w 2 Hw) 0 q b2 (shape_ns q) Hno Hb2) as [Hu2 Hd2].
  split_and!; [exact H1| |].
  - intros E. split_and!; [exact Hp|exact HU|exact Hq|]. right. destruct (Hu2 E) as (u & Hu & Hg). exists u. split; [|exact Hg].
    apply elem_of_ordered, elem_of_elements in Hu. exact Hu.
  - intros (_ & _ & _ & [Hg|(u & Hu & Hg)]); [destruct (Hno Hg)|]. apply Hd2. exists u. split; [|exact Hg].
    apply elem_of_ordered, elem_of_elements. exact Hu.
Qed.

(** ** From the execution to the two sets of rows *)
Lemma take_all (new : list data) (n : nat) : exists m, m <= length new /\ take n new = take m new.
Proof. destruct (decide (n <= length new)); [exists n; split; [assumption|reflexivity]|exists (length new); split; [lia|rewrite !take_ge by lia; reflexivity]]. Qed.
Lemma beside_within (st : state) (new : list data) (w : found) : keeps_rows st new -> beside st new w -> within st (with_rows st new) w.
Proof.
  intros Hk (from & to & _ & _ & H) a cb d. destruct (H a cb) as (_ & Hd & Hu). split.
  - intros Hs. apply Hd. apply (Hk 0 (from a) d); [lia|exact Hs].
  - intros Hi. destruct (Hu d Hi) as [Hs Hc]. split; [|exact Hc]. destruct (take_all new (to a)) as (m & Hm & E). rewrite E in Hs.
    apply (Hk m (length new) d Hm) in Hs. rewrite take_ge in Hs by lia. exact Hs.
Qed.
Lemma keeps_stored (st : state) (new : list data) (d : data) : keeps_rows st new -> stored st d -> stored (with_rows st new) d.
Proof. intros Hk Hs. apply (Hk 0 (length new) d) in Hs; [|lia]. rewrite take_ge in Hs by lia. exact Hs. Qed.

(** ** More rows and more tenants grant more *)
Lemma grants_more (st : state) (new : list data) (p : string) (q : opts) (f : shape) : keeps_rows st new ->
  grants st p q f -> grants (with_rows st new) p q f.
Proof.
  intros Hk. assert (K : forall d, stored st d -> stored (with_rows st new) d) by (intros d; exact (keeps_stored st new d Hk)).
  unfold grants. intros [[Ha Hg]|[Ha Hg]]; [left|right]; (split; [exact Ha|]).
  - destruct Hg as (g & a & t & d & r & l & Eg & Ea & Ht & Hs & Hr & E & Hl & Hp). exists g, a, t, d, r, l.
    split_and!; [exact Eg|exact Ea| |exact (K d Hs)|exact Hr|exact E| |].
    + destruct f; try exact Ht. destruct Ht as (d0 & S0 & H0). exists d0. split; [exact (K d0 S0)|exact H0].
    + rewrite with_rows_eq. exact Hl.
    + rewrite with_rows_eq. exact Hp.
  - destruct f; cbn in *; try exact Hg.
    1-4: destruct Hg as (d & Hs & Hr); exists d; split; [exact (K d Hs)|exact Hr].
    destruct Hg as (d0 & d & S0 & H1 & H2 & Hs & Hr). exists d0, d. split_and!; [exact (K d0 S0)|exact H1|exact H2|exact (K d Hs)|apply Hr..].
Qed.
Lemma authorized_more (st : state) (U U' : gset string) (p : string) (q : opts) :
  (forall u, u ∈ U -> u ∈ U') -> authorized st U p q -> authorized st U' p q.
Proof.
  intros HU (H1 & H2 & H3 & H4). split_and!; [exact H1| |exact H3|].
  - intros E. apply H2. subst U'. apply set_eq. intros u. split; [apply HU|]. intros Hu. apply elem_of_empty in Hu. contradiction.
  - destruct H4 as [H4|(u & Hu & Hg)]; [left; exact H4|right; exists u; split; [exact (HU u Hu)|exact Hg]].
Qed.

(** ** The tenants found *)
Section implicit.
  Context (st : state) (new : list data) (w : found) (p : string).
  Context (W : state_wf st) (Hs : hierarchy_sound st) (Hw : within st (with_rows st new) w).
  Let rs := w_search (sub_found (sub_found w 0) 0) (row_filter ANil ANil ANil (AStr p)) filter_tenants_by_principal.
  Lemma w_rows_up (d : data) : d ∈ rs -> stored (with_rows st new) d /\ principal d = AStr p /\ tenant d <> ANil.
  Proof. exact (proj1 (w_tn st (with_rows st new) (sub_found (sub_found w 0) 0) p d (within_sub _ _ _ 0 (within_sub _ _ w 0 Hw)))). Qed.
  Lemma w_rows_down (d : data) : stored st d -> principal d = AStr p -> tenant d <> ANil -> d ∈ rs.
  Proof. exact (proj2 (w_tn st (with_rows st new) (sub_found (sub_found w 0) 0) p d (within_sub _ _ _ 0 (within_sub _ _ w 0 Hw)))). Qed.
  Lemma w_own (t : string) : own st p t -> row_tenant rs t.
  Proof. intros (d & H1 & H2 & H3). exists d. split; [|exact H3]. apply w_rows_down; [exact H1|exact H2|rewrite H3; discriminate]. Qed.
  Lemma w_manages (t : string) : manages st p t -> row_manages rs t.
  Proof. intros (d & H1 & H2 & H3 & H4). exists d. split; [|split; [exact H3|exact H4]]. apply w_rows_down; [exact H1|exact H2|rewrite H3; discriminate]. Qed.
  Lemma w_implicit_loop (o : oracle) (st' : state) (U : gset string) : m_cache st !! p = None -> w_implicit o (sub_found w 0) st p = Ok (st', U) ->
    exists st1, implicit_loop o 1 st ∅ rs = Ok (st1, U).
  Proof. intros Hc. unfold w_implicit. rewrite Hc, rbind_ok. intros ([st1 U'] & H & [= <- <-]). exists st1. exact H. Qed.
  Lemma w_implicit_bounds (o : oracle) (st' : state) (U : gset string) : m_cache st !! p = None -> w_implicit o (sub_found w 0) st p = Ok (st', U) ->
    (forall t, own st p t -> t ∈ U) /\ (forall t, t ∈ U -> reaches (with_rows st new) p t).
  Proof.
    intros Hc H. destruct (w_implicit_loop o st' U Hc H) as [st1 Hl]. destruct (implicit_loop_bounds _ _ _ _ _ _ _ W Hs Hl) as (_ & _ & H2 & H3). split.
    - intros t Ht. exact (H2 t (w_own t Ht)).
    - intros t Ht. destruct (H3 t Ht) as [Hx|[(d & Hd & E)|(t0 & (d & Hd & E & Em) & Hb)]].
      + apply elem_of_empty in Hx. contradiction.
      + apply w_rows_up in Hd as (S1 & P1 & _). left. exists d. split_and!; assumption.
      + apply w_rows_up in Hd as (S1 & P1 & _). right. exists t0. split; [exists d; split_and!; assumption|]. apply below_rows. exact Hb.
  Qed.
  Lemma w_implicit_complete (o : oracle) (st' : state) (U : gset string) : m_cache st !! p = None ->
    hierarchy_fresh st -> tenants_coherent st -> flags_agree (with_rows st new) p ->
    w_implicit o (sub_found w 0) st p = Ok (st', U) -> forall t, reaches st p t -> t ∈ U.
  Proof.
    intros Hc Hf Hco Hag H t [Ht|(t0 & Hm & Hb)].
    - exact (proj1 (w_implicit_bounds o st' U Hc H) t Ht).
    - destruct (w_implicit_loop o st' U Hc H) as [st1 Hl].
      eapply (implicit_loop_complete _ _ _ _ [] _ _ _ W Hs Hf Hco); [| | |exact Hl| |exact Hb].
      + cbn [app]. intros d d' Hd Hd'. apply w_rows_up in Hd as (S1 & P1 & _). apply w_rows_up in Hd' as (S2 & P2 & _). exact (Hag d d' S1 S2 P1 P2).
      + intros t1 Ht1. apply elem_of_empty in Ht1. contradiction.
      + intros t1 t2 (d & Hd & _). apply elem_of_nil in Hd. contradiction.
      + cbn [app]. exact (w_manages t0 Hm).
  Qed.
End implicit.

(** ** C94 *)
Lemma c94_cached (st : state) (new : list data) (w : found) (o : oracle) (p : string) (U : gset string) (q : opts) (st' : state) (b : bool) :
  keeps_rows st new -> beside st new w -> m_cache st !! p = Some U -> w_root_authorize o w st p q = Ok (st', b) ->
  (authorized st U p q -> b = true) /\ (b = true -> authorized (with_rows st new) U p q).
Proof.
  intros Hk Hb Hc H. apply (w_authorize_ok o w st new p q st' b (beside_within _ _ _ Hk Hb)) in H as [(-> & Hp & _)|(_ & U' & HU & Hu & Hd)].
  - split; [intros (Hp' & _); destruct (Hp Hp')|discriminate].
  - unfold w_implicit in HU. rewrite Hc in HU. injection HU as _ <-. split; assumption.
Qed.
Lemma c94_no_new_grant (st : state) (new : list data) (w : found) (o : oracle) (p : string) (q : opts) (st' : state) :
  reachable st -> keeps_rows st new -> beside st new w -> m_cache st !! p = None -> w_root_authorize o w st p q = Ok (st', true) ->
  exists U, (forall t, t ∈ U -> reaches (with_rows st new) p t) /\ authorized (with_rows st new) U p q.
Proof.
  intros [W Hs]%reachable_hierarchy Hk Hb Hc H. pose proof (beside_within _ _ _ Hk Hb) as Hw.
  apply (w_authorize_ok o w st new p q st' true Hw) in H as [(E & _)|(_ & U & HU & Hu & _)]; [discriminate|].
  exists U. split; [|exact (Hu eq_refl)]. exact (proj2 (w_implicit_bounds st new w p W Hs Hw (sub o 0) st' U Hc HU)).
Qed.
Lemma c94_own (st : state) (new : list data) (w : found) (o : oracle) (p : string) (U : gset string) (q : opts) (st' : state) (b : bool) :
  reachable st -> keeps_rows st new -> beside st new w -> m_cache st !! p = None -> w_root_authorize o w st p q = Ok (st', b) ->
  (forall t, t ∈ U -> own st p t) -> authorized st U p q -> b = true.
Proof.
  intros [W Hs]%reachable_hierarchy Hk Hb Hc H HU Ha. pose proof (beside_within _ _ _ Hk Hb) as Hw.
  apply (w_authorize_ok o w st new p q st' b Hw) in H as [(_ & Hp & _)|(_ & U' & HU' & _ & Hd)]; [destruct Ha as (Hp' & _); destruct (Hp Hp')|].
  apply Hd. apply (authorized_more st U); [|exact Ha]. intros u Hu. exact (proj1 (w_implicit_bounds st new w p W Hs Hw (sub o 0) st' U' Hc HU') u (HU u Hu)).
Qed.
Lemma seq_cached (st : state) (p : string) (U : gset string) (q : opts) (b : bool) : m_cache st !! p = Some U -> may_answer st p q b -> (b = true <-> authorized st U p q).
Proof.
  intros Hc (o & st' & H). apply authorize_ok in H as [(-> & Hp & _)|(_ & U' & (o' & HU) & Hb)].
  - split; [discriminate|]. intros (Hp' & _). destruct (Hp Hp').
  - rewrite (implicit_cached o' _ _ _ Hc) in HU. injection HU as _ <-. exact Hb.
Qed.
Lemma seq_exact (st : state) (p : string) (q : opts) (b : bool) : state_wf st -> hierarchy_sound st -> hierarchy_fresh st -> tenants_coherent st -> flags_agree st p ->
  m_cache st !! p = None -> may_answer st p q b ->
  exists U, (b = true -> (forall t, t ∈ U <-> reaches st p t) /\ authorized st U p q)
    /\ (forall U', (forall t, t ∈ U' -> reaches st p t) -> authorized st U' p q -> b = true).
Proof.
  intros W Hs Hf Hco Hag Hc (o & st' & H). apply authorize_ok in H as [(-> & Hp & _)|(_ & U & (o' & HU) & Hb)].
  - exists ∅. split; [discriminate|]. intros U' _ (Hp' & _). destruct (Hp Hp').
  - pose proof (implicit_exact o' st p st' U W Hs Hf Hco Hag Hc HU) as HUx. exists U. split.
    + intros E. split; [exact HUx|apply Hb; exact E].
    + intros U' HU' Ha. apply Hb. apply (authorized_more st U'); [|exact Ha]. intros u Hu. apply HUx, HU', Hu.
Qed.
Lemma c94_between (st : state) (new : list data) (w : found) (o : oracle) (p : string) (q : opts) (st' : state) (b b1 b2 : bool) :
  reachable st -> keeps_rows st new -> beside st new w -> settled st new p -> w_root_authorize o w st p q = Ok (st', b) ->
  may_answer st p q b1 -> may_answer (with_rows st new) p q b2 -> (b1 = true -> b = true) /\ (b = true -> b2 = true).
Proof.
  intros [W Hs]%reachable_hierarchy Hk Hb Hset H M1 M2. destruct (m_cache st !! p) as [U|] eqn:Hc.
  - destruct (c94_cached st new w o p U q st' b Hk Hb Hc H) as [Hd Hu].
    pose proof (seq_cached st p U q b1 Hc M1) as E1. rewrite <- (cache_rows st new) in Hc. pose proof (seq_cached _ p U q b2 Hc M2) as E2. tauto.
  - destruct Hset as [Hset|(Hf & Hco & Hag)]; [destruct (Hset Hc)|]. pose proof (beside_within _ _ _ Hk Hb) as Hw.
    assert (Hag1 : flags_agree st p) by (intros d d' S1 S2; apply Hag; apply keeps_stored; assumption).
    destruct (seq_exact st p q b1 W Hs Hf Hco Hag1 Hc M1) as (U1 & E1 & _).
    pose proof Hc as Hc2. rewrite <- (cache_rows st new) in Hc2.
    destruct (seq_exact _ p q b2 (wf_rows st new W) (sound_rows st new Hs) (fresh_rows st new Hf) (coherent_rows st new Hco) Hag Hc2 M2) as (U2 & _ & E2).
    apply (w_authorize_ok o w st new p q st' b Hw) in H as [(-> & Hp & _)|(_ & U & HU & Hu & Hd)].
    + split; [|discriminate]. intros Eb. destruct (E1 Eb) as [_ (Hp' & _)]. destruct (Hp Hp').
    + split.
      * intros Eb. destruct (E1 Eb) as [HU1 Ha]. apply Hd. apply (authorized_more st U1); [|exact Ha]. intros u Hi. apply HU1 in Hi.
        exact (w_implicit_complete st new w p W Hs Hw (sub o 0) st' U Hc Hf Hco Hag HU u Hi).
      * intros Eb. apply (E2 U); [|exact (Hu Eb)]. exact (proj2 (w_implicit_bounds st new w p W Hs Hw (sub o 0) st' U Hc HU)).
Qed.
Lemma c94_moment (st : state) (new : list data) (w : found) (o : oracle) (p : string) (q : opts) (st' : state) (b b1 b2 : bool) :
  reachable st -> keeps_rows st new -> beside st new w -> settled st new p -> w_root_authorize o w st p q = Ok (st', b) ->
  may_answer st p q b1 -> may_answer (with_rows st new) p q b2 -> of_some_moment st new p q b.
Proof.
  intros Hr Hk Hb Hset H M1 M2. destruct (c94_between st new w o p q st' b b1 b2 Hr Hk Hb Hset H M1 M2) as [H1 H2].
  destruct b.
  - rewrite (H2 eq_refl) in M2. exists (length new). split; [lia|]. rewrite take_ge by lia. exact M2.
  - destruct b1; [specialize (H1 eq_refl); discriminate|]. exists 0. split; [lia|]. exact M1.
Qed.
(** The set of tenants found is remembered for good. *)
Lemma c94_locked_out (st : state) (w : found) (o o1 o2 : oracle) (p : string) (q q' : opts) (st' st3 st4 : state) (b b' : bool) (new : list data)
    (i : nat) (ops : list op) (outs : list out) :
  p ∈ m_principals st -> m_cache st !! p = None -> w [0; 0] (filter_tenants_by_principal (row_filter ANil ANil ANil (AStr p))) = [] ->
  w_root_authorize o w st p q = Ok (st', b) -> run o1 i (with_rows st' new) ops = Ok (st3, outs) -> authorize o2 st3 p q' = Ok (st4, b') ->
  b = false /\ b' = false.
Proof.
  intros Hp Hc Hmiss H Hrun Ha.
  assert (E : w_implicit (sub o 0) (sub_found w 0) st p = Ok (with_cache st (<[p := ∅]> (m_cache st)), ∅)).
  { unfold w_implicit. rewrite Hc. unfold w_search, sub_found. rewrite Hmiss. reflexivity. }
  unfold w_root_authorize in H. rewrite bool_decide_true in H by exact Hp. cbn [negb] in H. rewrite E in H. cbn [rbind fst snd] in H.
  rewrite bool_decide_true in H by reflexivity. injection H as <- <-. split; [reflexivity|].
  eapply cached_verdict; [|exact Ha]. apply (gr_cache _ _ (run_grows _ _ _ _ _ _ Hrun)). rewrite with_rows_eq. cbn. apply lookup_insert.
Qed.
