(** More corollaries and witnesses: C15 to C19, C53, C54. *)
From Verif Require Export MatchCor RootCor.

Definition mk_state (ops : list op) : state := ops_state ops.

(** ** C15 *)
Lemma namespace_hole o st p t n g a l d r rl u st' b : reachable st -> m_cache st !! p = None -> own st p u ->
  p ∈ m_principals st -> m_tenants st !! t = Some l -> n ∈ m_namespaces st ->
  stored st d -> namespace d = AStr n -> role d = AStr r -> m_roles st !! r = Some rl -> permits (s_heap st) rl g a [] ->
  authorize o st p (Opts (AStr t) (AStr n) ANil (AStr g) (AStr a)) = Ok (st', b) -> b = true.
Proof.
  intros [W Hs]%reachable_hierarchy Hc Hu Hp Ht Hn Hd Hdn Hdr Hr Hpm H.
  apply authorize_ok in H as [(_ & ? & _)|(_ & U & (o2 & H2) & Hb)]; [done|]. apply Hb. clear Hb.
  destruct (implicit_bounds _ _ _ _ _ W Hs Hc H2) as [B1 _]. specialize (B1 _ Hu).
  split_and!; [done|set_solver| |].
  - split_and!; simpl; [right; by exists t, l|right; by exists n|by left].
  - left. left. split; [done|]. exists g, a, (AStr t), d, r, rl. split_and!; try done. split; [congruence|]. simpl. split.
    + right. split; [done|]. congruence.
    + by right.
Qed.
Lemma scope_hole o st p t s g a l d r rl u st' b : reachable st -> m_cache st !! p = None -> own st p u ->
  p ∈ m_principals st -> m_tenants st !! t = Some l -> s ∈ m_scopes st ->
  stored st d -> scope d = AStr s -> role d = AStr r -> m_roles st !! r = Some rl -> permits (s_heap st) rl g a [] ->
  authorize o st p (Opts (AStr t) ANil (AStr s) (AStr g) (AStr a)) = Ok (st', b) -> b = true.
Proof.
  intros [W Hs]%reachable_hierarchy Hc Hu Hp Ht Hn Hd Hdn Hdr Hr Hpm H.
  apply authorize_ok in H as [(_ & ? & _)|(_ & U & (o2 & H2) & Hb)]; [done|]. apply Hb. clear Hb.
  destruct (implicit_bounds _ _ _ _ _ W Hs Hc H2) as [B1 _]. specialize (B1 _ Hu).
  split_and!; [done|set_solver| |].
  - split_and!; simpl; [right; by exists t, l|by left|right; by exists s].
  - left. left. split; [done|]. exists g, a, (AStr t), d, r, rl. split_and!; try done. split; [congruence|]. simpl. split.
    + right. split; [done|]. congruence.
    + by right.
Qed.
(** With namespace and scope given, only the principal's own roles count. *)
Lemma own_roles o st p q st' : authorize o st p q = Ok (st', true) -> asks_activity q ->
  o_namespace q <> ANil -> o_scope q <> ANil ->
  exists g a d r l, o_group q = AStr g /\ o_activity q = AStr a /\ stored st d /\ principal d = AStr p
    /\ role d = AStr r /\ m_roles st !! r = Some l /\ permits (s_heap st) l g a [].
Proof.
  intros H Hq Hn Hs. assert (E : shape_of q = FTNS \/ shape_of q = FNS).
  { unfold shape_of. apply is_nil_false in Hn, Hs. rewrite Hn, Hs. destruct (is_nil (o_tenant q)); auto. }
  apply authorize_activity in H; [|done]. destruct H as [[? _]|(_ & U & _ & H)]; [done|].
  destruct (proj1 H eq_refl) as (_ & _ & Hg).
  assert (exists q', o_group q' = o_group q /\ o_activity q' = o_activity q /\ grants_activity st p q' (shape_of q))
    as (q' & E1 & E2 & g & a & t & d & r & l & Eg & Ea & _ & Hd & Hrow & Er & Hr & Hp).
  { destruct Hg as [?|(u & _ & ?)]; [by exists q|by exists (set_o_tenant q (AStr u))]. }
  exists g, a, d, r, l. split_and!; try done; try congruence.
  destruct E as [E|E]; rewrite E in Hrow; by destruct Hrow as (_ & ? & _).
Qed.
(** Without, a role used is the principal's own or that of the named namespace (scope). *)
Lemma own_or_shared_roles o st p q st' : authorize o st p q = Ok (st', true) -> asks_activity q ->
  exists g a d r l, o_group q = AStr g /\ o_activity q = AStr a /\ stored st d
    /\ (principal d = AStr p
        \/ namespace d = o_namespace q /\ o_namespace q <> ANil \/ scope d = o_scope q /\ o_scope q <> ANil)
    /\ role d = AStr r /\ m_roles st !! r = Some l /\ permits (s_heap st) l g a [].
Proof.
  intros H Hq. apply authorize_activity in H; [|done]. destruct H as [[? _]|(_ & U & _ & H)]; [done|].
  destruct (proj1 H eq_refl) as (_ & _ & Hg).
  assert (exists q', o_group q' = o_group q /\ o_activity q' = o_activity q /\ o_namespace q' = o_namespace q
            /\ o_scope q' = o_scope q /\ grants_activity st p q' (shape_of q))
    as (q' & E1 & E2 & E3 & E4 & g & a & t & d & r & l & Eg & Ea & _ & Hd & Hrow & Er & Hr & Hp).
  { destruct Hg as [?|(u & _ & ?)]; [by exists q|by exists (set_o_tenant q (AStr u))]. }
  exists g, a, d, r, l. split_and!; try done; try congruence.
  destruct Hrow as [_ Hrow]. destruct (shape_of q); try done; rewrite ?E3, ?E4 in Hrow.
  - destruct Hrow as [[(_ & _ & ?)|[? ?]] _]; [by left|]. right. left. split; [done|congruence].
  - destruct Hrow as [[(_ & _ & ?)|[? ?]] _]; [by left|]. right. right. split; [done|congruence].
  - left. by destruct Hrow.
  - left. by destruct Hrow.
Qed.
Definition w15_ops : list op :=
  [ONewTenant "acme"; OAddTenant 0; OAddNamespace "hr"; OAddPrincipal "eve"; OAddPrincipal "boss";
   ONewRole "guest"; OAddRole 0; ONewRole "director"; OAddRole 1;
   ORoleAddPermission 1 "page" [Attr "/salaries" "GET"];
   OTenantAddPrincipal 0 "eve" false ["guest"];
   OTenantAddPrincipalInNamespace 0 "boss" "hr" "director"].
Definition hr_request : opts := Opts (AStr "acme") (AStr "hr") ANil (AStr "page") (AStr "/salaries GET").
Definition w15_rows : list data :=
  [Data (AStr "acme") ANil ANil (AStr "eve") (AStr "guest") (ABool false);
   Data (AStr "acme") (AStr "hr") ANil (AStr "boss") (AStr "director") ANil].
Lemma w15_stored d : stored (ops_state w15_ops) d <-> d ∈ w15_rows.
Proof.
  unfold stored. assert (E : trie_data id_oracle (m_trie (ops_state w15_ops)) ≡ₚ w15_rows).
  { vm_compute. reflexivity || apply Permutation_swap. } by rewrite E.
Qed.
(** Eve is only a guest, who may do nothing, and yet may see the salaries. *)
Lemma c15_refuted : exists st p q st', reachable st /\ asks_activity q
  /\ authorize id_oracle st p q = Ok (st', true)
  /\ forall d r l, stored st d -> principal d = AStr p \/ principal d = ANil -> role d = AStr r -> m_roles st !! r = Some l ->
       forall g a, ~ permits (s_heap st) l g a [].
Proof.
  exists (ops_state w15_ops), "eve", hr_request, (final (authorize id_oracle (ops_state w15_ops) "eve" hr_request)).
  split; [reach_ops w15_ops|]. split; [done|]. split; [answered|].
  intros d r l Hd Hp Hr Hl g a. apply w15_stored in Hd.
  apply elem_of_cons in Hd as [Hd|Hd].
  2:{ apply elem_of_list_singleton in Hd. rewrite Hd in Hp. clear -Hp. by destruct Hp. }
  rewrite Hd in Hr. cbn in Hr. injection Hr as Hr. rewrite <-Hr in Hl. clear d Hd Hp Hr. vm_compute in Hl. injection Hl as <-.
  intros (gr & (ro & gl & Hro & Hgl & _) & _). vm_compute in Hro. injection Hro as <-.
  change ((∅ : gmap string nat) !! g = Some gl) in Hgl. by rewrite lookup_empty in Hgl.
Qed.

(** ** C16 *)
Lemma tenant_activity_denied o st p q st' b : authorize o st p q = Ok (st', b) -> asks_activity q ->
  o_namespace q = ANil -> o_scope q = ANil -> b = false.
Proof.
  intros H Hq Hn Hs. apply authorize_activity in H as [[? _]|(_ & U & _ & H)]; [done| |done].
  destruct b; [|done]. exfalso.
  destruct (proj1 H eq_refl) as (_ & _ & Hg).
  assert (E : shape_of q = FT \/ shape_of q = FNone).
  { unfold shape_of. rewrite Hn, Hs. simpl. destruct (is_nil (o_tenant q)); auto. }
  destruct E as [E|E]; rewrite E in Hg;
    destruct Hg as [(? & ? & ? & ? & ? & ? & _ & _ & _ & _ & [_ []] & _)|(? & _ & ? & ? & ? & ? & ? & ? & _ & _ & _ & _ & [_ []] & _)].
Qed.
Definition w16_ops : list op :=
  [ONewTenant "acme"; OAddTenant 0; OAddPrincipal "ann"; ONewRole "clerk"; OAddRole 0;
   ORoleAddPermission 0 "page" [Attr "/orders" "GET"]; OTenantAddPrincipal 0 "ann" true ["clerk"]].
Lemma c16_refuted : exists st p q d r l, reachable st /\ p ∈ m_principals st /\ is_Some (m_tenants st !! "acme")
  /\ q = Opts (AStr "acme") ANil ANil (AStr "page") (AStr "/orders GET")
  /\ stored st d /\ tenant d = AStr "acme" /\ principal d = AStr p /\ role d = AStr r /\ m_roles st !! r = Some l
  /\ permits (s_heap st) l "page" "/orders GET" []
  /\ forall o, exists st', authorize o st p q = Ok (st', false).
Proof.
  exists (ops_state w16_ops), "ann", (Opts (AStr "acme") ANil ANil (AStr "page") (AStr "/orders GET")),
    (Data (AStr "acme") ANil ANil (AStr "ann") (AStr "clerk") (ABool true)), "clerk", 0.
  assert (Hr : reachable (ops_state w16_ops)) by reach_ops w16_ops.
  assert (Hrow : forall d, stored (ops_state w16_ops) d ->
            d = Data (AStr "acme") ANil ANil (AStr "ann") (AStr "clerk") (ABool true)).
  { intros d Hd. eapply stored_list in Hd; [|vm_compute; reflexivity]. by apply elem_of_list_singleton in Hd. }
  split_and!; try done.
  - unfold stored. vm_compute. left.
  - eexists. split; [eexists _, _; split_and!; vm_compute; reflexivity|]. left.
    eexists "/orders GET", _. split; [vm_compute; reflexivity|]. by left.
  - intros o.
    destruct (authorize_returns o (ops_state w16_ops) "ann" (Opts (AStr "acme") ANil ANil (AStr "page") (AStr "/orders GET"))) as (st' & b & H).
    + by apply reachable_wf.
    + intros d Hd%Hrow. subst d. split; right; by eexists.
    + split_and!; simpl; try (by left); right; by eexists.
    + intros (t & l & _ & Hl & _ & Ha). apply Ha. intros (m & _ & Hc). apply tc_first in Hc as (y & Hy & _).
      apply tenant_edge_desc in Hy as (c & k & Hc' & Hk). destruct m; vm_compute in Hc'; [|done]. injection Hc' as <-.
      change ((∅ : gmap string nat) !! k = Some y) in Hk. by rewrite lookup_empty in Hk.
    + intros g a r l [= <-] [= <-] Hl.
      assert (l = 0) as ->.
      { change (({[ "clerk" := 0 ]} : gmap string nat) !! r = Some l) in Hl. by apply lookup_singleton_Some in Hl as [_ <-]. }
      assert (Hedge : forall x y, ~ role_edge (s_heap (ops_state w16_ops)) x y).
      { intros x y (ro & k & Hro & Hk)%role_edge_desc. destruct x; vm_compute in Hro; [|done]. injection Hro as <-.
        change ((∅ : gmap string nat) !! k = Some y) in Hk. by rewrite lookup_empty in Hk. }
      split.
      * intros (d & _ & Hc). apply tc_first in Hc as (y & Hy & _). by eapply Hedge.
      * intros d gr Hd (ro & gl & Hro & Hgl & Hgr) (k & at_ & Hk & Hloop).
        apply rtc_inv in Hd as [<-|(y & Hy & _)]; [|by apply Hedge in Hy].
        vm_compute in Hro. injection Hro as <-.
        change (({[ "page" := 0 ]} : gmap string nat) !! "page" = Some gl) in Hgl.
        apply lookup_singleton_Some in Hgl as [_ <-]. vm_compute in Hgr. injection Hgr as <-.
        change (({[ "/orders GET" := Attr "/orders" "GET" ]} : gmap string attr) !! k = Some at_) in Hk.
        apply lookup_singleton_Some in Hk as [<- _]. apply loops_no_star in Hloop; [done|].
        clear. apply (bool_decide_unpack _). vm_compute. exact I.
    + exists st'. rewrite H. f_equal. f_equal.
      refine (tenant_activity_denied _ _ _ _ _ _ H _ eq_refl eq_refl). clear. by split.
Qed.
