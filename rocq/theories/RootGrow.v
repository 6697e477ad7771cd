(** What the root package grants stays granted, as long as no stored row is lost. *)
From Verif Require Import RootInv RegProofs RootCor RootCor2 RootCor3 RootEx.
From Verif Require Export RoleEff.

Section mono.
  Context (st st' : state) (G : grows st st') (L : heap_le (s_heap st) (s_heap st')) (Hh : heap_grows (s_heap st) (s_heap st')).
  Context (Hs : forall d, stored st d -> stored st' d).
  Lemma membership_mono p q f : grants_membership st p q f -> grants_membership st' p q f.
  Proof.
    destruct f; simpl; [| | | | |done].
    1-4: intros (d & Hd & H); exists d; (split; [by apply Hs|done]).
    intros (d0 & d & Hd0 & H1 & H2 & Hd & H3). exists d0, d. split_and!; try done; try by apply Hs.
    all: by destruct H3 as (? & ? & ? & ?).
  Qed.
  Lemma activity_mono p q f : grants_activity st p q f -> grants_activity st' p q f.
  Proof.
    intros (g & a & t & d & r & l & Hg & Ha & Ht & Hd & Hr & E & Hl & Hp).
    exists g, a, t, d, r, l. split_and!; try done.
    - destruct f; try done. destruct Ht as (d0 & Hd0 & H). exists d0. split; [by apply Hs|done].
    - by apply Hs.
    - by apply (gr_m_roles _ _ G).
    - by eapply grows_permits.
  Qed.
  Lemma grants_mono p q f : grants st p q f -> grants st' p q f.
  Proof. intros [[? ?]|[? ?]]; [left|right]; (split; [done|]); [by apply activity_mono|by apply membership_mono]. Qed.
  Lemma valid_mono q : valid_request st q -> valid_request st' q.
  Proof.
    intros (H1 & H2 & H3). split_and!.
    - destruct H1 as [?|(t & l & ? & ?)]; [by left|right]. exists t, l. split; [done|]. by apply (gr_m_tenants _ _ G).
    - destruct H2 as [?|(n & ? & ?)]; [by left|right]. exists n. split; [done|]. by apply (gr_m_namespaces _ _ G).
    - destruct H3 as [?|(s & ? & ?)]; [by left|right]. exists s. split; [done|]. by apply (gr_m_scopes _ _ G).
  Qed.
  Lemma authorized_mono U p q : authorized st U p q -> authorized st' U p q.
  Proof.
    intros (Hp & HU & Hv & Hg). split_and!; [by apply (gr_m_principals _ _ G)|done|by apply valid_mono|].
    destruct Hg as [Hg|(u & Hu & Hg)]; [left; by apply grants_mono|right]. exists u. split; [done|by apply grants_mono].
  Qed.
End mono.
Lemma same_sym st st' : same_but_caches st st' -> same_but_caches st' st.
Proof. intros (hi & ca & ->). exists (m_hierarchy st), (m_cache st). by destruct st. Qed.
Lemma authorize_stays o1 st p q st1 o2 i ops st2 outs o3 st3 b : reachable st -> authorize o1 st p q = Ok (st1, true) ->
  run o2 i st1 ops = Ok (st2, outs) -> (forall d, stored st1 d -> stored st2 d) ->
  authorize o3 st2 p q = Ok (st3, b) -> b = true.
Proof.
  intros W%reachable_wf H1 Hr Hs H2. pose proof (authorize_same _ _ _ _ _ _ H1) as S.
  assert (W1 : state_wf st1). { apply (step_wf o1 st (OAuthorize p q) st1 (RBool true)); [done|]. simpl. by rewrite H1. }
  apply authorize_ok in H1 as [(? & _)|(Hp & U & (o & HU) & Hb)]; [done|].
  apply authorize_ok in H2 as [(_ & Hp2 & _)|(Hp2 & U2 & (o' & HU2) & Hb2)].
  { destruct Hp2. apply (gr_m_principals _ _ (run_grows _ _ _ _ _ _ Hr)). by rewrite (principals_same _ _ S). }
  apply implicit_caches in HU. apply (gr_cache _ _ (run_grows _ _ _ _ _ _ Hr)) in HU.
  rewrite (implicit_cached o' _ _ _ HU) in HU2. injection HU2 as _ <-.
  apply Hb2. apply (authorized_mono st1 st2).
  - by eapply run_grows.
  - by eapply run_heap_le.
  - by eapply run_heap_grows.
  - done.
  - apply (authorized_same _ _ _ _ _ S). by apply Hb.
Qed.

(** A row of another kind with the same ids replaces ann's row. *)
Definition w65_ops : list op :=
  [ONewTenant "acme"; OAddTenant 0; OAddPrincipal "ann"; ONewRole "clerk"; OAddRole 0;
   OTenantAddPrincipal 0 "ann" true ["clerk"]; OAuthorize "ann" (tenant_only "acme")].
Definition w65_row : data := Data (AStr "acme") (AStr "ann") ANil ANil (AStr "clerk") (ABool true).
Lemma c65_refuted : exists st st1 st2 st3, reachable st
  /\ authorize id_oracle st "ann" (tenant_only "acme") = Ok (st1, true)
  /\ step id_oracle st1 (OAddData w65_row) = Ok (st2, RUnit)
  /\ authorize id_oracle st2 "ann" (tenant_only "acme") = Ok (st3, false).
Proof.
  exists (ops_state w65_ops), (final (authorize id_oracle (ops_state w65_ops) "ann" (tenant_only "acme"))),
    (add_data (final (authorize id_oracle (ops_state w65_ops) "ann" (tenant_only "acme"))) w65_row),
    (final (authorize id_oracle (add_data (final (authorize id_oracle (ops_state w65_ops) "ann" (tenant_only "acme"))) w65_row) "ann" (tenant_only "acme"))).
  split; [reach_ops w65_ops|]. split; [answered|]. split; [done|answered].
Qed.
(** Additions that keep every row. *)
Definition w65_more : list op :=
  [ONewTenant "branch"; OAddTenant 1; OTenantAddDescendant 0 [1]; OAddPrincipal "bob"; OTenantAddPrincipal 0 "bob" false ["clerk"];
   OAddData (Data (AStr "acme") (AStr "hr") ANil ANil (AStr "clerk") (ABool true))].
Lemma c65_ex : exists st1 st2 outs, run id_oracle 0 init_state w65_ops = Ok (st1, ops_outs w65_ops)
  /\ run id_oracle 7 st1 w65_more = Ok (st2, outs) /\ (forall d, stored st1 d -> stored st2 d)
  /\ exists st3, authorize rev_oracle st2 "ann" (tenant_only "acme") = Ok (st3, true).
Proof.
  exists (ops_state w65_ops), (final (run id_oracle 7 (ops_state w65_ops) w65_more)),
    (default [] (answer (run id_oracle 7 (ops_state w65_ops) w65_more))).
  split; [apply run_runs; vm_compute; reflexivity|]. split.
  - assert (H : match run id_oracle 7 (ops_state w65_ops) w65_more with Ok _ => true | _ => false end = true) by (vm_compute; reflexivity).
    destruct (run id_oracle 7 (ops_state w65_ops) w65_more) as [[s o]| |]; [done|discriminate H..].
  - split; [|eexists; answered]. intros d Hd. unfold stored in *.
    assert (H : forallb (fun d => bool_decide (d ∈ trie_data id_oracle (m_trie (final (run id_oracle 7 (ops_state w65_ops) w65_more)))))
      (trie_data id_oracle (m_trie (ops_state w65_ops))) = true) by (vm_compute; reflexivity).
    rewrite forallb_forall in H. specialize (H d). rewrite <- elem_of_list_In in H. apply H in Hd. by apply bool_decide_eq_true in Hd.
Qed.

(** Descendants with one id: the first stays. *)
Definition w64_ops : list op :=
  [ONewRole "lead"; ONewRole "coder"; ONewRole "coder"; ONewRole "intern"; ORoleAddDescendant 0 [2]].
Lemma c64_ex : exists h h', reachable (ops_state w64_ops) /\ h = s_heap (ops_state w64_ops) /\ unlocked h 0
  /\ role_add_descendant h 0 [1; 3] = Ok (h', None)
  /\ get_descendant_roles id_oracle h 0 = Ok [2]
  /\ (exists ds, get_descendant_roles id_oracle h' 0 = Ok ds /\ (2 ∈ ds /\ 3 ∈ ds /\ 1 ∉ ds)).
Proof.
  exists (s_heap (ops_state w64_ops)), (match role_add_descendant (s_heap (ops_state w64_ops)) 0 [1; 3] with Ok (h, _) => h | _ => RHeap [] [] end).
  split; [reach_ops w64_ops|]. split; [done|]. split; [eexists; split; vm_compute; reflexivity|].
  split; [vm_compute; reflexivity|]. split; [vm_compute; reflexivity|].
  eexists. split; [vm_compute; reflexivity|]. split_and!; apply (bool_decide_unpack _); vm_compute; exact I.
Qed.
