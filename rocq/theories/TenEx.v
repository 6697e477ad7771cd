(** Concrete cases for the methods that set a root tenant up. *)
From Verif Require Import RootEx RDecEx TenProofs.

Local Instance stored_dec st d : Decision (stored st d).
Proof. unfold stored. apply _. Defined.
Local Instance clash_dec d d' : Decision (clash d d').
Proof. unfold clash. apply _. Defined.

(** ** C97 *)
Definition w97_ops : list op :=
  [ONewTenant "acme"; OAddTenant 0; ONewTenant "branch"; OAddTenant 1; ONewTenant "branch"; OAddTenant 2; ONewTenant "new";
   OAddNamespace "hr"; OAddNamespace "it"; OTenantSetDefault 0 "hr"; OTenantSetDefault 2 "it"; ONewRole "clerk"; OAddRole 0; OAddPrincipal "ann"; OTenantAddNamespaces 0 ["hr"]].
Lemma w97_reachable : reachable (ops_state w97_ops).
Proof. reach_ops w97_ops. Qed.
Definition links_at (st : state) (l : nat) : option (list (string * nat)) := (fun c => map_to_list (t_desc c)) <$> s_tenants st !! l.
Definition w97_after (x : op) : state := final (step id_oracle (ops_state w97_ops) x).
Lemma c97_ex : reachable (ops_state w97_ops) /\ has_manager (ops_state w97_ops) 0 /\ ~ has_manager (ops_state w97_ops) 3
  /\ Forall (fun d => stored (w97_after (OTenantAddNamespaces 0 ["it"])) d) [ns_row "acme" "hr"; ns_row "acme" "it"]
  /\ default_at (w97_after (OTenantSetDefault 1 "it")) 1 = Some (Some "it") /\ default_at (w97_after (OTenantSetDefault 1 "none")) 1 = Some None
  /\ (let st := w97_after (OTenantAddDescendant 0 [2; 1]) in
      links_at st 0 = Some [("branch", 2)] /\ default_at st 1 = Some (Some "hr") /\ default_at st 2 = Some (Some "hr") /\ stored st (ns_row "branch" "hr"))
  /\ step id_oracle (ops_state w97_ops) (OTenantAddDescendant 0 [1; 3]) = Panic.
Proof.
  split; [exact w97_reachable|]. split; [eexists; split; vm_compute; reflexivity|].
  split; [intros (c & Hc & Hm); revert Hm; assert (E : t_managed <$> s_tenants (ops_state w97_ops) !! 3 = Some false) by (vm_compute; reflexivity); rewrite Hc in E; injection E as ->; discriminate|].
  split; [apply (bool_decide_unpack _); vm_compute; exact I|]. split; [vm_compute; reflexivity|]. split; [vm_compute; reflexivity|].
  split; [split; [vm_compute; reflexivity|split; [vm_compute; reflexivity|split; [vm_compute; reflexivity|apply (bool_decide_unpack _); vm_compute; exact I]]]|]. vm_compute. reflexivity.
Qed.

(** ** C98 *)
Definition w98_ops : list op :=
  [ONewTenant "acme"; OAddTenant 0; ONewTenant "branch"; OAddTenant 1; ONewTenant "office"; OAddTenant 2; OAddNamespace "hr"; OAddNamespace "it";
   OTenantAddDescendant 1 [2]; OTenantAddDescendant 0 [1]].
Lemma w98_link st t k d : match s_tenants st !! t with Some c => t_desc c !! k | None => None end = Some d -> tenant_edge st t d.
Proof.
  destruct (s_tenants st !! t) as [c|] eqn:H1; [|discriminate]. intros H2. exists (t_desc c), k. unfold tenant_children_of. rewrite H1. split; [reflexivity|exact H2].
Qed.
Lemma c98_refuted : exists st t d n st', reachable st /\ tenant_edge st t d /\ tenant_set_default st t n = Ok st'
  /\ default_at st' t = Some (Some n) /\ default_at st' d = Some None.
Proof.
  exists (ops_state w98_ops), 0, 1, "hr", (ops_state (w98_ops ++ [OTenantSetDefault 0 "hr"])).
  split; [reach_ops w98_ops|]. split; [apply (w98_link _ 0 "branch"); vm_compute; reflexivity|]. split; [vm_compute; reflexivity|].
  split; vm_compute; reflexivity.
Qed.
Definition w98b_ops : list op :=
  [ONewTenant "acme"; OAddTenant 0; ONewTenant "branch"; OAddTenant 1; ONewTenant "office"; OAddTenant 2; OAddNamespace "hr"; OAddNamespace "it";
   OTenantAddDescendant 1 [2]; OTenantSetDefault 0 "hr"].
Lemma c98_below_refuted : exists st t d e n st', reachable st /\ tenant_edge st d e /\ default_at st t = Some (Some n)
  /\ tenant_add_descendants st t [d] = Ok st' /\ tenant_edge st' t d /\ tenant_edge st' d e /\ default_at st' d = Some (Some n) /\ default_at st' e = Some None.
Proof.
  exists (ops_state w98b_ops), 0, 1, 2, "hr", (ops_state (w98b_ops ++ [OTenantAddDescendant 0 [1]])).
  split; [reach_ops w98b_ops|]. split; [apply (w98_link _ 1 "office"); vm_compute; reflexivity|]. split; [vm_compute; reflexivity|]. split; [vm_compute; reflexivity|].
  split; [apply (w98_link _ 0 "branch"); vm_compute; reflexivity|]. split; [apply (w98_link _ 1 "office"); vm_compute; reflexivity|].
  split; vm_compute; reflexivity.
Qed.
Lemma c98_ex : reachable (ops_state w97_ops) /\ default_at (ops_state w97_ops) 0 = Some (Some "hr") /\ default_at (ops_state w97_ops) 2 = Some (Some "it")
  /\ exists st', tenant_add_descendants (ops_state w97_ops) 0 [2; 1] = Ok st' /\ default_at st' 2 = Some (Some "hr").
Proof.
  split; [exact w97_reachable|]. split; [vm_compute; reflexivity|]. split; [vm_compute; reflexivity|].
  exists (w97_after (OTenantAddDescendant 0 [2; 1])). split; [|vm_compute; reflexivity]. vm_compute. reflexivity.
Qed.

(** ** C99 *)
Definition w99_ops : list op :=
  [ONewTenant "acme"; OAddTenant 0; OAddNamespace "hr"; ONewRole "clerk"; OAddRole 0; OTenantAddPrincipalInNamespace 0 "eve" "hr" "clerk"].
Definition w99_q : opts := Opts (AStr "acme") (AStr "hr") ANil ANil ANil.
Lemma c99_refuted : exists st d, reachable st /\ stored st d /\ ~ names_registered st d.
Proof.
  exists (ops_state w99_ops), (member_row "acme" "hr" "eve" "clerk"). split; [reach_ops w99_ops|].
  split; [apply (bool_decide_unpack _); vm_compute; exact I|]. intros (_ & _ & _ & [H|(p & [= <-] & Hp)] & _); [discriminate|].
  apply (bool_decide_pack _) in Hp. revert Hp. vm_compute. exact (fun H => H).
Qed.
Lemma no_principal_no st p q b : p ∉ m_principals st -> may_answer st p q b -> b = false.
Proof. intros Hp (o & st' & H). destruct b; [|reflexivity]. destruct (authorize_registered _ _ _ _ _ H) as [H' _]. destruct (Hp H'). Qed.
Lemma c99_later_refuted : exists st p q, reachable st /\ p ∉ m_principals st /\ (forall b, may_answer st p q b -> b = false)
  /\ may_answer (add_principal st p) p q true.
Proof.
  exists (ops_state w99_ops), "eve", w99_q. split; [reach_ops w99_ops|].
  assert (Hn : "eve" ∉ m_principals (ops_state w99_ops)) by (apply (bool_decide_unpack _); vm_compute; exact I).
  split; [exact Hn|]. split; [intros b; apply no_principal_no; exact Hn|].
  exists id_oracle, (final (authorize id_oracle (add_principal (ops_state w99_ops) "eve") "eve" w99_q)). answered.
Qed.
Definition w99b_ops : list op :=
  [ONewTenant "acme"; OAddTenant 0; OAddNamespace "hr"; OTenantSetDefault 0 "hr"; ONewRole "clerk"; OAddRole 0; OAddPrincipal "ann"; OTenantAddPrincipal 0 "ann" false ["clerk"]].
Lemma c99_ex : exists st outs, run id_oracle 0 init_state w99b_ops = Ok (st, outs) /\ Forall (fun x => ~ unchecked x) w99b_ops
  /\ stored st (Data (AStr "acme") (AStr "hr") ANil (AStr "ann") (AStr "clerk") (ABool false)).
Proof.
  exists (ops_state w99b_ops), (ops_outs w99b_ops). split; [apply run_runs; vm_compute; reflexivity|]. split; [repeat constructor; intros []|].
  apply (bool_decide_unpack _); vm_compute; exact I.
Qed.

(** ** C100 *)
Definition w100_ops : list op :=
  [ONewTenant "acme"; OAddTenant 0; OAddPrincipal "ann"; OAddPrincipal "admin"; OAddScope "ann"; ONewRole "admin"; OAddRole 0].
Definition w100_a : op := OTenantAddPrincipal 0 "ann" true ["admin"].
Definition w100_b : op := OTenantAssignScopes 0 "admin" true ["ann"].
Definition w100_q : opts := Opts (AStr "acme") ANil ANil ANil ANil.
Definition then_state (st : state) (ops : list op) : state := match run id_oracle 0 st ops with Ok (st', _) => st' | _ => init_state end.
Definition then_outs (st : state) (ops : list op) : list out := match run id_oracle 0 st ops with Ok (_, outs) => outs | _ => [] end.
Definition then_ok (st : state) (ops : list op) : bool := match run id_oracle 0 st ops with Ok _ => true | _ => false end.
Lemma then_run st ops : then_ok st ops = true -> run id_oracle 0 st ops = Ok (then_state st ops, then_outs st ops).
Proof. unfold then_ok, then_state, then_outs. destruct (run id_oracle 0 st ops) as [[st' outs]| |]; [reflexivity|discriminate|discriminate]. Qed.
Lemma no_rows_no st p q b : untouched p st -> may_answer st p q b -> b = false.
Proof.
  intros Hu (o & st' & H). apply authorize_ok in H as [(-> & _)|(_ & U & (o' & HU) & Hb)]; [reflexivity|].
  pose proof (implicit_untouched _ _ _ _ _ Hu HU) as ->. destruct b; [|reflexivity]. destruct (proj1 Hb eq_refl) as (_ & Hne & _). destruct (Hne eq_refl).
Qed.
Lemma then_untouched st ops p : reachable st -> Forall only_stores ops -> then_ok st ops = true ->
  bool_decide (Forall (fun d => principal d <> AStr p) (rows_of (then_state st ops))) = true -> m_cache st !! p = None -> untouched p (then_state st ops).
Proof.
  intros R F Hok B Hc. destruct (run_does id_oracle st ops F 0 [] _ _ (then_run st ops Hok)) as (tr & _ & _ & _ & E).
  destruct (reachable_logged st R) as [log Hl]. split.
  - rewrite E. eexists. exact (wrote_logged _ _ _ _ Hl (wrote_with_rows st _)).
  - split.
    + apply bool_decide_eq_true in B. rewrite Forall_forall in B. exact B.
    + intros U HU. rewrite E, cache_rows, Hc in HU. discriminate.
Qed.
Lemma c100_refuted : exists st ops1 ops2 st1 outs1 st2 outs2 p q, reachable st /\ Forall only_stores ops1 /\ ops2 ≡ₚ ops1
  /\ run id_oracle 0 st ops1 = Ok (st1, outs1) /\ run id_oracle 0 st ops2 = Ok (st2, outs2) /\ outs1 = [RErr None; RErr None] /\ outs2 = [RErr None; RErr None]
  /\ (forall b, may_answer st1 p q b -> b = false) /\ may_answer st2 p q true.
Proof.
  exists (ops_state w100_ops), [w100_a; w100_b], [w100_b; w100_a], (then_state (ops_state w100_ops) [w100_a; w100_b]), (then_outs (ops_state w100_ops) [w100_a; w100_b]),
    (then_state (ops_state w100_ops) [w100_b; w100_a]), (then_outs (ops_state w100_ops) [w100_b; w100_a]), "ann", w100_q.
  assert (R : reachable (ops_state w100_ops)) by reach_ops w100_ops.
  assert (F : Forall only_stores [w100_a; w100_b]) by (repeat constructor).
  split; [exact R|]. split; [exact F|]. split; [apply Permutation_swap|].
  split; [apply then_run; vm_compute; reflexivity|]. split; [apply then_run; vm_compute; reflexivity|]. split; [vm_compute; reflexivity|]. split; [vm_compute; reflexivity|]. split.
  - intros b. apply no_rows_no. apply then_untouched; [exact R|exact F|vm_compute; reflexivity|vm_compute; reflexivity|vm_compute; reflexivity].
  - exists id_oracle, (final (authorize id_oracle (then_state (ops_state w100_ops) [w100_b; w100_a]) "ann" w100_q)). answered.
Qed.
Definition e100_ops1 : list op := [OTenantAddNamespaces 0 ["hr"]; OTenantAddPrincipal 0 "ann" true ["clerk"; "none"]; OTenantAssignScopes 0 "ann" true ["s"]].
Definition e100_ops2 : list op := [OTenantAssignScopes 0 "ann" true ["s"]; OTenantAddPrincipal 0 "ann" true ["clerk"; "none"]; OTenantAddNamespaces 0 ["hr"]].
Definition e100_ops : list op := [ONewTenant "acme"; OAddTenant 0; OAddNamespace "hr"; OAddScope "s"; OAddPrincipal "ann"; ONewRole "clerk"; OAddRole 0].
Definition e100_rows : list data :=
  [ns_row "acme" "hr"; Data (AStr "acme") ANil ANil (AStr "ann") (AStr "clerk") (ABool true); Data (AStr "acme") ANil ANil (AStr "ann") (AStr "none") (ABool true);
   Data (AStr "acme") ANil (AStr "s") (AStr "ann") ANil (ABool true)].
Lemma e100_may x d : x ∈ e100_ops1 -> may_store (ops_state e100_ops) x d -> d ∈ e100_rows.
Proof.
  assert (E : s_tenants (ops_state e100_ops) !! 0 = Some (Tenant "acme" ∅ None true)) by (vm_compute; reflexivity).
  revert E. generalize (ops_state e100_ops) as st. intros st E. unfold e100_ops1, e100_rows. rewrite !elem_of_cons, elem_of_nil. intros [->|[->|[->|[]]]]; cbn; rewrite E.
  - intros (c & n & [= <-] & Hn & ->). apply elem_of_list_singleton in Hn as ->. left. reflexivity.
  - intros (c & r & [= <-] & Hr & Hd). cbn in Hd. apply elem_of_list_singleton in Hd as ->. rewrite !elem_of_cons, elem_of_nil in Hr. destruct Hr as [->|[->|[]]]; [right; left; reflexivity|right; right; left; reflexivity].
  - intros (c & s & [= <-] & Hs & Hd). cbn in Hd. apply elem_of_list_singleton in Hd as ->. apply elem_of_list_singleton in Hs as ->. right; right; right; left; reflexivity.
Qed.
Lemma e100_apart : apart (ops_state e100_ops) e100_ops1.
Proof.
  intros x x' d d' Hx Hx' Hd Hd'. apply (e100_may x d Hx) in Hd. apply (e100_may x' d' Hx') in Hd'. clear -Hd Hd'.
  assert (A : Forall (fun d => Forall (fun d' => clash d d' -> d = d') e100_rows) e100_rows).
  { apply (bool_decide_unpack _). vm_compute. exact I. }
  rewrite Forall_forall in A. specialize (A d Hd). rewrite Forall_forall in A. exact (A d' Hd').
Qed.
Lemma e100_settled : settled (then_state (ops_state e100_ops) e100_ops1) [] "ann".
Proof.
  right. split_and!.
  - intros t ds d H. exfalso. revert H. change (m_hierarchy (then_state (ops_state e100_ops) e100_ops1)) with (∅ : gmap string (list any)). rewrite lookup_empty. discriminate.
  - apply coherent_registered. intros l c k d Hl Hk. assert (E : s_tenants (then_state (ops_state e100_ops) e100_ops1) = [Tenant "acme" ∅ None true]) by (vm_compute; reflexivity).
    rewrite E in Hl. apply list_lookup_singleton_Some in Hl as [_ <-]. cbn in Hk. rewrite lookup_empty in Hk. discriminate.
  - intros d d' Hd Hd' _ Pp' _ _. change (d' ∈ rows_of (then_state (ops_state e100_ops) e100_ops1)) in Hd'.
    assert (A : Forall (fun d => principal d = AStr "ann" -> manage d = ABool true) (rows_of (then_state (ops_state e100_ops) e100_ops1))) by (apply (bool_decide_unpack _); vm_compute; exact I).
    rewrite Forall_forall in A. exact (A d' Hd' Pp').
Qed.
Lemma c100_ex : reachable (ops_state e100_ops) /\ Forall only_stores e100_ops1 /\ e100_ops2 ≡ₚ e100_ops1 /\ apart (ops_state e100_ops) e100_ops1
  /\ (exists outs1, run id_oracle 0 (ops_state e100_ops) e100_ops1 = Ok (then_state (ops_state e100_ops) e100_ops1, outs1))
  /\ settled (then_state (ops_state e100_ops) e100_ops1) [] "ann"
  /\ may_answer (then_state (ops_state e100_ops) e100_ops1) "ann" (Opts (AStr "acme") ANil (AStr "s") ANil ANil) true
  /\ may_answer (then_state (ops_state e100_ops) e100_ops2) "ann" (Opts (AStr "acme") ANil (AStr "s") ANil ANil) true.
Proof.
  split; [reach_ops e100_ops|]. split; [repeat constructor|]. split; [exact (Permutation_rev e100_ops2)|]. split; [exact e100_apart|].
  split; [eexists; apply then_run; vm_compute; reflexivity|]. split; [exact e100_settled|]. split.
  - exists id_oracle, (final (authorize id_oracle (then_state (ops_state e100_ops) e100_ops1) "ann" (Opts (AStr "acme") ANil (AStr "s") ANil ANil))). answered.
  - exists rev_oracle, (final (authorize rev_oracle (then_state (ops_state e100_ops) e100_ops2) "ann" (Opts (AStr "acme") ANil (AStr "s") ANil ANil))). answered.
Qed.
