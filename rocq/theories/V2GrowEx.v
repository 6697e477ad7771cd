(** Concrete cases for the growing set-ups of package v2. *)
From Verif Require Export V2GrowProofs V2Ex.
From Verif Require Import EditEx.
Local Open Scope string_scope.

Definition q_scoped : request := Req "ann" "acme" "" "s" "/doc" "GET".
(** An unscoped assignment, then one for the scope "s" with a role that permits something else. *)
Definition w127 : list vop := w_base ++
  [VTenantScopes 0 "ns" ["s"]; VNewRole "writer"; VAddRoles [1]; VNewPR (PRole "ann" "acme" "s" "" "writer" None false)].
Definition w127_full : list vop := w127 ++ [VRoleAdd 1 [("/w", "POST")]].
Lemma asked_then (st : vstate) q x : vanswer (v2_authorize id_oracle st 0 q) = Some true ->
  vanswer (rbind (vstep id_oracle (vfinal (v2_authorize id_oracle st 0 q)) x) (fun r => v2_authorize id_oracle r.1 0 q)) = Some false ->
  exists s st' y s', v2_authorize id_oracle st 0 q = Ok (s, true) /\ vstep id_oracle s x = Ok (st', y) /\ v2_authorize id_oracle st' 0 q = Ok (s', false).
Proof.
  intros H1 H2. apply vanswer_ok in H1. set (s := vfinal (v2_authorize id_oracle st 0 q)) in *.
  destruct (vstep id_oracle s x) as [[st' y]| |] eqn:E; [|discriminate H2|discriminate H2]. cbn [rbind fst] in H2. apply vanswer_ok in H2.
  exists s, st', y. eauto.
Qed.
Lemma added_then (st : vstate) q x : vanswer (v2_authorize id_oracle st 0 q) = Some true ->
  vanswer (rbind (vstep id_oracle st x) (fun r => v2_authorize id_oracle r.1 0 q)) = Some false ->
  exists s st' y s', v2_authorize id_oracle st 0 q = Ok (s, true) /\ vstep id_oracle st x = Ok (st', y) /\ v2_authorize id_oracle st' 0 q = Ok (s', false).
Proof.
  intros H1 H2. apply vanswer_ok in H1. set (s := vfinal (v2_authorize id_oracle st 0 q)) in *.
  destruct (vstep id_oracle st x) as [[st' y]| |] eqn:E; [|discriminate H2|discriminate H2]. cbn [rbind fst] in H2. apply vanswer_ok in H2.
  exists s, st', y. eauto.
Qed.
Lemma c127_scope_refuted : exists st l q, vreachable st /\ distinct_ids st /\ exists s st' y s',
  v2_authorize id_oracle st 0 q = Ok (s, true) /\ vstep id_oracle s (VAddPR [l]) = Ok (st', y) /\ v2_authorize id_oracle st' 0 q = Ok (s', false).
Proof.
  exists (vops_state w127_full), 1, q_scoped. split; [reach_vops w127_full|]. split; [distinct|]. apply asked_then; computed.
Qed.
Definition w127_given : list vop := w127 ++ [VAddPR [1]].
Lemma c127_permission_refuted : exists st r res act q, vreachable st /\ distinct_ids st /\ exists s st' y s',
  v2_authorize id_oracle st 0 q = Ok (s, true) /\ vstep id_oracle st (VRoleAdd r [(res, act)]) = Ok (st', y) /\ v2_authorize id_oracle st' 0 q = Ok (s', false).
Proof.
  exists (vops_state w127_given), 1, "/w", "POST", q_scoped. split; [reach_vops w127_given|]. split; [distinct|]. apply added_then; computed.
Qed.
Definition w127_role : list vop := w_base ++ [VNewRole "reader"].
Lemma c127_role_refuted : exists st l q, vreachable st /\ distinct_ids st /\ exists s st' y s',
  v2_authorize id_oracle st 0 q = Ok (s, true) /\ vstep id_oracle st (VAddRoles [l]) = Ok (st', y) /\ v2_authorize id_oracle st' 0 q = Ok (s', false).
Proof.
  exists (vops_state w127_role), 1, q_doc. split; [reach_vops w127_role|]. split; [distinct|]. apply added_then; computed.
Qed.
Definition w127_namespace : list vop :=
  [VNewRole "reader"; VRoleAdd 0 [("/doc", "GET")]; VAddRoles [0]; VNewTenant "acme" None; VTenantNamespace 0 "ns" false; VAddTenant 0;
   VNewPR (PRole "ann" "acme" "" "" "reader" None false); VAddPR [0]].
Lemma c127_namespace_refuted : exists st t n q, vreachable st /\ distinct_ids st /\ exists s st' y s',
  v2_authorize id_oracle st 0 q = Ok (s, true) /\ vstep id_oracle s (VTenantNamespace t n false) = Ok (st', y) /\ v2_authorize id_oracle st' 0 q = Ok (s', false).
Proof.
  exists (vops_state w127_namespace), 0, "other", q_doc. split; [reach_vops w127_namespace|]. split; [distinct|]. apply asked_then; computed.
Qed.

(** ** Concrete cases *)
(** [ops] are additions or questions of the kind [ask], from [st] to [st']. *)
Fixpoint all_go_on (ask : vop -> bool) (ok : vstate -> vop -> bool) (i : nat) (st : vstate) (ops : list vop) : bool :=
  match ops with
  | [] => true
  | x :: ops' => (ask x || ok st x) && match vstep (sub id_oracle i) st x with Ok (s, _) => all_go_on ask ok (S i) s ops' | _ => false end
  end.
Lemma all_go_on_rtc (ask : vop -> Prop) (ask' : vop -> bool) ok : (forall x, ask' x = true -> ask x) -> (forall st x, ok st x = true -> addition st x) ->
  forall ops i st st' outs, all_go_on ask' ok i st ops = true -> vrun id_oracle i st ops = Ok (st', outs) -> rtc (goes_on ask) st st'.
Proof.
  intros Ha Hok. induction ops as [|x ops IH]; intros i st st' outs; simpl; [by intros _ [= <- _]|].
  intros [H1 H2]%andb_true_iff. destruct (vstep (sub id_oracle i) st x) as [[s y]| |] eqn:E; [|done|done]. simpl.
  intros ([s2 ys] & H3 & [= <- _])%rbind_inv. eapply rtc_l; [|by eapply IH].
  exists (sub id_oracle i), x, y. split; [|done]. apply orb_true_iff in H1 as [H1|H1]; [right; by apply Ha|left; by apply Hok].
Qed.
(** A sufficient test for an addition. *)
Definition adds_only (st : vstate) (x : vop) : bool :=
  match x with
  | VNewRole _ | VNewTenant _ _ | VNewPR _ | VRoleAdd _ _ | VAddChildRole _ _ | VTenantScopes _ _ _
  | VTenantChildren _ _ | VAddTenant _ | VAddPR _ | VClearExpiry _ => true
  | VTenantStatus _ s => match s with TActive => true | _ => false end
  | VSetExpiry _ l e => match w_prs st !! l with Some pr => match pr_expiry pr with Some e0 => bool_decide (e0 <= e)%Z | None => false end | None => true end
  | VAddRoles rs => forallb (fun l => match w_roles st !! l with Some r => match d_roles (w_dag st) !! vr_name r with None => true | Some _ => false end | None => true end) rs
  | VTenantNamespace t n b => negb b && match w_tenants st !! t with Some c => negb (bool_decide (vt_default c = "")) || bool_decide (size (vt_namespaces c) = 0) | None => true end
  | _ => false
  end.
Lemma adds_only_addition st x : adds_only st x = true -> addition st x.
Proof.
  destruct x; simpl; try done.
  - intros H l r l0 Hl Hr H0. rewrite forallb_forall in H. specialize (H l). rewrite <-elem_of_list_In in H. specialize (H Hl).
    rewrite Hr, H0 in H. discriminate.
  - intros [H1 H2]%andb_true_iff c Hc. destruct is_default; [discriminate|]. split; [discriminate|]. unfold tenant_at in Hc. rewrite Hc in H2.
    intros Hd n' Hn'. rewrite Hd in H2. rewrite bool_decide_true in H2 by done. simpl in H2. apply bool_decide_eq_true in H2.
    exfalso. apply map_size_empty_inv in H2. rewrite H2, dom_empty_L in Hn'. set_solver.
  - by destruct s.
  - intros H p Hp. rewrite Hp in H. destruct (pr_expiry p) as [e0|]; [|discriminate]. apply bool_decide_eq_true in H. by exists e0.
Qed.
Definition asks_authorize (x : vop) : bool := match x with VAuthorize _ _ => true | _ => false end.
Definition asks_can (x : vop) : bool := match x with VCan _ _ _ => true | _ => false end.
Lemma asks_authorize_is x : asks_authorize x = true -> is_authorize x.
Proof. by destruct x. Qed.
Lemma asks_can_is x : asks_can x = true -> is_can x.
Proof. by destruct x. Qed.
(** More roles, tenants, children, scopes and assignments, with a question in between. *)
Definition more (ask : vop) : list vop :=
  [ask; VNewRole "editor"; VRoleAdd 1 [("/doc", "PUT")]; VAddRoles [1]; VAddChildRole "editor" ["reader"]; VRoleAdd 0 [("/x", "GET")];
   VNewTenant "unit" None; VTenantNamespace 1 "ns" false; VTenantNamespace 0 "other" false; VTenantChildren 0 [1]; VAddTenant 1; VAddTenant 0; VTenantScopes 0 "ns" ["s"];
   VNewPR (PRole "ann" "unit" "" "" "editor" None true); VNewPR (PRole "ann" "acme" "" "" "editor" None true); VAddPR [1; 2];
   VNewPR (PRole "bob" "acme" "" "" "editor" (Some 5%Z) true); VAddPR [3]; VSetExpiry 0 3 9; VClearExpiry 3; VTenantStatus 0 TActive; ask].
Lemma vops_more w w' : vops_outs (w ++ w') <> [] -> exists outs, vrun id_oracle (length w) (vops_state w) w' = Ok (vops_state (w ++ w'), outs).
Proof.
  unfold vops_state, vops_outs. destruct (vrun id_oracle 0 v2_init (w ++ w')) as [[st outs]| |] eqn:E; [|done|done]. intros _.
  apply vrun_app in E as (s & o1 & o2 & H1 & H2). rewrite H1. by exists o2.
Qed.
Lemma more_goes_on (ask : vop -> Prop) ask' w w' : (forall x, ask' x = true -> ask x) -> vops_outs (w ++ w') <> [] ->
  all_go_on ask' adds_only (length w) (vops_state w) w' = true -> rtc (goes_on ask) (vops_state w) (vops_state (w ++ w')).
Proof. intros Ha (outs & H)%vops_more Hg. exact (all_go_on_rtc ask ask' adds_only Ha adds_only_addition _ _ _ _ _ Hg H). Qed.
Lemma no_scope st q : q_scope q = "" -> no_scope_given st q.
Proof. by left. Qed.
Definition w127_asks : list vop := more (VAuthorize 0 q_doc).
Definition w127_cans : list vop := more (VCan 0 q_doc ["reader"]).
Definition q_put : request := Req "ann" "acme" "" "" "/doc" "PUT".
Lemma c127_ex : let st := vops_state w_base in let st' := vops_state (w_base ++ w127_asks) in
  vreachable st /\ rtc (goes_on is_authorize) st st' /\ distinct_ids st' /\ no_scope_given st' q_doc
  /\ vanswer (v2_authorize id_oracle st 0 q_doc) = Some true /\ vanswer (v2_authorize id_oracle st' 0 q_doc) = Some true
  /\ vanswer (v2_authorize id_oracle st 0 q_put) = Some false /\ vanswer (v2_authorize id_oracle st' 0 q_put) = Some true.
Proof.
  split; [reach_vops w_base|]. split; [apply (more_goes_on _ asks_authorize); [exact asks_authorize_is|vm_compute; discriminate|computed]|].
  split; [distinct|]. split; [by apply no_scope|]. split_and!; computed.
Qed.
Lemma c127_can_ex : let st := vops_state w_base in let st' := vops_state (w_base ++ w127_cans) in
  vreachable st /\ rtc (goes_on is_can) st st' /\ distinct_ids st'
  /\ vanswer (v2_can id_oracle st 0 q_doc ["reader"]) = Some true /\ vanswer (v2_can id_oracle st' 0 q_doc ["reader"]) = Some true
  /\ vanswer (v2_can id_oracle st 0 q_doc ["editor"]) = Some false /\ vanswer (v2_can id_oracle st' 0 q_doc ["editor"]) = Some true.
Proof.
  split; [reach_vops w_base|]. split; [apply (more_goes_on _ asks_can); [exact asks_can_is|vm_compute; discriminate|computed]|].
  split; [distinct|]. split_and!; computed.
Qed.
(** The assignment of "ann" is for the scope "s"; then an unscoped one and another one for "s"
    are given. *)
Definition w127_scoped : list vop :=
  [VNewRole "reader"; VRoleAdd 0 [("/doc", "GET")]; VAddRoles [0]; VNewTenant "acme" (Some "ns"); VTenantScopes 0 "ns" ["s"]; VAddTenant 0;
   VNewPR (PRole "ann" "acme" "s" "" "reader" None false); VAddPR [0]].
Definition w127_also : list vop :=
  [VAuthorize 0 q_scoped; VNewRole "writer"; VRoleAdd 1 [("/doc", "PUT")]; VAddRoles [1];
   VNewPR (PRole "ann" "acme" "" "" "writer" None false); VNewPR (PRole "ann" "acme" "s" "" "writer" None false); VAddPR [1; 2]].
Lemma all_scoped_list st user : Forall (fun p => match p with Some l => match w_prs st !! l with Some pr => pr_scope pr <> "" | None => True end | None => True end) (w_assign st) -> all_scoped st user.
Proof. intros H pr (l & Hl & Hp) _. rewrite Forall_forall in H. specialize (H _ Hl). simpl in H. by rewrite Hp in H. Qed.
Lemma c127_scoped_ex : let st := vops_state w127_scoped in let st' := vops_state (w127_scoped ++ w127_also) in
  vreachable st /\ all_scoped st "ann" /\ rtc (goes_on is_authorize) st st' /\ distinct_ids st'
  /\ vanswer (v2_authorize id_oracle st 0 q_scoped) = Some true /\ vanswer (v2_authorize id_oracle st' 0 q_scoped) = Some true.
Proof.
  split; [reach_vops w127_scoped|]. split; [apply all_scoped_list; vm_compute; repeat constructor; discriminate|].
  split; [apply (more_goes_on _ asks_authorize); [exact asks_authorize_is|vm_compute; discriminate|computed]|].
  split; [distinct|]. split_and!; computed.
Qed.
