(** Concrete permissions of package v2. *)
From Verif Require Export PermProofs V2GrowEx.
From Verif Require Import EditEx MatchCor.
Local Open Scope string_scope.

(** One tenant and one role without permissions. *)
Definition w128 : list vop :=
  [VNewRole "reader"; VAddRoles [0]; VNewTenant "acme" (Some "ns"); VAddTenant 0; VNewPR (PRole "ann" "acme" "" "" "reader" None false); VAddPR [0]].
Definition backend_doc : vperm := new_permission "backend" "/doc" "GET".
Definition frontend_doc : vperm := new_permission "frontend" "/doc" "GET".
Definition report_all : vperm := new_permission "backend" "report all" "read".
Definition report : vperm := new_permission "backend" "report" "all read".
(** The request for exactly what the permission names. *)
Definition asking (p : vperm) : request := Req "ann" "acme" "" "" (vp_resource p) (vp_action p).
Definition state_of (x : res vstate) : vstate := match x with Ok st => st | _ => v2_init end.
Lemma state_of_ok x : match x with Ok _ => true | _ => false end = true -> x = Ok (state_of x).
Proof. by destruct x. Qed.
Definition given (p : vperm) : vstate := state_of (add_permissions (vops_state w128) 0 [p]).
Definition given_less (p p' : vperm) : vstate := state_of (remove_permissions (given p) 0 [p']).
Lemma empty_confers st n p : Forall (fun r => vr_perms r = ∅) (w_roles st) -> ~ confers (w_roles st) (w_dag st) n p.
Proof.
  intros H (m & r & _ & (l & _ & Hl) & Hp). rewrite Forall_forall in H. rewrite (H r) in Hp; [set_solver|]. by eapply elem_of_list_lookup_2.
Qed.
Lemma w128_empty : forall n p, ~ gives (vops_state w128) n p.
Proof. intros n p. apply empty_confers. replace (w_roles (vops_state w128)) with [VRole "reader" ∅] by (vm_compute; reflexivity). by repeat constructor. Qed.
Lemma c128_category_refuted : exists st st1 st2 r p p' q, vreachable st /\ distinct_ids st /\ (forall n x, ~ gives st n x)
  /\ vp_category p <> vp_category p' /\ add_permissions st r [p] = Ok st1 /\ remove_permissions st1 r [p'] = Ok st2
  /\ vanswer (v2_authorize id_oracle st1 0 q) = Some true /\ vanswer (v2_authorize id_oracle st2 0 q) = Some false.
Proof.
  exists (vops_state w128), (given backend_doc), (given_less backend_doc frontend_doc), 0, backend_doc, frontend_doc, (asking backend_doc).
  split; [reach_vops w128|]. split; [distinct|]. split; [exact w128_empty|]. split; [discriminate|].
  split; [apply state_of_ok; computed|]. split; [apply state_of_ok; computed|]. split; computed.
Qed.
Lemma c128_space_refuted : exists st st1 st2 r p p', vreachable st /\ distinct_ids st /\ (forall n x, ~ gives st n x)
  /\ vp_resource p <> vp_resource p' /\ vp_action p <> vp_action p' /\ vp_category p = vp_category p' /\ add_permissions st r [p] = Ok st1 /\ remove_permissions st1 r [p'] = Ok st2
  /\ vanswer (v2_authorize id_oracle st1 0 (asking p)) = Some true /\ vanswer (v2_authorize id_oracle st1 0 (asking p')) = Some true
  /\ vanswer (v2_authorize id_oracle st2 0 (asking p)) = Some false.
Proof.
  exists (vops_state w128), (given report_all), (given_less report_all report), 0, report_all, report.
  split; [reach_vops w128|]. split; [distinct|]. split; [exact w128_empty|]. split; [discriminate|]. split; [discriminate|]. split; [done|].
  split; [apply state_of_ok; computed|]. split; [apply state_of_ok; computed|]. split_and!; computed.
Qed.
(** ** Concrete cases *)
Definition backend_put : vperm := new_permission "backend" "/doc" "PUT".
Lemma literal_not_concerns q p : literal (vp_string p) -> res_act (q_resource q) (q_action q) <> vp_string p -> ~ concerns q p.
Proof. intros [H1 H2] Hne [_ H]. apply matches_literal in H; [|exact H1|exact H2]. apply bytes_inj in H. by rewrite H in Hne. Qed.
Ltac lacking := unfold lacks; vm_compute; intros Hin; repeat (inversion Hin as [|??? Hin']; clear Hin; rename Hin' into Hin).
(** Removing another permission: the role has it no longer, and still has the one asked for. *)
Definition both : vstate := state_of (add_permissions (vops_state w128) 0 [backend_doc; backend_put]).
Definition both_less : vstate := state_of (remove_permissions both 0 [backend_put]).
Definition both_ops : list vop := w128 ++ [VRoleAdd 0 [("/doc", "GET"); ("/doc", "PUT")]].
Lemma both_is : both = vops_state both_ops.
Proof. vm_compute. reflexivity. Qed.
Lemma c128_ex : told_apart backend_doc backend_put /\ vreachable both /\ distinct_ids both /\ no_scope_given both (asking backend_doc)
  /\ remove_permissions both 0 [backend_put] = Ok both_less /\ ~ concerns (asking backend_doc) backend_put
  /\ vanswer (v2_authorize id_oracle both 0 (asking backend_doc)) = Some true /\ vanswer (v2_authorize id_oracle both_less 0 (asking backend_doc)) = Some true
  /\ vanswer (v2_authorize id_oracle both 0 (asking backend_put)) = Some true /\ vanswer (v2_authorize id_oracle both_less 0 (asking backend_put)) = Some false.
Proof.
  split; [split; [discriminate|right; split; lacking]|]. split; [rewrite both_is; reach_vops both_ops|]. split; [distinct|]. split; [by apply no_scope|].
  split; [apply state_of_ok; computed|]. split; [apply literal_not_concerns; [split; lacking|discriminate]|]. split_and!; computed.
Qed.
(** Adding a permission the request is not about. *)
Lemma c128_add_ex : told_apart backend_doc backend_put /\ vreachable (vops_state w128) /\ distinct_ids (vops_state w128) /\ no_scope_given (vops_state w128) (asking backend_doc)
  /\ add_permissions (vops_state w128) 0 [backend_put] = Ok (given backend_put) /\ ~ concerns (asking backend_doc) backend_put
  /\ vanswer (v2_authorize id_oracle (given backend_put) 0 (asking backend_doc)) = Some false
  /\ vanswer (v2_authorize id_oracle (given backend_put) 0 (asking backend_put)) = Some true.
Proof.
  split; [split; [discriminate|right; split; lacking]|]. split; [reach_vops w128|]. split; [distinct|]. split; [by apply no_scope|].
  split; [apply state_of_ok; computed|]. split; [apply literal_not_concerns; [split; lacking|discriminate]|]. split; computed.
Qed.
