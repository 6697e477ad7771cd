(** Properties of package v2: permissions that differ. *)
From Verif Require Import PermEx RoleSpec.
Local Open Scope string_scope.

(** ** C128: permissions that differ do not interfere *)
(** Refuted for the category: taking a permission of one category from a role takes the permission
    of another category away. *)
Theorem C128_category_refuted : exists st st1 st2 r p p' q, vreachable st /\ distinct_ids st /\ (forall n x, ~ gives st n x)
  /\ vp_category p <> vp_category p' /\ add_permissions st r [p] = Ok st1 /\ remove_permissions st1 r [p'] = Ok st2
  /\ vanswer (v2_authorize id_oracle st1 0 q) = Some true /\ vanswer (v2_authorize id_oracle st2 0 q) = Some false.
Proof. exact c128_category_refuted. Qed.
Print Assumptions C128_category_refuted.
(** Refuted for resources and actions with spaces: of two permissions with different resources and
    actions, giving one gives the other, and taking the other takes the one. *)
Theorem C128_space_refuted : exists st st1 st2 r p p', vreachable st /\ distinct_ids st /\ (forall n x, ~ gives st n x)
  /\ vp_resource p <> vp_resource p' /\ vp_action p <> vp_action p' /\ vp_category p = vp_category p' /\ add_permissions st r [p] = Ok st1 /\ remove_permissions st1 r [p'] = Ok st2
  /\ vanswer (v2_authorize id_oracle st1 0 (asking p)) = Some true /\ vanswer (v2_authorize id_oracle st1 0 (asking p')) = Some true
  /\ vanswer (v2_authorize id_oracle st2 0 (asking p)) = Some false.
Proof. exact c128_space_refuted. Qed.
Print Assumptions C128_space_refuted.
(** Exactly which permissions are taken for each other (the category never counts). *)
Theorem C128_collision_exact (p p' : vperm) : vp_string p = vp_string p' <->
  vp_resource p = vp_resource p' /\ vp_action p = vp_action p'
  \/ (exists m, vp_resource p' = glue (vp_resource p) m /\ vp_action p = glue m (vp_action p'))
  \/ (exists m, vp_resource p = glue (vp_resource p') m /\ vp_action p' = glue m (vp_action p)).
Proof. exact (vp_collide p p'). Qed.
Print Assumptions C128_collision_exact.
(** What holds.  Permissions that differ in resource or action, without spaces, are left alone when
    others are given or taken ... *)
Theorem C128_add_partial (st : vstate) (l : nat) (ps : list vperm) (st' : vstate) (n : string) (p : vperm) :
  add_permissions st l ps = Ok st' -> Forall (told_apart p) ps -> gives st' n p <-> gives st n p.
Proof. exact (c128_add st l ps st' n p). Qed.
Print Assumptions C128_add_partial.
Theorem C128_remove_partial (st : vstate) (l : nat) (ps : list vperm) (st' : vstate) (n : string) (p : vperm) :
  remove_permissions st l ps = Ok st' -> Forall (told_apart p) ps -> gives st' n p <-> gives st n p.
Proof. exact (c128_remove st l ps st' n p). Qed.
Print Assumptions C128_remove_partial.
(** ... and Authorize answers as before whatever none of them is about, unless somebody asks for a
    scope for which they have an assignment (see C127, C129). *)
Theorem C128_add_decision_partial (st : vstate) (l : nat) (ps : list vperm) (st' : vstate) (o o' : oracle) (now : Z) (q : request) (s : vstate) (b : bool) (s' : vstate) (b' : bool) :
  vreachable st -> distinct_ids st -> no_scope_given st q -> add_permissions st l ps = Ok st' -> Forall (fun p => ~ concerns q p) ps ->
  v2_authorize o st now q = Ok (s, b) -> v2_authorize o' st' now q = Ok (s', b') -> b' = b.
Proof. exact (c128_add_decision st l ps st' o o' now q s b s' b'). Qed.
Print Assumptions C128_add_decision_partial.
Theorem C128_remove_decision_partial (st : vstate) (l : nat) (ps : list vperm) (st' : vstate) (o o' : oracle) (now : Z) (q : request) (s : vstate) (b : bool) (s' : vstate) (b' : bool) :
  vreachable st -> distinct_ids st -> no_scope_given st q -> remove_permissions st l ps = Ok st' -> Forall (fun p => ~ concerns q p) ps ->
  v2_authorize o st now q = Ok (s, b) -> v2_authorize o' st' now q = Ok (s', b') -> b' = b.
Proof. exact (c128_remove_decision st l ps st' o o' now q s b s' b'). Qed.
Print Assumptions C128_remove_decision_partial.
(** The permissions of this file are those of the histories: a call is one of a program. *)
Theorem C128_add_is_call (o : oracle) (st : vstate) (l : nat) (ps : list vperm) (st' : vstate) :
  add_permissions st l ps = Ok st' -> vstep o st (VRoleAdd l ((fun p => (vp_resource p, vp_action p)) <$> ps)) = Ok (st', WUnit).
Proof. exact (add_is_step o st l ps st'). Qed.
Print Assumptions C128_add_is_call.
Theorem C128_remove_is_call (o : oracle) (st : vstate) (l : nat) (ps : list vperm) (st' : vstate) :
  remove_permissions st l ps = Ok st' -> vstep o st (VRoleRemove l ((fun p => (vp_resource p, vp_action p)) <$> ps)) = Ok (st', WUnit).
Proof. exact (remove_is_step o st l ps st'). Qed.
Print Assumptions C128_remove_is_call.
Example C128_example : told_apart backend_doc backend_put /\ vreachable both /\ distinct_ids both /\ no_scope_given both (asking backend_doc)
  /\ remove_permissions both 0 [backend_put] = Ok both_less /\ ~ concerns (asking backend_doc) backend_put
  /\ vanswer (v2_authorize id_oracle both 0 (asking backend_doc)) = Some true /\ vanswer (v2_authorize id_oracle both_less 0 (asking backend_doc)) = Some true
  /\ vanswer (v2_authorize id_oracle both 0 (asking backend_put)) = Some true /\ vanswer (v2_authorize id_oracle both_less 0 (asking backend_put)) = Some false.
Proof. exact c128_ex. Qed.
Example C128_add_example : told_apart backend_doc backend_put /\ vreachable (vops_state w128) /\ distinct_ids (vops_state w128) /\ no_scope_given (vops_state w128) (asking backend_doc)
  /\ add_permissions (vops_state w128) 0 [backend_put] = Ok (given backend_put) /\ ~ concerns (asking backend_doc) backend_put
  /\ vanswer (v2_authorize id_oracle (given backend_put) 0 (asking backend_doc)) = Some false
  /\ vanswer (v2_authorize id_oracle (given backend_put) 0 (asking backend_put)) = Some true.
Proof. exact c128_add_ex. Qed.
