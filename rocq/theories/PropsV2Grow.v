(** Properties of package v2: additions never take access away. *)
From Verif Require Import V2GrowEx.
Local Open Scope string_scope.

(** ** C127: what was allowed stays allowed when more is added *)
(** Refuted: one more assignment for the principal takes away what they could do, if it is for the
    scope asked for. *)
Theorem C127_scope_refuted : exists st l q, vreachable st /\ distinct_ids st /\ exists s st' y s',
  v2_authorize id_oracle st 0 q = Ok (s, true) /\ vstep id_oracle s (VAddPR [l]) = Ok (st', y) /\ v2_authorize id_oracle st' 0 q = Ok (s', false).
Proof. exact c127_scope_refuted. Qed.
Print Assumptions C127_scope_refuted.
(** Refuted: so does one more permission for a role the principal has for that scope. *)
Theorem C127_permission_refuted : exists st r res act q, vreachable st /\ distinct_ids st /\ exists s st' y s',
  v2_authorize id_oracle st 0 q = Ok (s, true) /\ vstep id_oracle st (VRoleAdd r [(res, act)]) = Ok (st', y) /\ v2_authorize id_oracle st' 0 q = Ok (s', false).
Proof. exact c127_permission_refuted. Qed.
Print Assumptions C127_permission_refuted.
(** Refuted: a second namespace in a tenant without a default one shuts out every request that
    names no namespace. *)
Theorem C127_namespace_refuted : exists st t n q, vreachable st /\ distinct_ids st /\ exists s st' y s',
  v2_authorize id_oracle st 0 q = Ok (s, true) /\ vstep id_oracle s (VTenantNamespace t n false) = Ok (st', y) /\ v2_authorize id_oracle st' 0 q = Ok (s', false).
Proof. exact c127_namespace_refuted. Qed.
Print Assumptions C127_namespace_refuted.
(** Refuted: AddRole with a name already registered drops what the earlier role permitted. *)
Theorem C127_role_refuted : exists st l q, vreachable st /\ distinct_ids st /\ exists s st' y s',
  v2_authorize id_oracle st 0 q = Ok (s, true) /\ vstep id_oracle st (VAddRoles [l]) = Ok (st', y) /\ v2_authorize id_oracle st' 0 q = Ok (s', false).
Proof. exact c127_role_refuted. Qed.
Print Assumptions C127_role_refuted.
(** What holds.  After any number of additions (also longer expiries), with questions of the same kind in between, what
    Authorize granted is granted, unless somebody asks for a scope for which they have been given
    an assignment ... *)
Theorem C127_authorize_partial (o o' : oracle) (st : vstate) (now : Z) (q : request) (s st' s' : vstate) (b : bool) :
  vreachable st -> v2_authorize o st now q = Ok (s, true) ->
  rtc (goes_on is_authorize) st st' -> distinct_ids st' -> no_scope_given st' q -> v2_authorize o' st' now q = Ok (s', b) -> b = true.
Proof. exact (c127_authorize o o' st now q s st' s' b). Qed.
Print Assumptions C127_authorize_partial.
(** ... and even then, if all they had in the beginning was for some scope. *)
Theorem C127_scoped_partial (o o' : oracle) (st : vstate) (now : Z) (q : request) (s st' s' : vstate) (b : bool) :
  vreachable st -> all_scoped st (q_principal q) -> v2_authorize o st now q = Ok (s, true) ->
  rtc (goes_on is_authorize) st st' -> distinct_ids st' -> v2_authorize o' st' now q = Ok (s', b) -> b = true.
Proof. exact (c127_scoped o o' st now q s st' s' b). Qed.
Print Assumptions C127_scoped_partial.
(** What Can granted is granted after any number of additions, whatever scopes are involved. *)
Theorem C127_can_partial (o o' : oracle) (st : vstate) (now : Z) (q : request) (roles : list string) (s st' s' : vstate) (b : bool) :
  vreachable st -> v2_can o st now q roles = Ok (s, true) ->
  rtc (goes_on is_can) st st' -> distinct_ids st' -> v2_can o' st' now q roles = Ok (s', b) -> b = true.
Proof. exact (c127_can o o' st now q roles s st' s' b). Qed.
Print Assumptions C127_can_partial.
(** Concrete cases: more roles, tenants, namespaces, children and assignments, which do give more
    access. *)
Example C127_example : let st := vops_state w_base in let st' := vops_state (w_base ++ w127_asks) in
  vreachable st /\ rtc (goes_on is_authorize) st st' /\ distinct_ids st' /\ no_scope_given st' q_doc
  /\ vanswer (v2_authorize id_oracle st 0 q_doc) = Some true /\ vanswer (v2_authorize id_oracle st' 0 q_doc) = Some true
  /\ vanswer (v2_authorize id_oracle st 0 q_put) = Some false /\ vanswer (v2_authorize id_oracle st' 0 q_put) = Some true.
Proof. exact c127_ex. Qed.
Example C127_can_example : let st := vops_state w_base in let st' := vops_state (w_base ++ w127_cans) in
  vreachable st /\ rtc (goes_on is_can) st st' /\ distinct_ids st'
  /\ vanswer (v2_can id_oracle st 0 q_doc ["reader"]) = Some true /\ vanswer (v2_can id_oracle st' 0 q_doc ["reader"]) = Some true
  /\ vanswer (v2_can id_oracle st 0 q_doc ["editor"]) = Some false /\ vanswer (v2_can id_oracle st' 0 q_doc ["editor"]) = Some true.
Proof. exact c127_can_ex. Qed.
Example C127_scoped_example : let st := vops_state w127_scoped in let st' := vops_state (w127_scoped ++ w127_also) in
  vreachable st /\ all_scoped st "ann" /\ rtc (goes_on is_authorize) st st' /\ distinct_ids st'
  /\ vanswer (v2_authorize id_oracle st 0 q_scoped) = Some true /\ vanswer (v2_authorize id_oracle st' 0 q_scoped) = Some true.
Proof. exact c127_scoped_ex. Qed.
