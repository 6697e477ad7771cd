(** Properties of package v2: taking things back never gives access. *)
From Verif Require Import V2ShrinkEx.
Local Open Scope string_scope.

(** ** C129: what was denied stays denied when something is taken back *)
(** Refuted: after an assignment of theirs is taken back, somebody may do what they might not do
    before. *)
Theorem C129_assignment_refuted : exists st tg q, vreachable st /\ distinct_ids st /\ exists s st' y s',
  v2_authorize id_oracle st 0 q = Ok (s, false) /\ vstep id_oracle s (VRemovePR tg) = Ok (st', y) /\ v2_authorize id_oracle st' 0 q = Ok (s', true).
Proof. exact c129_assignment_refuted. Qed.
Print Assumptions C129_assignment_refuted.
(** Refuted: so they may after a permission is taken from a role of theirs ... *)
Theorem C129_permission_refuted : exists st r res act q, vreachable st /\ distinct_ids st /\ exists s st' y s',
  v2_authorize id_oracle st 0 q = Ok (s, false) /\ vstep id_oracle st (VRoleRemove r [(res, act)]) = Ok (st', y) /\ v2_authorize id_oracle st' 0 q = Ok (s', true).
Proof. exact c129_permission_refuted. Qed.
Print Assumptions C129_permission_refuted.
(** ... and when an assignment of theirs runs out. *)
Theorem C129_time_refuted : exists st q, vreachable st /\ distinct_ids st /\ exists s s',
  v2_authorize id_oracle st 0 q = Ok (s, false) /\ v2_authorize id_oracle s 6 q = Ok (s', true).
Proof. exact c129_time_refuted. Qed.
Print Assumptions C129_time_refuted.
(** What holds.  However much is taken back and however much time passes, with questions of the
    same kind in between, what Authorize denied is denied, unless somebody asks for a scope for
    which they had an assignment ... *)
Theorem C129_authorize_partial (o o' : oracle) (st : vstate) (now now' : Z) (q : request) (s st' s' : vstate) (b : bool) :
  (now <= now')%Z -> vreachable st -> distinct_ids st -> no_scope_given st q -> v2_authorize o st now q = Ok (s, false) ->
  rtc (comes_down is_authorize) st st' -> v2_authorize o' st' now' q = Ok (s', b) -> b = false.
Proof. exact (c129_authorize o o' st now now' q s st' s' b). Qed.
Print Assumptions C129_authorize_partial.
(** ... and even then, if all their assignments were for some scope. *)
Theorem C129_scoped_partial (o o' : oracle) (st : vstate) (now now' : Z) (q : request) (s st' s' : vstate) (b : bool) :
  (now <= now')%Z -> vreachable st -> distinct_ids st -> all_scoped st (q_principal q) -> v2_authorize o st now q = Ok (s, false) ->
  rtc (comes_down is_authorize) st st' -> v2_authorize o' st' now' q = Ok (s', b) -> b = false.
Proof. exact (c129_scoped o o' st now now' q s st' s' b). Qed.
Print Assumptions C129_scoped_partial.
(** What Can denied is denied, whatever scopes are involved. *)
Theorem C129_can_partial (o o' : oracle) (st : vstate) (now now' : Z) (q : request) (roles : list string) (s st' s' : vstate) (b : bool) :
  (now <= now')%Z -> vreachable st -> distinct_ids st -> v2_can o st now q roles = Ok (s, false) ->
  rtc (comes_down is_can) st st' -> v2_can o' st' now' q roles = Ok (s', b) -> b = false.
Proof. exact (c129_can o o' st now now' q roles s st' s' b). Qed.
Print Assumptions C129_can_partial.
(** Concrete cases: permissions, assignments, the status of a tenant and time are taken back, which
    does take access away. *)
Example C129_example : let st := vops_state w129_big in let st' := vops_state (w129_big ++ w129_asks) in
  vreachable st /\ distinct_ids st /\ rtc (comes_down is_authorize) st st' /\ no_scope_given st (q_ann "PUT")
  /\ vanswer (v2_authorize id_oracle st 0 (q_ann "PUT")) = Some false /\ vanswer (v2_authorize id_oracle st' 7 (q_ann "PUT")) = Some false
  /\ vanswer (v2_authorize id_oracle st 0 (q_ann "GET")) = Some true /\ vanswer (v2_authorize id_oracle st' 7 (q_ann "GET")) = Some true
  /\ vanswer (v2_authorize id_oracle st' 9 (q_ann "GET")) = Some false
  /\ vanswer (v2_authorize id_oracle st 0 (q_bob "PUT")) = Some true /\ vanswer (v2_authorize id_oracle st' 0 (q_bob "PUT")) = Some false.
Proof. exact c129_ex. Qed.
Example C129_can_example : let st := vops_state w129_big in let st' := vops_state (w129_big ++ w129_cans) in
  vreachable st /\ distinct_ids st /\ rtc (comes_down is_can) st st'
  /\ vanswer (v2_can id_oracle st 0 (q_ann "") ["writer"]) = Some false /\ vanswer (v2_can id_oracle st' 7 (q_ann "") ["writer"]) = Some false
  /\ vanswer (v2_can id_oracle st 0 (q_bob "") ["writer"]) = Some true /\ vanswer (v2_can id_oracle st' 0 (q_bob "") ["writer"]) = Some false.
Proof. exact c129_can_ex. Qed.
Example C129_scoped_example : let st := vops_state w127_scoped in let st' := vops_state (w127_scoped ++ w129_less) in
  vreachable st /\ distinct_ids st /\ all_scoped st "ann" /\ rtc (comes_down is_authorize) st st'
  /\ vanswer (v2_authorize id_oracle st 0 q_scoped_put) = Some false /\ vanswer (v2_authorize id_oracle st' 2 q_scoped_put) = Some false
  /\ vanswer (v2_authorize id_oracle st 0 q_scoped) = Some true /\ vanswer (v2_authorize id_oracle st' 4 q_scoped) = Some false.
Proof. exact c129_scoped_ex. Qed.
