(** Properties of v2 decisions during which time passes. *)
From Verif Require Import V2Ex TickFinal TickEx TickSpec.

(** ** C122: a Can while an assignment runs out *)
(** The answer is the right one at some instant between the start and the end of the call. *)
Theorem C122_some_instant (st : vstate) (clock : nat -> Z) (t0 t1 : Z) (o : oracle) (q : request) (roles : list string)
  (st' : vstate) (b : bool) : vreachable st -> distinct_ids st -> lasts clock t0 t1 -> t_can clock st o q roles = Ok (st', b) ->
  right_meanwhile (fun t => v2_can_allowed st t q roles) t0 t1 b.
Proof. exact (c122_some_instant st clock t0 t1 o q roles st' b). Qed.
Print Assumptions C122_some_instant.
(** A role held until the end is found, and only a role held at the start is found. *)
Theorem C122_bounds (st : vstate) (clock : nat -> Z) (t0 t1 : Z) (o : oracle) (q : request) (roles : list string)
  (st' : vstate) (b : bool) : vreachable st -> distinct_ids st -> lasts clock t0 t1 -> t_can clock st o q roles = Ok (st', b) ->
  (v2_can_allowed st t1 q roles -> b = true) /\ (b = true -> v2_can_allowed st t0 q roles).
Proof. exact (c122_bounds st clock t0 t1 o q roles st' b). Qed.
Print Assumptions C122_bounds.
(** The call returns, whatever the clock shows. *)
Theorem C122_returns (st : vstate) (clock : nat -> Z) (o : oracle) (q : request) (roles : list string) :
  vreachable st -> ~ broken st -> exists st' b, t_can clock st o q roles = Ok (st', b).
Proof. exact (c122_returns st clock o q roles). Qed.
Print Assumptions C122_returns.
(** If time stands still, this is the Can of C32. *)
Theorem C122_still (st : vstate) (now : Z) (o : oracle) (q : request) (roles : list string) :
  t_can (fun _ => now) st o q roles = v2_can o st now q roles.
Proof. exact (can_still st now o q roles). Qed.
Print Assumptions C122_still.
Example C122_example : let st := vops_state tk_granted in
  vreachable st /\ distinct_ids st /\ ~ broken st /\ lasts (jump 2 6) 2 6 /\
  vanswer (t_can (jump 2 6) st id_oracle qt ["reader"]) = Some true /\
  vanswer (t_can (jump 2 6) st id_oracle qt ["writer"]) = Some false /\
  vanswer (t_can (jump 4 4) st id_oracle qt ["reader"]) = Some false /\
  vanswer (t_can (jump 4 4) st id_oracle qt ["writer"]) = Some true.
Proof. exact c122_ex. Qed.

(** ** C123: an Authorize while an assignment runs out *)
(** The property is the one of C122: the answer is right at some instant.  It is false in both directions, even without
    asking for the instant to be during the call: a request that is denied at every instant can be granted, *)
Theorem C123_granted_refuted : ~ (forall (st : vstate) (clock : nat -> Z) (t0 t1 : Z) (o : oracle) (q : request) (st' : vstate),
  vreachable st -> distinct_ids st -> lasts clock t0 t1 -> t_authorize clock st o q = Ok (st', true) ->
  exists t, v2_allowed st t q).
Proof. exact tick_granted_false. Qed.
Print Assumptions C123_granted_refuted.
(** and one that is allowed at every instant can be denied. *)
Theorem C123_denied_refuted : ~ (forall (st : vstate) (clock : nat -> Z) (t0 t1 : Z) (o : oracle) (q : request) (st' : vstate),
  vreachable st -> distinct_ids st -> lasts clock t0 t1 -> t_authorize clock st o q = Ok (st', false) ->
  exists t, ~ v2_allowed st t q).
Proof. exact tick_denied_false. Qed.
Print Assumptions C123_denied_refuted.
(** It holds for requests without a scope; missing: requests with one. *)
Theorem C123_unscoped_partial (st : vstate) (clock : nat -> Z) (t0 t1 : Z) (o : oracle) (q : request) (st' : vstate) (b : bool) :
  vreachable st -> distinct_ids st -> lasts clock t0 t1 -> q_scope q = "" -> t_authorize clock st o q = Ok (st', b) ->
  right_meanwhile (fun t => v2_allowed st t q) t0 t1 b.
Proof. exact (c123_unscoped st clock t0 t1 o q st' b). Qed.
Print Assumptions C123_unscoped_partial.
(** It holds, for every instant of the call, if no assignment of the principal runs out during the call; missing: calls
    during which one does. *)
Theorem C123_lasting_partial (st : vstate) (clock : nat -> Z) (t0 t1 : Z) (o : oracle) (q : request) (st' : vstate) (b : bool)
  (t : Z) : vreachable st -> distinct_ids st -> lasts clock t0 t1 -> none_runs_out st (q_principal q) t0 t1 ->
  (t0 <= t <= t1)%Z -> t_authorize clock st o q = Ok (st', b) -> b = true <-> v2_allowed st t q.
Proof. exact (c123_lasting st clock t0 t1 o q st' b t). Qed.
Print Assumptions C123_lasting_partial.
(** In general: granted is what permissions lasting to the end allow that nothing alive at the start hides, and only what
    permissions alive at the start allow that nothing lasting to the end hides. *)
Theorem C123_bounds (st : vstate) (clock : nat -> Z) (t0 t1 : Z) (o : oracle) (q : request) (st' : vstate) (b : bool) :
  vreachable st -> distinct_ids st -> lasts clock t0 t1 -> t_authorize clock st o q = Ok (st', b) ->
  (allows_then st t1 t0 q -> b = true) /\ (b = true -> allows_then st t0 t1 q).
Proof. exact (c123_bounds st clock t0 t1 o q st' b). Qed.
Print Assumptions C123_bounds.
(** The call returns. *)
Theorem C123_returns (st : vstate) (clock : nat -> Z) (t0 t1 : Z) (o : oracle) (q : request) : vreachable st -> ~ broken st ->
  distinct_ids st -> lasts clock t0 t1 -> no_loop st t0 q -> exists st' b, t_authorize clock st o q = Ok (st', b).
Proof. exact (c123_returns st clock t0 t1 o q). Qed.
Print Assumptions C123_returns.
(** If time stands still, this is the Authorize of C31. *)
Theorem C123_still (st : vstate) (now : Z) (o : oracle) (q : request) :
  t_authorize (fun _ => now) st o q = v2_authorize o st now q.
Proof. exact (authorize_still st now o q). Qed.
Print Assumptions C123_still.
Example C123_example_granted : vreachable (vops_state tk_granted) /\
  vanswer (t_authorize (jump 2 6) (vops_state tk_granted) id_oracle qt) = Some true /\
  forall t, ~ v2_allowed (vops_state tk_granted) t qt.
Proof. exact (conj tk_granted_reach (conj tk_granted_yes tk_granted_never)). Qed.
Example C123_example_denied : vreachable (vops_state tk_denied) /\
  vanswer (t_authorize (jump 2 4) (vops_state tk_denied) id_oracle qt) = Some false /\
  forall t, v2_allowed (vops_state tk_denied) t qt.
Proof. exact (conj tk_denied_reach (conj tk_denied_no tk_denied_always)). Qed.
Example C123_example : let st := vops_state tk_granted in
  vreachable st /\ distinct_ids st /\ lasts (jump 2 3) 2 3 /\ none_runs_out st "ann" 2 3 /\
  vanswer (t_authorize (jump 2 3) st id_oracle (Req "ann" "acme" "" "s" "/doc" "PUT")) = Some true /\
  vanswer (t_authorize (jump 2 3) st id_oracle qt) = Some false /\
  vanswer (t_authorize (jump 2 3) st id_oracle qt_plain) = Some true.
Proof. exact c123_ex. Qed.
