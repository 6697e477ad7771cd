(** C91, C92: the audit log of package v2. *)
From Verif Require Import V2Ex LogProofs LogEx LogSpec.

(** ** C91: the log says what was decided *)
(** Of the entries of an Authorize that returns, the last is its verdict, and no other is a verdict. *)
Theorem C91_authorize (o : oracle) (st : vstate) (now : Z) (q : request) (es : list entry) (st' : vstate) (b : bool) :
  v2_authorize_logged true o st now q = (es, Ok (st', b)) -> tells st q b es.
Proof. exact (authorize_tells o st now q es st' b). Qed.
Print Assumptions C91_authorize.
Theorem C91_can (o : oracle) (st : vstate) (now : Z) (q : request) (roles : list string) (es : list entry) (st' : vstate) (b : bool) :
  v2_can_logged true o st now q roles = (es, Ok (st', b)) -> tells st q b es.
Proof. exact (can_tells o st now q roles es st' b). Qed.
Print Assumptions C91_can.
(** A call that panics or hangs has not logged a verdict. *)
Theorem C91_no_verdict (o : oracle) (st : vstate) (now : Z) (q : request) (es : list entry) (r : res (vstate * bool)) (e : entry) :
  v2_authorize_logged true o st now q = (es, r) \/ (exists roles, v2_can_logged true o st now q roles = (es, r)) ->
  (forall x, r <> Ok x) -> e ∈ es -> ~ is_verdict (en_msg e).
Proof.
  exact (fun H Hr He => match H with
    | or_introl Ha => authorize_no_verdict o st now q es r e Ha Hr He
    | or_intror (ex_intro _ roles Hc) => can_no_verdict o st now q roles es r e Hc Hr He
    end).
Qed.
Print Assumptions C91_no_verdict.
(** "Failed to resolve" is logged only if the principal holds nothing in some tenant the request is directed at, and always then,
    unless the call is granted. *)
Theorem C91_authorize_nothing_held (st : vstate) (now : Z) (q : request) (o : oracle) (es : list entry) (st' : vstate) (b : bool) :
  vreachable st -> distinct_ids st -> v2_authorize_logged true o st now q = (es, Ok (st', b)) ->
  let warning := Entry (log_attrs q) "Failed to resolve permissions for authorization" in
  (warning ∈ es -> holds_nothing st now q) /\ (b = false -> holds_nothing st now q -> warning ∈ es).
Proof. exact (fun Hr Hd => v2_authorize_warned st now q (vreachable_wf st Hr) Hd o es st' b). Qed.
Print Assumptions C91_authorize_nothing_held.
Theorem C91_can_nothing_held (st : vstate) (now : Z) (q : request) (o : oracle) (roles : list string) (es : list entry) (st' : vstate) (b : bool) :
  vreachable st -> distinct_ids st -> v2_can_logged true o st now q roles = (es, Ok (st', b)) ->
  let warning := Entry (log_attrs q) "Failed to resolve roles for authorization" in
  (warning ∈ es -> holds_no_role st now q) /\ (b = false -> holds_no_role st now q -> warning ∈ es).
Proof. exact (fun Hr Hd => v2_can_warned st now q (vreachable_wf st Hr) Hd o roles es st' b). Qed.
Print Assumptions C91_can_nothing_held.
(** With or without a logger, the decision is the one of the other theorems. *)
Theorem C91_same_decision (on : bool) (o : oracle) (st : vstate) (now : Z) (q : request) (roles : list string) :
  (v2_authorize_logged on o st now q).2 = v2_authorize o st now q /\ (v2_can_logged on o st now q roles).2 = v2_can o st now q roles.
Proof. exact (conj (v2_authorize_logged_same on o st now q) (v2_can_logged_same on o st now q roles)). Qed.
Print Assumptions C91_same_decision.
Example C91_ex : let st := vops_state w91 in let ask q := (logs (v2_authorize_logged true id_oracle st 0 q), vanswer (v2_authorize id_oracle st 0 q)) in
  vreachable st /\ distinct_ids st
  /\ ask q_doc = ([Entry [("principal", "ann"); ("tenant", "acme"); ("resource", "/doc"); ("action", "GET")] "Authorization granted"], Some true)
  /\ ask q_any = ([Entry (log_attrs q_any) "Failed to resolve permissions for authorization"; Entry (log_attrs q_any) "Authorization failed"], Some false)
  /\ ask q_none = ([Entry (log_attrs q_none) "Failed authorization due to invalid tenant"], Some false).
Proof. exact c91_ex. Qed.

(** ** C92: an entry says what was allowed *)
Theorem C92_granted_refuted : exists (st : vstate) (now : Z), vreachable st /\ distinct_ids st /\ ~ grants_mean_allowed st now.
Proof. exact c92_refuted. Qed.
Print Assumptions C92_granted_refuted.
(** Two calls of Can with opposite answers, whose entries carry the same attributes *)
Theorem C92_roles_refuted : exists (st : vstate) (now : Z) (q : request) (roles roles' : list string) (st1 st2 : vstate) (e e' : entry),
  vreachable st /\ distinct_ids st
  /\ v2_can_logged true id_oracle st now q roles = ([e], Ok (st1, true)) /\ v2_can_logged true id_oracle st now q roles' = ([e'], Ok (st2, false))
  /\ en_attrs e = en_attrs e'.
Proof. exact c92_roles_refuted. Qed.
Print Assumptions C92_roles_refuted.
(** What Authorize logs as granted is allowed ... *)
Theorem C92_authorize_partial (o : oracle) (st : vstate) (now : Z) (q : request) (es : list entry) (st' : vstate) (b : bool) (q' : request) :
  vreachable st -> distinct_ids st -> v2_authorize_logged true o st now q = (es, Ok (st', b)) ->
  Entry (log_attrs q') "Authorization granted" ∈ es -> v2_allowed st now q'.
Proof. exact (fun Hr Hd => authorize_grant_allowed o st now q es st' b q' (vreachable_wf st Hr) Hd). Qed.
Print Assumptions C92_authorize_partial.
(** ... and what Can logs as granted says that one of the roles asked for, which are not logged, is held. *)
Theorem C92_can (o : oracle) (st : vstate) (now : Z) (q : request) (roles : list string) (es : list entry) (st' : vstate) (b : bool) (q' : request) :
  vreachable st -> distinct_ids st -> v2_can_logged true o st now q roles = (es, Ok (st', b)) ->
  Entry (log_attrs q') "Authorization granted" ∈ es -> v2_can_allowed st now q' roles.
Proof. exact (fun Hr Hd => can_grant_holds o st now q roles es st' b q' (vreachable_wf st Hr) Hd). Qed.
Print Assumptions C92_can.
(** The attributes determine the request ... *)
Theorem C92_request (q q' : request) : log_attrs q = log_attrs q' -> q = q'.
Proof. exact (log_attrs_inj q q'). Qed.
Print Assumptions C92_request.
(** ... but a request that leaves the tenant to the authorizer is logged without one. *)
Theorem C92_default_unnamed (st : vstate) (q : request) (b : bool) (es : list entry) (e : entry) (t : string) :
  tells st q b es -> e ∈ es -> q_tenant q = "" -> ~ tenant_named e t.
Proof. exact (default_unnamed st q b es e t). Qed.
Print Assumptions C92_default_unnamed.
Example C92_default_ex : let st := vops_state w92 in
  (logs (v2_authorize_logged true id_oracle st 0 q_dflt), vanswer (v2_authorize id_oracle st 0 q_dflt)) =
  ([Entry [("principal", "ann"); ("resource", "/doc"); ("action", "GET")] "Authorization granted"], Some true).
Proof. exact c92_default_ex. Qed.
