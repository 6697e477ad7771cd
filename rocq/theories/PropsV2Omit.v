(** Properties of package v2: requests that leave something out. *)
From Verif Require Import V2OmitEx EditEx.
Local Open Scope string_scope.

(** ** C130: what a request leaves out is filled in *)
(** Refuted: with the tenant left out somebody is denied what they are allowed in a tenant they
    name, since that tenant is not active ... *)
Theorem C130_inactive_refuted : exists st q t, vreachable st /\ distinct_ids st /\ nameless st q /\ exists s s',
  v2_authorize id_oracle st 0 q = Ok (s, false) /\ v2_authorize id_oracle st 0 (in_tenant q t) = Ok (s', true).
Proof. exact c130_inactive_refuted. Qed.
Print Assumptions C130_inactive_refuted.
(** ... or since there is a default tenant. *)
Theorem C130_default_refuted : exists st q t, vreachable st /\ distinct_ids st /\ q_tenant q = "" /\ active st t /\ exists s s',
  v2_authorize id_oracle st 0 q = Ok (s, false) /\ v2_authorize id_oracle st 0 (in_tenant q t) = Ok (s', true).
Proof. exact c130_default_refuted. Qed.
Print Assumptions C130_default_refuted.
(** Refuted: with the scope left out somebody is allowed what they are denied in a scope they name. *)
Theorem C130_scope_refuted : exists st q s c, vreachable st /\ distinct_ids st /\ about st q c /\ has_scope c q s /\ exists s1 s2,
  v2_authorize id_oracle st 0 (in_scope q "") = Ok (s1, true) /\ v2_authorize id_oracle st 0 (in_scope q s) = Ok (s2, false).
Proof. exact c130_scope_refuted. Qed.
Print Assumptions C130_scope_refuted.
(** What holds.  If there is a default tenant, leaving the tenant out is naming that tenant: the
    two calls do the same, even if they fail. *)
Theorem C130_default (o : oracle) (st : vstate) (now : Z) (q : request) :
  q_tenant q = "" -> v2_authorize o st now q = v2_authorize o st now (in_tenant q (w_default st)).
Proof. exact (c130_default o st now q). Qed.
Print Assumptions C130_default.
Theorem C130_can_default (o : oracle) (st : vstate) (now : Z) (q : request) (roles : list string) :
  q_tenant q = "" -> v2_can o st now q roles = v2_can o st now (in_tenant q (w_default st)) roles.
Proof. exact (c130_can_default o st now q roles). Qed.
Print Assumptions C130_can_default.
(** Else it is asking about all active tenants: what is denied without a tenant is denied in every
    active one, and what is allowed without is allowed in one of them. *)
Theorem C130_left_out_partial (o o' : oracle) (st : vstate) (now : Z) (q : request) (s : vstate) (t : string) (s' : vstate) :
  vreachable st -> distinct_ids st -> nameless st q -> active st t ->
  v2_authorize o st now q = Ok (s, false) -> v2_authorize o' st now (in_tenant q t) = Ok (s', true) -> False.
Proof. exact (c130_left_out o o' st now q s t s'). Qed.
Print Assumptions C130_left_out_partial.
Theorem C130_some_tenant (o : oracle) (st : vstate) (now : Z) (q : request) (s : vstate) :
  vreachable st -> distinct_ids st -> nameless st q -> v2_authorize o st now q = Ok (s, true) ->
  exists t, active st t /\ t <> "" /\ forall o' s' b, v2_authorize o' st now (in_tenant q t) = Ok (s', b) -> b = true.
Proof. exact (c130_some o st now q s). Qed.
Print Assumptions C130_some_tenant.
Theorem C130_can_left_out_partial (o o' : oracle) (st : vstate) (now : Z) (q : request) (roles : list string) (s : vstate) (t : string) (s' : vstate) :
  vreachable st -> distinct_ids st -> nameless st q -> active st t ->
  v2_can o st now q roles = Ok (s, false) -> v2_can o' st now (in_tenant q t) roles = Ok (s', true) -> False.
Proof. exact (c130_can_left_out o o' st now q roles s t s'). Qed.
Print Assumptions C130_can_left_out_partial.
Theorem C130_can_some_tenant (o : oracle) (st : vstate) (now : Z) (q : request) (roles : list string) (s : vstate) :
  vreachable st -> distinct_ids st -> nameless st q -> v2_can o st now q roles = Ok (s, true) ->
  exists t, active st t /\ t <> "" /\ forall o' s' b, v2_can o' st now (in_tenant q t) roles = Ok (s', b) -> b = true.
Proof. exact (c130_can_some o st now q roles s). Qed.
Print Assumptions C130_can_some_tenant.
(** Leaving the namespace out is naming the default one of the tenant, or its only one; if there is
    neither, the answer is no. *)
Theorem C130_namespace (o : oracle) (st : vstate) (now : Z) (q : request) (c : vtenant) (n : string) :
  q_namespace q = "" -> about st q c -> own_namespace c n -> v2_authorize o st now q = v2_authorize o st now (in_namespace q n).
Proof. exact (c130_namespace o st now q c n). Qed.
Print Assumptions C130_namespace.
Theorem C130_can_namespace (o : oracle) (st : vstate) (now : Z) (q : request) (roles : list string) (c : vtenant) (n : string) :
  q_namespace q = "" -> about st q c -> own_namespace c n -> v2_can o st now q roles = v2_can o st now (in_namespace q n) roles.
Proof. exact (c130_can_namespace o st now q roles c n). Qed.
Print Assumptions C130_can_namespace.
Theorem C130_no_namespace (o : oracle) (st : vstate) (now : Z) (q : request) (c : vtenant) :
  q_namespace q = "" -> about st q c -> (forall n, ~ own_namespace c n) -> exists s, v2_authorize o st now q = Ok (s, false).
Proof. exact (c130_no_namespace o st now q c). Qed.
Print Assumptions C130_no_namespace.
Theorem C130_can_no_namespace (o : oracle) (st : vstate) (now : Z) (q : request) (roles : list string) (c : vtenant) :
  q_namespace q = "" -> about st q c -> (forall n, ~ own_namespace c n) -> exists s, v2_can o st now q roles = Ok (s, false).
Proof. exact (c130_can_no_namespace o st now q roles c). Qed.
Print Assumptions C130_can_no_namespace.
(** Naming a scope of the namespace changes nothing for Can, and nothing for Authorize if the
    principal has no assignment for that scope. *)
Theorem C130_scope_partial (o o' : oracle) (st : vstate) (now : Z) (q : request) (s : string) (b b' : bool) (c : vtenant) (s1 s2 : vstate) :
  vreachable st -> distinct_ids st -> about st q c -> has_scope c q s -> no_scope_given st (in_scope q s) ->
  v2_authorize o st now (in_scope q "") = Ok (s1, b) -> v2_authorize o' st now (in_scope q s) = Ok (s2, b') -> b' = b.
Proof. exact (c130_scope o o' st now q s b b' c s1 s2). Qed.
Print Assumptions C130_scope_partial.
Theorem C130_can_scope (o o' : oracle) (st : vstate) (now : Z) (q : request) (roles : list string) (s : string) (b b' : bool) (c : vtenant) (s1 s2 : vstate) :
  vreachable st -> distinct_ids st -> about st q c -> has_scope c q s ->
  v2_can o st now (in_scope q "") roles = Ok (s1, b) -> v2_can o' st now (in_scope q s) roles = Ok (s2, b') -> b' = b.
Proof. exact (c130_can_scope o o' st now q roles s b b' c s1 s2). Qed.
Print Assumptions C130_can_scope.
Example C130_example : let st := vops_state w130 in
  vreachable st /\ distinct_ids st /\ nameless st q_nameless /\ active st "corp"
  /\ vanswer (v2_authorize id_oracle st 0 q_nameless) = Some true /\ vanswer (v2_authorize id_oracle st 0 (in_tenant q_nameless "corp")) = Some true
  /\ vanswer (v2_can id_oracle st 0 q_nameless ["reader"]) = Some true /\ vanswer (v2_can id_oracle st 0 (in_tenant q_nameless "corp") ["reader"]) = Some true
  /\ vanswer (v2_can id_oracle st 0 q_nameless ["writer"]) = Some false.
Proof. exact c130_ex. Qed.
Example C130_default_example : let st := vops_state w130_acme in vreachable st /\ q_tenant q_nameless = "" /\ w_default st = "acme"
  /\ vanswer (v2_authorize id_oracle st 0 q_nameless) = Some true /\ vanswer (v2_can id_oracle st 0 q_nameless ["reader"]) = Some true.
Proof. exact c130_default_ex. Qed.
Example C130_namespace_example : let st := vops_state w130_open in vreachable st /\ q_namespace q_doc = ""
  /\ (exists c, about st q_doc c /\ own_namespace c "ns") /\ (exists c, about st q_open c /\ forall n, ~ own_namespace c n)
  /\ vanswer (v2_authorize id_oracle st 0 q_doc) = Some true /\ vanswer (v2_authorize id_oracle st 0 (in_namespace q_doc "ns")) = Some true
  /\ vanswer (v2_authorize id_oracle st 0 q_open) = Some false /\ vanswer (v2_authorize id_oracle st 0 (in_namespace q_open "a")) = Some true
  /\ vanswer (v2_can id_oracle st 0 q_open ["reader"]) = Some false /\ vanswer (v2_can id_oracle st 0 (in_namespace q_open "a") ["reader"]) = Some true.
Proof. exact c130_namespace_ex. Qed.
Example C130_scope_example : let st := vops_state w130_scope in vreachable st /\ distinct_ids st
  /\ (exists c, about st q_doc c /\ has_scope c q_doc "s") /\ no_scope_given st (in_scope q_doc "s")
  /\ vanswer (v2_authorize id_oracle st 0 (in_scope q_doc "")) = Some true /\ vanswer (v2_authorize id_oracle st 0 (in_scope q_doc "s")) = Some true
  /\ vanswer (v2_authorize id_oracle st 0 (in_scope q_doc "t")) = Some false
  /\ vanswer (v2_can id_oracle st 0 (in_scope q_doc "s") ["reader"]) = Some true.
Proof. exact c130_scope_ex. Qed.
