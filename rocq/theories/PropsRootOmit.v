(** Properties of the root package: requests that name less. *)
From Verif Require Import RootOmitEx.

(** ** C131: naming more never allows more *)
(** Refuted: somebody allowed in a scope of a namespace of a tenant, asked right after without the
    scope, is not allowed in the namespace. *)
Theorem C131_scope_refuted : exists st p q, reachable st /\ m_cache st !! p = None /\ ~ asks_activity q /\ exists st' st'',
  authorize id_oracle st p q = Ok (st', true) /\ authorize id_oracle st' p (without_scope q) = Ok (st'', false).
Proof. exact c131_scope_refuted. Qed.
Print Assumptions C131_scope_refuted.
(** Refuted for activities: with the tenant alone nothing is allowed ... *)
Theorem C131_activity_refuted : exists st p q, reachable st /\ m_cache st !! p = None /\ asks_activity q /\ exists st' st'',
  authorize id_oracle st p q = Ok (st', true) /\ authorize id_oracle st' p (tenant_alone q) = Ok (st'', false).
Proof. exact c131_activity_refuted. Qed.
Print Assumptions C131_activity_refuted.
(** ... and rows stored by AddData may name a scope and no tenant. *)
Theorem C131_row_refuted : exists st p q, reachable st /\ m_cache st !! p = None /\ asks_activity q /\ exists st' st'',
  authorize id_oracle st p q = Ok (st', true) /\ authorize id_oracle st' p (without_scope q) = Ok (st'', false).
Proof. exact c131_row_refuted. Qed.
Print Assumptions C131_row_refuted.
(** What holds, with any questions in between.  Who is a member with tenant, namespace and scope is
    one without the namespace ... *)
Theorem C131_namespace_partial (o1 : oracle) (st : state) (p : string) (q : opts) (st1 : state) (o2 : oracle) (i : nat) (ops : list op) (st2 : state) (outs : list out) (o3 : oracle) (st3 : state) (b : bool) :
  ~ asks_activity q -> o_tenant q <> ANil -> o_namespace q <> ANil -> o_scope q <> ANil ->
  authorize o1 st p q = Ok (st1, true) -> (forall x, x ∈ ops -> is_query x) -> run o2 i st1 ops = Ok (st2, outs) ->
  authorize o3 st2 p (without_namespace q) = Ok (st3, b) -> b = true.
Proof. exact (c131_namespace o1 st p q st1 o2 i ops st2 outs o3 st3 b). Qed.
Print Assumptions C131_namespace_partial.
(** ... and who is a member at all is one with the tenant alone. *)
Theorem C131_tenant_partial (o1 : oracle) (st : state) (p : string) (q : opts) (st1 : state) (o2 : oracle) (i : nat) (ops : list op) (st2 : state) (outs : list out) (o3 : oracle) (st3 : state) (b : bool) :
  reachable st -> m_cache st !! p = None -> ~ asks_activity q -> o_tenant q <> ANil ->
  authorize o1 st p q = Ok (st1, true) -> (forall x, x ∈ ops -> is_query x) -> run o2 i st1 ops = Ok (st2, outs) ->
  authorize o3 st2 p (tenant_alone q) = Ok (st3, b) -> b = true.
Proof. exact (c131_tenant o1 st p q st1 o2 i ops st2 outs o3 st3 b). Qed.
Print Assumptions C131_tenant_partial.
(** An activity allowed with tenant, namespace and scope is allowed without the scope and without
    the namespace, if all roles of the principal are given in some tenant ... *)
Theorem C131_activity_partial (o1 : oracle) (st : state) (p : string) (q : opts) (st1 : state) (o2 : oracle) (i : nat) (ops : list op) (st2 : state) (outs : list out) (o3 : oracle) (q' : opts) (st3 : state) (b : bool) :
  reachable st -> m_cache st !! p = None -> given_somewhere st p -> asks_activity q ->
  o_tenant q <> ANil -> o_namespace q <> ANil -> o_scope q <> ANil -> q' = without_scope q \/ q' = without_namespace q ->
  authorize o1 st p q = Ok (st1, true) -> (forall x, x ∈ ops -> is_query x) -> run o2 i st1 ops = Ok (st2, outs) ->
  authorize o3 st2 p q' = Ok (st3, b) -> b = true.
Proof. exact (c131_activity o1 st p q st1 o2 i ops st2 outs o3 q' st3 b). Qed.
Print Assumptions C131_activity_partial.
(** ... and then it makes no difference whether a registered tenant is named, nor which. *)
Theorem C131_no_tenant (o1 : oracle) (st : state) (p : string) (q : opts) (t : string) (l : nat) (st1 : state) (b1 : bool) (o2 : oracle) (i : nat) (ops : list op) (st2 : state) (outs : list out) (o3 : oracle) (st3 : state) (b2 : bool) :
  reachable st -> m_cache st !! p = None -> given_somewhere st p -> asks_activity q ->
  o_tenant q = AStr t -> m_tenants st !! t = Some l -> o_namespace q <> ANil -> o_scope q <> ANil ->
  authorize o1 st p q = Ok (st1, b1) -> (forall x, x ∈ ops -> is_query x) -> run o2 i st1 ops = Ok (st2, outs) ->
  authorize o3 st2 p (without_tenant q) = Ok (st3, b2) -> b1 = b2.
Proof. exact (c131_no_tenant o1 st p q t l st1 b1 o2 i ops st2 outs o3 st3 b2). Qed.
Print Assumptions C131_no_tenant.
Example C131_example : let st := ops_state w131_hr in let st' := final (authorize id_oracle st "ann" q131_page) in
  reachable st /\ m_cache st !! "ann" = None /\ given_somewhere st "ann" /\ asks_activity q131_page
  /\ verdict (authorize id_oracle st "ann" q131_page) = Some true
  /\ verdict (authorize rev_oracle st' "ann" (without_scope q131_page)) = Some true
  /\ verdict (authorize rev_oracle st' "ann" (without_namespace q131_page)) = Some true
  /\ verdict (authorize rev_oracle st' "ann" (without_tenant q131_page)) = Some true
  /\ verdict (authorize rev_oracle st' "ann" (Opts (AStr "acme") (AStr "hr") ANil (AStr "page") (AStr "/orders PUT"))) = Some false
  /\ verdict (authorize rev_oracle st' "ann" (Opts ANil (AStr "hr") (AStr "s") (AStr "page") (AStr "/orders PUT"))) = Some false.
Proof. exact c131_ex. Qed.
Example C131_membership_example : let st := ops_state w131 in let st' := final (authorize id_oracle st "ann" q131) in
  reachable st /\ m_cache st !! "ann" = None /\ ~ asks_activity q131
  /\ verdict (authorize id_oracle st "ann" q131) = Some true
  /\ verdict (authorize rev_oracle st' "ann" (without_namespace q131)) = Some true
  /\ verdict (authorize rev_oracle st' "ann" (tenant_alone q131)) = Some true.
Proof. exact c131_membership_ex. Qed.
