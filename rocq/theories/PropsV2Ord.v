(** The order of set-up calls of the v2 authorizer. *)
From Verif Require Import V2OrdProofs V2OrdEx V2Ex V2OrdSpec.

(** C101: the order in which an authorizer is set up does not matter. *)
(** It does: the calls of AddChildRole that build a diamond are accepted from the top down, refused from the bottom up, and the refused call
    takes rights away. *)
Theorem C101_order_refuted : exists st ops ops' st1 outs1 st2 outs2 st1' st2', vreachable st /\ distinct_ids st /\
  Forall sets_up ops /\ agreeing st ops /\ ops' ≡ₚ ops /\
  vrun id_oracle 0 st ops = Ok (st1, outs1) /\ none_refused outs1 /\ vrun id_oracle 0 st ops' = Ok (st2, outs2) /\
  v2_authorize id_oracle st1 0 q_doc = Ok (st1', true) /\ v2_authorize id_oracle st2 0 q_doc = Ok (st2', false).
Proof. exact c101_refuted. Qed.
Print Assumptions C101_order_refuted.
(** When no two calls contradict each other and neither order has a refused call, the same is set up. *)
Theorem C101_same_partial : forall o o' i i' st ops ops' st1 outs1 st2 outs2,
  Forall sets_up ops -> agreeing st ops -> ops' ≡ₚ ops ->
  vrun o i st ops = Ok (st1, outs1) -> none_refused outs1 -> vrun o' i' st ops' = Ok (st2, outs2) -> none_refused outs2 ->
  alike st1 st2.
Proof. exact c101_alike. Qed.
Print Assumptions C101_same_partial.
Theorem C101_authorize_partial : forall o o' i i' st ops ops' st1 outs1 st2 outs2 o1 o2 now q st1' b1 st2' b2,
  vreachable st -> distinct_ids st -> Forall sets_up ops -> agreeing st ops -> ops' ≡ₚ ops ->
  vrun o i st ops = Ok (st1, outs1) -> none_refused outs1 -> vrun o' i' st ops' = Ok (st2, outs2) -> none_refused outs2 ->
  v2_authorize o1 st1 now q = Ok (st1', b1) -> v2_authorize o2 st2 now q = Ok (st2', b2) -> b1 = b2.
Proof. exact c101_authorize. Qed.
Print Assumptions C101_authorize_partial.
Theorem C101_can_partial : forall o o' i i' st ops ops' st1 outs1 st2 outs2 o1 o2 now q roles st1' b1 st2' b2,
  vreachable st -> distinct_ids st -> Forall sets_up ops -> agreeing st ops -> ops' ≡ₚ ops ->
  vrun o i st ops = Ok (st1, outs1) -> none_refused outs1 -> vrun o' i' st ops' = Ok (st2, outs2) -> none_refused outs2 ->
  v2_can o1 st1 now q roles = Ok (st1', b1) -> v2_can o2 st2 now q roles = Ok (st2', b2) -> b1 = b2.
Proof. exact c101_can. Qed.
Print Assumptions C101_can_partial.
Example C101_partial_case : exists st st1 outs1 st2 outs2 st1' st2', vreachable st /\ distinct_ids st /\ Forall sets_up w101_ops /\
  agreeing st w101_ops /\ w101_other ≡ₚ w101_ops /\ vrun id_oracle 0 st w101_ops = Ok (st1, outs1) /\ none_refused outs1 /\
  vrun rev_oracle 0 st w101_other = Ok (st2, outs2) /\ none_refused outs2 /\
  v2_authorize id_oracle st1 0 q_scoped = Ok (st1', true) /\ v2_authorize rev_oracle st2 0 q_scoped = Ok (st2', true).
Proof. exact c101_ex. Qed.
(** If one order returns, every order does. *)
Theorem C101_returns : forall o o' i i' st ops ops' st1 outs1,
  vreachable st -> Forall sets_up ops -> ops' ≡ₚ ops -> vrun o i st ops = Ok (st1, outs1) ->
  exists st2 outs2, vrun o' i' st ops' = Ok (st2, outs2).
Proof. exact c101_returns. Qed.
Print Assumptions C101_returns.
(** Every order of some calls of AddChildRole is accepted exactly when each of them would be accepted as the last one. *)
Theorem C101_roles_exact : forall st calls,
  (forall ops, ops ≡ₚ child_calls calls -> goes_through st ops) <->
  forall before p cs after, calls = before ++ (p, cs) :: after ->
    exists l, listing (all_children (d_edges (w_dag st)) (before ++ after)) cs l /\ NoDup (p :: l).
Proof. exact c101_roles. Qed.
Print Assumptions C101_roles_exact.
Example C101_roles_case : exists st st', vreachable st /\ (forall ops, ops ≡ₚ child_calls one_at_a_time -> goes_through st ops) /\
  goes_through st (child_calls top_down) /\ ~ goes_through st (child_calls bottom_up) /\
  v2_authorize id_oracle (vfinal (vrun id_oracle 0 st (child_calls one_at_a_time))) 0 q_doc = Ok (st', true).
Proof. exact c101_roles_ex. Qed.
