(** The order of v1 grants. *)
From Verif Require Import V1OrdProofs V1OrdEx V1Ex V1OrdSpec.

(** C102: the order in which people are given roles and scopes does not matter. *)
(** It does: scopes given before the role are silently lost. *)
Theorem C102_order_refuted : exists st ops ops' st1 outs1 st2 outs2, ureachable st /\ Forall grant ops /\ Forall (tidy st) ops /\ ops' ≡ₚ ops /\
  urun id_oracle 0 st ops = Ok (st1, outs1) /\ urun id_oracle 0 st ops' = Ok (st2, outs2) /\
  u_authorize id_oracle st1 "ann" q_spot = Ok true /\ u_authorize id_oracle st2 "ann" q_spot = Ok false.
Proof. exact c102_refuted. Qed.
Print Assumptions C102_order_refuted.
(** Even the order of two calls that give scopes to a member matters. *)
Theorem C102_scopes_refuted : exists st st1 outs1 st2 outs2, ureachable st /\ known st "ann" /\
  urun id_oracle 0 st [UTAssignScopes 0 "ann" ["s1"]; UTAssignScopes 0 "ann" ["s2"]] = Ok (st1, outs1) /\
  urun id_oracle 0 st [UTAssignScopes 0 "ann" ["s2"]; UTAssignScopes 0 "ann" ["s1"]] = Ok (st2, outs2) /\
  u_authorize id_oracle st1 "ann" q_there = Ok true /\ u_authorize id_oracle st2 "ann" q_there = Ok false.
Proof. exact c102_scopes_refuted. Qed.
Print Assumptions C102_scopes_refuted.
(** The hole: scopes given to somebody who has no role in the tenant yet are lost, without an error. *)
Theorem C102_too_early (o : oracle) (st : ustate) (t : nat) (p : string) (ss : list string) :
  ureachable st -> (exists c, u_tenants st !! t = Some c /\ ut_managed c = true /\ forall a, ~ member st p (ut_id c) a) ->
  ustep o st (UTAssignScopes t p ss) = Ok (st, YUnit).
Proof. exact (c102_early o st t p ss). Qed.
Print Assumptions C102_too_early.
Theorem C102_too_early_with_role (o : oracle) (st : ustate) (t : nat) (p r : string) (ss : list string) :
  ureachable st -> (exists c, u_tenants st !! t = Some c /\ ut_managed c = true /\ forall a, ~ member st p (ut_id c) a) ->
  ustep o st (UTAssignScopesWithRole t p r ss) = Ok (st, YUnit).
Proof. exact (c102_early_role o st t p r ss). Qed.
Print Assumptions C102_too_early_with_role.
(** Calls that name the roles they give may be made in any order: the manager ends up the same. *)
Theorem C102_plain_partial (o : oracle) (i : nat) (st : ustate) (ops ops' : list uop) (st' : ustate) (outs : list uout) (o' : oracle) (i' : nat) :
  ureachable st -> Forall plain_grant ops -> ops' ≡ₚ ops -> urun o i st ops = Ok (st', outs) -> urun o' i' st ops' = Ok (st', outs).
Proof. exact (c102_plain o i st ops ops' st' outs o' i'). Qed.
Print Assumptions C102_plain_partial.
Example C102_plain_case : exists st st' outs, ureachable st /\ Forall plain_grant w102_plain /\ rev w102_plain ≡ₚ w102_plain /\
  urun id_oracle 0 st w102_plain = Ok (st', outs) /\ u_authorize id_oracle st' "ann" q_spot = Ok false /\
  u_authorize id_oracle st' "bob" (UOpts (AStr "acme") ANil ANil ANil ANil) = Ok true /\ length (elements (u_rows st')) = 4.
Proof. exact c102_plain_ex. Qed.
(** Calls about different people or tenants may be interleaved in any way, if names have no underscores. *)
Theorem C102_apart_partial (o : oracle) (i : nat) (st : ustate) (ops ops' : list uop) (st' : ustate) (outs : list uout) (o' : oracle) (i' : nat) :
  ureachable st -> Forall grant ops -> Forall (tidy st) ops -> ops' ≡ₚ ops -> same_turns st ops ops' ->
  urun o i st ops = Ok (st', outs) -> urun o' i' st ops' = Ok (st', outs).
Proof. exact (c102_apart o i st ops ops' st' outs o' i'). Qed.
Print Assumptions C102_apart_partial.
Example C102_apart_case : exists st st' outs, ureachable st /\ Forall grant w102_ab /\ Forall (tidy st) w102_ab /\ w102_ba ≡ₚ w102_ab /\
  same_turns st w102_ab w102_ba /\ urun id_oracle 0 st w102_ab = Ok (st', outs) /\ u_authorize id_oracle st' "ann" q_spot = Ok true.
Proof. exact c102_apart_ex. Qed.
(** If one order returns, every order does. *)
Theorem C102_returns (o : oracle) (i : nat) (st : ustate) (ops ops' : list uop) (st1 : ustate) (outs1 : list uout) (o' : oracle) (i' : nat) :
  ureachable st -> Forall grant ops -> ops' ≡ₚ ops -> urun o i st ops = Ok (st1, outs1) -> exists st2, urun o' i' st ops' = Ok (st2, outs1).
Proof. exact (c102_returns o i st ops ops' st1 outs1 o' i'). Qed.
Print Assumptions C102_returns.
