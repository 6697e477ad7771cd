(** Properties of v2 decisions that run while other goroutines change the list of assignments. *)
From Verif Require Import V2Ex CDecFinal CDecEx CDecSpec.

(** ** C87: a Can beside changes of the assignments *)
(** While assignments are only added, the answer is the one of a call made alone at some moment in between. *)
Theorem C87_some_moment (st : vstate) (new : list (option nat)) (views : nat -> list (option nat)) (now : Z) (o : oracle)
  (q : request) (roles : list string) (b : bool) : vreachable st -> distinct_ids st -> growing_views (w_assign st) new views ->
  w_can views st now o q roles = Ok b ->
  right_at_some_moment (fun l => v2_can_allowed (at_moment st l) now q roles) (w_assign st) new b.
Proof. exact (c87_some_moment st new views now o q roles b). Qed.
Print Assumptions C87_some_moment.
(** Whatever changes: a role held through assignments that stay is found, and none is found that the assignments of all
    moments together would not give. *)
Theorem C87_bounds (st : vstate) (lo hi : list (option nat)) (views : nat -> list (option nat)) (now : Z) (o : oracle)
  (q : request) (roles : list string) (b : bool) : vreachable st -> distinct_ids st -> within views lo hi ->
  w_can views st now o q roles = Ok b ->
  (v2_can_allowed (at_moment st lo) now q roles -> b = true) /\ (b = true -> v2_can_allowed (at_moment st hi) now q roles).
Proof. exact (c87_bounds st lo hi views now o q roles b). Qed.
Print Assumptions C87_bounds.
(** A request for a tenant without children is decided on one moment, whatever changes. *)
Theorem C87_one_leaf (st : vstate) (views : nat -> list (option nat)) (now : Z) (o : oracle) (q : request)
  (roles : list string) (b : bool) : vreachable st -> distinct_ids st -> one_leaf st q -> w_can views st now o q roles = Ok b ->
  exists k, b = true <-> v2_can_allowed (at_moment st (views k)) now q roles.
Proof. exact (c87_one_leaf st views now o q roles b). Qed.
Print Assumptions C87_one_leaf.
(** The call returns. *)
Theorem C87_returns (st : vstate) (lo hi : list (option nat)) (views : nat -> list (option nat)) (now : Z) (o : oracle)
  (q : request) (roles : list string) : vreachable st -> within views lo hi -> real_rows st hi ->
  exists b, w_can views st now o q roles = Ok b.
Proof. exact (c87_returns st lo hi views now o q roles). Qed.
Print Assumptions C87_returns.
(** If nothing changes, this is the Can of C32. *)
Theorem C87_alone (st : vstate) (now : Z) (o : oracle) (q : request) (roles : list string) (b : bool) :
  w_can (fun _ => w_assign st) st now o q roles = Ok b <-> exists st', v2_can o st now q roles = Ok (st', b).
Proof. exact (can_alone st now o q roles b). Qed.
Print Assumptions C87_alone.
Example C87_example : let st := vops_state wd_granted in
  vreachable st /\ distinct_ids st /\ real_rows st (w_assign st ++ [Some 1; Some 2]) /\
  growing_views (w_assign st) [Some 1; Some 2] late /\
  w_can late st 0 id_oracle qd ["reader"] = Ok true /\ w_can late st 0 id_oracle qd ["writer"] = Ok false /\
  w_can late st 0 id_oracle qd ["boss"] = Ok true /\ w_authorize late st 0 id_oracle qd_plain = Ok true.
Proof. exact c87_ex. Qed.
Example C87_example_leaf : let st := vops_state wd_granted in
  vreachable st /\ distinct_ids st /\ one_leaf st qd_sub /\
  w_authorize swap st 0 id_oracle qd_sub = Ok true /\ w_can swap st 0 id_oracle qd_sub ["reader"] = Ok true.
Proof. exact c87_ex_leaf. Qed.

(** ** C88: an Authorize beside changes of the assignments *)
(** The property is the one of C87: the answer is right at some moment.  It is false in both directions: a request that is
    denied at every moment can be granted, *)
Theorem C88_granted_refuted : ~ (forall (st : vstate) (new : list (option nat)) (views : nat -> list (option nat)) (now : Z)
  (o : oracle) (q : request), vreachable st -> distinct_ids st -> real_rows st (w_assign st ++ new) ->
  growing_views (w_assign st) new views -> w_authorize views st now o q = Ok true ->
  exists n, v2_allowed (at_moment st (w_assign st ++ take n new)) now q).
Proof. exact granted_false. Qed.
Print Assumptions C88_granted_refuted.
(** and one that is allowed at every moment can be denied. *)
Theorem C88_denied_refuted : ~ (forall (st : vstate) (new : list (option nat)) (views : nat -> list (option nat)) (now : Z)
  (o : oracle) (q : request), vreachable st -> distinct_ids st -> real_rows st (w_assign st ++ new) ->
  growing_views (w_assign st) new views -> w_authorize views st now o q = Ok false ->
  exists n, ~ v2_allowed (at_moment st (w_assign st ++ take n new)) now q).
Proof. exact denied_false. Qed.
Print Assumptions C88_denied_refuted.
(** It holds for requests without a scope; missing: requests with one. *)
Theorem C88_unscoped_partial (st : vstate) (new : list (option nat)) (views : nat -> list (option nat)) (now : Z) (o : oracle)
  (q : request) (b : bool) : vreachable st -> distinct_ids st -> growing_views (w_assign st) new views -> q_scope q = "" ->
  w_authorize views st now o q = Ok b ->
  right_at_some_moment (fun l => v2_allowed (at_moment st l) now q) (w_assign st) new b.
Proof. exact (c88_unscoped st new views now o q b). Qed.
Print Assumptions C88_unscoped_partial.
(** It holds for a named tenant without children, whatever changes; missing: tenants with children, and requests that
    name no tenant. *)
Theorem C88_one_leaf_partial (st : vstate) (views : nat -> list (option nat)) (now : Z) (o : oracle) (q : request) (b : bool) :
  vreachable st -> distinct_ids st -> one_leaf st q -> w_authorize views st now o q = Ok b ->
  exists k, b = true <-> v2_allowed (at_moment st (views k)) now q.
Proof. exact (c88_one_leaf st views now o q b). Qed.
Print Assumptions C88_one_leaf_partial.
(** In general, whatever changes: hiding by scoped permissions is the only thing that can go wrong.  Granted is what lasting
    permissions allow that nothing hides at any moment, and only what permissions of some moment allow that nothing lasting
    hides. *)
Theorem C88_bounds (st : vstate) (lo hi : list (option nat)) (views : nat -> list (option nat)) (now : Z) (o : oracle)
  (q : request) (b : bool) : vreachable st -> distinct_ids st -> within views lo hi -> w_authorize views st now o q = Ok b ->
  (allows (at_moment st lo) (at_moment st hi) now q -> b = true) /\
  (b = true -> allows (at_moment st hi) (at_moment st lo) now q).
Proof. exact (c88_bounds st lo hi views now o q b). Qed.
Print Assumptions C88_bounds.
(** The call returns. *)
Theorem C88_returns (st : vstate) (lo hi : list (option nat)) (views : nat -> list (option nat)) (now : Z) (o : oracle)
  (q : request) : vreachable st -> distinct_ids st -> within views lo hi -> real_rows st hi ->
  no_loop (at_moment st hi) now q -> exists b, w_authorize views st now o q = Ok b.
Proof. exact (c88_returns st lo hi views now o q). Qed.
Print Assumptions C88_returns.
(** If nothing changes, this is the Authorize of C31. *)
Theorem C88_alone (st : vstate) (now : Z) (o : oracle) (q : request) (b : bool) :
  w_authorize (fun _ => w_assign st) st now o q = Ok b <-> exists st', v2_authorize o st now q = Ok (st', b).
Proof. exact (authorize_alone st now o q b). Qed.
Print Assumptions C88_alone.
Example C88_example_granted : let st := vops_state wd_granted in
  vreachable st /\ growing_views [Some 0] [Some 1; Some 2] late /\ w_authorize late st 0 id_oracle qd = Ok true /\
  forall n, ~ v2_allowed (at_moment st ([Some 0] ++ take n [Some 1; Some 2])) 0 qd.
Proof. exact (conj wd_granted_reach (conj late_growing (conj wd_granted_yes wd_granted_never))). Qed.
Example C88_example_denied : let st := vops_state wd_denied in
  vreachable st /\ growing_views [Some 0] [Some 1; Some 2] late /\ w_authorize late st 0 id_oracle qd = Ok false /\
  forall n, v2_allowed (at_moment st ([Some 0] ++ take n [Some 1; Some 2])) 0 qd.
Proof. exact (conj wd_denied_reach (conj late_growing (conj wd_denied_no wd_denied_always))). Qed.
