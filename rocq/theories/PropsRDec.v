(** Root decisions made while rows are being added. *)
From Verif Require Import RDecProofs RDecEx RDecSpec.

(** C94.  If nobody adds anything, the model of the decision beside new rows is the model of the decision. *)
Theorem C94_undisturbed (o : oracle) (st : state) (p : string) (q : opts) :
  w_root_authorize o (undisturbed o st) st p q = authorize o st p q.
Proof. exact (undisturbed_authorize o st p q). Qed.
Print Assumptions C94_undisturbed.

(** C94.  The answer can be one that no moment of the call could have given: ann manages tenant acme, and with it branch, where the namespace hr is
    open to all; a row for ann in tenant other with namespace hr is added, then a row in acme without ManageDescendants.  At each moment the request for
    hr is granted in every order; the call meets the second new row first and misses the first one, and denies. *)
Theorem C94_some_moment_refuted : exists st new w o p q st' b,
  reachable st /\ keeps_rows st new /\ beside st new w /\ m_cache st !! p = None /\ hierarchy_fresh st /\ tenants_coherent st
  /\ w_root_authorize o w st p q = Ok (st', b) /\ ~ of_some_moment st new p q b.
Proof. exact c94_refuted. Qed.
Print Assumptions C94_some_moment_refuted.

(** C94.  If the principal's tenants do not depend on the order of the rows, the answer lies between the one before and the one after … *)
Theorem C94_between_partial (st : state) (new : list data) (w : found) (o : oracle) (p : string) (q : opts) (st' : state) (b b1 b2 : bool) :
  reachable st -> keeps_rows st new -> beside st new w -> settled st new p -> w_root_authorize o w st p q = Ok (st', b) ->
  may_answer st p q b1 -> may_answer (with_rows st new) p q b2 -> (b1 = true -> b = true) /\ (b = true -> b2 = true).
Proof. exact (c94_between st new w o p q st' b b1 b2). Qed.
Print Assumptions C94_between_partial.
(** … hence it is the answer of some moment. *)
Theorem C94_some_moment_partial (st : state) (new : list data) (w : found) (o : oracle) (p : string) (q : opts) (st' : state) (b b1 b2 : bool) :
  reachable st -> keeps_rows st new -> beside st new w -> settled st new p -> w_root_authorize o w st p q = Ok (st', b) ->
  may_answer st p q b1 -> may_answer (with_rows st new) p q b2 -> of_some_moment st new p q b.
Proof. exact (c94_moment st new w o p q st' b b1 b2). Qed.
Print Assumptions C94_some_moment_partial.
Example C94_between_ex :
  let st := ops_state w94_ops in let w := seen [w94_hr; w94_r0] [w94_r1; w94_r0; w94_hr] in
  let st2 := ops_state w94b_ops in
  (reachable st /\ keeps_rows st w94_new2 /\ beside st w94_new2 w /\ settled st w94_new2 "ann"
   /\ answer (w_root_authorize rev_oracle w st "ann" w94_q) = Some true)
  /\ (reachable st2 /\ keeps_rows st2 [w94b_row] /\ beside st2 [w94b_row] (seen [] [w94b_row]) /\ beside st2 [w94b_row] (seen [w94b_row] [w94b_row])
   /\ settled st2 [w94b_row] "bob"
   /\ answer (authorize id_oracle st2 "bob" w94b_q) = Some false
   /\ answer (w_root_authorize id_oracle (seen [] [w94b_row]) st2 "bob" w94b_q) = Some false
   /\ answer (w_root_authorize id_oracle (seen [w94b_row] [w94b_row]) st2 "bob" w94b_q) = Some true
   /\ answer (authorize id_oracle (with_rows st2 [w94b_row]) "bob" w94b_q) = Some true).
Proof. exact c94_ex. Qed.

(** C94.  A principal whose tenants are remembered: what the rows before the call grant is granted, and what is granted the rows after it grant. *)
Theorem C94_remembered (st : state) (new : list data) (w : found) (o : oracle) (p : string) (U : gset string) (q : opts) (st' : state) (b : bool) :
  keeps_rows st new -> beside st new w -> m_cache st !! p = Some U -> w_root_authorize o w st p q = Ok (st', b) ->
  (authorized st U p q -> b = true) /\ (b = true -> authorized (with_rows st new) U p q).
Proof. exact (c94_cached st new w o p U q st' b). Qed.
Print Assumptions C94_remembered.
Example C94_remembered_ex :
  let st := final (authorize id_oracle (ops_state w94_ops) "ann" w94_q) in
  m_cache st !! "ann" <> None /\ keeps_rows st w94_new2 /\ beside st w94_new2 (seen [w94_hr; w94_r0] [w94_r1; w94_r0; w94_hr])
  /\ answer (w_root_authorize rev_oracle (seen [w94_hr; w94_r0] [w94_r1; w94_r0; w94_hr]) st "ann" w94_q) = Some true.
Proof. exact c94_cached_ex. Qed.

(** C94.  No grant is made up in any case: one that is given follows from the rows after the call and tenants the principal reaches by them … *)
Theorem C94_no_made_up_grant (st : state) (new : list data) (w : found) (o : oracle) (p : string) (q : opts) (st' : state) :
  reachable st -> keeps_rows st new -> beside st new w -> m_cache st !! p = None -> w_root_authorize o w st p q = Ok (st', true) ->
  exists U, (forall t, t ∈ U -> reaches (with_rows st new) p t) /\ authorized (with_rows st new) U p q.
Proof. exact (c94_no_new_grant st new w o p q st'). Qed.
Print Assumptions C94_no_made_up_grant.
(** … and a grant that rests on the principal's own tenants before the call is given. *)
Theorem C94_own_tenants (st : state) (new : list data) (w : found) (o : oracle) (p : string) (U : gset string) (q : opts) (st' : state) (b : bool) :
  reachable st -> keeps_rows st new -> beside st new w -> m_cache st !! p = None -> w_root_authorize o w st p q = Ok (st', b) ->
  (forall t, t ∈ U -> own st p t) -> authorized st U p q -> b = true.
Proof. exact (c94_own st new w o p U q st' b). Qed.
Print Assumptions C94_own_tenants.

(** C94.  What a call misses can be missed for good: if its search for the principal's rows comes back empty, this and every later request of the
    principal is denied, whatever rows were added beside the call and whatever is done later. *)
Theorem C94_missed_for_good (st : state) (w : found) (o o1 o2 : oracle) (p : string) (q q' : opts) (st' st3 st4 : state) (b b' : bool) (new : list data)
    (i : nat) (ops : list op) (outs : list out) :
  p ∈ m_principals st -> m_cache st !! p = None -> w [0; 0] (filter_tenants_by_principal (row_filter ANil ANil ANil (AStr p))) = [] ->
  w_root_authorize o w st p q = Ok (st', b) -> run o1 i (with_rows st' new) ops = Ok (st3, outs) -> authorize o2 st3 p q' = Ok (st4, b') ->
  b = false /\ b' = false.
Proof. exact (c94_locked_out st w o o1 o2 p q q' st' st3 st4 b b' new i ops outs). Qed.
Print Assumptions C94_missed_for_good.
Example C94_missed_for_good_ex :
  let st := ops_state w94b_ops in let w := seen [] [w94b_row] in
  "bob" ∈ m_principals st /\ m_cache st !! "bob" = None
  /\ w [0; 0] (filter_tenants_by_principal (row_filter ANil ANil ANil (AStr "bob"))) = []
  /\ answer (authorize id_oracle (with_rows (final (w_root_authorize id_oracle w st "bob" w94b_q)) [w94b_row]) "bob" w94b_q) = Some false
  /\ answer (authorize id_oracle (with_rows st [w94b_row]) "bob" w94b_q) = Some true.
Proof. exact c94_locked_ex. Qed.
