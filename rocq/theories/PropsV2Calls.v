(** Property C105: what package v2 decides follows from the calls made. *)
From Verif Require Import V2CallsProofs V2CallsEx V2Ex V2CallsSpec.

(** C105.  A program sets up and then asks (roles are not changed after the first question, whose answer the role graph keeps, see C30; Authorize and Can are not mixed, see C33),
    and gives every tenant an id of its own.  Then Authorize grants exactly what the calls made so far grant … *)
Theorem C105_authorize (o : oracle) (ops1 ops2 : list vop) (st : vstate) (outs : list vout) (o' : oracle) (now : Z) (q : request) (st' : vstate) (b : bool) :
  vrun o 0 v2_init (ops1 ++ ops2) = Ok (st, outs) ->
  Forall (fun x => ~ decides x) ops1 -> Forall (fun x => ~ changes_roles x /\ ~ is_can x) ops2 -> own_ids (zip (ops1 ++ ops2) outs) ->
  v2_authorize o' st now q = Ok (st', b) -> b = true <-> granted (zip (ops1 ++ ops2) outs) now q.
Proof. exact (calls_decide o ops1 ops2 st outs o' now q st' b). Qed.
Print Assumptions C105_authorize.
(** … and Can finds exactly the roles they give. *)
Theorem C105_can (o : oracle) (ops1 ops2 : list vop) (st : vstate) (outs : list vout) (o' : oracle) (now : Z) (q : request) (roles : list string) (st' : vstate) (b : bool) :
  vrun o 0 v2_init (ops1 ++ ops2) = Ok (st, outs) ->
  Forall (fun x => ~ decides x) ops1 -> Forall (fun x => ~ changes_roles x /\ ~ is_authorize x) ops2 -> own_ids (zip (ops1 ++ ops2) outs) ->
  v2_can o' st now q roles = Ok (st', b) -> b = true <-> holds (zip (ops1 ++ ops2) outs) now q roles.
Proof. exact (calls_decide_can o ops1 ops2 st outs o' now q roles st' b). Qed.
Print Assumptions C105_can.
(** The program of examples/v2.go, with a question asked, a person added who may edit until an instant and another whose assignment is taken back; the five requests of the example, and three about them *)
Example C105_ex : vrun id_oracle 0 v2_init (w105_ops ++ w105_asked) = Ok (vops_state (w105_ops ++ w105_asked), vops_outs (w105_ops ++ w105_asked))
  /\ Forall (fun x => ~ decides x) w105_ops /\ Forall (fun x => ~ changes_roles x /\ ~ is_can x) w105_asked
  /\ own_ids (zip (w105_ops ++ w105_asked) (vops_outs (w105_ops ++ w105_asked)))
  /\ Forall (fun qb => exists st', v2_authorize rev_oracle (vops_state (w105_ops ++ w105_asked)) 0 qb.1 = Ok (st', qb.2)) w105_requests
  /\ (exists st', v2_authorize rev_oracle (vops_state (w105_ops ++ w105_asked)) 0 (Req "user3" "tenant-a" "" "" "post" "edit") = Ok (st', true))
  /\ (exists st', v2_authorize rev_oracle (vops_state (w105_ops ++ w105_asked)) 6 (Req "user3" "tenant-a" "" "" "post" "edit") = Ok (st', false))
  /\ exists st', v2_authorize rev_oracle (vops_state (w105_ops ++ w105_asked)) 0 (Req "user4" "tenant-a" "" "" "post" "edit") = Ok (st', false).
Proof. exact c105_ex. Qed.
Example C105_can_ex : vrun id_oracle 0 v2_init (w105_ops ++ []) = Ok (vops_state (w105_ops ++ []), vops_outs (w105_ops ++ []))
  /\ Forall (fun x => ~ decides x) w105_ops /\ own_ids (zip (w105_ops ++ []) (vops_outs (w105_ops ++ [])))
  /\ (exists st', v2_can rev_oracle (vops_state (w105_ops ++ [])) 0 (Req "user1" "" "" "" "" "") ["Editor"] = Ok (st', true))
  /\ exists st', v2_can rev_oracle (vops_state (w105_ops ++ [])) 0 (Req "user2" "" "marketing" "" "" "") ["Admin"] = Ok (st', false).
Proof. exact c105_can_ex. Qed.
