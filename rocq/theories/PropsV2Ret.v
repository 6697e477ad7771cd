(** Properties C116 and C117: which calls to package v2 return, told from the calls made before. *)
From Verif Require Import V2CallsRet V2CallsEx V2RetEx V2Ex V2RetSpec.

(** C116.  A call on objects that the constructors returned, other than Authorize and Can, always returns, with one exception: RemovePrincipalRole panics if some criterion is given and
    an earlier RemovePrincipalRole took back an assignment that was given before one that stayed (unless everything was taken back since). *)
Theorem C116_set_up_calls (o : oracle) (ops : list vop) (st : vstate) (outs : list vout) (o' : oracle) (x : vop) :
  vrun o 0 v2_init ops = Ok (st, outs) -> pointers_made (zip ops outs) x -> ~ decides x ->
  ((exists st' y, vstep o' st x = Ok (st', y)) <-> ~ (nil_left (zip ops outs) /\ looks_through (zip ops outs) x))
  /\ (vstep o' st x = Panic <-> nil_left (zip ops outs) /\ looks_through (zip ops outs) x) /\ vstep o' st x <> Hang.
Proof. exact (c116_set_up o ops st outs o' x). Qed.
Print Assumptions C116_set_up_calls.
(** After the same event Can and Authorize panic exactly on the requests that name no tenant, or a registered one with a namespace that fits; … *)
Theorem C116_can (o : oracle) (ops : list vop) (st : vstate) (outs : list vout) (o' : oracle) (now : Z) (q : request) (roles : list string) :
  vrun o 0 v2_init ops = Ok (st, outs) -> own_ids (zip ops outs) ->
  ((exists st' b, v2_can o' st now q roles = Ok (st', b)) <-> ~ (nil_left (zip ops outs) /\ looks_through (zip ops outs) (VCan now q roles)))
  /\ (v2_can o' st now q roles = Panic <-> nil_left (zip ops outs) /\ looks_through (zip ops outs) (VCan now q roles)) /\ v2_can o' st now q roles <> Hang.
Proof. exact (c116_can o ops st outs o' now q roles). Qed.
Print Assumptions C116_can.
Theorem C116_authorize (o : oracle) (ops : list vop) (st : vstate) (outs : list vout) (o' : oracle) (now : Z) (q : request) :
  vrun o 0 v2_init ops = Ok (st, outs) -> own_ids (zip ops outs) ->
  v2_authorize o' st now q = Panic <-> nil_left (zip ops outs) /\ looks_through (zip ops outs) (VAuthorize now q).
Proof. exact (c116_authorize o ops st outs o' now q). Qed.
Print Assumptions C116_authorize.
(** The program of examples/v2.go, after which the assignment of user1 is taken back: six calls and five requests *)
Example C116_ex : vrun id_oracle 0 v2_init w116_ops = Ok (vops_state w116_ops, vops_outs w116_ops) /\ own_ids (zip w116_ops (vops_outs w116_ops))
  /\ nil_left (zip w116_ops (vops_outs w116_ops)) /\ Forall (pointers_made (zip w116_ops (vops_outs w116_ops))) w116_setup
  /\ map (fun x => outcome (vstep id_oracle (vops_state w116_ops) x)) w116_setup = ["panics"; "returns"; "returns"; "returns"; "returns"; "returns"]
  /\ map (fun q => outcome (v2_authorize id_oracle (vops_state w116_ops) 0 q)) w116_requests = ["panics"; "panics"; "panics"; "returns"; "returns"]
  /\ map (fun q => outcome (v2_can id_oracle (vops_state w116_ops) 0 q ["Editor"])) w116_requests = ["panics"; "panics"; "panics"; "returns"; "returns"].
Proof. exact c116_ex. Qed.

(** C117.  Not every request gets an answer: Authorize panics after an assignment was taken back, … *)
Theorem C117_taken_back_refuted : exists o ops st outs now q, vrun o 0 v2_init ops = Ok (st, outs) /\ Forall (fun x => ~ decides x) ops /\ own_ids (zip ops outs)
  /\ permissions_decide (zip ops outs) now q /\ v2_authorize o st now q = Panic.
Proof. exact c117_nil. Qed.
Print Assumptions C117_taken_back_refuted.
(** … and it never returns on a permission on which the comparison does not end. *)
Theorem C117_permission_refuted : exists o ops st outs now q, vrun o 0 v2_init ops = Ok (st, outs) /\ Forall (fun x => ~ decides x) ops /\ own_ids (zip ops outs)
  /\ ~ nil_left (zip ops outs) /\ v2_authorize o st now q = Hang.
Proof. exact c117_star. Qed.
Print Assumptions C117_permission_refuted.
(** In no other case, for programs as in C105: the request is answered, with the answer the calls made lead to. *)
Theorem C117_decided_partial (o : oracle) (ops1 ops2 : list vop) (st : vstate) (outs : list vout) (o' : oracle) (now : Z) (q : request) :
  vrun o 0 v2_init (ops1 ++ ops2) = Ok (st, outs) -> Forall (fun x => ~ decides x) ops1 -> Forall (fun x => ~ changes_roles x /\ ~ is_can x) ops2 -> own_ids (zip (ops1 ++ ops2) outs) ->
  ~ (nil_left (zip (ops1 ++ ops2) outs) /\ looks_through (zip (ops1 ++ ops2) outs) (VAuthorize now q)) -> permissions_decide (zip (ops1 ++ ops2) outs) now q ->
  exists st' b, v2_authorize o' st now q = Ok (st', b) /\ (b = true <-> granted (zip (ops1 ++ ops2) outs) now q).
Proof. exact (fun H N1 N2 I => c117_answered o ops1 ops2 st outs now q H N1 N2 I o'). Qed.
Print Assumptions C117_decided_partial.
(** A request is refused, in whatever order maps are gone through, exactly if the calls made grant nothing that matches and both conditions hold. *)
Theorem C117_refused (o : oracle) (ops1 ops2 : list vop) (st : vstate) (outs : list vout) (o' : oracle) (now : Z) (q : request) :
  vrun o 0 v2_init (ops1 ++ ops2) = Ok (st, outs) -> Forall (fun x => ~ decides x) ops1 -> Forall (fun x => ~ changes_roles x /\ ~ is_can x) ops2 -> own_ids (zip (ops1 ++ ops2) outs) ->
  (exists st', v2_authorize o' st now q = Ok (st', false)) <->
  ~ granted (zip (ops1 ++ ops2) outs) now q /\ permissions_decide (zip (ops1 ++ ops2) outs) now q
  /\ ~ (nil_left (zip (ops1 ++ ops2) outs) /\ looks_through (zip (ops1 ++ ops2) outs) (VAuthorize now q)).
Proof. exact (fun H N1 N2 I => c117_refused o ops1 ops2 st outs now q H N1 N2 I o'). Qed.
Print Assumptions C117_refused.
(** The same program, after which everything is taken back and user2 assigned again: three requests are answered. *)
Example C117_ex : vrun id_oracle 0 v2_init (w117_ops ++ []) = Ok (vops_state (w117_ops ++ []), vops_outs (w117_ops ++ [])) /\ Forall (fun x => ~ decides x) w117_ops
  /\ own_ids (zip (w117_ops ++ []) (vops_outs (w117_ops ++ []))) /\ ~ nil_left (zip (w117_ops ++ []) (vops_outs (w117_ops ++ [])))
  /\ Forall (fun qb => permissions_decide (zip (w117_ops ++ []) (vops_outs (w117_ops ++ []))) 0 qb.1) w117_requests
  /\ Forall (fun qb => exists st', v2_authorize rev_oracle (vops_state (w117_ops ++ [])) 0 qb.1 = Ok (st', qb.2)) w117_requests.
Proof. exact c117_ex. Qed.
