(** Properties C103 and C104: programs that keep the names of different kinds of things apart, and the documented set-up of the root package. *)
From Verif Require Import NameProofs RootEx TenEx NameEx NameSpec.

(** C103.  A program that uses no name for things of two kinds never loses a row … *)
Theorem C103_rows_stay (o : oracle) (ops : list op) (st : state) (outs : list out) (o' : oracle) (i : nat) (ops' : list op) (st' : state) (outs' : list out) (d : data) :
  run o 0 init_state ops = Ok (st, outs) -> run o' i st ops' = Ok (st', outs') -> keeps_names_apart (ops ++ ops') -> stored st d -> stored st' d.
Proof. exact (rows_stay o ops st outs o' i ops' st' outs' d). Qed.
Print Assumptions C103_rows_stay.
(** … nor a right: what Authorize has granted it grants later, … *)
Theorem C103_grants_stay (o : oracle) (ops : list op) (st : state) (outs : list out) (o1 : oracle) (p : string) (q : opts) (st1 : state)
    (o2 : oracle) (i : nat) (ops' : list op) (st2 : state) (outs' : list out) (o3 : oracle) (st3 : state) (b : bool) :
  run o 0 init_state ops = Ok (st, outs) -> authorize o1 st p q = Ok (st1, true) -> run o2 i st1 ops' = Ok (st2, outs') -> keeps_names_apart (ops ++ ops') ->
  authorize o3 st2 p q = Ok (st3, b) -> b = true.
Proof. exact (grants_stay o ops st outs o1 p q st1 o2 i ops' st2 outs' o3 st3 b). Qed.
Print Assumptions C103_grants_stay.
(** … and may grant in any order: the rows are the same, and so are the answers about principals whose tenants do not depend on the order in which rows are met. *)
Theorem C103_order (o : oracle) (ops : list op) (st : state) (outs : list out) (ops1 ops2 : list op) (o1 : oracle) (i1 : nat) (st1 : state) (outs1 : list out)
    (o2 : oracle) (i2 : nat) (st2 : state) (outs2 : list out) :
  run o 0 init_state ops = Ok (st, outs) -> keeps_names_apart (ops ++ ops1) -> Forall only_stores ops1 -> ops2 ≡ₚ ops1 ->
  run o1 i1 st ops1 = Ok (st1, outs1) -> run o2 i2 st ops2 = Ok (st2, outs2) ->
  (forall d, stored st1 d <-> stored st2 d) /\ forall p q b1 b2, settled st1 [] p -> may_answer st1 p q b1 -> may_answer st2 p q b2 -> b1 = b2.
Proof. exact (order_free o ops st outs ops1 ops2 o1 i1 st1 outs1 o2 i2 st2 outs2). Qed.
Print Assumptions C103_order.
Example C103_ex : run id_oracle 0 init_state w104_ops = Ok (ops_state w104_ops, ops_outs w104_ops) /\ keeps_names_apart (w104_ops ++ w103_more)
  /\ authorize id_oracle (ops_state w104_ops) "principalA" w103_q = Ok (w103_st, true)
  /\ (exists outs, run id_oracle 0 w103_st w103_more = Ok (then_state w103_st w103_more, outs))
  /\ exists st', authorize rev_oracle (then_state w103_st w103_more) "principalA" w103_q = Ok (st', true).
Proof. exact c103_ex. Qed.
Example C103_order_ex : run id_oracle 0 init_state e100_ops = Ok (ops_state e100_ops, ops_outs e100_ops) /\ keeps_names_apart (e100_ops ++ e100_ops1)
  /\ Forall only_stores e100_ops1 /\ e100_ops2 ≡ₚ e100_ops1
  /\ (exists outs1, run id_oracle 0 (ops_state e100_ops) e100_ops1 = Ok (then_state (ops_state e100_ops) e100_ops1, outs1))
  /\ (exists outs2, run id_oracle 0 (ops_state e100_ops) e100_ops2 = Ok (then_state (ops_state e100_ops) e100_ops2, outs2))
  /\ settled (then_state (ops_state e100_ops) e100_ops1) [] "ann".
Proof. exact c103_order_ex. Qed.

(** C104.  The set-up shown in examples/main.go grants what it announces only if names are kept apart: here the calls have been made and none was refused … *)
Theorem C104_recipe_refuted : exists ops outs st p r id g act q st', run id_oracle 0 init_state ops = Ok (st, outs) /\ (forall x, x ∈ ops -> ~ asks_about p x)
  /\ given_role ops outs st p r id /\ given_permission ops outs r g act /\ known_things ops st q /\ o_tenant q = AStr id /\ shape_of q = FTN /\ o_group q = AStr g /\ o_activity q = AStr act
  /\ authorize id_oracle st p q = Ok (st', false).
Proof. exact c104_refuted. Qed.
Print Assumptions C104_recipe_refuted.
(** … With names kept apart, in whatever order and among whatever other calls these have been made, a principal with a role in some tenant may do what the role permits, in every
    registered tenant, namespace and scope (the announced answers include those about another tenant; C14 tells that it may be any), if at least two of them are given, … *)
Theorem C104_activity_partial (o : oracle) (ops : list op) (st : state) (outs : list out) (p r id g act : string) (q : opts) (o' : oracle) (st' : state) (b : bool) :
  run o 0 init_state ops = Ok (st, outs) -> keeps_names_apart ops -> (forall x, x ∈ ops -> ~ asks_about p x) ->
  given_role ops outs st p r id -> given_permission ops outs r g act ->
  known_things ops st q -> shape_of q <> FT -> shape_of q <> FNone -> o_group q = AStr g -> o_activity q = AStr act ->
  authorize o' st p q = Ok (st', b) -> b = true.
Proof. exact (fun H N => recipe_activity o ops st outs H N p r id g act q o' st' b). Qed.
Print Assumptions C104_activity_partial.
(** … and may enter the namespaces and scopes that are part of the tenant. *)
Theorem C104_member_partial (o : oracle) (ops : list op) (st : state) (outs : list out) (p r id : string) (q : opts) (o' : oracle) (st' : state) (b : bool) :
  run o 0 init_state ops = Ok (st, outs) -> keeps_names_apart ops -> (forall x, x ∈ ops -> ~ asks_about p x) ->
  given_role ops outs st p r id -> known_things ops st q -> ~ asks_activity q -> part_of ops st id q ->
  authorize o' st p q = Ok (st', b) -> b = true.
Proof. exact (fun H N => recipe_member o ops st outs H N p r id q o' st' b). Qed.
Print Assumptions C104_member_partial.
(** The program of examples/main.go with its six questions *)
Example C104_ex : run id_oracle 0 init_state w104_ops = Ok (ops_state w104_ops, ops_outs w104_ops) /\ keeps_names_apart w104_ops
  /\ (forall x, x ∈ w104_ops -> ~ asks_about "principalA" x)
  /\ given_role w104_ops (ops_outs w104_ops) (ops_state w104_ops) "principalA" "coder" "TenantA"
  /\ given_permission w104_ops (ops_outs w104_ops) "coder" "backend" "/coding/1/2/start-coding POST"
  /\ Forall (fun q => known_things w104_ops (ops_state w104_ops) q /\ ~ asks_activity q /\ part_of w104_ops (ops_state w104_ops) "TenantA" q) w104_members
  /\ Forall (fun q => known_things w104_ops (ops_state w104_ops) q /\ shape_of q <> FT /\ shape_of q <> FNone /\ o_group q = AStr "backend" /\ o_activity q = start_coding) w104_activities
  /\ Forall (fun q => exists st', authorize rev_oracle (ops_state w104_ops) "principalA" q = Ok (st', true)) (w104_members ++ w104_activities).
Proof. exact c104_ex. Qed.
