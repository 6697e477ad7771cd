(** Model of several goroutines that call Authorize on one root manager at the same time, while nobody changes anything else.  Authorize takes
    no lock; what the calls share and change are the two caches (xsync maps: every Get and every Set is one atomic step).  Registries, tenants, roles
    and the trie are only read, so the accesses between two accesses to a cache count as one step. *)
From Verif Require Export AuthModel.

(** Where a goroutine is *)
Inductive kpc : Type :=
| KBegin                                                                    (* authorize.go:10, query.go:40 *)
| KRows (i : nat) (ex : gset string) (rs : list data)                       (* query.go:46: next row; with none left, 60 *)
| KKeep (i : nat) (t : string) (ds : list any) (ex : gset string) (rs : list data)  (* role_manager.go:133: descendants of [t] computed *)
| KDecide (U : gset string)                                                 (* authorize.go:20 *)
| KDone (r : res bool).                                                     (* has returned, panicked, or is stuck for ever *)

(** authorize.go:20-43: the rest of Authorize, once the tenants are known *)
Definition decide_from (o : oracle) (st : state) (U : gset string) (p : string) (q : opts) : res bool :=
  if bool_decide (U = ∅) then Ok false else
  let! v := validate_resources st q in
  if negb v then Ok false else
  let no_activity := negb (negb (is_nil (o_group q)) && negb (is_nil (o_activity q))) in
  let f := shape_of q in
  let! b := authorize_one (sub o 1) st no_activity p q f in
  if b then Ok true else tenant_loop (sub o 2) 0 st no_activity p q f (ordered (sub o 3) (elements U)).

(** query.go:53-57 and the next round of the loop *)
Definition after_children (i : nat) (ex : gset string) (ds : list any) (rs : list data) : kpc :=
  match add_children ex ds with
  | Ok ex' => KRows (S i) ex' rs
  | Panic => KDone Panic
  | Hang => KDone Hang
  end.
(** One step of one call (authorize.go:9-44, query.go:39-62, role_manager.go:124-135) *)
Definition kthread_step (o : oracle) (p : string) (q : opts) (st : state) (pc : kpc) : option (state * kpc) :=
  match pc with
  | KBegin =>
      if negb (bool_decide (p ∈ m_principals st)) then Some (st, KDone (Ok false)) else
      match m_cache st !! p with
      | Some U => Some (st, KDecide U)
      | None =>
          Some (st, KRows 1 ∅ (search (sub (sub o 0) 0) st (row_filter ANil ANil ANil (AStr p)) filter_tenants_by_principal))
      end
  | KRows i ex [] => Some (with_cache st (<[p := ex]> (m_cache st)), KDecide ex)
  | KRows i ex (r :: rs) =>
      match tenant r with
      | AStr t =>
          if bool_decide (t ∈ ex) then Some (st, KRows (S i) ex rs)
          else
            let ex1 := {[t]} ∪ ex in
            match manage r with
            | ABool true =>
                match m_hierarchy st !! t with
                | Some ds => Some (st, after_children i ex1 ds rs)
                | None =>
                    match m_tenants st !! t with
                    | None => Some (st, KRows (S i) ex1 rs)
                    | Some tl =>
                        match tenant_descendants (sub (sub o 0) i) st tl with
                        | Ok ds => Some (st, KKeep i t ds ex1 rs)
                        | Panic => Some (st, KDone Panic)
                        | Hang => Some (st, KDone Hang)
                        end
                    end
                end
            | _ => Some (st, KRows (S i) ex1 rs)
            end
      | _ => Some (st, KDone Panic)                      (* query.go:47: failed type assertion *)
      end
  | KKeep i t ds ex rs => Some (with_hierarchy st (<[t := compact ds]> (m_hierarchy st)), after_children i ex ds rs)
  | KDecide U => Some (st, KDone (decide_from o st U p q))
  | KDone _ => None
  end.

(** A call with the iteration orders it meets *)
Record ask : Type := Ask { a_orders : oracle; a_principal : string; a_request : opts }.
(** One step of goroutine [i]; runs of any interleaving *)
Definition kstep (calls : list ask) (s : state * list kpc) (i : nat) : option (state * list kpc) :=
  c ← calls !! i; pc ← s.2 !! i;
  '(st, pc') ← kthread_step (a_orders c) (a_principal c) (a_request c) s.1 pc; Some (st, <[i := pc']> s.2).
Fixpoint krun (calls : list ask) (s : state * list kpc) (sched : list nat) : option (state * list kpc) :=
  match sched with
  | [] => Some s
  | i :: sched' => s' ← kstep calls s i; krun calls s' sched'
  end.
Definition kstart (st : state) (calls : list ask) : state * list kpc := (st, replicate (length calls) KBegin).
