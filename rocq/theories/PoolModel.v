(** Model of concurrent decisions of package v2: several goroutines running Authorize or Can on an
    authorizer nobody changes, sharing the pools of v2/v2.go:171-175 (utils/pool.go:27-49).

    What is kept: every Get, clear, insertion, Put and every step of the loop reading the map
    returned, interleaved in any way.  A job is the work for one target tenant, given by the sets
    the traversal of v2/v2.go:200-236 (262-293) inserts and by what the reading loop looks for.
    checkedTenantsPool is left out: its maps are not used after Put.  The detection of concurrent
    map use by Go's runtime, which may crash the program, is left out as well. *)
From Verif Require Export Base.

(** One iteration of the loops of v2/v2.go:404-437 (Authorize) and 361-394 (Can), from the call of
    resolvePrincipalPermissions (resolvePrincipalRoles) to the end of the reading loop. *)
Record job : Type := Job {
  j_uses_global : bool;           (* resolvePrincipalRoles uses only the scoped pool *)
  j_scoped : gset string;         (* what goes into scopedPermissions (scopedRoles) *)
  j_global : gset string;         (* what goes into globalPermissions *)
  j_match : string -> bool        (* matchPermission(permission, request), or slices.Contains *)
}.

(** Where a goroutine is within a job.  Numbers are locations of maps. *)
Inductive phase : Type :=
| PStart                                                          (* 189 *)
| PGotG (g : nat)                                                 (* 190 *)
| PGot (g : option nat) (s : nat)                                 (* 192 (256) *)
| PClear (g : option nat) (s : nat)                               (* 193 *)
| PFill (g : option nat) (s : nat) (todo_s todo_g : gset string)  (* 200-239 (262-292) *)
| PPut (g : option nat) (s : nat) (ret : option nat)              (* 196 (259), value chosen *)
| PPutG (g : nat) (ret : option nat)                              (* 197 *)
| PRead (ret : option nat) (visited : gset string).               (* 430-435 (387-392) *)

Record thread : Type := Thread {
  th_jobs : list job;          (* the current one first *)
  th_phase : phase;
  th_answer : option bool
}.
Record machine : Type := Machine {
  mc_heap : list (gset string);
  mc_scoped : list nat;        (* scopedPermissionsPool *)
  mc_global : list nat;        (* globalPermissionsPool *)
  mc_threads : list thread
}.
Definition start (ths : list (list job)) : machine :=
  Machine [] [] [] ((fun js => Thread js PStart None) <$> ths).

(** What the scheduler decides: who moves, which free map sync.Pool.Get returns (or a new one), in
    which order elements are inserted and read. *)
Inductive choice : Type :=
| ChFresh
| ChFree (k : nat)
| ChScoped (x : string)
| ChGlobal (x : string)
| ChItem (x : string)
| ChGo.
Inductive cmd : Type :=
| Move (i : nat) (c : choice)
| DropScoped (k : nat)          (* the garbage collector empties sync.Pools *)
| DropGlobal (k : nat).

(** Observable events, for stating who used what when. *)
Inductive event : Type :=
| EGet (i m : nat)      (* goroutine i got map m out of a pool *)
| EReturn (i m : nat)   (* goroutine i is about to read map m *)
| EEnd (i : nat).       (* goroutine i has finished reading *)

(** utils/pool.go:42-44 Get *)
Definition pool_get (free : list nat) (heap : list (gset string)) (c : choice)
    : option (nat * list nat * list (gset string)) :=
  match c with
  | ChFresh => Some (length heap, free, heap ++ [∅])
  | ChFree k => m ← free !! k; Some (m, delete k free, heap)
  | _ => None
  end.
(** heap access; a location outside the heap never occurs (PoolProofs) *)
Definition upd_map (heap : list (gset string)) (m : nat) (f : gset string -> gset string)
    : option (list (gset string)) :=
  x ← heap !! m; Some (<[m := f x]> heap).

(** v2/v2.go:240-246 (297-300): which map is returned; [None]: an error *)
Definition returned (heap : list (gset string)) (g : option nat) (s : nat) : option (option nat) :=
  xs ← heap !! s;
  if bool_decide (xs = (∅ : gset string)) then
    match g with
    | None => Some None
    | Some g => xg ← heap !! g; Some (if bool_decide (xg = (∅ : gset string)) then None else Some g)
    end
  else Some (Some s).

(** The next job of a goroutine, or its answer when there is none left (v2/v2.go:437-438). *)
Definition next_job (js : list job) : thread := Thread js PStart None.

Definition thread_step (i : nat) (M : machine) (t : thread) (c : choice)
    : option (machine * thread * list event) :=
  let 'Machine heap ps pg ths := M in
  match th_answer t, th_jobs t with
  | Some _, _ => None
  | None, [] => match c with ChGo => Some (M, Thread [] PStart (Some false), []) | _ => None end
  | None, j :: js =>
      match th_phase t with
      | PStart =>
          if j_uses_global j then
            '(m, pg', heap') ← pool_get pg heap c;
            Some (Machine heap' ps pg' ths, Thread (j :: js) (PGotG m) None, [EGet i m])
          else
            '(m, ps', heap') ← pool_get ps heap c;
            Some (Machine heap' ps' pg ths, Thread (j :: js) (PGot None m) None, [EGet i m])
      | PGotG g =>
          '(m, ps', heap') ← pool_get ps heap c;
          Some (Machine heap' ps' pg ths, Thread (j :: js) (PGot (Some g) m) None, [EGet i m])
      | PGot g s =>
          match c with
          | ChGo => heap' ← upd_map heap s (fun _ => ∅);
                    Some (Machine heap' ps pg ths, Thread (j :: js) (PClear g s) None, [])
          | _ => None
          end
      | PClear g s =>
          match c with
          | ChGo =>
              heap' ← match g with Some g => upd_map heap g (fun _ => ∅) | None => Some heap end;
              Some (Machine heap' ps pg ths,
                    Thread (j :: js) (PFill g s (j_scoped j) (if g then j_global j else ∅)) None, [])
          | _ => None
          end
      | PFill g s ts tg =>
          match c with
          | ChScoped x =>
              if bool_decide (x ∈ ts) then
                heap' ← upd_map heap s (fun m => {[x]} ∪ m);
                Some (Machine heap' ps pg ths, Thread (j :: js) (PFill g s (ts ∖ {[x]}) tg) None, [])
              else None
          | ChGlobal x =>
              match g with
              | None => None
              | Some g' =>
                  if bool_decide (x ∈ tg) then
                    heap' ← upd_map heap g' (fun m => {[x]} ∪ m);
                    Some (Machine heap' ps pg ths, Thread (j :: js) (PFill g s ts (tg ∖ {[x]})) None, [])
                  else None
              end
          | ChGo =>
              if bool_decide (ts = ∅ /\ tg = ∅) then
                ret ← returned heap g s;
                Some (M, Thread (j :: js) (PPut g s ret) None,
                      match ret with Some m => [EReturn i m] | None => [] end)
              else None
          | _ => None
          end
      | PPut g s ret =>
          match c with
          | ChGo => Some (Machine heap (s :: ps) pg ths,
                          Thread (j :: js) (match g with Some g => PPutG g ret | None => PRead ret ∅ end) None, [])
          | _ => None
          end
      | PPutG g ret =>
          match c with
          | ChGo => Some (Machine heap ps (g :: pg) ths, Thread (j :: js) (PRead ret ∅) None, [])
          | _ => None
          end
      | PRead None _ =>
          match c with ChGo => Some (M, next_job js, [EEnd i]) | _ => None end
      | PRead (Some m) visited =>
          xs ← heap !! m;
          match c with
          | ChItem x =>
              if bool_decide (x ∈ xs /\ x ∉ visited) then
                if j_match j x then Some (M, Thread (j :: js) PStart (Some true), [EEnd i])
                else Some (M, Thread (j :: js) (PRead (Some m) ({[x]} ∪ visited)) None, [])
              else None
          | ChGo => if bool_decide (xs ⊆ visited) then Some (M, next_job js, [EEnd i]) else None
          | _ => None
          end
      end
  end.

Definition set_thread (M : machine) (i : nat) (t : thread) : machine :=
  Machine (mc_heap M) (mc_scoped M) (mc_global M) (<[i := t]> (mc_threads M)).
Definition mstep (M : machine) (x : cmd) : option (machine * list event) :=
  match x with
  | Move i c =>
      t ← mc_threads M !! i;
      '(M', t', es) ← thread_step i M t c;
      Some (set_thread M' i t', es)
  | DropScoped k =>
      _ ← mc_scoped M !! k;
      Some (Machine (mc_heap M) (delete k (mc_scoped M)) (mc_global M) (mc_threads M), [])
  | DropGlobal k =>
      _ ← mc_global M !! k;
      Some (Machine (mc_heap M) (mc_scoped M) (delete k (mc_global M)) (mc_threads M), [])
  end.
(** A schedule; [None]: it asks for a move that is not possible. *)
Fixpoint mrun (M : machine) (xs : list cmd) : option (machine * list event) :=
  match xs with
  | [] => Some (M, [])
  | x :: xs' => '(M1, es1) ← mstep M x; '(M2, es2) ← mrun M1 xs'; Some (M2, es1 ++ es2)
  end.
