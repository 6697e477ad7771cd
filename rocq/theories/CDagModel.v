(** Model of concurrent calls on one v2 role graph (v2/role.go:12-26, 61-179, v2/init.go:12-15): AddRole, AddChildRole,
    ResolvePermissions, ResolveChildRoles, AddPermission, RemovePermission of a role, and GetRole.  The graph has a
    read-write lock (dag.mu), every role a lock of its own (r.m); GetRole takes none.  Taking a lock, releasing it, one
    round of a loop, and the check and the write of AddChildRole are one atomic step each; calls interleave
    arbitrarily.  That a writer waiting for dag.mu keeps new readers out is left out (there are more interleavings).
    Pointers given are not nil. *)
From Verif Require Export V2Model.

(** The calls; a [CResolve] of kind [true] is ResolvePermissions, of kind [false] ResolveChildRoles; a [CPerm] with
    [true] is AddPermission, with [false] RemovePermission, on the role object [l]. *)
Inductive gcall : Type :=
| CAddRole (ls : list nat)
| CAddChild (p : string) (cs : list string)
| CResolve (k : bool) (name : string)
| CPerm (add : bool) (l : nat) (ps : list (string * string))
| CGet (name : string).
Inductive gout : Type :=
| OUnit
| OErr (e : option string)
| OSet (s : gset string)
| OGet (l : option nat).
(** Where a goroutine is (line numbers of v2/role.go) *)
Inductive gpc : Type :=
| PStart                                                  (* before the first lock: 77, 85, 119, 152, 13, 21 *)
| PRoleIn (ls : list nat)                                 (* 79: the next role *)
| PChildIn                                                (* 87: before the check *)
| PChildOk                                                (* 90: before the write *)
| PChildOut (e : option string)                           (* 86: before Unlock *)
| PRead                                                   (* 120, 153: before the look into the cache *)
| PHit (s : gset string)                                  (* 121, 154: before RUnlock *)
| PMiss                                                   (* 124, 157: before RUnlock *)
| PWait                                                   (* 125, 158: before Lock *)
| PLoop (visited result : gset string) (queue : list string)  (* 130, 163: the next round *)
| PStored (s : gset string)                               (* 126, 159: before Unlock *)
| PPermIn (ps : list (string * string))                   (* 15, 23: the next permission *)
| PDone (out : gout).
(** Role objects, graph, holder of the write lock, holders of the read lock, holders of the locks of roles *)
Record gsh : Type := GSh {
  g_heap : list vrole;
  g_dag : dag;
  g_writer : option nat;
  g_readers : gset nat;
  g_held : gmap nat nat
}.
Definition g_set_dag (s : gsh) (d : dag) : gsh := GSh (g_heap s) d (g_writer s) (g_readers s) (g_held s).
Definition g_set_heap (s : gsh) (h : list vrole) : gsh := GSh h (g_dag s) (g_writer s) (g_readers s) (g_held s).
Definition g_set_writer (s : gsh) (w : option nat) : gsh := GSh (g_heap s) (g_dag s) w (g_readers s) (g_held s).
Definition g_set_readers (s : gsh) (r : gset nat) : gsh := GSh (g_heap s) (g_dag s) (g_writer s) r (g_held s).
Definition g_set_held (s : gsh) (m : gmap nat nat) : gsh := GSh (g_heap s) (g_dag s) (g_writer s) (g_readers s) m.

(** sync.RWMutex Lock: nobody holds it; RLock: no writer holds it *)
Definition g_lock (s : gsh) (i : nat) : option gsh :=
  if bool_decide (g_writer s = None /\ g_readers s = ∅) then Some (g_set_writer s (Some i)) else None.
Definition g_rlock (s : gsh) (i : nat) : option gsh :=
  if bool_decide (g_writer s = None) then Some (g_set_readers s ({[i]} ∪ g_readers s)) else None.
Definition g_unlock (s : gsh) : gsh := g_set_writer s None.
Definition g_runlock (s : gsh) (i : nat) : gsh := g_set_readers s (g_readers s ∖ {[i]}).

(** What a role contributes to the answer: 141-143 and 174 *)
Definition contrib_of (k : bool) : vrole -> gset string := if k then vr_perms else name_of.
(** 16 and 24, one permission *)
Definition perm_update (add : bool) (r : vrole) (ps : list (string * string)) : vrole :=
  if add then vrole_add r ps else vrole_remove r ps.
(** 130-145 and 163-176: one round, the queue being [c :: q] *)
Definition loop_round (k : bool) (h : list vrole) (d : dag) (V R : gset string) (c : string) (q : list string) : option gpc :=
  if bool_decide (c ∈ V) then Some (PLoop V R q)
  else match d_roles d !! c with
       | None => Some (PLoop ({[c]} ∪ V) R q)
       | Some l => r ← h !! l; Some (PLoop ({[c]} ∪ V) (contrib_of k r ∪ R) (q ++ edges_of (d_edges d) c))
       end.

(** One step of goroutine [i], which executes [c] and is at [pc] *)
Definition gthread_step (i : nat) (s : gsh) (c : gcall) (pc : gpc) : option (gsh * gpc) :=
  let d := g_dag s in
  match c, pc with
  | CAddRole ls, PStart => s' ← g_lock s i; Some (s', PRoleIn ls)
  | CAddRole _, PRoleIn (l :: ls) =>
      r ← g_heap s !! l; Some (g_set_dag s (Dag (<[vr_name r := l]> (d_roles d)) (d_edges d) (d_resolved d)), PRoleIn ls)
  | CAddRole _, PRoleIn [] => Some (g_unlock s, PDone OUnit)
  | CAddChild _ _, PStart => s' ← g_lock s i; Some (s', PChildIn)
  | CAddChild p cs, PChildIn =>
      match check_circular (d_edges d) p cs with
      | Ok None => Some (s, PChildOk)
      | Ok (Some e) => Some (s, PChildOut (Some e))
      | _ => None                                                        (* never *)
      end
  | CAddChild p cs, PChildOk =>
      Some (g_set_dag s (Dag (d_roles d) (<[p := edges_of (d_edges d) p ++ cs]> (d_edges d)) (d_resolved d)), PChildOut None)
  | CAddChild _ _, PChildOut e => Some (g_unlock s, PDone (OErr e))
  | CResolve _ _, PStart => s' ← g_rlock s i; Some (s', PRead)
  | CResolve _ name, PRead => Some (s, match d_resolved d !! name with Some a => PHit a | None => PMiss end)
  | CResolve _ _, PHit a => Some (g_runlock s i, PDone (OSet a))
  | CResolve _ _, PMiss => Some (g_runlock s i, PWait)
  | CResolve _ name, PWait => s' ← g_lock s i; Some (s', PLoop ∅ ∅ [name])
  | CResolve k _, PLoop V R (c :: q) => pc' ← loop_round k (g_heap s) d V R c q; Some (s, pc')
  | CResolve _ name, PLoop _ R [] =>
      Some (g_set_dag s (Dag (d_roles d) (d_edges d) (<[name := R]> (d_resolved d))), PStored R)
  | CResolve _ _, PStored a => Some (g_unlock s, PDone (OSet a))
  | CPerm _ l ps, PStart =>
      match g_held s !! l with
      | None => Some (g_set_held s (<[l := i]> (g_held s)), PPermIn ps)
      | Some _ => None
      end
  | CPerm add l _, PPermIn (p :: ps) =>
      r ← g_heap s !! l; Some (g_set_heap s (<[l := perm_update add r [p]]> (g_heap s)), PPermIn ps)
  | CPerm _ l _, PPermIn [] => Some (g_set_held s (delete l (g_held s)), PDone OUnit)
  | CGet name, PStart => Some (s, PDone (OGet (d_roles d !! name)))
  | _, _ => None
  end.
(** The calls made, one by each goroutine; the shared state and where everybody is *)
Definition gstep (calls : list gcall) (st : gsh * list gpc) (i : nat) : option (gsh * list gpc) :=
  c ← calls !! i; pc ← st.2 !! i; '(s, pc') ← gthread_step i st.1 c pc; Some (s, <[i := pc']> st.2).
Fixpoint grun (calls : list gcall) (st : gsh * list gpc) (sched : list nat) : option (gsh * list gpc) :=
  match sched with
  | [] => Some st
  | i :: sched' => st' ← gstep calls st i; grun calls st' sched'
  end.
(** No lock is held and no call has begun. *)
Definition gstart (h : list vrole) (d : dag) (calls : list gcall) : gsh * list gpc :=
  (GSh h d None ∅ ∅, replicate (length calls) PStart).
