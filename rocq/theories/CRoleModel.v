(** Model of concurrent AddPermission, AddPermissionResourceGroup, Lock and Unlock calls on one role object
    (role.go:26-29, 38-55, 118-147; v1/role.go:25-28, 37-54, 117-146).  Every access to an xsync map and every access to the flag
    [lock] is one atomic step; calls interleave arbitrarily.  Two simplifications that change nothing: looking a
    permission up and storing it if it is missing (role.go:131-133) is one step, as the group only grows; permissions are kept
    as their strings. *)
From Verif Require Export Base.

Inductive rcall : Type :=
| RAdd (g : string) (ps : list string)   (* AddPermission(g, ps...) *)
| RShare (g : string) (l : nat)          (* AddPermissionResourceGroup of the group object [l] with id [g] *)
| RLock (b : bool).                      (* Lock ([true]) or Unlock *)
(** Where a goroutine is (line numbers of role.go) *)
Inductive qpc : Type :=
| QStart                                 (* 119, 140, 46, 54 *)
| QGet                                   (* 122, 143 *)
| QFill (l : nat) (rest : list string)   (* 131: next permission; with none left, 135 *)
| QPut                                   (* 144 *)
| QDone (ok : bool).                     (* has returned; [false]: "changes not allowed" *)
(** The flag, the groups of the role, and all group objects with their permissions *)
Record rsh : Type := RSh { r_lock : bool; r_groups : gmap string nat; r_heap : list (gset string) }.

(** One step of a call (role.go:46, 54, 119-136, 140-146) *)
Definition qthread_step (s : rsh) (c : rcall) (pc : qpc) : option (rsh * qpc) :=
  let '(RSh k gs h) := s in
  match c, pc with
  | RLock b, QStart => Some (RSh b gs h, QDone true)
  | _, QStart => Some (s, if k then QDone false else QGet)
  | RAdd g ps, QGet =>
      match gs !! g with
      | Some l => Some (s, QFill l ps)
      | None => Some (RSh k gs (h ++ [∅]), QFill (length h) ps)              (* 123-128: a new group, not yet in the role *)
      end
  | RAdd _ _, QFill l (p :: rest) => x ← h !! l; Some (RSh k gs (<[l := {[p]} ∪ x]> h), QFill l rest)
  | RAdd g _, QFill l [] => Some (RSh k (<[g := l]> gs) h, QDone true)
  | RShare g _, QGet => Some (s, match gs !! g with Some _ => QDone true | None => QPut end)
  | RShare g l, QPut => Some (RSh k (<[g := l]> gs) h, QDone true)
  | _, _ => None
  end.
(** One step of goroutine [i]; runs of any interleaving (role.go:118-147) *)
Definition qstep (calls : list rcall) (st : rsh * list qpc) (i : nat) : option (rsh * list qpc) :=
  c ← calls !! i; pc ← st.2 !! i; '(s, pc') ← qthread_step st.1 c pc; Some (s, <[i := pc']> st.2).
Fixpoint qrun (calls : list rcall) (st : rsh * list qpc) (sched : list nat) : option (rsh * list qpc) :=
  match sched with
  | [] => Some st
  | i :: sched' => st' ← qstep calls st i; qrun calls st' sched'
  end.
Definition qstart (s : rsh) (calls : list rcall) : rsh * list qpc := (s, replicate (length calls) QStart).
