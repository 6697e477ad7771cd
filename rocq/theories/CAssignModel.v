(** Model of concurrent AddPrincipalRole and RemovePrincipalRole calls on one authorizer (v2/v2.go:102-169), as far as
    a.userRoles goes.  AddPrincipalRole holds a.m for its whole body, RemovePrincipalRole takes no lock.  Every read
    and every write of the slice variable a.userRoles is one atomic step; calls interleave arbitrarily.  The index
    userRoleMap, which no decision reads, is left out.  The assignment objects [prs] do not change.  Slices are values:
    an append writes behind the end of the slice it was given, appends exclude one another by a.m, and a removal fills
    an array of its own, so no element of a slice in use is ever overwritten.  The rows given are not nil. *)
From Verif Require Export V2Model.

Inductive athread : Type :=
| AWait (ls : list nat)                                    (* 103: before Lock *)
| AIn (ls : list nat)                                      (* 105: inside, the next row *)
| AHave (l : nat) (ls : list nat) (snap : list (option nat))  (* 106: a.userRoles read for append, not yet written *)
| ADone
| XLen (target : prole)                                    (* 115: before len(a.userRoles) *)
| XRange (target : prole) (n : nat)                        (* 136: before the loop reads a.userRoles *)
| XWrite (new : list (option nat))                         (* 148: before the write *)
| XDone (err : option string)
| XPanic.
(** a.userRoles; who holds a.m; the goroutines *)
Record astate : Type := AState { as_list : list (option nat); as_lock : option nat; as_threads : list athread }.

(** v2/v2.go:135-144 on a snapshot, with an array of [n] entries: an entry that is kept is written at its own index,
    which panics beyond the array; the rest of the array is nil. *)
Definition remove_into (prs : list prole) (target : prole) (n : nat) (snap : list (option nat))
    : res (option (list (option nat))) :=
  let! uj := remove_loop prs target snap in
  let! beyond := remove_loop prs target (drop n snap) in
  if bool_decide (beyond.2 = 0) then
    if bool_decide (uj.2 = length snap) then Ok None                                     (* 145-147 *)
    else Ok (Some (take uj.2 (take n uj.1 ++ replicate (n - length snap) None)))
  else Panic.

(** One atomic step of goroutine [i], if it can make one: the slice, the lock and the goroutine afterwards. *)
Definition athread_step (prs : list prole) (i : nat) (st : astate) (t : athread) : option (list (option nat) * option nat * athread) :=
  let '(AState us lk _) := st in
  match t with
  | AWait ls => match lk with None => Some (us, Some i, AIn ls) | Some _ => None end
  | AIn (l :: ls) => Some (us, lk, AHave l ls us)
  | AIn [] => Some (us, None, ADone)                                                     (* 104 Unlock *)
  | AHave l ls snap => Some (snap ++ [Some l], lk, AIn ls)
  | ADone => None
  | XLen target => Some (us, lk, XRange target (length us))
  | XRange target n => Some (us, lk, match remove_into prs target n us with
                                     | Ok (Some new) => XWrite new
                                     | Ok None => XDone (Some err_no_match)
                                     | _ => XPanic
                                     end)
  | XWrite new => Some (new, lk, XDone None)
  | XDone _ => None
  | XPanic => None
  end.
(** The schedule names, step by step, the goroutine that moves. *)
Definition astep (prs : list prole) (st : astate) (i : nat) : option astate :=
  t ← as_threads st !! i; '(us, lk, t') ← athread_step prs i st t; Some (AState us lk (<[i := t']> (as_threads st))).
Fixpoint arun (prs : list prole) (st : astate) (sched : list nat) : option astate :=
  match sched with
  | [] => Some st
  | i :: sched' => st' ← astep prs st i; arun prs st' sched'
  end.
