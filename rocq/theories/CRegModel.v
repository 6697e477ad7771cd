(** Model of concurrent AddX calls on one registry: AddRole, AddTenant, AddNamespace, AddScope, AddPrincipal,
    AddAttribute, AddAttributeGroup of the root manager and of v1 all have the same body
    (principal.go:12-18, namespace.go:17-23, scope.go:17-23, permission.go:58-64, tenant.go:143-150,
    activity.go:9-15, activity_group.go:13-19; v1/role_manager.go:129-135, 155-162, 182-188, 208-214, 234-240,
    57-63, 79-85): Get under the id, and Set if nothing was found.  Each of the two accesses to the xsync map is
    atomic, calls interleave arbitrarily. *)
From Verif Require Export Base.

Section creg.
  (** Objects, compared as pointers, and their ids. *)
  Context {V : Type}.
  Variable id_of : V -> string.

  (** Where a goroutine is within AddX(x). *)
  Inductive rthread : Type :=
  | RGet (x : V)              (* about to Get *)
  | RSet (x : V)              (* Get found nothing, about to Set *)
  | RDone (x r : V).          (* has returned r *)
  Definition rgstate : Type := gmap string V * list rthread.
  Definition rthread_step (reg : gmap string V) (t : rthread) : option (gmap string V * rthread) :=
    match t with
    | RGet x => Some (reg, match reg !! id_of x with Some y => RDone x y | None => RSet x end)
    | RSet x => Some (<[id_of x := x]> reg, RDone x x)
    | RDone _ _ => None
    end.
  Definition rgstep (st : rgstate) (i : nat) : option rgstate :=
    t ← st.2 !! i; '(reg', t') ← rthread_step st.1 t; Some (reg', <[i := t']> st.2).
  Fixpoint rgrun (st : rgstate) (sched : list nat) : option rgstate :=
    match sched with
    | [] => Some st
    | i :: sched' => st' ← rgstep st i; rgrun st' sched'
    end.
End creg.
Arguments rthread : clear implicits.
Arguments rgstate : clear implicits.
