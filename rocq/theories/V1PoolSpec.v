(** What a user expects of v1 Authorize calls that several goroutines make at the same time. *)
From Verif Require Export V1Spec V1PoolModel.

(** The [i]-th call has returned. *)
Definition x_answered (M : xmachine) (i : nat) (r : res bool) : Prop := x_codes M !! i = Some (XRet r).
(** The calls have run this far; [es] is what happened. *)
Definition x_met (st : ustate) (cs : list xcall) (M : xmachine) (es : list xevent) : Prop :=
  exists xs, xrun (xstart st cs) xs = Some (M, es).
(** Who took the array [l] last *)
Definition last_taker (es : list xevent) (l : nat) : option nat :=
  foldl (fun a e => match e with XTake i l' => if Nat.eqb l' l then Some i else a | _ => a end) None es.
(** Whenever the [i]-th call read in an array, nobody had taken the array after it. *)
Definition x_undisturbed (i : nat) (es : list xevent) : Prop :=
  forall es1 l es2, es = es1 ++ XLook i l :: es2 -> last_taker es1 l = Some i.
(** The names a call handles: of the roles and scopes assigned to its principal, and, in the tenants of these assignments, of the roles and scopes
    of the namespace it asks about *)
Definition x_handles (st : ustate) (p : string) (q : uopts) (x : string) : Prop :=
  exists a, assigned st a /\ tp_principal a = p
    /\ (x = tp_role a \/ x = tp_scope a
        \/ exists c l n, u_tenant st (tp_tenant a) = Some c /\ ut_namespaces c !! to_string (uo_namespace q) = Some l /\ u_nss st !! l = Some n
             /\ (x ∈ un_roles n \/ x ∈ un_scopes n)).
(** The names that may lie in the arrays while the calls [cs] run: those any of them handles, and the empty one of a new or cleared array *)
Definition x_name (st : ustate) (cs : list xcall) (x : string) : Prop :=
  x = "" \/ exists k o p q, cs !! k = Some (o, p, q) /\ x_handles st p q x.
(** The role [r] gives [act] on [grp], all its descendants counting. *)
Definition role_can (st : ustate) (r grp act : string) : Prop := role_grants st r grp act (fun _ => False).
(** In the schedule the [i]-th call runs from beginning to end without another moving meanwhile. *)
Definition x_in_turn (i : nat) (xs : list (nat * option nat)) : Prop :=
  exists xs1 xs2 xs3, xs = xs1 ++ xs2 ++ xs3 /\ (forall x, x ∈ xs1 \/ x ∈ xs3 -> x.1 <> i) /\ forall x, x ∈ xs2 -> x.1 = i.
(** The calls never come to an end. *)
Definition x_for_ever (st : ustate) (cs : list xcall) : Prop :=
  exists sched : nat -> nat * option nat, forall n, is_Some (xrun (xstart st cs) (sched <$> seq 0 n)).
