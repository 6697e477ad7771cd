(** What a user expects of concurrent AddPrincipalRole and RemovePrincipalRole calls. *)
From Verif Require Export CAssignModel.

(** A call about to start; a call that has ended. *)
Definition starting (t : athread) : Prop := (exists ls, t = AWait ls) \/ exists tg, t = XLen tg.
Definition ended (t : athread) : Prop := t = ADone \/ (exists e, t = XDone e) \/ t = XPanic.
(** The calls [ts] start on the assignments [old], and [st'] is left when all have ended. *)
Definition finishes (prs : list prole) (old : list (option nat)) (ts : list athread) (sched : list nat) (st' : astate) : Prop :=
  arun prs (AState old None ts) sched = Some st' /\ Forall ended (as_threads st').
(** No call starts before the one in front of it has made its last step. *)
Definition one_by_one (n : nat) (sched : list nat) : Prop :=
  exists order ns : list nat, order ≡ₚ seq 0 n /\ sched = concat (zip_with (fun i k => replicate k i) order ns).
(** Whatever the interleaving, the assignments and the results are those of the same calls one after the other. *)
Definition as_if_in_turn (prs : list prole) (old : list (option nat)) (ts : list athread) : Prop :=
  forall sched st', finishes prs old ts sched st' ->
  exists sched', one_by_one (length ts) sched' /\ finishes prs old ts sched' st'.
(** An assignment satisfies the criteria of a removal: every field given is equal. *)
Definition fits (tg pr : prole) : Prop :=
  (pr_principal tg = "" \/ pr_principal pr = pr_principal tg) /\
  (pr_tenant tg = "" \/ pr_tenant pr = pr_tenant tg) /\
  (pr_namespace tg = "" \/ pr_namespace pr = pr_namespace tg) /\
  (pr_scope tg = "" \/ pr_scope pr = pr_scope tg) /\
  (pr_role tg = "" \/ pr_role pr = pr_role tg).
Definition row_fits (prs : list prole) (tg : prole) (l : nat) : Prop := exists pr, prs !! l = Some pr /\ fits tg pr.
