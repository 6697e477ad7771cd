(** What a user expects of calls that several goroutines make on one v2 authorizer. *)
From Verif Require Export V2Spec VConcModel.

(** [s] is met when the calls run on the authorizer [st]. *)
Definition tmet (st : vstate) (calls : list kcall) (s : ksh * list (code kout)) : Prop :=
  exists sched, trun (tstart st calls) sched = Some s.
(** The call has returned (a [Panic] is a crash). *)
Definition returned (s : ksh * list (code kout)) (i : nat) (r : res kout) : Prop := s.2 !! i = Some (KRet r).

(** ** Alone *)

(** The steps of a program, one after the other, while nobody else does anything *)
Fixpoint exec {A : Type} (st : vstate) (c : code A) : res (vstate * A) :=
  match c with
  | KRet r => let! a := r in Ok (st, a)
  | KRead x k => exec st (k (get_var st x))
  | KUpd x f k => exec (put_var st x (f (get_var st x))) k
  | KResolve b name k => let! r := resolve_step b st name in exec r.1 (k r.2)
  | KLock _ k | KUnlock _ k => exec st k
  end.
(** The same call in the sequential model *)
Definition as_kout (w : vout) : kout :=
  match w with
  | WUnit => TUnit
  | WLoc l => TGot (Some l)
  | WErr e => TErr e
  | WBool b => TBool b
  end.
Definition by_op (o : oracle) (st : vstate) (x : vop) : res (vstate * kout) :=
  let! r := vstep o st x in Ok (r.1, as_kout r.2).
Definition seq_call (st : vstate) (c : kcall) : res (vstate * kout) :=
  match c with
  | KAuthorize o now q => by_op o st (VAuthorize now q)
  | KCan o now q roles => by_op o st (VCan now q roles)
  | KGetTenant id => Ok (st, TGot (w_reg st !! id))
  | KGetDefault => Ok (st, TGot (if bool_decide (w_default st = "") then None else w_reg st !! w_default st))
  | KSetDefault id => by_op id_oracle st (VSetDefault id)
  | KAddTenant o t => by_op o st (VAddTenant t)
  | KAddPR ls => by_op id_oracle st (VAddPR ls)
  | KRemovePR target => by_op id_oracle st (VRemovePR target)
  | KAddNamespace t n b => by_op id_oracle st (VTenantNamespace t n b)
  | KAddScopes t n ss => by_op id_oracle st (VTenantScopes t n ss)
  | KAddChildren t cs => by_op id_oracle st (VTenantChildren t cs)
  | KSetStatus t s => by_op id_oracle st (VTenantStatus t s)
  | KSetExpiry now l e => by_op id_oracle st (VSetExpiry now l e)
  | KSetDuration now l a => by_op id_oracle st (VSetExpiryDuration now l a)
  | KClearExpiry l => let! r := by_op id_oracle st (VClearExpiry l) in Ok (r.1, TUnit)
  end.
Definition answer_of (st : vstate) (c : kcall) : res kout := let! r := seq_call st c in Ok r.2.

(** ** Questions *)
Definition question (c : kcall) : Prop :=
  match c with KAuthorize _ _ _ | KCan _ _ _ _ | KGetTenant _ | KGetDefault => True | _ => False end.
(** The roles whose permissions ([b] true) or child roles ([b] false) the question may need: those of the assignments of
    its principal. *)
Definition may_need (st : vstate) (c : kcall) (b : bool) (r : string) : Prop :=
  match c, b with
  | KAuthorize _ _ q, true | KCan _ _ q _, false =>
      exists pr, assigned st pr /\ pr_principal pr = q_principal q /\ pr_role pr = r
  | _, _ => False
  end.
Definition remembered (st : vstate) (r : string) : Prop := is_Some (d_resolved (w_dag st) !! r).
(** No role is resolved for the first time both for its permissions and for its child roles. *)
Definition unmixed (st : vstate) (calls : list kcall) : Prop :=
  forall r c c', c ∈ calls -> c' ∈ calls -> may_need st c true r -> may_need st c' false r -> remembered st r.
(** [in_order calls st order outs]: made one after the other in this order, the calls return [outs]. *)
Inductive in_order (calls : list kcall) : vstate -> list nat -> list (nat * kout) -> Prop :=
| in_order_nil st : in_order calls st [] []
| in_order_cons st i c st1 out order outs :
    calls !! i = Some c -> seq_call st c = Ok (st1, out) -> in_order calls st1 order outs ->
    in_order calls st (i :: order) ((i, out) :: outs).
(** What has been returned when all calls have returned is what the calls return one after the other, in some order. *)
Definition fits_some_order (st : vstate) (calls : list kcall) : Prop :=
  forall s (outs : list kout), tmet st calls s -> (forall i out, outs !! i = Some out -> returned s i (Ok out)) ->
    length outs = length calls ->
    exists order l, order ≡ₚ seq 0 (length calls) /\ in_order calls st order l /\
      forall i out, (i, out) ∈ l -> outs !! i = Some out.

(** ** Data races *)

(** What the next step of a goroutine touches; [true] for a write *)
Definition next_touch (c : code kout) : option (kvar * bool) :=
  match c with
  | KRead x _ => Some (x, false)
  | KUpd x _ _ => Some (x, true)
  | _ => None
  end.
(** Two goroutines are about to touch [x], in whichever order, and [i] writes. *)
Definition vrace (s : ksh * list (code kout)) (x : kvar) (i j : nat) : Prop :=
  i <> j /\ exists ci cj b, s.2 !! i = Some ci /\ s.2 !! j = Some cj /\
    next_touch ci = Some (x, true) /\ next_touch cj = Some (x, b).

(** What a call may write *)
Definition may_write (c : kcall) (x : kvar) : Prop :=
  match c, x with
  | KSetDefault _, GDefault => True
  | KAddTenant _ _, (GReg | GParents) => True
  | (KAddPR _ | KRemovePR _), (GAssign | GIndex) => True
  | KAddNamespace t n _, (GNames t' | GDefNs t') => t = t'
  | KAddScopes t _ _, GNames t' => t = t'
  | KAddScopes t n _, GScopes t' n' => t = t' /\ n = n'
  | KAddChildren t _, GKids t' => t = t'
  | KSetStatus t _, GStatus t' => t = t'
  | (KSetExpiry _ l _ | KSetDuration _ l _ | KClearExpiry l), GExpiry l' => l = l'
  | _, _ => False
  end.
(** What a call may read *)
Definition may_read (c : kcall) (x : kvar) : Prop :=
  match c, x with
  | (KAuthorize _ _ q | KCan _ _ q _), GDefault => q_tenant q = ""
  | (KAuthorize _ _ q | KCan _ _ q _), GStatus _ => q_tenant q = ""
  | (KAuthorize _ _ q | KCan _ _ q _), GDefNs _ => q_namespace q = ""
  | (KAuthorize _ _ q | KCan _ _ q _), GScopes _ _ => q_scope q <> ""
  | (KAuthorize _ _ _ | KCan _ _ _ _), (GAssign | GReg | GNames _ | GKids _ | GExpiry _) => True
  | KGetTenant _, GReg => True
  | KGetDefault, (GReg | GDefault) => True
  | KAddTenant _ t, GKids t' => t = t'
  | (KAddPR _ | KRemovePR _), GAssign => True
  | (KAddNamespace t _ _ | KAddScopes t _ _), GNames t' => t = t'
  | _, _ => False
  end.
(** What a call touches without holding the lock under which others write it *)
Definition no_lock (c : kcall) (x : kvar) : Prop :=
  match c, x with
  | (KAuthorize _ _ _ | KCan _ _ _ _ | KRemovePR _), _ => True
  | _, (GDefault | GStatus _ | GExpiry _) => True
  | KAddTenant _ _, GKids _ => True
  | _, _ => False
  end.
(** The two calls can collide at [x], the first one writing. *)
Definition may_collide (c c' : kcall) (x : kvar) : Prop :=
  may_write c x /\ (may_write c' x \/ may_read c' x) /\ (no_lock c x \/ no_lock c' x).

(** ** Waiting *)

(** Goroutine [i] can make a step. *)
Definition can_move (s : ksh * list (code kout)) (i : nat) : Prop := is_Some (tstep s i).
(** The program has crashed. *)
Definition crashed (s : ksh * list (code kout)) : Prop := exists i, returned s i Panic.
(** An infinite execution *)
Definition runs_for_ever (st : vstate) (calls : list kcall) : Prop :=
  exists sched : nat -> nat, forall n, is_Some (trun (tstart st calls) (sched <$> seq 0 n)).

(** ** Crashes *)

(** The objects the call is handed exist. *)
Definition handed (st : vstate) (c : kcall) : Prop :=
  match c with
  | KAddTenant _ t | KAddNamespace t _ _ | KAddScopes t _ _ | KSetStatus t _ => is_Some (w_tenants st !! t)
  | KAddChildren t cs => is_Some (w_tenants st !! t) /\ forall d, d ∈ cs -> is_Some (w_tenants st !! d)
  | KAddPR ls => forall l, l ∈ ls -> is_Some (w_prs st !! l)
  | KSetExpiry _ l _ | KSetDuration _ l _ | KClearExpiry l => is_Some (w_prs st !! l)
  | _ => True
  end.
(** The call makes no pointer nil. *)
Definition no_nil (c : kcall) : Prop := match c with KRemovePR _ | KClearExpiry _ => False | _ => True end.

(** ** Set-up calls that take the locks *)
Definition takes_locks (c : kcall) : Prop :=
  match c with KAddTenant _ _ | KGetTenant _ | KAddPR _ | KAddNamespace _ _ _ | KAddScopes _ _ _ | KAddChildren _ _ => True | _ => False end.
