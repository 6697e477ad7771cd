(** Properties C106 to C108: calls that several goroutines make on one v2 authorizer. *)
From Verif Require Import VConcSeq VConcProofs VConcRace VConcSafe VConcHoles V2Ex VConcEx VConcSpec.

(** C106: calls of several goroutines are free of data races?  They are not: an Authorize and an AddTenant. *)
Theorem C106_race_free_refuted :
  exists st calls s x, vreachable st /\ ~ broken st /\ Forall (handed st) calls /\ tmet st calls s /\ vrace s x 1 0.
Proof. exact c106_refuted. Qed.
Print Assumptions C106_race_free_refuted.

(** Wherever there is a race, one of the two goes without the lock under which the other one writes. *)
Theorem C106_collide_partial (st : vstate) (calls : list kcall) (s : ksh * list (code kout)) (x : kvar) (i j : nat) :
  tmet st calls s -> vrace s x i j -> exists c c', calls !! i = Some c /\ calls !! j = Some c' /\ may_collide c c' x.
Proof. exact (race_collides st calls s x i j). Qed.
Print Assumptions C106_collide_partial.
(** Questions do not race with each other … *)
Theorem C106_questions_partial (st : vstate) (calls : list kcall) (s : ksh * list (code kout)) (x : kvar) (i j : nat) :
  Forall question calls -> tmet st calls s -> ~ vrace s x i j.
Proof. exact (asking_no_race st calls s x i j). Qed.
Print Assumptions C106_questions_partial.
(** … nor do the set-up calls that take the locks, unless a tenant is registered while it is given children. *)
Theorem C106_setup_partial (st : vstate) (calls : list kcall) (s : ksh * list (code kout)) (x : kvar) (i j : nat) :
  Forall takes_locks calls -> (forall o t cs, KAddTenant o t ∈ calls -> KAddChildren t cs ∉ calls) -> tmet st calls s -> ~ vrace s x i j.
Proof. exact (locked_no_race st calls s x i j). Qed.
Print Assumptions C106_setup_partial.
Example C106_setup_ex : vreachable (vops_state w106) /\ Forall takes_locks w106_calls /\
  (forall o t cs, KAddTenant o t ∈ w106_calls -> KAddChildren t cs ∉ w106_calls) /\
  exists s, tmet (vops_state w106) w106_calls s /\ returned s 0 (Ok TUnit) /\ returned s 1 (Ok (TGot (Some 0))) /\ returned s 2 (Ok TUnit) /\
    returned s 3 (Ok TUnit) /\ returned s 4 (Ok (TErr None)) /\ returned s 5 (Ok TUnit) /\ returned s 6 (Ok (TGot (Some 1))).
Proof. exact c106_ex. Qed.

(** The holes, for every state.  A decision that names a tenant races with every AddTenant … *)
Theorem C106_register_refuted (st : vstate) (o : oracle) (now : Z) (q : request) (roles : list string) (o' : oracle) (t : nat) (can : bool) :
  q_tenant q <> "" -> is_Some (w_tenants st !! t) ->
  exists s, tmet st [if can then KCan o now q roles else KAuthorize o now q; KAddTenant o' t] s /\ vrace s GReg 1 0.
Proof. exact (race_reg st o now q roles o' t can). Qed.
Print Assumptions C106_register_refuted.
(** … a decision that gets as far as the assignments with every AddPrincipalRole … *)
Theorem C106_assign_refuted (st : vstate) (o : oracle) (now : Z) (q : request) (roles : list string) (name : string) (t : nat) (c : vtenant) (n : string) (l : nat) (ls : list nat) (can : bool) :
  vreachable st -> names st q name -> w_reg st !! name = Some t -> tenant_at st t c -> uses_namespace c q n -> is_Some (w_prs st !! l) ->
  exists s, tmet st [if can then KCan o now q roles else KAuthorize o now q; KAddPR (l :: ls)] s /\ vrace s GAssign 1 0.
Proof. exact (assign_hole st o now q roles name t c n l ls can). Qed.
Print Assumptions C106_assign_refuted.
(** … a decision that names a namespace with the creation of any other one in the tenant … *)
Theorem C106_namespace_refuted (st : vstate) (o : oracle) (now : Z) (q : request) (roles : list string) (name : string) (t : nat) (c : vtenant) (n : string) (b can : bool) :
  names st q name -> w_reg st !! name = Some t -> tenant_at st t c -> q_namespace q <> "" -> vt_namespaces c !! n = None ->
  exists s, tmet st [if can then KCan o now q roles else KAuthorize o now q; KAddNamespace t n b] s /\ vrace s (GNames t) 1 0.
Proof. exact (names_hole st o now q roles name t c n b can). Qed.
Print Assumptions C106_namespace_refuted.
(** … a decision that names no tenant with SetDefaultTenant; and RemovePrincipalRole with AddPrincipalRole. *)
Theorem C106_default_refuted (st : vstate) (o : oracle) (now : Z) (q : request) (roles : list string) (id : string) (can : bool) :
  q_tenant q = "" -> vrace (tstart st [if can then KCan o now q roles else KAuthorize o now q; KSetDefault id]) GDefault 1 0.
Proof. exact (race_default st o now q roles id can). Qed.
Print Assumptions C106_default_refuted.
Theorem C106_remove_refuted (st : vstate) (target : prole) (l : nat) (ls : list nat) :
  is_Some (w_prs st !! l) -> exists s, tmet st [KRemovePR target; KAddPR (l :: ls)] s /\ vrace s GAssign 1 0.
Proof. exact (race_remove st target l ls). Qed.
Print Assumptions C106_remove_refuted.

(** Nobody waits for good: while a call has not returned, some call can go on (or the program has crashed) … *)
Theorem C106_no_deadlock (st : vstate) (calls : list kcall) (s : ksh * list (code kout)) (i : nat) (k : code kout) :
  tmet st calls s -> s.2 !! i = Some k -> (forall r, k <> KRet r) -> crashed s \/ exists j, can_move s j.
Proof. exact (progress st calls s i k). Qed.
Print Assumptions C106_no_deadlock.
Example C106_no_deadlock_ex : exists s k, tmet (vops_state w106) [KAddTenant id_oracle 1; KGetTenant "acme"] s /\ s.2 !! 1 = Some k /\
  (forall r, k <> KRet r) /\ ~ can_move s 1.
Proof. exact c106_waits_ex. Qed.
(** … and no execution goes on for ever. *)
Theorem C106_ends (st : vstate) (calls : list kcall) : ~ runs_for_ever st calls.
Proof. exact (not_for_ever st calls). Qed.
Print Assumptions C106_ends.

(** C107: what several goroutines are told at once is what they are told one after the other?  It is not, when Authorize and Can are
    mixed: both say no here, whereas the first of the two to be asked alone says yes. *)
Theorem C107_at_once_refuted : exists st calls, vreachable st /\ Forall question calls /\ ~ fits_some_order st calls /\
  exists s, tmet st calls s /\ returned s 0 (Ok (TBool false)) /\ returned s 1 (Ok (TBool false)).
Proof. exact c107_refuted. Qed.
Print Assumptions C107_at_once_refuted.
(** When no role is resolved for the first time by both kinds, every call is told what it would be told alone … *)
Theorem C107_alone_partial (st : vstate) (calls : list kcall) (s : ksh * list (code kout)) (i : nat) (c : kcall) (r : res kout) :
  Forall question calls -> unmixed st calls -> tmet st calls s -> calls !! i = Some c -> returned s i r -> r = answer_of st c.
Proof. exact (fun Hq Hu => answers_alone st calls Hq Hu s i c r). Qed.
Print Assumptions C107_alone_partial.
(** … and so the calls are told what they are told one after the other. *)
Theorem C107_at_once_partial (st : vstate) (calls : list kcall) : Forall question calls -> unmixed st calls -> fits_some_order st calls.
Proof. exact (asking_fits st calls). Qed.
Print Assumptions C107_at_once_partial.
(** Asking changes nothing but what the role graph remembers, and it forgets nothing. *)
Theorem C107_unchanged_partial (st : vstate) (calls : list kcall) (s : ksh * list (code kout)) : Forall question calls -> unmixed st calls -> tmet st calls s ->
  exists d, k_st s.1 = vw_dag st d /\ d_roles d = d_roles (w_dag st) /\ d_edges d = d_edges (w_dag st) /\
    (forall r v, d_resolved (w_dag st) !! r = Some v -> d_resolved d !! r = Some v).
Proof. exact (fun Hq Hu => nothing_changes st calls Hq Hu s). Qed.
Print Assumptions C107_unchanged_partial.
Example C107_ex : vreachable (vops_state w107_two) /\ Forall question w107_asks /\ unmixed (vops_state w107_two) w107_asks /\
  exists s, tmet (vops_state w107_two) w107_asks s /\ returned s 0 (Ok (TBool true)) /\ returned s 1 (Ok (TBool false)) /\
    returned s 2 (Ok (TBool true)) /\ returned s 3 (Ok (TGot (Some 0))) /\ returned s 4 (Ok (TGot None)).
Proof. exact c107_ex. Qed.
(** The steps of a call, made one after the other while nobody else does anything, are the call of the sequential model. *)
Theorem C107_sequential (st : vstate) (c : kcall) : exec st (code_of st c) = seq_call st c.
Proof. exact (exec_call st c). Qed.
Print Assumptions C107_sequential.

(** C108: a call does not crash because others run?  It does: ClearExpiry between the two looks IsExpired takes. *)
Theorem C108_no_crash_refuted : exists st o now q l s, vreachable st /\ ~ broken st /\ handed st (KClearExpiry l) /\
  (exists st', v2_authorize o st now q = Ok (st', true)) /\ tmet st [KAuthorize o now q; KClearExpiry l] s /\ returned s 0 Panic.
Proof. exact c108_refuted. Qed.
Print Assumptions C108_no_crash_refuted.
(** For every state: any assignment with an expiry, of the principal in the tenant asked about *)
Theorem C108_cleared_refuted (st : vstate) (o : oracle) (now : Z) (q : request) (roles : list string) (name n : string) (t l : nat) (c : vtenant) (pr : prole) (e : Z) (can : bool) :
  vreachable st -> ~ broken st -> names st q name -> w_reg st !! name = Some t ->
  tenant_at st t c -> uses_namespace c q n -> Some l ∈ w_assign st -> w_prs st !! l = Some pr -> pr_principal pr = q_principal q -> pr_tenant pr = name ->
  pr_expiry pr = Some e -> exists s, tmet st [if can then KCan o now q roles else KAuthorize o now q; KClearExpiry l] s /\ returned s 0 Panic.
Proof. exact (cleared_hole st o now q roles name n t l c pr e can). Qed.
Print Assumptions C108_cleared_refuted.
(** Nothing else crashes a call: without ClearExpiry and RemovePrincipalRole (C36, C40) among them, none does, and only an Authorize can
    fail to return (in the matcher). *)
Theorem C108_no_crash_partial (st : vstate) (calls : list kcall) (s : ksh * list (code kout)) (i : nat) (c : kcall) (r : res kout) :
  vreachable st -> ~ broken st -> Forall (handed st) calls -> Forall no_nil calls -> tmet st calls s -> calls !! i = Some c -> returned s i r ->
  r <> Panic /\ (r = Hang -> exists o now q, c = KAuthorize o now q).
Proof. exact (no_crash_cases st calls s i c r). Qed.
Print Assumptions C108_no_crash_partial.
Example C108_ex : vreachable (vops_state w108) /\ ~ broken (vops_state w108) /\ Forall (handed (vops_state w108)) w108_calls /\ Forall no_nil w108_calls /\
  exists s, tmet (vops_state w108) w108_calls s /\ returned s 0 (Ok (TBool true)) /\ returned s 1 (Ok (TBool true)) /\ returned s 4 (Ok TUnit).
Proof. exact c108_ex. Qed.
