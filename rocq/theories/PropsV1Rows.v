(** Property C121: v1 assignments made while other goroutines ask or assign. *)
From Verif Require Import V1RowsAdd V1RowsEx V1RowsSpec.

(** C121.  They can not: the assignments are a plain Go map without a lock.  An assignment to eve ends the whole program if somebody asks about ann meanwhile. *)
Theorem C121_crash_refuted : exists st M o p q r t, ureachable st /\ j_met st [JAuthorize o p q; JAddRole "eve" r t None None []] M /\ j_dead M = true /\ p <> "eve".
Proof. exact c121_crash. Qed.
Print Assumptions C121_crash_refuted.
(** Exactly when a question and an assignment can end the program: the question looks at the assignments, the assignment is new, and it is not the first. *)
Theorem C121_crash (st : ustate) (c : jcall) (p r : string) (t : nat) (ns : option nat) (s : option string) (m : list bool) (h : string) :
  j_asks c -> j_row st p r t ns s m h -> (exists M, j_met st [c; JAddRole p r t ns s m] M /\ j_dead M = true) <-> j_reads st c /\ h ∉ u_rows st /\ u_rows st <> ∅.
Proof. exact (question_crash_iff st c p r t ns s m h). Qed.
Print Assumptions C121_crash.
Example C121_crash_ex : exists st c p r t ns s m h, ureachable st /\ j_asks c /\ j_row st p r t ns s m h /\ j_reads st c /\ h ∉ u_rows st /\ u_rows st <> ∅.
Proof. exact crash_ex. Qed.
Example C121_crash_ex_old : exists st c p r t ns s m h, ureachable st /\ j_asks c /\ j_reads st c /\ j_row st p r t ns s m h /\ h ∈ u_rows st.
Proof. exact crash_ex_old. Qed.
(** Two assignments can unless both are there already. *)
Theorem C121_crash_writers (st : ustate) (p r : string) (t : nat) (ns : option nat) (s : option string) (m : list bool) (h p' r' : string) (t' : nat) (ns' : option nat) (s' : option string) (m' : list bool) (h' : string) :
  j_row st p r t ns s m h -> j_row st p' r' t' ns' s' m' h' -> (exists M, j_met st [JAddRole p r t ns s m; JAddRole p' r' t' ns' s' m'] M /\ j_dead M = true) <-> h ∉ u_rows st \/ h' ∉ u_rows st.
Proof. exact (writers_crash_iff st p r t ns s m h p' r' t' ns' s' m' h'). Qed.
Print Assumptions C121_crash_writers.
Example C121_crash_writers_ex : exists st p r t ns s m h p' r' t' ns' s' m' h', ureachable st /\ j_row st p r t ns s m h /\ j_row st p' r' t' ns' s' m' h' /\ h ∉ u_rows st /\ h' ∉ u_rows st /\ p <> p'.
Proof. exact writers_ex. Qed.
(** Whatever calls run: if the program ends, one of them adds an assignment that was not there, about the principal and in the tenant it is for, and another one looks at the assignments or assigns. *)
Theorem C121_crash_only (st : ustate) (cs : list jcall) (M : jmachine) : j_met st cs M -> j_dead M = true ->
  exists i j ci cj a, i <> j /\ cs !! i = Some ci /\ cs !! j = Some cj /\ j_about st ci (tp_principal a) (tp_tenant a) /\ row_string a ∉ u_rows st /\ (j_asks cj -> j_reads st cj).
Proof. exact (crash_exact_who st cs M). Qed.
Print Assumptions C121_crash_only.

(** Decisions are not taken at one moment either: a request that is granted at every moment while it runs is refused, … *)
Theorem C121_moment_refuted : exists st cs xs M o p q, ureachable st /\ jrun (jstart st cs) xs = Some M /\ cs !! 0 = Some (JAuthorize o p q) /\ j_act_only q /\ j_dead M = false /\ j_returned M 0 (Ok (JBool false))
  /\ forall n M', jrun (jstart st cs) (take n xs) = Some M' -> u_authorize o (uw_rows st (j_rows M')) p q = Ok true.
Proof. exact c121_moment. Qed.
Print Assumptions C121_moment_refuted.
(** … and a list of somebody's roles is returned that was right at no moment. *)
Theorem C121_snapshot_refuted : exists st cs xs M c r, ureachable st /\ jrun (jstart st cs) xs = Some M /\ cs !! 0 = Some c /\ j_lists c /\ j_dead M = false /\ j_returned M 0 r
  /\ forall n M', jrun (jstart st cs) (take n xs) = Some M' -> j_answer (uw_rows st (j_rows M')) c <> r.
Proof. exact c121_snapshot. Qed.
Print Assumptions C121_snapshot_refuted.

(** What holds.  A call alone does what it does in the sequential model. *)
Theorem C121_alone (st : ustate) (c : jcall) (M : jmachine) : j_met st [c] M -> j_dead M = false /\ forall r, j_returned M 0 r -> (let! a := r in Ok (uw_rows st (j_rows M), a)) = j_seq st c.
Proof. exact (lone_right st c M). Qed.
Print Assumptions C121_alone.
Example C121_alone_ex : exists st M, ureachable st /\ j_met st [JAddPrincipal 0 "eve" ["temp"; "boss"]] M /\ j_returned M 0 (Ok JDone).
Proof. exact alone_ex. Qed.
(** Any number of questions, and of assignments that are there already, run safely at the same time, and each answers as if it were alone. *)
Theorem C121_nothing_new (st : ustate) (cs : list jcall) (M : jmachine) : Forall (j_idle st) cs -> j_met st cs M ->
  j_dead M = false /\ j_rows M = u_rows st /\ forall i c r, cs !! i = Some c -> j_returned M i r -> r = j_answer st c.
Proof. exact (idle_right st cs M). Qed.
Print Assumptions C121_nothing_new.
Example C121_nothing_new_ex : exists st, ureachable st /\ Forall (j_idle st) idle_calls /\ exists M, j_met st idle_calls M /\ j_returned M 0 (Ok (JBool true)) /\ j_returned M 2 (Ok JDone).
Proof. exact idle_ex. Qed.
(** No assignment is lost: a call that returned has added at least what it adds when it is alone. *)
Theorem C121_kept (st : ustate) (cs : list jcall) (M : jmachine) (i : nat) (c : jcall) (out : jout) (st' : ustate) (out' : jout) :
  j_met st cs M -> cs !! i = Some c -> j_returned M i (Ok out) -> j_seq st c = Ok (st', out') -> u_rows st' ⊆ j_rows M.
Proof. exact (not_lost st cs M i c out st' out'). Qed.
Print Assumptions C121_kept.
Example C121_kept_ex : exists st M st', ureachable st /\ j_met st place_calls M /\ j_returned M 1 (Ok JDone) /\ j_seq st (JAssignScopes id_oracle 0 "ann" ["web"]) = Ok (st', JDone) /\ u_rows st' <> u_rows st.
Proof. exact kept_ex. Qed.
(** Nothing else is added: every new assignment is about the principal and in the tenant of one of the calls. *)
Theorem C121_nobody_else (st : ustate) (cs : list jcall) (M : jmachine) (h : string) : j_met st cs M -> h ∈ j_rows M ->
  h ∈ u_rows st \/ exists c a, c ∈ cs /\ h = row_string a /\ j_about st c (tp_principal a) (tp_tenant a).
Proof. exact (added_by st cs M h). Qed.
Print Assumptions C121_nobody_else.
(** A request for a place (tenant, namespace, scope) that would have been granted when the calls started is granted; one that is granted would be at the end. *)
Theorem C121_place_partial (st : ustate) (cs : list jcall) (M : jmachine) (i : nat) (o : oracle) (p : string) (q : uopts) (r : res jout) :
  ureachable st -> j_met st cs M -> cs !! i = Some (JAuthorize o p q) -> j_plain q -> j_returned M i r ->
  exists b, r = Ok (JBool b) /\ (u_authorize o st p q = Ok true -> b = true) /\ (b = true -> u_authorize o (uw_rows st (j_rows M)) p q = Ok true).
Proof. exact (place_answer st cs M i o p q r). Qed.
Print Assumptions C121_place_partial.
Example C121_place_ex : exists st M, ureachable st /\ j_met st place_calls M /\ j_plain in_hq /\ j_returned M 0 (Ok (JBool true)) /\ u_authorize id_oracle st "ann" in_hq = Ok false /\ j_returned M 1 (Ok JDone).
Proof. exact place_ex. Qed.
(** A list is right for some assignments that include those at the start and are included in those at the end. *)
Theorem C121_lists_partial (st : ustate) (cs : list jcall) (M : jmachine) (i : nat) (c : jcall) (r : res jout) :
  j_met st cs M -> cs !! i = Some c -> j_lists c -> j_returned M i r -> exists v, u_rows st ⊆ v /\ v ⊆ j_rows M /\ r = j_answer (uw_rows st v) c.
Proof. exact (lists_answer st cs M i c r). Qed.
Print Assumptions C121_lists_partial.
(** Nobody waits for another: unless the program has ended, every call that has not returned can go on. *)
Theorem C121_no_waiting (st : ustate) (cs : list jcall) (M : jmachine) (i : nat) (c : jcode jout) :
  j_met st cs M -> j_dead M = false -> j_codes M !! i = Some c -> (forall r, c <> JRet r) -> exists pick, is_Some (jstep M (i, pick)).
Proof. exact (can_go st cs M i c). Qed.
Print Assumptions C121_no_waiting.
Example C121_no_waiting_ex : exists st cs M i c, ureachable st /\ j_met st cs M /\ j_dead M = false /\ j_codes M !! i = Some c /\ forall r, c <> JRet r.
Proof. exact waiting_ex. Qed.
