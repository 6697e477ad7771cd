(** Concrete concurrent runs. *)
From Verif Require Export PoolCall.

Definition mfinal (x : option (machine * list event)) : machine := match x with Some r => r.1 | None => start [] end.
Definition mevents (x : option (machine * list event)) : list event := match x with Some r => r.2 | None => [] end.
Definition manswer (x : option (machine * list event)) (i : nat) : option bool :=
  r ← x; t ← mc_threads r.1 !! i; th_answer t.
Lemma manswer_ok x i b : manswer x i = Some b -> x = Some (mfinal x, mevents x) /\ answered (mfinal x) i b.
Proof.
  unfold manswer. intros ([M es] & -> & H)%bind_Some. apply bind_Some in H as (t & Ht & Ha).
  split; [done|]. by exists t.
Qed.

(** ann holds clerk, bob holds reader, in the same tenant. *)
Definition w41 : list vop :=
  [VNewRole "reader"; VRoleAdd 0 [("/doc", "GET")]; VNewRole "clerk"; VRoleAdd 1 [("/own", "GET")]; VAddRoles [0; 1];
   VNewTenant "acme" (Some "ns"); VAddTenant 0;
   VNewPR (PRole "ann" "acme" "" "" "clerk" None false); VNewPR (PRole "bob" "acme" "" "" "reader" None false);
   VAddPR [0; 1]].
Definition q_ann_doc : request := Req "ann" "acme" "" "" "/doc" "GET".
Definition q_ann_own : request := Req "ann" "acme" "" "" "/own" "GET".
Definition q_bob_doc : request := Req "bob" "acme" "" "" "/doc" "GET".
(** ann's call up to the Puts, ready to read map 1; then bob's call up to clearing the maps. *)
Definition ann_fills : list cmd :=
  [Move 0 ChFresh; Move 0 ChFresh; Move 0 ChGo; Move 0 ChGo; Move 0 (ChScoped "/own GET"); Move 0 ChGo; Move 0 ChGo; Move 0 ChGo].
Definition bob_clears : list cmd := [Move 1 (ChFree 0); Move 1 (ChFree 0); Move 1 ChGo; Move 1 ChGo].
Definition bob_fills : list cmd := bob_clears ++ [Move 1 (ChScoped "/doc GET")].
Definition bob_ends : list cmd := [Move 1 ChGo; Move 1 ChGo; Move 1 ChGo; Move 1 (ChItem "/doc GET")].
Lemma w41_reach : vreachable (vops_state w41).
Proof. reach_vops w41. Qed.
Lemma w41_distinct : distinct_ids (vops_state w41).
Proof. distinct. Qed.
Lemma w41_sound : ~ broken (vops_state w41).
Proof. unfold broken. apply (bool_decide_unpack _). vm_compute. exact I. Qed.
Lemma w41_jobs cs : Forall2 (jobs_of (vops_state w41)) cs (call_jobs (vops_state w41) <$> cs).
Proof.
  apply Forall2_fmap_r, Forall_Forall2_diag, Forall_forall. intros c _.
  apply call_jobs_ok; [apply vreachable_wf, w41_reach|apply w41_distinct|apply w41_sound].
Qed.
Definition both (q : request) : list call := [CallAuthorize 0 q; CallAuthorize 0 q_bob_doc].
Lemma w41_case q xs i b (P : Prop) :
  manswer (mrun (start (call_jobs (vops_state w41) <$> both q)) xs) i = Some b -> P ->
  exists ths M es, Forall2 (jobs_of (vops_state w41)) (both q) ths /\ mrun (start ths) xs = Some (M, es) /\ P /\ answered M i b.
Proof.
  intros [Hrun Ha]%manswer_ok HP. eexists _, _, _. split; [exact (w41_jobs (both q))|]. split; [exact Hrun|]. by split.
Qed.

Lemma c41_granted_refuted :
  exists st, vreachable st /\ distinct_ids st /\ ~ broken st /\
  exists ths M es, Forall2 (jobs_of st) (both q_ann_doc) ths /\ mrun (start ths) (ann_fills ++ bob_fills ++ [Move 0 (ChItem "/doc GET")]) = Some (M, es) /\ ~ right_answer st (CallAuthorize 0 q_ann_doc) /\ answered M 0 true.
Proof.
  exists (vops_state w41). split; [exact w41_reach|]. split; [exact w41_distinct|]. split; [exact w41_sound|].
  refine (w41_case q_ann_doc _ 0 true _ _ _); [vm_compute; reflexivity|].
  apply (v2_denied id_oracle _ _ _ (vfinal (v2_authorize id_oracle (vops_state w41) 0 q_ann_doc))).
  - apply vreachable_wf, w41_reach.
  - apply w41_distinct.
  - vanswered.
Qed.
Lemma c41_denied_refuted :
  exists st, vreachable st /\ distinct_ids st /\ ~ broken st /\
  exists ths M es, Forall2 (jobs_of st) (both q_ann_own) ths /\ mrun (start ths) (ann_fills ++ bob_clears ++ [Move 0 ChGo; Move 0 ChGo]) = Some (M, es) /\ right_answer st (CallAuthorize 0 q_ann_own) /\ answered M 0 false.
Proof.
  exists (vops_state w41). split; [exact w41_reach|]. split; [exact w41_distinct|]. split; [exact w41_sound|].
  refine (w41_case q_ann_own _ 0 false _ _ _); [vm_compute; reflexivity|].
  apply (v2_granted id_oracle _ _ _ (vfinal (v2_authorize id_oracle (vops_state w41) 0 q_ann_own))).
  - apply vreachable_wf, w41_reach.
  - apply w41_distinct.
  - vanswered.
Qed.

(** An undisturbed overlapping run: bob gets maps of its own. *)
Definition bob_apart : list cmd :=
  [Move 1 ChFresh; Move 1 ChFresh; Move 1 ChGo; Move 1 ChGo; Move 1 (ChScoped "/doc GET")] ++ bob_ends.
Fixpoint closed (i m : nat) (es : list event) : bool :=
  match es with
  | [] => true
  | EEnd k :: es => bool_decide (k = i) || closed i m es
  | EGet _ m' :: es => negb (bool_decide (m' = m)) && closed i m es
  | EReturn _ _ :: es => closed i m es
  end.
Fixpoint all_closed (i : nat) (es : list event) : bool :=
  match es with
  | [] => true
  | EReturn k m :: es => (negb (bool_decide (k = i)) || closed i m es) && all_closed i es
  | _ :: es => all_closed i es
  end.
Lemma closed_end i m es2 k es3 : closed i m (es2 ++ EGet k m :: es3) = true -> EEnd i ∈ es2.
Proof.
  induction es2 as [|e es2 IH]; simpl.
  - by rewrite bool_decide_true.
  - destruct e as [k' m'|k' m'|k'].
    + intros [_ H]%andb_true_iff. right. by apply IH.
    + intros H. right. by apply IH.
    + intros [->%bool_decide_eq_true|H]%orb_true_iff; [left|right; by apply IH].
Qed.
Lemma all_closed_undisturbed i es : all_closed i es = true -> undisturbed i es.
Proof.
  intros H es1 m es2 k es3 ->. induction es1 as [|e es1 IH]; simpl in H.
  - apply andb_true_iff in H as [H _]. rewrite bool_decide_true in H by done. simpl in H. by eapply closed_end.
  - destruct e; [by apply IH|apply andb_true_iff in H as [_ H]; by apply IH|by apply IH].
Qed.
Definition apart : list cmd := ann_fills ++ bob_apart ++ [Move 0 (ChItem "/own GET")].
Definition reuse : list cmd :=
  ann_fills ++ [Move 0 (ChItem "/own GET"); Move 0 ChGo; Move 0 ChGo] ++ bob_fills ++ bob_ends.
Lemma w41_two q xs b0 b1 :
  (let run := mrun (start (call_jobs (vops_state w41) <$> both q)) xs in
   manswer run 0 = Some b0 /\ manswer run 1 = Some b1 /\
   all_closed 0 (mevents run) = true /\ all_closed 1 (mevents run) = true) ->
  exists st ths M es, vreachable st /\ distinct_ids st /\ Forall2 (jobs_of st) (both q) ths /\
    mrun (start ths) xs = Some (M, es) /\ undisturbed 0 es /\ undisturbed 1 es /\
    answered M 0 b0 /\ answered M 1 b1.
Proof.
  intros ([Hrun H0]%manswer_ok & [_ H1]%manswer_ok & U0%all_closed_undisturbed & U1%all_closed_undisturbed).
  eexists (vops_state w41), _, _, _. split; [exact w41_reach|]. split; [exact w41_distinct|].
  split; [exact (w41_jobs (both q))|]. split; [exact Hrun|]. by split.
Qed.
(** Overlapping with maps of one's own, and one after the other with the same maps. *)
Lemma c41_ex :
  (exists st ths M es, vreachable st /\ distinct_ids st /\ Forall2 (jobs_of st) (both q_ann_own) ths /\
     mrun (start ths) apart = Some (M, es) /\ undisturbed 0 es /\ undisturbed 1 es /\
     answered M 0 true /\ answered M 1 true) /\
  (exists st ths M es, vreachable st /\ distinct_ids st /\ Forall2 (jobs_of st) (both q_ann_doc) ths /\
     mrun (start ths) reuse = Some (M, es) /\ undisturbed 0 es /\ undisturbed 1 es /\
     answered M 0 false /\ answered M 1 true).
Proof.
  split.
  - apply (w41_two q_ann_own apart true true). vm_compute. by split.
  - apply (w41_two q_ann_doc reuse false true). vm_compute. by split.
Qed.
