(** Several v1 Authorize calls at the same time: the witnesses for C119. *)
From Verif Require Import V1Ex V1PoolLemmas.

(** ann is a clerk, eve a temp, bob a boss, above the clerks. *)
Definition w119 : list uop :=
  [UNewTenant "hq"; UAddTenant 0; UNewRole "clerk"; UNewRole "temp"; UNewRole "boss"; UAddRole 0; UAddRole 1; UAddRole 2; UTAddRole 0 [0; 1; 2];
   URoleAddPermission 0 "" [Attr "/x" "GET"]; URoleAddPermission 0 "page" [Attr "/x" "GET"]; URoleAddPermission 1 "" []; URoleAddPermission 2 "page" []; URoleAddDescendent 2 [0];
   UAddPrincipal "ann"; UAddPrincipal "eve"; UAddPrincipal "bob"; UTAddPrincipal 0 "ann" ["clerk"]; UTAddPrincipal 0 "eve" ["temp"]; UTAddPrincipal 0 "bob" ["boss"]].
Definition only_act (a : string) : uopts := UOpts ANil ANil ANil ANil (AStr a).
Definition page_act (a : string) : uopts := UOpts (AStr "hq") ANil ANil (AStr "page") (AStr a).
Definition moves (i n : nat) : list (nat * option nat) := replicate n (i, None).
Definition reuse (i : nat) : list (nat * option nat) := [(i, Some 3); (i, Some 2); (i, Some 1); (i, Some 0)].
Definition two (p p' : string) (q : uopts) : list xcall := [(id_oracle, p, q); (id_oracle, p', q)].

Definition xfinal (r : option (xmachine * list xevent)) : xmachine * list xevent := default (XM sl_init [], []) r.
Definition xanswers (r : option (xmachine * list xevent)) : option (list (option (res bool))) :=
  (fun z : xmachine * list xevent => map (fun c => match c with XRet r => Some r | _ => None end) (x_codes z.1)) <$> r.
Lemma answers_met st cs xs a i r : xanswers (xrun (xstart st cs) xs) = Some a -> a !! i = Some (Some r) ->
  xrun (xstart st cs) xs = Some (xfinal (xrun (xstart st cs) xs)) /\ x_answered (xfinal (xrun (xstart st cs) xs)).1 i r.
Proof.
  destruct (xrun (xstart st cs) xs) as [z|]; [|discriminate]. cbn [xanswers fmap option_fmap option_map xfinal default]. intros [= <-] H. split; [reflexivity|]. unfold id. unfold x_answered.
  rewrite list_lookup_fmap in H. destruct (x_codes z.1 !! i) as [c|]; [|discriminate]. destruct c; try discriminate. injection H as ->. reflexivity.
Qed.
Fixpoint und_from (i : nat) (es1 es : list xevent) : bool :=
  match es with
  | [] => true
  | e :: es' => match e with XLook k l => negb (Nat.eqb k i) || bool_decide (last_taker es1 l = Some i) | _ => true end && und_from i (es1 ++ [e]) es'
  end.
Lemma und_by i es : und_from i [] es = true -> x_undisturbed i es.
Proof.
  assert (H : forall es es1, und_from i es1 es = true -> forall e1 l e2, es = e1 ++ XLook i l :: e2 -> last_taker (es1 ++ e1) l = Some i).
  { clear. induction es as [|e es IH]; intros es1 H e1 l e2 E; [destruct e1; discriminate|]. cbn [und_from] in H. apply andb_true_iff in H as [H1 H2]. destruct e1 as [|y e1].
    - injection E as -> ->. rewrite app_nil_r. rewrite Nat.eqb_refl in H1. cbn [negb orb] in H1. apply bool_decide_eq_true in H1. exact H1.
    - injection E as -> ->. change (y :: e1) with ([y] ++ e1). rewrite app_assoc. exact (IH _ H2 _ _ _ eq_refl). }
  intros Hu es1 l es2 E. exact (H es [] Hu es1 l es2 E).
Qed.

Definition s_early : list (nat * option nat) := moves 0 10 ++ reuse 1 ++ moves 1 1 ++ moves 0 1.
Definition s_ids : list (nat * option nat) := moves 0 10 ++ reuse 1 ++ moves 1 1 ++ moves 0 3.
Lemma w119_reach : ureachable (uops_state w119).
Proof. reach_uops w119. Qed.
Lemma c119_wrong xs p p' q a r r' : xanswers (xrun (xstart (uops_state w119) (two p p' q)) xs) = Some a -> a !! 0 = Some (Some r) -> u_authorize id_oracle (uops_state w119) p q = r' ->
  exists st cs M es i o, ureachable st /\ x_met st cs M es /\ cs !! i = Some (o, p, q) /\ x_answered M i r /\ u_authorize o st p q = r'.
Proof.
  intros Ha Hi Hr. destruct (answers_met _ _ _ _ _ _ Ha Hi) as [H1 H2]. exists (uops_state w119), (two p p' q), (xfinal (xrun (xstart (uops_state w119) (two p p' q)) xs)).1, (xfinal (xrun (xstart (uops_state w119) (two p p' q)) xs)).2, 0, id_oracle.
  split; [exact w119_reach|]. split; [exists xs; rewrite <- surjective_pairing; exact H1|]. split; [reflexivity|]. split; [exact H2|exact Hr].
Qed.
Lemma c119_granted : exists st cs M es i o p q, ureachable st /\ x_met st cs M es /\ cs !! i = Some (o, p, q) /\ x_answered M i (Ok true) /\ u_authorize o st p q = Ok false
  /\ q = UOpts ANil ANil ANil ANil (AStr "/x GET").
Proof.
  destruct (c119_wrong s_early "eve" "ann" (only_act "/x GET") [Some (Ok true); None] (Ok true) (Ok false)) as (st & cs & M & es & i & o & H1 & H2 & H3 & H4 & H5); [vm_compute; reflexivity..|].
  exists st, cs, M, es, i, o, "eve", (only_act "/x GET"). split; [exact H1|]. split; [exact H2|]. split; [exact H3|]. split; [exact H4|]. split; [exact H5|reflexivity].
Qed.
Lemma c119_denied : exists st cs M es i o p q, ureachable st /\ x_met st cs M es /\ cs !! i = Some (o, p, q) /\ x_answered M i (Ok false) /\ u_authorize o st p q = Ok true.
Proof.
  destruct (c119_wrong s_early "ann" "eve" (only_act "/x GET") [Some (Ok false); None] (Ok false) (Ok true)) as (st & cs & M & es & i & o & H1 & H2 & H3 & H4 & H5); [vm_compute; reflexivity..|].
  exists st, cs, M, es, i, o, "ann", (only_act "/x GET"). split; [exact H1|]. split; [exact H2|]. split; [exact H3|]. split; [exact H4|exact H5].
Qed.
Lemma c119_below : exists st cs M es i o p q, ureachable st /\ x_met st cs M es /\ cs !! i = Some (o, p, q) /\ x_answered M i (Ok true) /\ u_authorize o st p q = Ok false
  /\ q = UOpts (AStr "hq") ANil ANil (AStr "page") (AStr "/x GET").
Proof.
  destruct (c119_wrong s_ids "bob" "ann" (page_act "/x GET") [Some (Ok true); None] (Ok true) (Ok false)) as (st & cs & M & es & i & o & H1 & H2 & H3 & H4 & H5); [vm_compute; reflexivity..|].
  exists st, cs, M, es, i, o, "bob", (page_act "/x GET"). split; [exact H1|]. split; [exact H2|]. split; [exact H3|]. split; [exact H4|]. split; [exact H5|reflexivity].
Qed.
Lemma look_by k es : existsb (fun e => match e with XLook j _ => Nat.eqb j k | _ => false end) es = true -> exists l, XLook k l ∈ es.
Proof.
  intros Hk. apply existsb_exists in Hk as (e & He & Hk). destruct e as [j l|j l|j l]; [discriminate Hk|discriminate Hk|]. apply Nat.eqb_eq in Hk as ->. exists l. apply elem_of_list_In. exact He.
Qed.
(** Two calls that take turns, one taking arrays of its own: nobody is disturbed. *)
Definition s_mixed : list (nat * option nat) := flat_map (fun _ => [(0, None); (1, None)]) (seq 0 11).
Definition st119 : ustate := uops_state w119.
Definition end_mixed : xmachine * list xevent := xfinal (xrun (xstart st119 (two "ann" "eve" (only_act "/x GET"))) s_mixed).
Lemma c119_ex : ureachable st119 /\ xrun (xstart st119 (two "ann" "eve" (only_act "/x GET"))) s_mixed = Some end_mixed
  /\ x_undisturbed 0 end_mixed.2 /\ x_undisturbed 1 end_mixed.2 /\ x_answered end_mixed.1 0 (Ok true) /\ x_answered end_mixed.1 1 (Ok false)
  /\ (exists l, XLook 0 l ∈ end_mixed.2) /\ exists l, XLook 1 l ∈ end_mixed.2.
Proof.
  assert (A : xanswers (xrun (xstart st119 (two "ann" "eve" (only_act "/x GET"))) s_mixed) = Some [Some (Ok true); Some (Ok false)]) by (vm_compute; reflexivity).
  destruct (answers_met _ _ _ _ 0 _ A eq_refl) as [H1 H2]. destruct (answers_met _ _ _ _ 1 _ A eq_refl) as [_ H3].
  split; [exact w119_reach|]. split; [exact H1|]. split; [apply und_by; vm_compute; reflexivity|]. split; [apply und_by; vm_compute; reflexivity|]. split; [exact H2|]. split; [exact H3|].
  split; apply look_by; vm_compute; reflexivity.
Qed.
(** One after the other, in the same arrays *)
Definition s_turns : list (nat * option nat) := moves 0 11 ++ reuse 1 ++ moves 1 7.
Definition end_turns : xmachine * list xevent := xfinal (xrun (xstart st119 (two "ann" "eve" (only_act "/x GET"))) s_turns).
Lemma c119_turns_ex : xrun (xstart st119 (two "ann" "eve" (only_act "/x GET"))) s_turns = Some end_turns /\ x_in_turn 0 s_turns /\ x_in_turn 1 s_turns
  /\ x_answered end_turns.1 0 (Ok true) /\ x_answered end_turns.1 1 (Ok false)
  /\ exists es1 es2 es3, end_turns.2 = es1 ++ XTake 0 3 :: es2 ++ XTake 1 3 :: es3 /\ (forall j, XTake j 3 ∉ es2) /\ XBack 0 3 ∈ es2.
Proof.
  assert (A : xanswers (xrun (xstart st119 (two "ann" "eve" (only_act "/x GET"))) s_turns) = Some [Some (Ok true); Some (Ok false)]) by (vm_compute; reflexivity).
  destruct (answers_met _ _ _ _ 0 _ A eq_refl) as [H1 H2]. destruct (answers_met _ _ _ _ 1 _ A eq_refl) as [_ H3].
  split; [exact H1|]. split; [|split; [|split; [exact H2|split; [exact H3|]]]].
  - exists [], (moves 0 11), (reuse 1 ++ moves 1 7). split; [reflexivity|]. split.
    + intros x [Hx|Hx]; [destruct (not_elem_of_nil _ Hx)|]. assert (F : Forall (fun x : nat * option nat => x.1 <> 0) (reuse 1 ++ moves 1 7)) by (repeat constructor; discriminate). rewrite Forall_forall in F. exact (F x Hx).
    + intros x Hx. assert (F : Forall (fun x : nat * option nat => x.1 = 0) (moves 0 11)) by (repeat constructor). rewrite Forall_forall in F. exact (F x Hx).
  - exists (moves 0 11), (reuse 1 ++ moves 1 7), []. rewrite app_nil_r. split; [reflexivity|]. split.
    + intros x [Hx|Hx]; [|destruct (not_elem_of_nil _ Hx)]. assert (F : Forall (fun x : nat * option nat => x.1 <> 1) (moves 0 11)) by (repeat constructor; discriminate). rewrite Forall_forall in F. exact (F x Hx).
    + intros x Hx. assert (F : Forall (fun x : nat * option nat => x.1 = 1) (reuse 1 ++ moves 1 7)) by (repeat constructor). rewrite Forall_forall in F. exact (F x Hx).
  - exists [XTake 0 0; XTake 0 1; XTake 0 2], [XBack 0 0; XBack 0 1; XBack 0 2; XBack 0 3; XLook 0 3; XTake 1 0; XTake 1 1; XTake 1 2], [XBack 1 0; XBack 1 1; XBack 1 2; XBack 1 3; XLook 1 3].
    split; [vm_compute; reflexivity|]. split.
    + intros j Hj. repeat (apply elem_of_cons in Hj as [Hj|Hj]; [discriminate|]). destruct (not_elem_of_nil _ Hj).
    + do 3 right. left.
Qed.
