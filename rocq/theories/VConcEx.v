(** Concrete executions: witnesses and examples. *)
From Verif Require Export VConcSpec.
From Verif Require Import V2Ex VConcHoles.

(** Which goroutine has returned what after the schedule *)
Definition touts (s : ksh * list (code kout)) : list (option (res kout)) :=
  (fun c => match c with KRet r => Some r | _ => None end) <$> s.2.
Definition after (st : vstate) (calls : list kcall) (sched : list nat) : option (list (option (res kout))) :=
  touts <$> trun (tstart st calls) sched.
Lemma after_met st calls sched l : after st calls sched = Some l -> exists s, tmet st calls s /\ touts s = l.
Proof.
  unfold after. destruct (trun (tstart st calls) sched) as [s|] eqn:Hs; [|discriminate]. intros [= <-]. exists s. split; [by exists sched|reflexivity].
Qed.
Lemma touts_returned s i r : touts s !! i = Some (Some r) -> returned s i r.
Proof.
  unfold touts, returned. rewrite list_lookup_fmap. destruct (s.2 !! i) as [[]|]; cbn; try discriminate. by intros [= ->].
Qed.

(** Two roles, both given to ann: "a" with the child role "c", "b" with a permission *)
Definition w107 : list vop :=
  [VNewRole "a"; VNewRole "b"; VNewRole "c"; VRoleAdd 1 [("/doc", "GET")]; VAddRoles [0; 1; 2]; VAddChildRole "a" ["c"];
   VNewTenant "acme" (Some "ns"); VAddTenant 0;
   VNewPR (PRole "ann" "acme" "" "" "a" None false); VNewPR (PRole "ann" "acme" "" "" "b" None false); VAddPR [0; 1]].
Definition w107_calls : list kcall := [KAuthorize id_oracle 0 q_doc; KCan id_oracle 0 q_doc ["c"]].
Lemma in_order_first calls st i order l : in_order calls st (i :: order) l ->
  exists c st1 out, calls !! i = Some c /\ seq_call st c = Ok (st1, out) /\ (i, out) ∈ l.
Proof. intros H. inversion H; subst. eexists _, _, _. split; [eassumption|]. split; [eassumption|]. left. Qed.
Lemma w107_first i c : w107_calls !! i = Some c -> answer_of (vops_state w107) c = Ok (TBool true).
Proof. destruct i as [|[|]]; intros [= <-]; vm_compute; reflexivity. Qed.
Lemma c107_refuted : exists st calls, vreachable st /\ Forall question calls /\ ~ fits_some_order st calls /\
  exists s, tmet st calls s /\ returned s 0 (Ok (TBool false)) /\ returned s 1 (Ok (TBool false)).
Proof.
  exists (vops_state w107), w107_calls.
  destruct (after_met (vops_state w107) w107_calls (replicate 8 0 ++ replicate 11 1 ++ replicate 3 0)
    [Some (Ok (TBool false)); Some (Ok (TBool false))]) as (s & Hm & Hs); [vm_compute; reflexivity|].
  assert (H0 : returned s 0 (Ok (TBool false))) by (apply touts_returned; rewrite Hs; reflexivity).
  assert (H1 : returned s 1 (Ok (TBool false))) by (apply touts_returned; rewrite Hs; reflexivity).
  split; [reach_vops w107|]. split; [repeat apply Forall_cons_2; try apply Forall_nil_2; exact I|]. split; [|exists s; auto].
  intros Hf. destruct (Hf s [TBool false; TBool false] Hm) as (order & l & Hp & Ho & Hl).
  - intros [|[|]] out; intros [= <-]; assumption.
  - reflexivity.
  - destruct order as [|i order]; [apply Permutation_nil in Hp; discriminate|].
    destruct (in_order_first _ _ _ _ _ Ho) as (c & st1 & out & Hi & Hc & Hil).
    pose proof (w107_first i c Hi) as Ha. unfold answer_of in Ha. rewrite Hc in Ha. cbn in Ha. injection Ha as ->.
    apply Hl in Hil. destruct i as [|[|]]; discriminate.
Qed.

(** Two principals with a role each *)
Definition w107_two : list vop :=
  w_base ++ [VNewRole "lead"; VAddRoles [1]; VNewPR (PRole "bob" "acme" "" "" "lead" None false); VAddPR [1]].
Definition w107_asks : list kcall :=
  [KAuthorize id_oracle 0 q_doc; KAuthorize rev_oracle 0 q_new; KCan id_oracle 0 (Req "bob" "" "" "" "" "") ["lead"]; KGetTenant "acme"; KGetDefault].
Lemma w107_rows pr : assigned (vops_state w107_two) pr ->
  pr = PRole "ann" "acme" "" "" "reader" None false \/ pr = PRole "bob" "acme" "" "" "lead" None false.
Proof.
  intros (l & Hl & Hpr).
  assert (Hp : w_prs (vops_state w107_two) = [PRole "ann" "acme" "" "" "reader" None false; PRole "bob" "acme" "" "" "lead" None false]) by (vm_compute; reflexivity).
  rewrite Hp in Hpr. clear Hl Hp. destruct l as [|[|l]]; cbn in Hpr; [left|right|discriminate]; injection Hpr as <-; reflexivity.
Qed.
Lemma w107_unmixed : unmixed (vops_state w107_two) w107_asks.
Proof.
  intros r c c' Hc Hc' H H'. exfalso.
  assert (Hr : r = "reader").
  { unfold w107_asks in Hc. repeat (apply elem_of_cons in Hc as [->|Hc]); try (by apply elem_of_nil in Hc); cbn [may_need] in H; try contradiction;
      destruct H as (pr & Hpr & Hu & <-); destruct (w107_rows pr Hpr) as [->| ->]; cbn in Hu |- *; [reflexivity|discriminate|reflexivity|discriminate]. }
  assert (Hr' : r = "lead").
  { unfold w107_asks in Hc'. repeat (apply elem_of_cons in Hc' as [->|Hc']); try (by apply elem_of_nil in Hc'); cbn [may_need] in H'; try contradiction;
      destruct H' as (pr & Hpr & Hu & <-); destruct (w107_rows pr Hpr) as [->| ->]; cbn in Hu |- *; [discriminate|reflexivity]. }
  congruence.
Qed.
(** The calls take turns, step by step, until all have returned. *)
Fixpoint turns (fuel : nat) (i : nat) (s : ksh * list (code kout)) : list nat :=
  match fuel with
  | 0 => []
  | S fuel' => match tstep s i with
               | Some s' => i :: turns fuel' (if Nat.eqb (S i) (length s.2) then 0 else S i) s'
               | None => turns fuel' (if Nat.eqb (S i) (length s.2) then 0 else S i) s
               end
  end.
Lemma c107_ex : vreachable (vops_state w107_two) /\ Forall question w107_asks /\ unmixed (vops_state w107_two) w107_asks /\
  exists s, tmet (vops_state w107_two) w107_asks s /\ returned s 0 (Ok (TBool true)) /\ returned s 1 (Ok (TBool false)) /\
    returned s 2 (Ok (TBool true)) /\ returned s 3 (Ok (TGot (Some 0))) /\ returned s 4 (Ok (TGot None)).
Proof.
  split; [reach_vops w107_two|]. split; [repeat apply Forall_cons_2; try apply Forall_nil_2; exact I|]. split; [exact w107_unmixed|].
  destruct (after_met (vops_state w107_two) w107_asks (turns 200 0 (tstart (vops_state w107_two) w107_asks))
    [Some (Ok (TBool true)); Some (Ok (TBool false)); Some (Ok (TBool true)); Some (Ok (TGot (Some 0))); Some (Ok (TGot None))]) as (s & Hm & Hs);
    [vm_compute; reflexivity|].
  exists s. split; [exact Hm|]. split_and!; apply touts_returned; rewrite Hs; reflexivity.
Qed.

(** ** C106 *)
Definition w106 : list vop := w_base ++ [VNewTenant "beta" None].
Lemma c106_refuted : exists st calls s x, vreachable st /\ ~ broken st /\ Forall (handed st) calls /\ tmet st calls s /\ vrace s x 1 0.
Proof.
  destruct (race_reg (vops_state w106) id_oracle 0 q_doc [] id_oracle 1 false) as (s & Hm & Hr).
  - discriminate.
  - apply (bool_decide_unpack _). vm_compute. exact I.
  - eexists _, _, s, GReg. split; [reach_vops w106|]. split; [|split; [|split; [exact Hm|exact Hr]]].
    + unfold broken. apply (bool_decide_unpack _). vm_compute. exact I.
    + repeat apply Forall_cons_2; try apply Forall_nil_2; [exact I|]. apply (bool_decide_unpack _). vm_compute. exact I.
Qed.
Definition w106_calls : list kcall :=
  [KAddTenant id_oracle 1; KGetTenant "acme"; KAddPR [0]; KAddNamespace 0 "x" false; KAddScopes 0 "ns" ["s"; "t"]; KAddChildren 0 [1]; KGetTenant "beta"].
Lemma c106_ex : vreachable (vops_state w106) /\ Forall takes_locks w106_calls /\
  (forall o t cs, KAddTenant o t ∈ w106_calls -> KAddChildren t cs ∉ w106_calls) /\
  exists s, tmet (vops_state w106) w106_calls s /\ returned s 0 (Ok TUnit) /\ returned s 1 (Ok (TGot (Some 0))) /\ returned s 2 (Ok TUnit) /\
    returned s 3 (Ok TUnit) /\ returned s 4 (Ok (TErr None)) /\ returned s 5 (Ok TUnit) /\ returned s 6 (Ok (TGot (Some 1))).
Proof.
  split; [reach_vops w106|]. split; [repeat apply Forall_cons_2; try apply Forall_nil_2; exact I|]. split.
  - intros o t cs H H'. unfold w106_calls in *. repeat (apply elem_of_cons in H as [H|H]; try discriminate); [|by apply elem_of_nil in H].
    injection H as -> ->. repeat (apply elem_of_cons in H' as [H'|H']; try discriminate). by apply elem_of_nil in H'.
  - destruct (after_met (vops_state w106) w106_calls (turns 100 0 (tstart (vops_state w106) w106_calls))
      [Some (Ok TUnit); Some (Ok (TGot (Some 0))); Some (Ok TUnit); Some (Ok TUnit); Some (Ok (TErr None)); Some (Ok TUnit); Some (Ok (TGot (Some 1)))]) as (s & Hm & Hs);
      [vm_compute; reflexivity|].
    exists s. split; [exact Hm|]. split_and!; apply touts_returned; rewrite Hs; reflexivity.
Qed.
(** The second waits for the first. *)
Lemma c106_waits_ex : exists s k, tmet (vops_state w106) [KAddTenant id_oracle 1; KGetTenant "acme"] s /\ s.2 !! 1 = Some k /\ (forall r, k <> KRet r) /\ ~ can_move s 1.
Proof.
  destruct (trun (tstart (vops_state w106) [KAddTenant id_oracle 1; KGetTenant "acme"]) [0]) as [s|] eqn:Hs; [|vm_compute in Hs; discriminate].
  exists s, (k_get_tenant "acme"). split; [by exists [0]|].
  assert (Ht : exists c, w_tenants (vops_state w106) !! 1 = Some c) by (eexists; vm_compute; reflexivity). destruct Ht as [c Hc].
  revert Hs Hc. generalize (vops_state w106) as st. intros st Hs Hc. cbn [trun] in Hs. unfold tstart, tstep in Hs.
  cbn [fmap list_fmap fst snd lookup list_lookup mbind option_bind code_of] in Hs. unfold k_add_tenant in Hs. rewrite Hc in Hs.
  cbn in Hs. injection Hs as <-. split; [reflexivity|]. split; [discriminate|]. intros [s' H]. discriminate.
Qed.

(** ** C108 *)
Definition w108 : list vop := w_base ++ [VSetExpiry 0 0 100; VNewTenant "beta" None].
Definition w108_calls : list kcall :=
  [KAuthorize id_oracle 0 q_doc; KCan rev_oracle 0 q_doc ["reader"]; KAddPR [0]; KSetExpiry 0 0 5; KAddTenant id_oracle 1; KSetDefault "beta"; KAddNamespace 0 "x" true].
Lemma w108_sound : ~ broken (vops_state w108).
Proof. unfold broken. apply (bool_decide_unpack _). vm_compute. exact I. Qed.
Lemma c108_refuted : exists st o now q l s, vreachable st /\ ~ broken st /\ handed st (KClearExpiry l) /\
  (exists st', v2_authorize o st now q = Ok (st', true)) /\ tmet st [KAuthorize o now q; KClearExpiry l] s /\ returned s 0 Panic.
Proof.
  destruct (after_met (vops_state w108) [KAuthorize id_oracle 0 q_doc; KClearExpiry 0] (replicate 7 0 ++ [1; 0])
    [Some Panic; Some (Ok TUnit)]) as (s & Hm & Hs); [vm_compute; reflexivity|].
  exists (vops_state w108), id_oracle, 0%Z, q_doc, 0, s. split; [reach_vops w108|]. split; [exact w108_sound|].
  split; [apply (bool_decide_unpack _); vm_compute; exact I|]. split; [eexists; vanswered|]. split; [exact Hm|].
  apply touts_returned. rewrite Hs. reflexivity.
Qed.
Lemma c108_ex : vreachable (vops_state w108) /\ ~ broken (vops_state w108) /\ Forall (handed (vops_state w108)) w108_calls /\ Forall no_nil w108_calls /\
  exists s, tmet (vops_state w108) w108_calls s /\ returned s 0 (Ok (TBool true)) /\ returned s 1 (Ok (TBool true)) /\ returned s 4 (Ok TUnit).
Proof.
  split; [reach_vops w108|]. split; [exact w108_sound|]. split; [|split].
  - repeat apply Forall_cons_2; try apply Forall_nil_2; try exact I; cbn [handed]; try (apply (bool_decide_unpack _); vm_compute; exact I).
    intros l Hl. apply elem_of_list_singleton in Hl as ->. apply (bool_decide_unpack _). vm_compute. exact I.
  - repeat apply Forall_cons_2; try apply Forall_nil_2; exact I.
  - destruct (after_met (vops_state w108) w108_calls (turns 200 0 (tstart (vops_state w108) w108_calls))
      [Some (Ok (TBool true)); Some (Ok (TBool true)); Some (Ok TUnit); Some (Ok (TErr None)); Some (Ok TUnit); Some (Ok TUnit); Some (Ok TUnit)]) as (s & Hm & Hs);
      [vm_compute; reflexivity|].
    exists s. split; [exact Hm|]. split_and!; apply touts_returned; rewrite Hs; reflexivity.
Qed.
