(** Concrete cases for taking things back in package v2. *)
From Verif Require Export V2ShrinkProofs V2GrowEx.
From Verif Require Import EditEx.
Local Open Scope string_scope.

(** "ann" may read "/doc" without a scope and has another assignment for the scope "s". *)
Definition w129 : list vop := w127_full ++ [VAddPR [1]].
Definition of_writer : prole := PRole "ann" "acme" "s" "" "" None false.
Lemma asked_gives (st : vstate) q x : vanswer (v2_authorize id_oracle st 0 q) = Some false ->
  vanswer (rbind (vstep id_oracle (vfinal (v2_authorize id_oracle st 0 q)) x) (fun r => v2_authorize id_oracle r.1 0 q)) = Some true ->
  exists s st' y s', v2_authorize id_oracle st 0 q = Ok (s, false) /\ vstep id_oracle s x = Ok (st', y) /\ v2_authorize id_oracle st' 0 q = Ok (s', true).
Proof.
  intros H1 H2. apply vanswer_ok in H1. set (s := vfinal (v2_authorize id_oracle st 0 q)) in *.
  destruct (vstep id_oracle s x) as [[st' y]| |] eqn:E; [|discriminate H2|discriminate H2]. cbn [rbind fst] in H2. apply vanswer_ok in H2.
  exists s, st', y. eauto.
Qed.
Lemma removed_gives (st : vstate) q x : vanswer (v2_authorize id_oracle st 0 q) = Some false ->
  vanswer (rbind (vstep id_oracle st x) (fun r => v2_authorize id_oracle r.1 0 q)) = Some true ->
  exists s st' y s', v2_authorize id_oracle st 0 q = Ok (s, false) /\ vstep id_oracle st x = Ok (st', y) /\ v2_authorize id_oracle st' 0 q = Ok (s', true).
Proof.
  intros H1 H2. apply vanswer_ok in H1. set (s := vfinal (v2_authorize id_oracle st 0 q)) in *.
  destruct (vstep id_oracle st x) as [[st' y]| |] eqn:E; [|discriminate H2|discriminate H2]. cbn [rbind fst] in H2. apply vanswer_ok in H2.
  exists s, st', y. eauto.
Qed.
Lemma c129_assignment_refuted : exists st tg q, vreachable st /\ distinct_ids st /\ exists s st' y s',
  v2_authorize id_oracle st 0 q = Ok (s, false) /\ vstep id_oracle s (VRemovePR tg) = Ok (st', y) /\ v2_authorize id_oracle st' 0 q = Ok (s', true).
Proof. exists (vops_state w129), of_writer, q_scoped. split; [reach_vops w129|]. split; [distinct|]. apply asked_gives; computed. Qed.
Lemma c129_permission_refuted : exists st r res act q, vreachable st /\ distinct_ids st /\ exists s st' y s',
  v2_authorize id_oracle st 0 q = Ok (s, false) /\ vstep id_oracle st (VRoleRemove r [(res, act)]) = Ok (st', y) /\ v2_authorize id_oracle st' 0 q = Ok (s', true).
Proof. exists (vops_state w129), 1, "/w", "POST", q_scoped. split; [reach_vops w129|]. split; [distinct|]. apply removed_gives; computed. Qed.
Definition w129_until : list vop := w127_full ++ [VSetExpiry 0 1 5; VAddPR [1]].
Lemma asked_twice (st : vstate) q n : vanswer (v2_authorize id_oracle st 0 q) = Some false ->
  vanswer (v2_authorize id_oracle (vfinal (v2_authorize id_oracle st 0 q)) n q) = Some true ->
  exists s s', v2_authorize id_oracle st 0 q = Ok (s, false) /\ v2_authorize id_oracle s n q = Ok (s', true).
Proof. intros H1%vanswer_ok H2%vanswer_ok. eauto. Qed.
Lemma c129_time_refuted : exists st q, vreachable st /\ distinct_ids st /\ exists s s',
  v2_authorize id_oracle st 0 q = Ok (s, false) /\ v2_authorize id_oracle s 6 q = Ok (s', true).
Proof. exists (vops_state w129_until), q_scoped. split; [reach_vops w129_until|]. split; [distinct|]. apply asked_twice; computed. Qed.

(** ** Concrete cases *)
Fixpoint all_come_down (ask : vop -> bool) (ok : vstate -> vop -> bool) (i : nat) (st : vstate) (ops : list vop) : bool :=
  match ops with
  | [] => true
  | x :: ops' => (ask x || ok st x) && match vstep (sub id_oracle i) st x with Ok (s, _) => all_come_down ask ok (S i) s ops' | _ => false end
  end.
Lemma all_come_down_rtc (ask : vop -> Prop) (ask' : vop -> bool) ok : (forall x, ask' x = true -> ask x) -> (forall st x, ok st x = true -> removal st x) ->
  forall ops i st st' outs, all_come_down ask' ok i st ops = true -> vrun id_oracle i st ops = Ok (st', outs) -> rtc (comes_down ask) st st'.
Proof.
  intros Ha Hok. induction ops as [|x ops IH]; intros i st st' outs; simpl; [by intros _ [= <- _]|].
  intros [H1 H2]%andb_true_iff. destruct (vstep (sub id_oracle i) st x) as [[s y]| |] eqn:E; [|done|done]. simpl.
  intros ([s2 ys] & H3 & [= <- _])%rbind_inv. eapply rtc_l; [|by eapply IH].
  exists (sub id_oracle i), x, y. split; [|done]. apply orb_true_iff in H1 as [H1|H1]; [right; by apply Ha|left; by apply Hok].
Qed.
Definition removes_only (st : vstate) (x : vop) : bool :=
  match x with
  | VRoleRemove _ _ | VRemovePR _ => true
  | VTenantStatus _ s => match s with TActive => false | _ => true end
  | VSetExpiry _ l e => match w_prs st !! l with Some pr => match pr_expiry pr with Some e0 => bool_decide (e <= e0)%Z | None => true end | None => true end
  | _ => false
  end.
Lemma removes_only_removal st x : removes_only st x = true -> removal st x.
Proof.
  destruct x; simpl; try done.
  - by destruct s.
  - intros H p e0 Hp He. rewrite Hp, He in H. by apply bool_decide_eq_true in H.
Qed.
Lemma comes_down_more (ask : vop -> Prop) ask' w w' : (forall x, ask' x = true -> ask x) -> vops_outs (w ++ w') <> [] ->
  all_come_down ask' removes_only (length w) (vops_state w) w' = true -> rtc (comes_down ask) (vops_state w) (vops_state (w ++ w')).
Proof. intros Ha (outs & H)%vops_more Hg. exact (all_come_down_rtc ask ask' removes_only Ha removes_only_removal _ _ _ _ _ Hg H). Qed.
(** "ann" and "bob" read and write; permissions, assignments, the tenant's status and time are taken back. *)
Definition w129_big : list vop :=
  [VNewRole "reader"; VRoleAdd 0 [("/doc", "GET")]; VNewRole "writer"; VRoleAdd 1 [("/doc", "PUT")]; VAddRoles [0; 1]; VAddChildRole "writer" ["reader"];
   VNewTenant "acme" (Some "ns"); VAddTenant 0; VNewPR (PRole "ann" "acme" "" "" "reader" None false); VNewPR (PRole "bob" "acme" "" "" "writer" None false); VAddPR [0; 1]].
Definition q_ann (act : string) : request := Req "ann" "acme" "" "" "/doc" act.
Definition q_bob (act : string) : request := Req "bob" "acme" "" "" "/doc" act.
Definition less (ask : vop) : list vop := [ask; VSetExpiry 0 0 9; VSetExpiry 0 0 8; VRemovePR (PRole "bob" "" "" "" "" None false); VRoleRemove 1 [("/doc", "PUT")]; VTenantStatus 0 TInactive; ask].
Definition w129_asks : list vop := less (VAuthorize 0 (q_ann "PUT")).
Definition w129_cans : list vop := less (VCan 0 (q_ann "") ["writer"]).
Lemma c129_ex : let st := vops_state w129_big in let st' := vops_state (w129_big ++ w129_asks) in
  vreachable st /\ distinct_ids st /\ rtc (comes_down is_authorize) st st' /\ no_scope_given st (q_ann "PUT")
  /\ vanswer (v2_authorize id_oracle st 0 (q_ann "PUT")) = Some false /\ vanswer (v2_authorize id_oracle st' 7 (q_ann "PUT")) = Some false
  /\ vanswer (v2_authorize id_oracle st 0 (q_ann "GET")) = Some true /\ vanswer (v2_authorize id_oracle st' 7 (q_ann "GET")) = Some true
  /\ vanswer (v2_authorize id_oracle st' 9 (q_ann "GET")) = Some false
  /\ vanswer (v2_authorize id_oracle st 0 (q_bob "PUT")) = Some true /\ vanswer (v2_authorize id_oracle st' 0 (q_bob "PUT")) = Some false.
Proof.
  split; [reach_vops w129_big|]. split; [distinct|]. split; [apply (comes_down_more _ asks_authorize); [exact asks_authorize_is|vm_compute; discriminate|computed]|].
  split; [by apply no_scope|]. split_and!; computed.
Qed.
Lemma c129_can_ex : let st := vops_state w129_big in let st' := vops_state (w129_big ++ w129_cans) in
  vreachable st /\ distinct_ids st /\ rtc (comes_down is_can) st st'
  /\ vanswer (v2_can id_oracle st 0 (q_ann "") ["writer"]) = Some false /\ vanswer (v2_can id_oracle st' 7 (q_ann "") ["writer"]) = Some false
  /\ vanswer (v2_can id_oracle st 0 (q_bob "") ["writer"]) = Some true /\ vanswer (v2_can id_oracle st' 0 (q_bob "") ["writer"]) = Some false.
Proof.
  split; [reach_vops w129_big|]. split; [distinct|]. split; [apply (comes_down_more _ asks_can); [exact asks_can_is|vm_compute; discriminate|computed]|].
  split_and!; computed.
Qed.
(** "ann" only has assignments for a scope. *)
Definition q_scoped_put : request := Req "ann" "acme" "" "s" "/doc" "PUT".
Definition w129_less : list vop := [VAuthorize 0 q_scoped_put; VRoleRemove 0 [("/doc", "GET")]; VSetExpiry 0 0 3].
Lemma c129_scoped_ex : let st := vops_state w127_scoped in let st' := vops_state (w127_scoped ++ w129_less) in
  vreachable st /\ distinct_ids st /\ all_scoped st "ann" /\ rtc (comes_down is_authorize) st st'
  /\ vanswer (v2_authorize id_oracle st 0 q_scoped_put) = Some false /\ vanswer (v2_authorize id_oracle st' 2 q_scoped_put) = Some false
  /\ vanswer (v2_authorize id_oracle st 0 q_scoped) = Some true /\ vanswer (v2_authorize id_oracle st' 4 q_scoped) = Some false.
Proof.
  split; [reach_vops w127_scoped|]. split; [distinct|]. split; [apply all_scoped_list; vm_compute; repeat constructor; discriminate|].
  split; [apply (comes_down_more _ asks_authorize); [exact asks_authorize_is|vm_compute; discriminate|computed]|]. split_and!; computed.
Qed.
