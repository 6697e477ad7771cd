(** Concrete v2 decisions during which time passes. *)
From Verif Require Import V2Auth V2Inv V2Ex TickModel TickProofs TickFinal TickSpec.

(** Tenant acme with the scope s; ann's assignments are given. *)
Definition tk_base (rs : list prole) : list vop :=
  [VNewRole "reader"; VRoleAdd 0 [("/doc", "GET")]; VNewRole "writer"; VRoleAdd 1 [("/doc", "PUT")];
   VAddRoles [0; 1]; VNewTenant "acme" (Some "ns"); VTenantScopes 0 "ns" ["s"]; VAddTenant 0] ++
  (VNewPR <$> rs) ++ [VAddPR (seq 0 (length rs))].
Definition qt : request := Req "ann" "acme" "" "s" "/doc" "GET".
Definition qt_plain : request := Req "ann" "acme" "" "" "/doc" "GET".
(** The first reading is made at [a], all others at [b]. *)
Definition jump (a b : Z) (k : nat) : Z := match k with 0 => a | _ => b end.
Lemma jump_lasts a b : (a <= b)%Z -> lasts (jump a b) a b.
Proof.
  intros H. split.
  - intros [|k]; cbn; lia.
  - intros [|i] [|j] Hij; cbn; lia.
Qed.
Definition tk_granted : list vop := tk_base
  [PRole "ann" "acme" "" "" "reader" (Some 3%Z) false; PRole "ann" "acme" "s" "" "writer" (Some 5%Z) false].
Definition tk_denied : list vop := tk_base
  [PRole "ann" "acme" "s" "" "writer" (Some 3%Z) false; PRole "ann" "acme" "s" "" "reader" (Some 3%Z) false;
   PRole "ann" "acme" "" "" "reader" None false].
Lemma tk_granted_reach : vreachable (vops_state tk_granted).
Proof. reach_vops tk_granted. Qed.
Lemma tk_denied_reach : vreachable (vops_state tk_denied).
Proof. reach_vops tk_denied. Qed.
Lemma tk_granted_distinct : distinct_ids (vops_state tk_granted).
Proof. distinct. Qed.
Lemma tk_denied_distinct : distinct_ids (vops_state tk_denied).
Proof. distinct. Qed.

(** Instants at which the same assignments are expired are alike. *)
Definition alike (t t' : Z) (pr : prole) : Prop := expired t pr <-> expired t' pr.
Lemma alike_at t t' e u tn s n r m : ((e < t)%Z <-> (e < t')%Z) -> alike t t' (PRole u tn s n r (Some e) m).
Proof. intros H. split; intros (e' & [= <-] & ?); exists e; (split; [reflexivity|]); tauto. Qed.
Lemma alike_none t t' u tn s n r m : alike t t' (PRole u tn s n r None m).
Proof. by split; intros (e' & [=] & _). Qed.
Lemma alike_allowed st q t t' : Forall (alike t t') (w_prs st) -> v2_allowed st t q <-> v2_allowed st t' q.
Proof.
  intros Hal. assert (Hp : forall pr, assigned st pr -> expired t pr <-> expired t' pr).
  { intros pr (l & _ & Hl). apply (proj1 (Forall_forall _ _) Hal pr). by eapply elem_of_list_lookup_2. }
  assert (Hc : forall user l n pr, counts st t user l n pr <-> counts st t' user l n pr).
  { intros user l n pr. unfold counts. split; intros (H1 & H2 & H3 & H4); rewrite (Hp pr H1) in *; tauto. }
  unfold v2_allowed, effective, scoped_perm, global_perm. by setoid_rewrite Hc.
Qed.
Definition decided_at (st : vstate) (q : request) (t : Z) : option bool := vanswer (v2_authorize id_oracle st t q).
Lemma decided_at_spec st q t b : vreachable st -> distinct_ids st -> decided_at st q t = Some b -> b = true <-> v2_allowed st t q.
Proof. intros Hr%vreachable_wf Hdi H%vanswer_ok. by apply (v2_authorize_exact _ _ _ _ _ _ Hr) in H as [H _]. Qed.
Lemma tk_granted_prs : w_prs (vops_state tk_granted) =
  [PRole "ann" "acme" "" "" "reader" (Some 3%Z) false; PRole "ann" "acme" "s" "" "writer" (Some 5%Z) false].
Proof. vm_compute. reflexivity. Qed.
Lemma tk_denied_prs : w_prs (vops_state tk_denied) =
  [PRole "ann" "acme" "s" "" "writer" (Some 3%Z) false; PRole "ann" "acme" "s" "" "reader" (Some 3%Z) false;
   PRole "ann" "acme" "" "" "reader" None false].
Proof. vm_compute. reflexivity. Qed.
Lemma no_to_all st q t b : vreachable st -> distinct_ids st -> decided_at st q t = Some b -> b = false -> ~ v2_allowed st t q.
Proof. intros Hr Hdi H -> Ha. by apply (decided_at_spec st q t false Hr Hdi H) in Ha. Qed.
Lemma yes_to_all st q t b : vreachable st -> distinct_ids st -> decided_at st q t = Some b -> b = true -> v2_allowed st t q.
Proof. intros Hr Hdi H ->. by apply (decided_at_spec st q t true Hr Hdi H). Qed.
Lemma two_alike t t' : ((3 < t)%Z <-> (3 < t')%Z) -> ((5 < t)%Z <-> (5 < t')%Z) ->
  Forall (alike t t') [PRole "ann" "acme" "" "" "reader" (Some 3%Z) false; PRole "ann" "acme" "s" "" "writer" (Some 5%Z) false].
Proof. intros H1 H2. repeat constructor; by apply alike_at. Qed.
Lemma three_alike t t' : ((3 < t)%Z <-> (3 < t')%Z) ->
  Forall (alike t t') [PRole "ann" "acme" "s" "" "writer" (Some 3%Z) false; PRole "ann" "acme" "s" "" "reader" (Some 3%Z) false;
   PRole "ann" "acme" "" "" "reader" None false].
Proof. intros H1. repeat constructor; first [by apply alike_at|by apply alike_none]. Qed.
Lemma tk_granted_like t t' : ((3 < t)%Z <-> (3 < t')%Z) -> ((5 < t)%Z <-> (5 < t')%Z) ->
  v2_allowed (vops_state tk_granted) t qt <-> v2_allowed (vops_state tk_granted) t' qt.
Proof. intros H1 H2. apply alike_allowed. rewrite tk_granted_prs. exact (two_alike t t' H1 H2). Qed.
Lemma tk_denied_like t t' : ((3 < t)%Z <-> (3 < t')%Z) ->
  v2_allowed (vops_state tk_denied) t qt <-> v2_allowed (vops_state tk_denied) t' qt.
Proof. intros H1. apply alike_allowed. rewrite tk_denied_prs. exact (three_alike t t' H1). Qed.
Lemma parts t : ((3 < t)%Z <-> (3 < 2)%Z) /\ ((5 < t)%Z <-> (5 < 2)%Z) \/ ((3 < t)%Z <-> (3 < 4)%Z) /\ ((5 < t)%Z <-> (5 < 4)%Z) \/
  ((3 < t)%Z <-> (3 < 6)%Z) /\ ((5 < t)%Z <-> (5 < 6)%Z).
Proof. destruct (decide (t <= 3)%Z); [left|destruct (decide (t <= 5)%Z); [right; left|right; right]]; lia. Qed.
Lemma tk_granted_never t : ~ v2_allowed (vops_state tk_granted) t qt.
Proof.
  intros Ha. destruct (parts t) as [[H1 H2]|[[H1 H2]|[H1 H2]]].
  - apply (no_to_all _ qt 2 false tk_granted_reach tk_granted_distinct); [vm_compute; reflexivity|reflexivity|].
    exact (proj1 (tk_granted_like t 2 H1 H2) Ha).
  - apply (no_to_all _ qt 4 false tk_granted_reach tk_granted_distinct); [vm_compute; reflexivity|reflexivity|].
    exact (proj1 (tk_granted_like t 4 H1 H2) Ha).
  - apply (no_to_all _ qt 6 false tk_granted_reach tk_granted_distinct); [vm_compute; reflexivity|reflexivity|].
    exact (proj1 (tk_granted_like t 6 H1 H2) Ha).
Qed.
Lemma tk_denied_always t : v2_allowed (vops_state tk_denied) t qt.
Proof.
  destruct (parts t) as [[H1 H2]|[[H1 H2]|[H1 H2]]].
  - apply (tk_denied_like t 2 H1). apply (yes_to_all _ qt 2 true tk_denied_reach tk_denied_distinct); [vm_compute; reflexivity|reflexivity].
  - apply (tk_denied_like t 4 H1). apply (yes_to_all _ qt 4 true tk_denied_reach tk_denied_distinct); [vm_compute; reflexivity|reflexivity].
  - apply (tk_denied_like t 6 H1). apply (yes_to_all _ qt 6 true tk_denied_reach tk_denied_distinct); [vm_compute; reflexivity|reflexivity].
Qed.
Lemma vanswer_ex {r : res (vstate * bool)} {b} : vanswer r = Some b -> exists st', r = Ok (st', b).
Proof. destruct r as [[st' b']| |]; cbn; intros H; [injection H as ->; by exists st'|discriminate H..]. Qed.
Lemma tk_granted_yes : vanswer (t_authorize (jump 2 6) (vops_state tk_granted) id_oracle qt) = Some true.
Proof. vm_compute. reflexivity. Qed.
Lemma tk_denied_no : vanswer (t_authorize (jump 2 4) (vops_state tk_denied) id_oracle qt) = Some false.
Proof. vm_compute. reflexivity. Qed.

(** ** C123 *)
Lemma tick_granted_false : ~ (forall st clock t0 t1 o q st', vreachable st -> distinct_ids st -> lasts clock t0 t1 ->
  t_authorize clock st o q = Ok (st', true) -> exists t, v2_allowed st t q).
Proof.
  intros H. destruct (vanswer_ex tk_granted_yes) as [st' Hs].
  destruct (H (vops_state tk_granted) (jump 2 6) 2%Z 6%Z id_oracle qt st' tk_granted_reach tk_granted_distinct) as [t Ht].
  - apply jump_lasts. lia.
  - exact Hs.
  - exact (tk_granted_never t Ht).
Qed.
Lemma tick_denied_false : ~ (forall st clock t0 t1 o q st', vreachable st -> distinct_ids st -> lasts clock t0 t1 ->
  t_authorize clock st o q = Ok (st', false) -> exists t, ~ v2_allowed st t q).
Proof.
  intros H. destruct (vanswer_ex tk_denied_no) as [st' Hs].
  destruct (H (vops_state tk_denied) (jump 2 4) 2%Z 4%Z id_oracle qt st' tk_denied_reach tk_denied_distinct) as [t Ht].
  - apply jump_lasts. lia.
  - exact Hs.
  - exact (Ht (tk_denied_always t)).
Qed.
Lemma tk_not_broken : ~ broken (vops_state tk_granted).
Proof. unfold broken. apply (bool_decide_eq_true_1 (None ∉ w_assign (vops_state tk_granted))). vm_compute. reflexivity. Qed.
Lemma c122_ex : let st := vops_state tk_granted in
  vreachable st /\ distinct_ids st /\ ~ broken st /\ lasts (jump 2 6) 2 6 /\
  vanswer (t_can (jump 2 6) st id_oracle qt ["reader"]) = Some true /\
  vanswer (t_can (jump 2 6) st id_oracle qt ["writer"]) = Some false /\
  vanswer (t_can (jump 4 4) st id_oracle qt ["reader"]) = Some false /\
  vanswer (t_can (jump 4 4) st id_oracle qt ["writer"]) = Some true.
Proof.
  cbv zeta. split; [exact tk_granted_reach|]. split; [exact tk_granted_distinct|]. split; [exact tk_not_broken|].
  split; [apply jump_lasts; lia|]. repeat split; vm_compute; reflexivity.
Qed.
Lemma lasting_rows t0 t1 : (t0 <= 3)%Z -> (t1 <= 3)%Z -> none_runs_out (vops_state tk_granted) "ann" t0 t1.
Proof.
  intros H0 H1 pr (l & _ & Hl) _ (e & He & Hlt). exfalso. rewrite tk_granted_prs in Hl. apply elem_of_list_lookup_2 in Hl.
  apply elem_of_cons in Hl as [->|Hl]; [cbn in He; injection He as <-; lia|].
  apply elem_of_list_singleton in Hl as ->. cbn in He. injection He as <-. lia.
Qed.
Lemma c123_ex : let st := vops_state tk_granted in
  vreachable st /\ distinct_ids st /\ lasts (jump 2 3) 2 3 /\ none_runs_out st "ann" 2 3 /\
  vanswer (t_authorize (jump 2 3) st id_oracle (Req "ann" "acme" "" "s" "/doc" "PUT")) = Some true /\
  vanswer (t_authorize (jump 2 3) st id_oracle qt) = Some false /\
  vanswer (t_authorize (jump 2 3) st id_oracle qt_plain) = Some true.
Proof.
  cbv zeta. split; [exact tk_granted_reach|]. split; [exact tk_granted_distinct|]. split; [apply jump_lasts; lia|].
  split; [apply lasting_rows; lia|]. repeat split; vm_compute; reflexivity.
Qed.
