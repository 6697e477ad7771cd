(** Concrete cases for the audit log. *)
From Verif Require Import V2Ex LogProofs LogSpec.

Definition logs {A} (x : logged (vstate * A)) : list entry := x.1.
Lemma logged_ok {A} (x : logged (vstate * A)) es a : logs x = es -> vanswer x.2 = Some a -> x = (es, Ok (vfinal x.2, a)).
Proof. intros <- H%vanswer_ok. rewrite <-H. by destruct x. Qed.
Global Instance entry_eq : EqDecision entry.
Proof. solve_decision. Defined.
(** Two tenants; ann may read in acme and has nothing in globex. *)
Definition w91 : list vop := w_base ++ [VNewTenant "globex" (Some "ns"); VAddTenant 1;
  VNewPR (PRole "ann" "globex" "other" "" "reader" None false); VAddPR [1]].
Definition q_any : request := Req "ann" "" "" "" "/doc" "PUT".
Definition q_none : request := Req "ann" "nowhere" "" "" "/doc" "GET".
Lemma c91_ex : let st := vops_state w91 in let ask q := (logs (v2_authorize_logged true id_oracle st 0 q), vanswer (v2_authorize id_oracle st 0 q)) in
  vreachable st /\ distinct_ids st
  /\ ask q_doc = ([Entry [("principal", "ann"); ("tenant", "acme"); ("resource", "/doc"); ("action", "GET")] "Authorization granted"], Some true)
  /\ ask q_any = ([Entry (log_attrs q_any) "Failed to resolve permissions for authorization"; Entry (log_attrs q_any) "Authorization failed"], Some false)
  /\ ask q_none = ([Entry (log_attrs q_none) "Failed authorization due to invalid tenant"], Some false).
Proof. cbn zeta. split; [reach_vops w91|]. split; [distinct|]. split_and!; vm_compute; reflexivity. Qed.
Lemma c92_refuted : exists st now, vreachable st /\ distinct_ids st /\ ~ grants_mean_allowed st now.
Proof.
  exists (vops_state w_base), 0%Z. assert (Hr : vreachable (vops_state w_base)) by reach_vops w_base.
  assert (Hd : distinct_ids (vops_state w_base)) by distinct.
  split; [exact Hr|]. split; [exact Hd|]. intros H.
  assert (Hden : ~ v2_allowed (vops_state w_base) 0 q_new).
  { apply (v2_denied id_oracle _ _ _ (vfinal (v2_authorize id_oracle (vops_state w_base) 0 q_new))); [by apply vreachable_wf|exact Hd|]. vanswered. }
  apply Hden. apply (H id_oracle q_new (logs (v2_can_logged true id_oracle (vops_state w_base) 0 q_new ["reader"])) (v2_can_logged true id_oracle (vops_state w_base) 0 q_new ["reader"]).2).
  - right. exists ["reader"]. apply surjective_pairing.
  - apply (bool_decide_unpack _). vm_compute. exact I.
Qed.
Lemma c92_roles_refuted : exists st now q roles roles' st1 st2 e e', vreachable st /\ distinct_ids st
  /\ v2_can_logged true id_oracle st now q roles = ([e], Ok (st1, true)) /\ v2_can_logged true id_oracle st now q roles' = ([e'], Ok (st2, false))
  /\ en_attrs e = en_attrs e'.
Proof.
  exists (vops_state w_base), 0%Z, q_doc, ["reader"], ["admin"].
  exists (vfinal (v2_can_logged true id_oracle (vops_state w_base) 0 q_doc ["reader"]).2), (vfinal (v2_can_logged true id_oracle (vops_state w_base) 0 q_doc ["admin"]).2).
  exists (Entry (log_attrs q_doc) "Authorization granted"), (Entry (log_attrs q_doc) "Authorization failed").
  split; [reach_vops w_base|]. split; [distinct|]. split_and!; [| |reflexivity]; apply logged_ok; vm_compute; reflexivity.
Qed.
Definition w92 : list vop := w_base ++ [VSetDefault "acme"].
Definition q_dflt : request := Req "ann" "" "" "" "/doc" "GET".
Lemma c92_default_ex : let st := vops_state w92 in
  (logs (v2_authorize_logged true id_oracle st 0 q_dflt), vanswer (v2_authorize id_oracle st 0 q_dflt)) =
  ([Entry [("principal", "ann"); ("resource", "/doc"); ("action", "GET")] "Authorization granted"], Some true).
Proof. vm_compute. reflexivity. Qed.
