(** Concrete v2 decisions beside changes of the list of assignments. *)
From Verif Require Import V2Auth V2Inv V2Ex CDecModel CDecProofs CDecSpec.

Lemma at_moment_wf st l : v2_wf st -> real_rows st l -> v2_wf (at_moment st l).
Proof. intros [] Hl. split; try done. cbn. intros i Hi. destruct (Hl _ Hi) as (j & pr & [= <-] & Hpr). by exists pr. Qed.
Lemma real_incl st l l' : (forall p, p ∈ l -> p ∈ l') -> real_rows st l' -> real_rows st l.
Proof. intros Hs H p Hp. apply H. by apply Hs. Qed.
Lemma moment_incl (v new : list (option nat)) n p : p ∈ v ++ take n new -> p ∈ v ++ new.
Proof.
  rewrite !elem_of_app. intros [?|Hp]; [by left|]. right. rewrite <-(take_drop n new). apply elem_of_app. by left.
Qed.
(** Deciding at each of the three moments of two additions *)
Definition decided (st : vstate) (q : request) (l : list (option nat)) : option bool :=
  vanswer (v2_authorize id_oracle (at_moment st l) 0 q).
Lemma decided_spec st q l b : v2_wf st -> distinct_ids st -> real_rows st l -> decided st q l = Some b ->
  b = true <-> v2_allowed (at_moment st l) 0 q.
Proof.
  intros Hwf Hdi Hl H%vanswer_ok. by apply (v2_authorize_exact _ _ _ _ _ _ (at_moment_wf _ _ Hwf Hl)) in H as [H _].
Qed.
Lemma three_moments st q v r1 r2 b n : v2_wf st -> distinct_ids st -> real_rows st (v ++ [r1; r2]) ->
  decided st q v = Some b -> decided st q (v ++ [r1]) = Some b -> decided st q (v ++ [r1; r2]) = Some b ->
  b = true <-> v2_allowed (at_moment st (v ++ take n [r1; r2])) 0 q.
Proof.
  intros Hwf Hdi Hr H0 H1 H2. apply decided_spec; [done|done| |].
  - eapply real_incl; [|exact Hr]. apply moment_incl.
  - destruct n as [|[|[|n]]]; cbn [take]; [by rewrite app_nil_r|exact H1|exact H2|exact H2].
Qed.

(** Tenant acme with child sub; ann manages acme; two more assignments, not yet added *)
Definition wd_base (r0 r1 r2 : prole) : list vop :=
  [VNewRole "boss"; VNewRole "reader"; VRoleAdd 1 [("/doc", "GET")]; VNewRole "writer"; VRoleAdd 2 [("/doc", "PUT")];
   VAddRoles [0; 1; 2]; VNewTenant "acme" (Some "ns"); VNewTenant "sub" (Some "ns"); VTenantScopes 0 "ns" ["s"]; VTenantChildren 0 [1];
   VAddTenant 0; VAddTenant 1; VNewPR r0; VNewPR r1; VNewPR r2; VAddPR [0]].
Definition qd : request := Req "ann" "acme" "" "s" "/doc" "GET".
(** The reader is in acme before both additions and in sub after them. *)
Definition late (k : nat) : list (option nat) := [Some 0] ++ take (if Nat.leb k 2 then 0 else 2) [Some 1; Some 2].
Lemma late_growing : growing_views [Some 0] [Some 1; Some 2] late.
Proof.
  exists (fun k => if Nat.leb k 2 then 0 else 2). split; [|done]. intros i j Hij.
  destruct (Nat.leb i 2) eqn:Hi; [lia|]. destruct (Nat.leb j 2) eqn:Hj; [|lia].
  apply Nat.leb_gt in Hi. apply Nat.leb_le in Hj. lia.
Qed.
Lemma three_real st : length (w_prs st) = 3 -> real_rows st ([Some 0] ++ [Some 1; Some 2]).
Proof.
  intros Hl p Hp. assert (exists i, p = Some i /\ i < 3) as (i & -> & Hi).
  { apply elem_of_cons in Hp as [->|[->|[->|?%elem_of_nil]%elem_of_cons]%elem_of_cons]; [exists 0|exists 1|exists 2|done];
      (split; [reflexivity|lia]). }
  rewrite <-Hl in Hi. apply lookup_lt_is_Some in Hi as [pr Hpr]. by exists i, pr.
Qed.
Definition wd_granted : list vop := wd_base (PRole "ann" "acme" "" "" "boss" None true)
  (PRole "ann" "acme" "s" "" "writer" None false) (PRole "ann" "sub" "" "" "reader" None false).
Definition wd_denied : list vop := wd_base (PRole "ann" "acme" "" "" "reader" None true)
  (PRole "ann" "acme" "s" "" "reader" None false) (PRole "ann" "sub" "s" "" "writer" None false).
Lemma wd_granted_reach : vreachable (vops_state wd_granted).
Proof. reach_vops wd_granted. Qed.
Lemma wd_denied_reach : vreachable (vops_state wd_denied).
Proof. reach_vops wd_denied. Qed.
Lemma wd_granted_distinct : distinct_ids (vops_state wd_granted).
Proof. distinct. Qed.
Lemma wd_denied_distinct : distinct_ids (vops_state wd_denied).
Proof. distinct. Qed.
Lemma wd_granted_real : real_rows (vops_state wd_granted) ([Some 0] ++ [Some 1; Some 2]).
Proof. apply three_real. vm_compute. reflexivity. Qed.
Lemma wd_denied_real : real_rows (vops_state wd_denied) ([Some 0] ++ [Some 1; Some 2]).
Proof. apply three_real. vm_compute. reflexivity. Qed.
Lemma wd_granted_never n : ~ v2_allowed (at_moment (vops_state wd_granted) ([Some 0] ++ take n [Some 1; Some 2])) 0 qd.
Proof.
  intros Ha. assert (H : false = true); [|discriminate].
  apply (three_moments (vops_state wd_granted) qd [Some 0] (Some 1) (Some 2) false n (vreachable_wf _ wd_granted_reach)
    wd_granted_distinct wd_granted_real); [vm_compute; reflexivity..|exact Ha].
Qed.
Lemma wd_denied_always n : v2_allowed (at_moment (vops_state wd_denied) ([Some 0] ++ take n [Some 1; Some 2])) 0 qd.
Proof.
  apply (three_moments (vops_state wd_denied) qd [Some 0] (Some 1) (Some 2) true n (vreachable_wf _ wd_denied_reach)
    wd_denied_distinct wd_denied_real); vm_compute; reflexivity.
Qed.
Lemma wd_granted_yes : w_authorize late (vops_state wd_granted) 0 id_oracle qd = Ok true.
Proof. vm_compute. reflexivity. Qed.
Lemma wd_denied_no : w_authorize late (vops_state wd_denied) 0 id_oracle qd = Ok false.
Proof. vm_compute. reflexivity. Qed.
Lemma wd_granted_assign : w_assign (vops_state wd_granted) = [Some 0].
Proof. vm_compute. reflexivity. Qed.
Lemma wd_denied_assign : w_assign (vops_state wd_denied) = [Some 0].
Proof. vm_compute. reflexivity. Qed.

(** ** C87 *)
Lemma granted_false : ~ (forall st new views now o q, vreachable st -> distinct_ids st ->
  real_rows st (w_assign st ++ new) -> growing_views (w_assign st) new views ->
  w_authorize views st now o q = Ok true -> exists n, v2_allowed (at_moment st (w_assign st ++ take n new)) now q).
Proof.
  intros H. destruct (H (vops_state wd_granted) [Some 1; Some 2] late 0%Z id_oracle qd wd_granted_reach wd_granted_distinct)
    as [n Hn]; rewrite ?wd_granted_assign.
  - exact wd_granted_real.
  - exact late_growing.
  - exact wd_granted_yes.
  - rewrite wd_granted_assign in Hn. exact (wd_granted_never n Hn).
Qed.
Lemma denied_false : ~ (forall st new views now o q, vreachable st -> distinct_ids st ->
  real_rows st (w_assign st ++ new) -> growing_views (w_assign st) new views ->
  w_authorize views st now o q = Ok false -> exists n, ~ v2_allowed (at_moment st (w_assign st ++ take n new)) now q).
Proof.
  intros H. destruct (H (vops_state wd_denied) [Some 1; Some 2] late 0%Z id_oracle qd wd_denied_reach wd_denied_distinct)
    as [n Hn]; rewrite ?wd_denied_assign.
  - exact wd_denied_real.
  - exact late_growing.
  - exact wd_denied_no.
  - rewrite wd_denied_assign in Hn. exact (Hn (wd_denied_always n)).
Qed.
(** Can and an unscoped request in the same situation *)
Definition qd_plain : request := Req "ann" "acme" "" "" "/doc" "GET".
Lemma c87_ex : let st := vops_state wd_granted in
  vreachable st /\ distinct_ids st /\ real_rows st (w_assign st ++ [Some 1; Some 2]) /\
  growing_views (w_assign st) [Some 1; Some 2] late /\
  w_can late st 0 id_oracle qd ["reader"] = Ok true /\ w_can late st 0 id_oracle qd ["writer"] = Ok false /\
  w_can late st 0 id_oracle qd ["boss"] = Ok true /\ w_authorize late st 0 id_oracle qd_plain = Ok true.
Proof.
  cbv zeta. rewrite wd_granted_assign. split; [exact wd_granted_reach|]. split; [exact wd_granted_distinct|].
  split; [exact wd_granted_real|]. split; [exact late_growing|]. repeat split; vm_compute; reflexivity.
Qed.
(** A tenant without children, while an assignment disappears and another appears *)
Definition qd_sub : request := Req "ann" "sub" "" "" "/doc" "GET".
Definition swap (k : nat) : list (option nat) := if Nat.leb k 1 then [Some 2] else [Some 0].
Lemma c87_ex_leaf : let st := vops_state wd_granted in
  vreachable st /\ distinct_ids st /\ one_leaf st qd_sub /\
  w_authorize swap st 0 id_oracle qd_sub = Ok true /\ w_can swap st 0 id_oracle qd_sub ["reader"] = Ok true.
Proof.
  cbv zeta. split; [exact wd_granted_reach|]. split; [exact wd_granted_distinct|]. split; [|split; vm_compute; reflexivity].
  exists "sub", 1, (VTenant "sub" {["ns" := ∅]} "ns" TActive ∅). split; [|split; [|split]].
  - split; [discriminate|left; reflexivity].
  - vm_compute. reflexivity.
  - vm_compute. reflexivity.
  - reflexivity.
Qed.
