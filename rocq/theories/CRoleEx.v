(** Concrete cases for concurrent changes of one role. *)
From Verif Require Import CRoleModel CRoleProofs CRoleSpec.

(** A role with one group [docs] holding one permission. *)
Definition er : rsh := RSh false {["docs" := 0]} [{["/docs GET"]}].
Definition er_lost : list rcall := [RAdd "logs" ["/logs GET"]; RAdd "logs" ["/logs PUT"]].
Definition er_fine : list rcall := [RAdd "docs" ["/docs PUT"]; RAdd "docs" ["/docs POST"]; RAdd "logs" ["/logs GET"]].
Lemma er_get g l : r_groups er !! g = Some l -> g = "docs" /\ l = 0.
Proof. unfold er. cbn [r_groups]. intros [<- <-]%lookup_singleton_Some. done. Qed.
Lemma er_ok calls : adds_only calls -> role_ok er calls.
Proof.
  intros Ha. split.
  - intros g l [_ ->]%er_get. by eexists.
  - intros g l Hin. destruct (Ha _ Hin) as (g' & ps & [=]).
Qed.
Lemma er_one : one_name er.
Proof. intros g g' l [-> _]%er_get [-> _]%er_get. done. Qed.
Lemma er_lost_adds : adds_only er_lost.
Proof. refine (proj1 (Forall_forall (fun c => exists g ps, c = RAdd g ps) _) _). repeat constructor; by eexists _, _. Qed.
Lemma er_fine_adds : adds_only er_fine.
Proof. refine (proj1 (Forall_forall (fun c => exists g ps, c = RAdd g ps) _) _). repeat constructor; by eexists _, _. Qed.
Lemma er_fine_no_rivals : no_rival_groups er er_fine.
Proof.
  intros i j g ps ps' Hij Hi Hj Hg p Hp.
  destruct i as [|[|[|i]]]; destruct j as [|[|[|j]]]; cbn in Hi, Hj; try discriminate; try lia;
    simplify_eq; discriminate Hg.
Qed.
Lemma kept_false : ~ (forall s calls, role_ok s calls -> r_lock s = false -> all_kept s calls).
Proof.
  intros H. specialize (H er er_lost (er_ok _ er_lost_adds) eq_refl).
  apply (kept_exact er er_lost (er_ok _ er_lost_adds) er_lost_adds eq_refl) in H.
  assert ("/logs GET" ∈ ["/logs PUT"]) as [=]%elem_of_list_singleton.
  apply (H 0 1 "logs" ["/logs GET"] ["/logs PUT"]); [lia|done|done|done|set_solver].
Qed.
Lemma lock_false : ~ (forall s calls, role_ok s calls -> no_unlock calls -> lock_freezes s calls).
Proof.
  intros H.
  assert (Hok : role_ok er [RAdd "docs" ["/docs PUT"]; RLock true]).
  { split; [exact (proj1 (er_ok _ er_fine_adds))|]. intros g l [[=]|[=]%elem_of_list_singleton]%elem_of_cons. }
  assert (Hn : ~ holds er "docs" "/docs PUT").
  { intros (l & x & [_ ->]%er_get & [= <-] & [=]%elem_of_singleton). }
  destruct (lock_hole er "docs" "/docs PUT" Hok eq_refl Hn) as (now & later & s1 & pcs1 & s2 & pcs2 & R1 & Hd & _ & Hn1 & R2 & _ & _ & Hh).
  assert (Hnu : no_unlock [RAdd "docs" ["/docs PUT"]; RLock true]).
  { intros [[=]|[=]%elem_of_list_singleton]%elem_of_cons. }
  exact (Hn1 (proj1 (H er _ Hok Hnu now later s1 pcs1 s2 pcs2 1 R1 eq_refl Hd R2 "docs" "/docs PUT") Hh)).
Qed.
(** A run in which everybody finishes: the two changes of [docs] and the new group [logs] *)
Global Instance qpc_dec : EqDecision qpc. Proof. solve_decision. Defined.
Definition q_after (s : rsh) (calls : list rcall) (sched : list nat) : option (list qpc) :=
  snd <$> qrun calls (qstart s calls) sched.
Lemma q_after_met s calls sched pcs : q_after s calls sched = Some pcs -> exists s', qmet s calls (s', pcs).
Proof.
  unfold q_after. destruct (qrun calls (qstart s calls) sched) as [[s' p]|] eqn:E; [|discriminate]. intros [= <-]. exists s', sched. exact E.
Qed.
Lemma er_fine_run : q_after er er_fine [0; 1; 2; 0; 1; 2; 0; 1; 2; 0; 1; 2] = Some [QDone true; QDone true; QDone true].
Proof. vm_compute. reflexivity. Qed.
Lemma c85_ex : exists s', qmet er er_fine (s', [QDone true; QDone true; QDone true]) /\
  holds s' "docs" "/docs GET" /\ holds s' "docs" "/docs PUT" /\ holds s' "docs" "/docs POST" /\ holds s' "logs" "/logs GET".
Proof.
  destruct (q_after_met _ _ _ _ er_fine_run) as [s' Hm]. exists s'. split; [exact Hm|].
  pose proof (er_ok _ er_fine_adds) as Hok.
  assert (Hall : all_returned [QDone true; QDone true; QDone true]) by (repeat constructor; by eexists).
  pose proof (no_rivals_kept er er_fine Hok er_fine_adds er_fine_no_rivals s' _ Hm Hall) as H.
  split; [|split; [|split]].
  - apply (proj1 (proj2 (old_group_kept er er_fine s' _ "docs" 0 Hok eq_refl Hm))). exists 0, {["/docs GET"]}.
    split; [done|]. split; [done|]. by apply elem_of_singleton.
  - by apply (H 0 "docs" ["/docs PUT"]); [..|apply elem_of_list_singleton].
  - by apply (H 1 "docs" ["/docs POST"]); [..|apply elem_of_list_singleton].
  - by apply (H 2 "logs" ["/logs GET"]); [..|apply elem_of_list_singleton].
Qed.
(** Both return nil and only one permission is there. *)
Lemma c85_ex_lost : exists s' pcs, qmet er er_lost (s', pcs) /\ pcs !! 0 = Some (QDone true) /\ pcs !! 1 = Some (QDone true) /\
  ~ holds s' "logs" "/logs GET" /\ holds s' "logs" "/logs PUT".
Proof.
  destruct (last_wins er er_lost er_lost_adds 1 "logs" ["/logs PUT"] eq_refl (er_ok _ er_lost_adds) eq_refl eq_refl) as (s' & pcs & Hm & Hd & Hh).
  exists s', pcs. split; [exact Hm|]. split; [apply Hd; cbn; lia|]. split; [apply Hd; cbn; lia|]. split.
  - intros [=]%Hh%elem_of_list_singleton.
  - apply Hh. by apply elem_of_list_singleton.
Qed.
(** Lock after everything has returned; a later call is refused. *)
Definition er_locked : list rcall := [RAdd "docs" ["/docs PUT"]; RLock true; RAdd "docs" ["/docs POST"]].
Lemma c86_ex : q_after er er_locked [0; 0; 0; 0; 1] = Some [QDone true; QDone true; QStart] /\
  quiet [QDone true; QDone true; QStart] /\ no_unlock er_locked /\
  q_after er er_locked ([0; 0; 0; 0; 1] ++ [2]) = Some [QDone true; QDone true; QDone false].
Proof.
  split; [vm_compute; reflexivity|]. split.
  { repeat (apply Forall_cons_2; [first [by left|right; by eexists]|]). apply Forall_nil_2. }
  split; [|vm_compute; reflexivity]. intros [[=]|[[=]|[=]%elem_of_list_singleton]%elem_of_cons]%elem_of_cons.
Qed.
