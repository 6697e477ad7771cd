(** Orders of v1 grants: witnesses. *)
From Verif Require Export V1OrdProofs V1Ex.

(** A tenant with a default namespace, two scopes, and a role above another. *)
Definition w102 : list uop :=
  [UNewTenant "acme"; UAddTenant 0; UNewNamespace "eng"; UTAddNamespace 0 [0]; UTSetDefault 0 "eng";
   UNewRole "worker"; URoleAddPermission 0 "doc" [Attr "/d" "GET"]; UAddRole 0;
   UNewRole "lead"; URoleAddPermission 1 "doc" [Attr "/d" "PUT"]; URoleAddDescendent 1 [0]; UAddRole 1;
   UTAddRole 0 [0; 1]; UTAddScopes 0 ["s1"; "s2"]; UAddPrincipal "ann"; UAddPrincipal "bob"].
Definition q_spot : uopts := UOpts (AStr "acme") (AStr "eng") (AStr "s1") ANil ANil.
Lemma c102_refuted : exists st ops ops' st1 outs1 st2 outs2, ureachable st /\ Forall grant ops /\ Forall (tidy st) ops /\ ops' ≡ₚ ops /\
  urun id_oracle 0 st ops = Ok (st1, outs1) /\ urun id_oracle 0 st ops' = Ok (st2, outs2) /\
  u_authorize id_oracle st1 "ann" q_spot = Ok true /\ u_authorize id_oracle st2 "ann" q_spot = Ok false.
Proof.
  set (st := uops_state w102).
  set (ops := [UTAddPrincipal 0 "ann" ["lead"]; UTAssignScopes 0 "ann" ["s1"]]). set (ops' := [UTAssignScopes 0 "ann" ["s1"]; UTAddPrincipal 0 "ann" ["lead"]]).
  exists st, ops, ops', (ufinal (urun id_oracle 0 st ops)), [YUnit; YUnit], (ufinal (urun id_oracle 0 st ops')), [YUnit; YUnit].
  split; [reach_uops w102|]. split; [repeat constructor|]. split.
  - repeat (apply Forall_cons; split); [| |apply Forall_nil; exact I];
      (split; [repeat constructor; apply (bool_decide_unpack _); vm_compute; exact I|]); exists "ann", "acme"; (split; [vm_compute; reflexivity|]);
      split; apply (bool_decide_unpack _); vm_compute; exact I.
  - split; [apply perm_swap|]. split; [uanswered|]. split; [uanswered|]. split; vm_compute; reflexivity.
Qed.
(** The order of two scopes given to a member *)
Definition w102_member : list uop := w102 ++ [UTAddPrincipal 0 "ann" ["lead"]].
Definition q_there : uopts := UOpts (AStr "acme") (AStr "eng") (AStr "s2") (AStr "doc") (AStr "/d GET").
Lemma c102_scopes_refuted : exists st st1 outs1 st2 outs2, ureachable st /\ known st "ann" /\
  urun id_oracle 0 st [UTAssignScopes 0 "ann" ["s1"]; UTAssignScopes 0 "ann" ["s2"]] = Ok (st1, outs1) /\
  urun id_oracle 0 st [UTAssignScopes 0 "ann" ["s2"]; UTAssignScopes 0 "ann" ["s1"]] = Ok (st2, outs2) /\
  u_authorize id_oracle st1 "ann" q_there = Ok true /\ u_authorize id_oracle st2 "ann" q_there = Ok false.
Proof.
  set (st := uops_state w102_member).
  exists st, (ufinal (urun id_oracle 0 st [UTAssignScopes 0 "ann" ["s1"]; UTAssignScopes 0 "ann" ["s2"]])), [YUnit; YUnit],
    (ufinal (urun id_oracle 0 st [UTAssignScopes 0 "ann" ["s2"]; UTAssignScopes 0 "ann" ["s1"]])), [YUnit; YUnit].
  split; [reach_uops w102_member|]. split; [is_known|]. split; [uanswered|]. split; [uanswered|]. split; vm_compute; reflexivity.
Qed.
Definition w102_plain : list uop :=
  [UTAddPrincipal 0 "ann" ["lead"]; UTAddPrincipalInNamespace 0 "ann" "eng" ["worker"]; UAddPrincipalRole "bob" "worker" 0 None (Some "s1") [false]].
Lemma c102_plain_ex : exists st st' outs, ureachable st /\ Forall plain_grant w102_plain /\ rev w102_plain ≡ₚ w102_plain /\
  urun id_oracle 0 st w102_plain = Ok (st', outs) /\ u_authorize id_oracle st' "ann" q_spot = Ok false /\ u_authorize id_oracle st' "bob" (UOpts (AStr "acme") ANil ANil ANil ANil) = Ok true
  /\ length (elements (u_rows st')) = 4.
Proof.
  set (st := uops_state w102). exists st, (ufinal (urun id_oracle 0 st w102_plain)), [YUnit; YUnit; YUnit].
  split; [reach_uops w102|]. split; [repeat constructor|]. split; [symmetry; apply Permutation_rev|]. split; [uanswered|]. split; [vm_compute; reflexivity|].
  split; vm_compute; reflexivity.
Qed.
(** Two people, whose calls alternate in one order and not in the other. *)
Definition w102_ab : list uop :=
  [UTAddPrincipal 0 "ann" ["lead"]; UTAssignScopes 0 "ann" ["s1"]; UTAddPrincipal 0 "bob" ["worker"]; UTAssignScopes 0 "bob" ["s1"; "s2"]].
Definition w102_ba : list uop :=
  [UTAddPrincipal 0 "bob" ["worker"]; UTAddPrincipal 0 "ann" ["lead"]; UTAssignScopes 0 "bob" ["s1"; "s2"]; UTAssignScopes 0 "ann" ["s1"]].
Lemma c102_apart_ex : exists st st' outs, ureachable st /\ Forall grant w102_ab /\ Forall (tidy st) w102_ab /\ w102_ba ≡ₚ w102_ab /\ same_turns st w102_ab w102_ba /\
  urun id_oracle 0 st w102_ab = Ok (st', outs) /\ u_authorize id_oracle st' "ann" q_spot = Ok true.
Proof.
  set (st := uops_state w102). exists st, (ufinal (urun id_oracle 0 st w102_ab)), [YUnit; YUnit; YUnit; YUnit].
  split; [reach_uops w102|]. split; [repeat constructor|]. split; [|split; [|split; [|split; [uanswered|vm_compute; reflexivity]]]].
  - repeat (apply Forall_cons; split); [| | | |apply Forall_nil; exact I]; (split; [repeat constructor; apply (bool_decide_unpack _); vm_compute; exact I|]);
      [exists "ann", "acme"|exists "ann", "acme"|exists "bob", "acme"|exists "bob", "acme"]; (split; [vm_compute; reflexivity|]);
      split; apply (bool_decide_unpack _); vm_compute; exact I.
  - unfold w102_ba, w102_ab. etransitivity; [apply perm_swap|]. apply perm_skip. etransitivity; [apply perm_skip, perm_swap|]. apply perm_swap.
  - assert (Ea : forall x, x = UTAddPrincipal 0 "ann" ["lead"] \/ x = UTAssignScopes 0 "ann" ["s1"] -> whose st x = Some ("ann", "acme"))
      by (intros x [->| ->]; vm_compute; reflexivity).
    assert (Eb : forall x, x = UTAddPrincipal 0 "bob" ["worker"] \/ x = UTAssignScopes 0 "bob" ["s1"; "s2"] -> whose st x = Some ("bob", "acme"))
      by (intros x [->| ->]; vm_compute; reflexivity).
    generalize dependent st. intros st Ea Eb k. unfold w102_ab, w102_ba.
    destruct (decide (k = ("ann", "acme"))) as [->|Na]; [|destruct (decide (k = ("bob", "acme"))) as [->|Nb]];
    repeat (first [rewrite filter_cons_True by (first [apply Ea; tauto|apply Eb; tauto])
      |rewrite filter_cons_False by (first [rewrite Ea by tauto; congruence|rewrite Eb by tauto; congruence])]); reflexivity.
Qed.
