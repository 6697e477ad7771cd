(** The program of examples/v2.go. *)
From Verif Require Export V2CallsSpec.
From Verif Require Import V2Ex V2Hist.

Definition w105_ops : list vop :=
  [VNewRole "Admin"; VRoleAdd 0 [("user/:id", "create"); ("user", "delete")]; VNewRole "Editor"; VRoleAdd 1 [("post", "edit"); ("post", "publish")];
   VAddChildRole "Admin" ["Editor"]; VAddRoles [0; 1];
   VNewTenant "tenant-a" (Some "default-namespace"); VTenantNamespace 0 "marketing" false; VTenantNamespace 0 "engineering" false; VAddTenant 0;
   VTenantScopes 0 "default-namespace" ["default-scope"]; VTenantScopes 0 "marketing" ["campaign-management"];
   VNewPR (PRole "user1" "tenant-a" "" "" "Admin" None true); VNewPR (PRole "user2" "tenant-a" "campaign-management" "marketing" "Editor" None false); VAddPR [0; 1]].
Definition w105_requests : list (request * bool) :=
  [(Req "user1" "tenant-a" "" "" "user/1" "create", true);
   (Req "user2" "tenant-a" "marketing" "campaign-management" "post" "publish", true);
   (Req "user2" "tenant-a" "engineering" "engineering-scope" "post" "publish", false);
   (Req "user1" "tenant-a" "" "" "post" "publish", true);
   (Req "user1" "" "" "" "post" "publish", true)].
Definition w105_asked : list vop := [VAuthorize 0 (Req "user1" "tenant-a" "" "" "user/1" "create"); VNewPR (PRole "user3" "tenant-a" "" "" "Editor" (Some 5%Z) false); VAddPR [2];
   VNewPR (PRole "user4" "tenant-a" "" "" "Editor" None false); VAddPR [3]; VRemovePR (PRole "user4" "" "" "" "" None false)].
Lemma forall_check {A} (f : A -> bool) (P : A -> Prop) l : (forall x, f x = true -> P x) -> forallb f l = true -> Forall P l.
Proof. intros H F. apply Forall_forall. intros x Hx. apply H. rewrite forallb_forall in F. apply F, elem_of_list_In. exact Hx. Qed.
Lemma w105_silent : Forall (fun x => ~ decides x) w105_ops.
Proof.
  apply (forall_check (fun x => match x with VAuthorize _ _ | VCan _ _ _ => false | _ => true end)); [|vm_compute; reflexivity]. intros x. destruct x; intros E H; try contradiction; discriminate.
Qed.
Lemma w105_later : Forall (fun x => ~ changes_roles x /\ ~ is_can x) w105_asked.
Proof.
  apply (forall_check (fun x => match x with VRoleAdd _ _ | VRoleRemove _ _ | VAddRoles _ | VAddChildRole _ _ | VCan _ _ _ => false | _ => true end)); [|vm_compute; reflexivity].
  intros x. destruct x; intros E; try discriminate; split; intros H; contradiction.
Qed.
Lemma w105_answers o st l : forallb (fun qb => match vanswer (v2_authorize o st 0 qb.1) with Some b => Bool.eqb b qb.2 | None => false end) l = true ->
  Forall (fun qb => exists st', v2_authorize o st 0 qb.1 = Ok (st', qb.2)) l.
Proof.
  intros F. apply (forall_check _ _ l) with (2 := F). intros [q b]. cbn [fst snd]. destruct (vanswer (v2_authorize o st 0 q)) as [b'|] eqn:E; [|discriminate].
  intros ->%Bool.eqb_prop. exists (vfinal (v2_authorize o st 0 q)). apply vanswer_ok. exact E.
Qed.
Lemma c105_ex : vrun id_oracle 0 v2_init (w105_ops ++ w105_asked) = Ok (vops_state (w105_ops ++ w105_asked), vops_outs (w105_ops ++ w105_asked))
  /\ Forall (fun x => ~ decides x) w105_ops /\ Forall (fun x => ~ changes_roles x /\ ~ is_can x) w105_asked
  /\ own_ids (zip (w105_ops ++ w105_asked) (vops_outs (w105_ops ++ w105_asked)))
  /\ Forall (fun qb => exists st', v2_authorize rev_oracle (vops_state (w105_ops ++ w105_asked)) 0 qb.1 = Ok (st', qb.2)) w105_requests
  /\ (exists st', v2_authorize rev_oracle (vops_state (w105_ops ++ w105_asked)) 0 (Req "user3" "tenant-a" "" "" "post" "edit") = Ok (st', true))
  /\ (exists st', v2_authorize rev_oracle (vops_state (w105_ops ++ w105_asked)) 6 (Req "user3" "tenant-a" "" "" "post" "edit") = Ok (st', false))
  /\ exists st', v2_authorize rev_oracle (vops_state (w105_ops ++ w105_asked)) 0 (Req "user4" "tenant-a" "" "" "post" "edit") = Ok (st', false).
Proof.
  split; [apply vrun_vruns; vm_compute; reflexivity|].  split; [exact w105_silent|]. split; [exact w105_later|].
  split; [apply (bool_decide_unpack _); vm_compute; exact I|]. split; [apply w105_answers; vm_compute; reflexivity|]. split; [|split]; eexists; vanswered.
Qed.
Lemma c105_can_ex : vrun id_oracle 0 v2_init (w105_ops ++ []) = Ok (vops_state (w105_ops ++ []), vops_outs (w105_ops ++ []))
  /\ Forall (fun x => ~ decides x) w105_ops /\ own_ids (zip (w105_ops ++ []) (vops_outs (w105_ops ++ [])))
  /\ (exists st', v2_can rev_oracle (vops_state (w105_ops ++ [])) 0 (Req "user1" "" "" "" "" "") ["Editor"] = Ok (st', true))
  /\ exists st', v2_can rev_oracle (vops_state (w105_ops ++ [])) 0 (Req "user2" "" "marketing" "" "" "") ["Admin"] = Ok (st', false).
Proof.
  split; [apply vrun_vruns; vm_compute; reflexivity|].  split; [exact w105_silent|].
  split; [apply (bool_decide_unpack _); vm_compute; exact I|]. split; eexists; vanswered.
Qed.
