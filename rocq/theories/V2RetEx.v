(** Programs for C116 and C117. *)
From Verif Require Export V2RetSpec.
From Verif Require Import V2Ex V2CallsEx V2CallsRet RoleHas.
From Verif Require Import V2RetSpec.

Notation calls ops := (zip ops (vops_outs ops)).
Definition outcome {A} (x : res A) : string := match x with Ok _ => "returns" | Panic => "panics" | Hang => "hangs" end.
Lemma never_removed h : Forall (fun x => match x with VRemovePR _ => False | _ => True end) h.*1 -> ~ nil_left h.
Proof.
  intros F (h1 & c & r & h2 & -> & _). rewrite Forall_forall in F. apply (F (VRemovePR c)), elem_of_list_fmap. exists (VRemovePR c, r). split; [reflexivity|].
  apply elem_of_app. right. left.
Qed.
Lemma not_removed_checked h : forallb (fun x => match x with VRemovePR _ => false | _ => true end) h.*1 = true -> ~ nil_left h.
Proof. intros F. apply never_removed. apply (forall_check _ _ _) with (2 := F). intros x. destruct x; intros E; try exact I. discriminate. Qed.
(** Every permission that a request is compared with was given to a role. *)
Definition perms_given (h : history) : list string := h.*1 ≫= (fun x => match x with VRoleAdd _ ps => perm_string <$> ps | _ => [] end).
Lemma can_given h l p : role_can h l p -> p ∈ perms_given h.
Proof.
  unfold role_can, latest. intros E%last_Some_elem_of. apply elem_of_list_omap in E as ([x r] & Hx & E). cbn in E. unfold perms_given. apply elem_of_list_bind. exists x.
  split; [|apply elem_of_list_fmap; exists (x, r); split; [reflexivity|exact Hx]].
  destruct x; try discriminate; match type of E with (if decide ?P then _ else _) = _ => destruct (decide P) as [[_ Hp]|] end; try discriminate. exact Hp.
Qed.
Lemma compared_given h now q p : compared h now q p -> p ∈ perms_given h.
Proof.
  intros (_ & t & n & _ & _ & [(pr & _ & _ & r & l & _ & _ & Hc)|[(pr & _ & _ & r & l & _ & _ & Hc) _]]); exact (can_given _ _ _ Hc).
Qed.
Lemma decide_checked h now q : forallb (fun p => match match_resource (res_act (q_resource q) (q_action q)) p with Hang => false | _ => true end) (perms_given h) = true ->
  permissions_decide h now q.
Proof.
  intros F p C L. rewrite forallb_forall in F. specialize (F p (proj1 (elem_of_list_In _ _) (compared_given _ _ _ _ C))). cbn in F.
  apply match_resource_hang in L. rewrite L in F. discriminate.
Qed.

(** The program of examples/v2.go, then the assignment of user1 is taken back (it was given before that of user2). *)
Definition take_back (user : string) : vop := VRemovePR (PRole user "" "" "" "" None false).
Definition w116_ops : list vop := w105_ops ++ [take_back "user1"].
Definition w116_setup : list vop := [take_back "user2"; take_back ""; VAddPR [0]; VAddChildRole "Editor" ["Admin"]; VClearExpiry 1; VAddTenant 0].
Definition w116_requests : list request :=
  [Req "user2" "tenant-a" "marketing" "campaign-management" "post" "publish"; Req "user2" "" "" "" "post" "publish"; Req "eve" "tenant-a" "" "" "post" "publish";
   Req "user2" "tenant-b" "" "" "post" "publish"; Req "user2" "tenant-a" "sales" "" "post" "publish"].
Lemma w116_nil : nil_left (calls w116_ops).
Proof.
  exists (calls w105_ops), (PRole "user1" "" "" "" "" None false), (WErr None), []. split; [vm_compute; reflexivity|]. split.
  - exists 0, 1, 0, 1. split; [apply Nat.lt_0_1|]. split; [vm_compute; reflexivity|]. split; [vm_compute; reflexivity|]. split.
    + exists (PRole "user1" "tenant-a" "" "" "Admin" None true). split; [vm_compute; reflexivity|]. split_and!; first [left; reflexivity|right; reflexivity].
    + intros (pr & E & M & _). assert (E' : assignments_made (calls w105_ops) !! 1 = Some (PRole "user2" "tenant-a" "campaign-management" "marketing" "Editor" None false)) by (vm_compute; reflexivity).
      rewrite E' in E. injection E as <-. destruct M as [M|M]; discriminate M.
  - intros c r H. destruct (not_elem_of_nil _ H).
Qed.
Lemma pointers_checked h l : forallb (fun x => match x with
    | VAddPR ls => forallb (fun l => Nat.ltb l (length (assignments_made h))) ls
    | VClearExpiry l => Nat.ltb l (length (assignments_made h))
    | VAddTenant t => Nat.ltb t (length (tenants_made h))
    | VRemovePR _ | VAddChildRole _ _ => true
    | _ => false
    end) l = true -> Forall (pointers_made h) l.
Proof.
  apply forall_check. intros x. destruct x; try discriminate; cbn [pointers_made]; try (intros; exact I); try (intros E; apply Nat.ltb_lt; exact E).
  apply forall_check. intros y E. apply Nat.ltb_lt. exact E.
Qed.
Lemma c116_ex : vrun id_oracle 0 v2_init w116_ops = Ok (vops_state w116_ops, vops_outs w116_ops) /\ own_ids (calls w116_ops) /\ nil_left (calls w116_ops)
  /\ Forall (pointers_made (calls w116_ops)) w116_setup
  /\ map (fun x => outcome (vstep id_oracle (vops_state w116_ops) x)) w116_setup = ["panics"; "returns"; "returns"; "returns"; "returns"; "returns"]
  /\ map (fun q => outcome (v2_authorize id_oracle (vops_state w116_ops) 0 q)) w116_requests = ["panics"; "panics"; "panics"; "returns"; "returns"]
  /\ map (fun q => outcome (v2_can id_oracle (vops_state w116_ops) 0 q ["Editor"])) w116_requests = ["panics"; "panics"; "panics"; "returns"; "returns"].
Proof.
  split; [apply vrun_vruns; vm_compute; reflexivity|]. split; [apply (bool_decide_unpack _); vm_compute; exact I|]. split; [exact w116_nil|].
  split; [apply pointers_checked; vm_compute; reflexivity|]. split; [vm_compute; reflexivity|]. split; vm_compute; reflexivity.
Qed.

(** ** C117 *)
Lemma out_panic {A} (x : res A) : outcome x = "panics" -> x = Panic.
Proof. destruct x; cbn; congruence. Qed.
Lemma out_hang {A} (x : res A) : outcome x = "hangs" -> x = Hang.
Proof. destruct x; cbn; congruence. Qed.
Definition w116_silent : Forall (fun x => ~ decides x) w116_ops.
Proof.
  apply (forall_check (fun x => match x with VAuthorize _ _ | VCan _ _ _ => false | _ => true end)); [|vm_compute; reflexivity]. intros x. destruct x; intros E H; try contradiction; discriminate.
Qed.
Lemma c117_nil : exists o ops st outs now q, vrun o 0 v2_init ops = Ok (st, outs) /\ Forall (fun x => ~ decides x) ops /\ own_ids (zip ops outs)
  /\ permissions_decide (zip ops outs) now q /\ v2_authorize o st now q = Panic.
Proof.
  exists id_oracle, w116_ops, (vops_state w116_ops), (vops_outs w116_ops), 0%Z, (Req "user2" "" "" "" "post" "publish").
  split; [apply vrun_vruns; vm_compute; reflexivity|]. split; [exact w116_silent|]. split; [apply (bool_decide_unpack _); vm_compute; exact I|].
  split; [apply decide_checked; vm_compute; reflexivity|apply out_panic; vm_compute; reflexivity].
Qed.
Definition w117_star : list vop :=
  [VNewRole "reader"; VRoleAdd 0 [("/doc/*", "GET")]; VAddRoles [0]; VNewTenant "acme" (Some "ns"); VAddTenant 0; VNewPR (PRole "ann" "acme" "" "" "reader" None false); VAddPR [0]].
Lemma w117_silent : Forall (fun x => ~ decides x) w117_star.
Proof.
  apply (forall_check (fun x => match x with VAuthorize _ _ | VCan _ _ _ => false | _ => true end)); [|vm_compute; reflexivity]. intros x. destruct x; intros E H; try contradiction; discriminate.
Qed.
Lemma c117_star : exists o ops st outs now q, vrun o 0 v2_init ops = Ok (st, outs) /\ Forall (fun x => ~ decides x) ops /\ own_ids (zip ops outs)
  /\ ~ nil_left (zip ops outs) /\ v2_authorize o st now q = Hang.
Proof.
  exists id_oracle, w117_star, (vops_state w117_star), (vops_outs w117_star), 0%Z, (Req "ann" "" "" "" "/doc/1" "GET").
  split; [apply vrun_vruns; vm_compute; reflexivity|]. split; [exact w117_silent|]. split; [apply (bool_decide_unpack _); vm_compute; exact I|].
  split; [apply not_removed_checked; vm_compute; reflexivity|apply out_hang; vm_compute; reflexivity].
Qed.
(** Everything taken back and user2 assigned again: answers as before. *)
Definition w117_ops : list vop := w116_ops ++ [take_back ""; VAddPR [1]].
Lemma w117_ops_silent : Forall (fun x => ~ decides x) w117_ops.
Proof.
  apply (forall_check (fun x => match x with VAuthorize _ _ | VCan _ _ _ => false | _ => true end)); [|vm_compute; reflexivity]. intros x. destruct x; intros E H; try contradiction; discriminate.
Qed.
Definition w117_requests : list (request * bool) :=
  [(Req "user2" "tenant-a" "marketing" "campaign-management" "post" "publish", true); (Req "user1" "tenant-a" "" "" "user/1" "create", false); (Req "eve" "" "" "" "post" "publish", false)].
Lemma c117_ex : vrun id_oracle 0 v2_init (w117_ops ++ []) = Ok (vops_state (w117_ops ++ []), vops_outs (w117_ops ++ [])) /\ Forall (fun x => ~ decides x) w117_ops
  /\ own_ids (calls (w117_ops ++ [])) /\ ~ nil_left (calls (w117_ops ++ [])) /\ Forall (fun qb => permissions_decide (calls (w117_ops ++ [])) 0 qb.1) w117_requests
  /\ Forall (fun qb => exists st', v2_authorize rev_oracle (vops_state (w117_ops ++ [])) 0 qb.1 = Ok (st', qb.2)) w117_requests.
Proof.
  split; [apply vrun_vruns; vm_compute; reflexivity|]. split; [exact w117_ops_silent|]. split; [apply (bool_decide_unpack _); vm_compute; exact I|]. split.
  - assert (H : vrun id_oracle 0 v2_init (w117_ops ++ []) = Ok (vops_state (w117_ops ++ []), vops_outs (w117_ops ++ []))) by (apply vrun_vruns; vm_compute; reflexivity).
    apply told_all in H. destruct (nil_dec _ _ H) as [[_ B]|[N _]]; [|exact N]. exfalso.
    assert (E : forallb (fun p => match p with None => false | _ => true end) (w_assign (vops_state (w117_ops ++ []))) = true) by (vm_compute; reflexivity).
    rewrite forallb_forall in E. discriminate (E None (proj1 (elem_of_list_In _ _) B)).
  - split.
    + apply (forall_check (fun qb : request * bool => forallb (fun p => match match_resource (res_act (q_resource qb.1) (q_action qb.1)) p with Hang => false | _ => true end) (perms_given (calls (w117_ops ++ [])))));
        [|vm_compute; reflexivity]. intros qb. apply decide_checked.
    + apply w105_answers. vm_compute. reflexivity.
Qed.
