(** Concrete v2 histories: witnesses and examples. *)
From Verif Require Export V2Hist.

Definition vops_state (ops : list vop) : vstate :=
  match vrun id_oracle 0 v2_init ops with Ok (st, _) => st | _ => v2_init end.
Definition vops_outs (ops : list vop) : list vout :=
  match vrun id_oracle 0 v2_init ops with Ok (_, outs) => outs | _ => [] end.
Definition vruns (ops : list vop) : bool :=
  match vrun id_oracle 0 v2_init ops with Ok _ => true | _ => false end.
Lemma vrun_vruns ops :
  vruns ops = true -> vrun id_oracle 0 v2_init ops = Ok (vops_state ops, vops_outs ops).
Proof. unfold vruns, vops_state, vops_outs. by destruct (vrun id_oracle 0 v2_init ops) as [[st outs]| |]. Qed.
Lemma vreachable_vruns ops : vruns ops = true -> vreachable (vops_state ops).
Proof. intros H%vrun_vruns. by exists id_oracle, ops, (vops_outs ops). Qed.
Definition vfinal {A} (x : res (vstate * A)) : vstate := match x with Ok sa => sa.1 | _ => v2_init end.
Definition vanswer {A} (x : res (vstate * A)) : option A := match x with Ok sa => Some sa.2 | _ => None end.
Lemma vanswer_ok {A} (x : res (vstate * A)) a : vanswer x = Some a -> x = Ok (vfinal x, a).
Proof. destruct x as [[st a']| |]; simpl; congruence. Qed.
Ltac reach_vops ops := apply (vreachable_vruns ops); vm_compute; reflexivity.
Ltac vanswered := apply vanswer_ok; vm_compute; reflexivity.
Lemma nodup_distinct st : NoDup (vt_id <$> w_tenants st) -> distinct_ids st.
Proof.
  intros Hn a b ta tb Ha Hb E. eapply NoDup_lookup; [exact Hn| |].
  - rewrite list_lookup_fmap. unfold tenant_at in Ha. by rewrite Ha.
  - rewrite list_lookup_fmap. unfold tenant_at in Hb. rewrite Hb. simpl. by rewrite E.
Qed.
Ltac distinct := apply nodup_distinct; apply (bool_decide_unpack _); vm_compute; exact I.

(** One tenant, one role. *)
Definition w_base : list vop :=
  [VNewRole "reader"; VRoleAdd 0 [("/doc", "GET")]; VAddRoles [0];
   VNewTenant "acme" (Some "ns"); VAddTenant 0;
   VNewPR (PRole "ann" "acme" "" "" "reader" None false); VAddPR [0]].
Definition q_doc : request := Req "ann" "acme" "" "" "/doc" "GET".
Definition q_new : request := Req "ann" "acme" "" "" "/new" "GET".

Lemma v2_denied o st now q st' : v2_wf st -> distinct_ids st ->
  v2_authorize o st now q = Ok (st', false) -> ~ v2_allowed st now q.
Proof. intros Hw Hd H Ha. destruct (v2_authorize_exact _ _ _ _ _ _ Hw Hd H) as [Hi _]. by apply Hi in Ha. Qed.
Lemma v2_granted o st now q st' : v2_wf st -> distinct_ids st ->
  v2_authorize o st now q = Ok (st', true) -> v2_allowed st now q.
Proof. intros Hw Hd H. destruct (v2_authorize_exact _ _ _ _ _ _ Hw Hd H) as [Hi _]. by apply Hi. Qed.

(** ** C30 *)
Definition w30_removed : list vop := w_base ++ [VAuthorize 0 q_doc; VRoleRemove 0 [("/doc", "GET")]].
Definition w30_added : list vop := w_base ++ [VAuthorize 0 q_doc; VRoleAdd 0 [("/new", "GET")]].
Lemma c30_refuted :
  (exists st st', vreachable st /\ distinct_ids st /\ ~ v2_allowed (forget st) 0 q_doc /\
     v2_authorize id_oracle st 0 q_doc = Ok (st', true)) /\
  (exists st st', vreachable st /\ distinct_ids st /\ v2_allowed (forget st) 0 q_new /\
     v2_authorize id_oracle st 0 q_new = Ok (st', false)).
Proof.
  split.
  - exists (vops_state w30_removed), (vfinal (v2_authorize id_oracle (vops_state w30_removed) 0 q_doc)).
    split; [reach_vops w30_removed|]. split; [distinct|]. split; [|vanswered].
    apply (v2_denied id_oracle _ _ _ (vfinal (v2_authorize id_oracle (forget (vops_state w30_removed)) 0 q_doc))).
    + apply forget_wf, vreachable_wf. reach_vops w30_removed.
    + distinct.
    + vanswered.
  - exists (vops_state w30_added), (vfinal (v2_authorize id_oracle (vops_state w30_added) 0 q_new)).
    split; [reach_vops w30_added|]. split; [distinct|]. split; [|vanswered].
    apply (v2_granted id_oracle _ _ _ (vfinal (v2_authorize id_oracle (forget (vops_state w30_added)) 0 q_new))).
    + apply forget_wf, vreachable_wf. reach_vops w30_added.
    + distinct.
    + vanswered.
Qed.
Lemma c30_ex : exists st st' st'', vreachable st /\ distinct_ids st /\
  (forall r, d_resolved (w_dag st) !! r = None) /\
  v2_authorize id_oracle st 0 q_doc = Ok (st', true) /\ v2_authorize id_oracle st 0 q_new = Ok (st'', false).
Proof.
  exists (vops_state w_base), (vfinal (v2_authorize id_oracle (vops_state w_base) 0 q_doc)),
    (vfinal (v2_authorize id_oracle (vops_state w_base) 0 q_new)).
  split; [reach_vops w_base|]. split; [distinct|]. split; [|split; vanswered].
  intros r. assert (d_resolved (w_dag (vops_state w_base)) = ∅) as ->; [vm_compute; reflexivity|apply lookup_empty].
Qed.

(** ** C33 *)
Definition w33 : list vop :=
  [VNewRole "reader"; VRoleAdd 0 [("/doc", "GET")]; VNewRole "lead"; VAddRoles [0; 1];
   VAddChildRole "lead" ["reader"];
   VNewTenant "acme" (Some "ns"); VAddTenant 0;
   VNewPR (PRole "ann" "acme" "" "" "lead" None false); VAddPR [0]].
Lemma c33_refuted :
  exists st st1 st2 st3 st4 st5 st6, vreachable st /\ distinct_ids st /\
    v2_authorize id_oracle st 0 q_doc = Ok (st1, true) /\
    v2_can id_oracle st 0 q_doc ["reader"] = Ok (st2, true) /\
    v2_authorize id_oracle st2 0 q_doc = Ok (st3, false) /\
    v2_can id_oracle st1 0 q_doc ["reader"] = Ok (st4, false) /\
    v2_can id_oracle st 0 q_doc ["/doc GET"] = Ok (st5, false) /\
    v2_can id_oracle st1 0 q_doc ["/doc GET"] = Ok (st6, true).
Proof.
  set (st := vops_state w33).
  exists st, (vfinal (v2_authorize id_oracle st 0 q_doc)), (vfinal (v2_can id_oracle st 0 q_doc ["reader"])),
    (vfinal (v2_authorize id_oracle (vfinal (v2_can id_oracle st 0 q_doc ["reader"])) 0 q_doc)),
    (vfinal (v2_can id_oracle (vfinal (v2_authorize id_oracle st 0 q_doc)) 0 q_doc ["reader"])),
    (vfinal (v2_can id_oracle st 0 q_doc ["/doc GET"])),
    (vfinal (v2_can id_oracle (vfinal (v2_authorize id_oracle st 0 q_doc)) 0 q_doc ["/doc GET"])).
  unfold st. split; [reach_vops w33|]. split; [distinct|].
  split_and!; vanswered.
Qed.
(** A role whose name is a pattern: after Can, Authorize grants what the role does not contain. *)
Definition w33_star : list vop :=
  [VNewRole "*"; VRoleAdd 0 [("/doc", "GET")]; VAddRoles [0];
   VNewTenant "acme" (Some "ns"); VAddTenant 0;
   VNewPR (PRole "ann" "acme" "" "" "*" None false); VAddPR [0]].
Definition q_secret : request := Req "ann" "acme" "" "" "/secret" "DELETE".
Lemma c33_escalation : exists st st1 st2 st3, vreachable st /\ distinct_ids st /\
    v2_authorize id_oracle st 0 q_secret = Ok (st1, false) /\
    v2_can id_oracle st 0 q_secret ["*"] = Ok (st2, true) /\
    v2_authorize id_oracle st2 0 q_secret = Ok (st3, true).
Proof.
  set (st := vops_state w33_star).
  exists st, (vfinal (v2_authorize id_oracle st 0 q_secret)), (vfinal (v2_can id_oracle st 0 q_secret ["*"])),
    (vfinal (v2_authorize id_oracle (vfinal (v2_can id_oracle st 0 q_secret ["*"])) 0 q_secret)).
  unfold st. split; [reach_vops w33_star|]. split; [distinct|]. split_and!; vanswered.
Qed.
Lemma c33_ex : exists st st1 st2 st3, vreachable st /\ distinct_ids st /\
  d_resolved (w_dag st) !! "lead" <> None /\
  v2_can id_oracle st 0 q_doc ["lead"] = Ok (st1, true) /\
  v2_authorize id_oracle st 0 q_doc = Ok (st2, true) /\
  v2_authorize id_oracle st1 0 q_doc = Ok (st3, true).
Proof.
  set (ops := w33 ++ [VAuthorize 0 q_doc]). set (st := vops_state ops).
  exists st, (vfinal (v2_can id_oracle st 0 q_doc ["lead"])), (vfinal (v2_authorize id_oracle st 0 q_doc)),
    (vfinal (v2_authorize id_oracle (vfinal (v2_can id_oracle st 0 q_doc ["lead"])) 0 q_doc)).
  unfold st, ops. split; [reach_vops (w33 ++ [VAuthorize 0 q_doc])|]. split; [distinct|].
  split; [|split_and!; vanswered]. vm_compute. discriminate.
Qed.

(** ** C34 *)
Definition w34 : list vop :=
  [VNewRole "reader"; VAddRoles [0]; VNewTenant "acme" (Some "ns"); VTenantScopes 0 "ns" ["s1"; "s2"]; VAddTenant 0;
   VNewPR (PRole "ann" "acme" "s1" "ns" "reader" None false); VAddPR [0]].
Definition q_s2 : request := Req "ann" "acme" "ns" "s2" "/doc" "GET".
Lemma c34_refuted : exists st st', vreachable st /\ distinct_ids st /\
  (forall pr, assigned st pr -> pr_scope pr = "s1") /\ q_scope q_s2 = "s2" /\
  v2_can id_oracle st 0 q_s2 ["reader"] = Ok (st', true).
Proof.
  exists (vops_state w34), (vfinal (v2_can id_oracle (vops_state w34) 0 q_s2 ["reader"])).
  split; [reach_vops w34|]. split; [distinct|]. split; [|split; [done|vanswered]].
  intros pr (l & Hl & Hpr).
  assert (w_assign (vops_state w34) = [Some 0]) as Ha by (vm_compute; reflexivity). rewrite Ha in Hl.
  assert (w_prs (vops_state w34) = [PRole "ann" "acme" "s1" "ns" "reader" None false]) as Hp by (vm_compute; reflexivity).
  rewrite Hp in Hpr. apply elem_of_list_singleton in Hl as [= ->]. injection Hpr as <-. done.
Qed.

(** ** C35, C38: tenant "acme" with child tenant "sub" *)
Definition w_tree (prs : list prole) : list vop :=
  [VNewRole "reader"; VRoleAdd 0 [("/doc", "GET")]; VNewRole "boss"; VAddRoles [0; 1];
   VNewTenant "acme" (Some "ns"); VNewTenant "sub" (Some "ns"); VTenantChildren 0 [1];
   VAddTenant 0; VAddTenant 1] ++ (VNewPR <$> prs).
Definition boss_acme (e : option Z) : prole := PRole "ann" "acme" "" "" "boss" e true.
Definition reader_sub : prole := PRole "ann" "sub" "" "" "reader" None false.
Definition w35_prs : list prole := [boss_acme (Some 5%Z); reader_sub].
Definition w35_with : list vop := w_tree w35_prs ++ [VAddPR [0; 1]].
Definition w35_without : list vop := w_tree w35_prs ++ [VAddPR [1]].
Lemma add_pr_setup st ls1 ls2 st1 st2 :
  v2_add_principal_role st ls1 = Ok st1 -> v2_add_principal_role st ls2 = Ok st2 -> same_setup st1 st2.
Proof.
  intros H1%v2_add_principal_role_inv H2%v2_add_principal_role_inv. split; naive_solver congruence.
Qed.
Lemma vrun_last o i st ops x st' outs st1 outs1 :
  vrun o i st ops = Ok (st1, outs1) -> vrun o i st (ops ++ [x]) = Ok (st', outs) ->
  exists out, vstep (sub o (i + length ops)) st1 x = Ok (st', out).
Proof.
  intros H1 H2. apply vrun_app in H2 as (st2 & o2 & o3 & H2 & H3). rewrite H1 in H2. injection H2 as <- <-.
  simpl in H3. apply rbind_inv in H3 as ([st3 o4] & H3 & H4). injection H4 as <- <-. by exists o4.
Qed.
Lemma setup_pair ops ls1 ls2 :
  vruns ops = true -> vruns (ops ++ [VAddPR ls1]) = true -> vruns (ops ++ [VAddPR ls2]) = true ->
  same_setup (vops_state (ops ++ [VAddPR ls1])) (vops_state (ops ++ [VAddPR ls2])).
Proof.
  intros H0%vrun_vruns H1%vrun_vruns H2%vrun_vruns.
  destruct (vrun_last _ _ _ _ _ _ _ _ _ H0 H1) as [o1 Hs1]. destruct (vrun_last _ _ _ _ _ _ _ _ _ H0 H2) as [o2 Hs2].
  simpl in Hs1, Hs2. apply rbind_inv in Hs1 as (st1 & Hs1 & [= -> _]). apply rbind_inv in Hs2 as (st2 & Hs2 & [= -> _]).
  by eapply add_pr_setup.
Qed.
Lemma assigned_list st prs ls :
  w_prs st = prs -> w_assign st = Some <$> ls ->
  forall pr, assigned st pr <-> exists l, l ∈ ls /\ prs !! l = Some pr.
Proof.
  intros H1 H2 pr. unfold assigned. rewrite H1, H2. split.
  - intros (l & (l' & [= <-] & Hl)%elem_of_list_fmap & Hpr). by exists l.
  - intros (l & Hl & Hpr). exists l. split; [|done]. apply elem_of_list_fmap. by exists l.
Qed.
Lemma c35_refuted : exists st1 st2 pr st1' st2', vreachable st1 /\ vreachable st2 /\ distinct_ids st1 /\
  same_setup st1 st2 /\ expired 10 pr /\
  (forall pr', assigned st1 pr' <-> assigned st2 pr' \/ pr' = pr) /\
  v2_authorize id_oracle st1 10 q_doc = Ok (st1', true) /\
  v2_authorize id_oracle st2 10 q_doc = Ok (st2', false).
Proof.
  exists (vops_state w35_with), (vops_state w35_without), (boss_acme (Some 5%Z)),
    (vfinal (v2_authorize id_oracle (vops_state w35_with) 10 q_doc)),
    (vfinal (v2_authorize id_oracle (vops_state w35_without) 10 q_doc)).
  split; [reach_vops w35_with|]. split; [reach_vops w35_without|]. split; [distinct|].
  split; [apply setup_pair; vm_compute; reflexivity|]. split; [exists 5%Z; split; [done|lia]|].
  split; [|split; vanswered]. intros pr'.
  rewrite (assigned_list (vops_state w35_with) w35_prs [0; 1]) by (vm_compute; reflexivity).
  rewrite (assigned_list (vops_state w35_without) w35_prs [1]) by (vm_compute; reflexivity).
  split.
  - intros (l & [->|[->|?%elem_of_nil]%elem_of_cons]%elem_of_cons & Hl); [| |done]; simpl in Hl; injection Hl as <-.
    + by right.
    + left. exists 1. split; [by left|done].
  - intros [(l & ->%elem_of_list_singleton & Hl)| ->].
    + exists 1. split; [right; left|done].
    + exists 0. split; [left|done].
Qed.
Lemma c35_ex : exists st1 st2 st1' st2', vreachable st1 /\ vreachable st2 /\ distinct_ids st1 /\
  same_setup st1 st2 /\ 
  (forall pr, assigned st1 pr <-> assigned st2 pr \/ pr = PRole "ann" "acme" "" "" "boss" (Some 5%Z) false) /\
  v2_authorize id_oracle st1 10 (Req "ann" "sub" "" "" "/doc" "GET") = Ok (st1', true) /\
  v2_authorize id_oracle st2 10 (Req "ann" "sub" "" "" "/doc" "GET") = Ok (st2', true).
Proof.
  set (prs := [PRole "ann" "acme" "" "" "boss" (Some 5%Z) false; reader_sub]).
  set (q := Req "ann" "sub" "" "" "/doc" "GET").
  exists (vops_state (w_tree prs ++ [VAddPR [0; 1]])), (vops_state (w_tree prs ++ [VAddPR [1]])),
    (vfinal (v2_authorize id_oracle (vops_state (w_tree prs ++ [VAddPR [0; 1]])) 10 q)),
    (vfinal (v2_authorize id_oracle (vops_state (w_tree prs ++ [VAddPR [1]])) 10 q)).
  split; [reach_vops (w_tree prs ++ [VAddPR [0; 1]])|]. split; [reach_vops (w_tree prs ++ [VAddPR [1]])|].
  split; [distinct|]. split; [apply setup_pair; vm_compute; reflexivity|].
  split; [|unfold q, prs; split; vanswered]. intros pr'.
  rewrite (assigned_list (vops_state (w_tree prs ++ [VAddPR [0; 1]])) prs [0; 1]) by (vm_compute; reflexivity).
  rewrite (assigned_list (vops_state (w_tree prs ++ [VAddPR [1]])) prs [1]) by (vm_compute; reflexivity).
  split.
  - intros (l & [->|[->|?%elem_of_nil]%elem_of_cons]%elem_of_cons & Hl); [| |done]; simpl in Hl; injection Hl as <-.
    + by right.
    + left. exists 1. split; [by left|done].
  - intros [(l & ->%elem_of_list_singleton & Hl)| ->].
    + exists 1. split; [right; left|done].
    + exists 0. split; [left|done].
Qed.

(** ** C36, C40, C43 *)
Lemma vreachable_remove st t st' e : vreachable st -> v2_remove_principal_role st t = Ok (st', e) -> vreachable st'.
Proof.
  intros (o & ops & outs & Hr) H. exists o, (ops ++ [VRemovePR t]), (outs ++ [WErr e]).
  assert (forall i st0 outs0, vrun o i st0 ops = Ok (st, outs0) ->
    vrun o i st0 (ops ++ [VRemovePR t]) = Ok (st', outs0 ++ [WErr e])) as Happ.
  { clear Hr. induction ops as [|x ops IH]; intros i st0 outs0.
    - intros [= -> <-]. simpl. by rewrite H.
    - simpl. intros ([st1 o1] & H1 & ([st2 o2] & H2 & [= -> <-])%rbind_inv)%rbind_inv.
      rewrite H1. simpl. simpl in H2. by rewrite (IH _ _ _ H2). }
  by apply Happ.
Qed.
Definition w36 : list vop :=
  w_base ++ [VNewPR (PRole "bob" "acme" "" "" "reader" None false); VAddPR [1]].
Definition only_ann : prole := PRole "ann" "" "" "" "" None false.
Definition only_bob : prole := PRole "bob" "" "" "" "" None false.
Definition q_bob : request := Req "bob" "acme" "" "" "/doc" "GET".
Lemma c36_refuted : exists st st' st'' e, vreachable st /\
  list_is st [0; 1] /\ remains st only_ann [0; 1] [1] /\
  v2_remove_principal_role st only_ann = Ok (st', e) /\ e = None /\ w_assign st' = [None] /\
  v2_authorize id_oracle st 0 q_bob = Ok (st'', true) /\
  (forall o now, v2_authorize o st' now q_bob = Panic) /\ (forall o now rs, v2_can o st' now q_bob rs = Panic).
Proof.
  set (st := vops_state w36). set (st' := vfinal (v2_remove_principal_role st only_ann)).
  assert (vreachable st') as Hr'.
  { apply (vreachable_remove st only_ann st' None); [unfold st; reach_vops w36|unfold st', st; vanswered]. }
  assert (broken st') as Hb. { unfold broken. assert (w_assign st' = [None]) as ->; [vm_compute; reflexivity|left]. }
  assert (looks st' q_bob) as Hl.
  { right. exists "acme", 0, (VTenant "acme" {["ns" := ∅]} "ns" TActive ∅), "ns".
    split; [|split; [|split]].
    - split; [done|by left].
    - vm_compute. reflexivity.
    - vm_compute. reflexivity.
    - apply target_namespace_exact. vm_compute. reflexivity. }
  exists st, st', (vfinal (v2_authorize id_oracle st 0 q_bob)), None.
  split; [unfold st; reach_vops w36|]. split; [vm_compute; reflexivity|].
  split.
  { apply remains_drop; [|apply remains_keep; [|constructor]].
    - exists (PRole "ann" "acme" "" "" "reader" None false). split; [vm_compute; reflexivity|]. unfold meets. simpl. tauto.
    - intros (pr & Hpr & Hm & _). assert (w_prs st !! 1 = Some (PRole "bob" "acme" "" "" "reader" None false)) as Hpr1 by (vm_compute; reflexivity).
      rewrite Hpr1 in Hpr. injection Hpr as <-. simpl in Hm. clear -Hm. destruct Hm; discriminate. }
  split; [unfold st', st; vanswered|]. split; [done|]. split; [vm_compute; reflexivity|].
  split; [unfold st; vanswered|].
  apply vreachable_wf in Hr'. split; intros.
  - by apply v2_authorize_panics.
  - by apply v2_can_panics.
Qed.
Lemma c36_ex : exists st st' st'', vreachable st /\ list_is st [0; 1] /\
  go_last st only_bob [0; 1] /\ v2_remove_principal_role st only_bob = Ok (st', None) /\ list_is st' [0] /\
  v2_authorize id_oracle st' 0 q_doc = Ok (st'', true).
Proof.
  set (st := vops_state w36). set (st' := vfinal (v2_remove_principal_role st only_bob)).
  exists st, st', (vfinal (v2_authorize id_oracle st' 0 q_doc)). unfold st', st.
  split; [reach_vops w36|]. split; [vm_compute; reflexivity|]. split.
  { intros i j l m Hij Hi Hj Hm. destruct i as [|[|i]]; simpl in Hi; try done; destruct j as [|[|j]]; simpl in Hj; try done; try lia.
    simplify_eq. destruct Hm as (pr & Hpr & Hmm & _).
    assert (w_prs (vops_state w36) !! 0 = Some (PRole "ann" "acme" "" "" "reader" None false)) as Hp by (vm_compute; reflexivity).
    rewrite Hp in Hpr. injection Hpr as <-. simpl in Hmm. clear -Hmm. destruct Hmm; discriminate. }
  split; [vanswered|]. split; [vm_compute; reflexivity|vanswered].
Qed.
Lemma c40_refuted : exists st, vreachable st /\ forall o now, v2_authorize o st now q_bob = Panic.
Proof.
  destruct c36_refuted as (st & st' & _ & e & (o & ops & outs & Hr) & _ & _ & H & -> & _ & _ & Hp & _).
  exists st'. split; [|done]. eapply vreachable_remove; [by exists o, ops, outs|exact H].
Qed.
Lemma c43_refuted : exists st, vreachable st /\ w_assign st = [None] /\ indexed st "bob" "acme" = [1].
Proof.
  exists (vops_state (w36 ++ [VRemovePR only_ann])). split; [reach_vops (w36 ++ [VRemovePR only_ann])|].
  split; vm_compute; reflexivity.
Qed.
Lemma c43_ex : exists st, vreachable st /\ ~ broken st /\ list_is st [0; 1] /\
  indexed st "ann" "acme" = [0] /\ indexed st "bob" "acme" = [1] /\ indexed st "bob" "other" = [].
Proof.
  exists (vops_state w36). split; [reach_vops w36|].
  assert (list_is (vops_state w36) [0; 1]) as H by (vm_compute; reflexivity).
  split; [apply list_is_iff; by exists [0; 1]|]. split; [done|]. split_and!; vm_compute; reflexivity.
Qed.

(** ** C37 *)
Definition w37 : list vop := w_base ++ [VTenantStatus 0 TBanned].
Lemma c37_refuted : exists st t c st' st'', vreachable st /\ distinct_ids st /\
  w_reg st !! "acme" = Some t /\ tenant_at st t c /\ vt_status c = TBanned /\
  v2_authorize id_oracle st 0 q_doc = Ok (st', true) /\
  v2_can id_oracle st 0 q_doc ["reader"] = Ok (st'', true).
Proof.
  exists (vops_state w37), 0, (VTenant "acme" {["ns" := ∅]} "ns" TBanned ∅),
    (vfinal (v2_authorize id_oracle (vops_state w37) 0 q_doc)), (vfinal (v2_can id_oracle (vops_state w37) 0 q_doc ["reader"])).
  split; [reach_vops w37|]. split; [distinct|]. split; [vm_compute; reflexivity|]. split; [vm_compute; reflexivity|].
  split; [done|]. split; vanswered.
Qed.
Definition q_nameless : request := Req "ann" "" "" "" "/doc" "GET".
Lemma c37_ex : exists st1 st2 st1' st2', vreachable st1 /\ vreachable st2 /\ nameless st1 q_nameless /\ nameless st2 q_nameless /\
  v2_authorize id_oracle st1 0 q_nameless = Ok (st1', true) /\
  v2_authorize id_oracle st2 0 q_nameless = Ok (st2', false).
Proof.
  exists (vops_state w_base), (vops_state w37), (vfinal (v2_authorize id_oracle (vops_state w_base) 0 q_nameless)),
    (vfinal (v2_authorize id_oracle (vops_state w37) 0 q_nameless)).
  split; [reach_vops w_base|]. split; [reach_vops w37|].
  split; [split; [done|vm_compute; reflexivity]|]. split; [split; [done|vm_compute; reflexivity]|]. split; vanswered.
Qed.

(** ** C38 *)
Definition w38_down : list vop :=
  w_tree [PRole "ann" "acme" "" "" "reader" None true] ++ [VAddPR [0]].
Definition w38_up : list vop := w_tree [boss_acme None; reader_sub] ++ [VAddPR [0; 1]].
Definition q_sub : request := Req "ann" "sub" "" "" "/doc" "GET".
Lemma c38_refuted :
  (exists st st' st'', vreachable st /\ distinct_ids st /\ child_tenant st 0 1 /\ w_reg st !! "sub" = Some 1 /\
     v2_authorize id_oracle st 0 q_doc = Ok (st', true) /\ v2_authorize id_oracle st 0 q_sub = Ok (st'', false)) /\
  (exists st st', vreachable st /\ distinct_ids st /\
     (forall p, ~ confers (w_roles st) (w_dag st) "boss" p) /\
     (forall pr, assigned st pr -> pr_tenant pr = "acme" -> pr_role pr = "boss") /\
     v2_authorize id_oracle st 0 q_doc = Ok (st', true)).
Proof.
  split.
  - exists (vops_state w38_down), (vfinal (v2_authorize id_oracle (vops_state w38_down) 0 q_doc)),
      (vfinal (v2_authorize id_oracle (vops_state w38_down) 0 q_sub)).
    split; [reach_vops w38_down|]. split; [distinct|]. split.
    { exists (VTenant "acme" {["ns" := ∅]} "ns" TActive {["sub" := 1]}), "sub". split; vm_compute; reflexivity. }
    split; [vm_compute; reflexivity|]. split; vanswered.
  - exists (vops_state w38_up), (vfinal (v2_authorize id_oracle (vops_state w38_up) 0 q_doc)).
    split; [reach_vops w38_up|]. split; [distinct|]. split; [|split; [|vanswered]].
    + intros p (n & r & Hn & (l & Hl & Hr) & Hp).
      assert (n = "boss") as ->.
      { inversion Hn as [|? y ? [_ Hch] _]; [done|]. exfalso. destruct Hch as (cs & Hcs & _). subst.
        assert (d_edges (w_dag (vops_state w38_up)) !! "boss" = None) as E by (vm_compute; reflexivity). congruence. }
      assert (d_roles (w_dag (vops_state w38_up)) !! "boss" = Some 1) as E by (vm_compute; reflexivity).
      rewrite E in Hl. injection Hl as <-.
      assert (w_roles (vops_state w38_up) !! 1 = Some (VRole "boss" ∅)) as E2 by (vm_compute; reflexivity).
      rewrite E2 in Hr. injection Hr as <-. by apply not_elem_of_empty in Hp.
    + intros pr. rewrite (assigned_list (vops_state w38_up) [boss_acme None; reader_sub] [0; 1]) by (vm_compute; reflexivity).
      intros (l & [->|[->|?%elem_of_nil]%elem_of_cons]%elem_of_cons & Hl) Ht; [| |done]; simpl in Hl; by injection Hl as <-.
Qed.

(** ** C28 *)
Lemma c28_refuted :
  (exists st st' e, vreachable st /\ vstep id_oracle st (VAddChildRole "a" ["b"; "c"]) = Ok (st', WErr (Some e)) /\
     acyclic (with_children (d_edges (w_dag st)) "a" ["b"; "c"])).
Proof.
  set (ops := [VAddChildRole "b" ["d"]; VAddChildRole "c" ["d"]]).
  set (ops1 := ops ++ [VAddChildRole "a" ["b"]; VAddChildRole "a" ["c"]]).
  exists (vops_state ops). unfold ops.
  eexists _, _. split; [reach_vops ops|]. split; [vm_compute; reflexivity|].
  assert (with_children (d_edges (w_dag (vops_state ops))) "a" ["b"; "c"] = d_edges (w_dag (vops_state ops1))) as E
    by (apply (bool_decide_unpack _); vm_compute; exact I).
  unfold ops in E. rewrite E. apply vreachable_acyclic. unfold ops1, ops. reach_vops ops1.
Qed.
Lemma c28_duplicate_refuted :
  (exists st st' e, vreachable st /\ vstep id_oracle st (VAddChildRole "a" ["b"; "b"]) = Ok (st', WErr (Some e)) /\
     acyclic (with_children (d_edges (w_dag st)) "a" ["b"; "b"])).
Proof.
  set (ops1 := [VAddChildRole "a" ["b"]; VAddChildRole "a" ["b"]]).
  exists (vops_state []). eexists _, _. split; [reach_vops (@nil vop)|]. split; [vm_compute; reflexivity|].
  assert (with_children (d_edges (w_dag (vops_state []))) "a" ["b"; "b"] = d_edges (w_dag (vops_state ops1))) as E
    by (apply (bool_decide_unpack _); vm_compute; exact I).
  rewrite E. apply vreachable_acyclic. unfold ops1. reach_vops ops1.
Qed.

(** ** C55: two tenant objects with the same id *)
Definition w55 : list vop :=
  [VNewRole "reader"; VRoleAdd 0 [("/doc", "GET")]; VNewRole "boss"; VAddRoles [0; 1];
   VNewTenant "t" (Some "ns"); VNewTenant "a" None; VNewTenant "b" None; VNewTenant "a" None; VNewTenant "c" None;
   VTenantChildren 0 [1; 2]; VTenantChildren 2 [3]; VTenantChildren 3 [4]; VAddTenant 0;
   VNewPR (PRole "ann" "t" "" "" "boss" None true); VNewPR (PRole "ann" "a" "" "" "boss" None true);
   VNewPR (PRole "ann" "b" "" "" "boss" None true); VNewPR (PRole "ann" "c" "" "" "reader" None false);
   VAddPR [0; 1; 2; 3]].
Definition q_t : request := Req "ann" "t" "" "" "/doc" "GET".
Lemma c55_refuted : exists st o1 o2 st1 st2, vreachable st /\
  v2_authorize o1 st 0 q_t = Ok (st1, true) /\ v2_authorize o2 st 0 q_t = Ok (st2, false).
Proof.
  exists (vops_state w55), id_oracle, rev_oracle, (vfinal (v2_authorize id_oracle (vops_state w55) 0 q_t)),
    (vfinal (v2_authorize rev_oracle (vops_state w55) 0 q_t)).
  split; [reach_vops w55|]. split; vanswered.
Qed.
Lemma c55_ex : exists st st1 st2, vreachable st /\ distinct_ids st /\
  v2_authorize rev_oracle st 0 q_doc = Ok (st1, true) /\ v2_authorize id_oracle st 0 q_doc = Ok (st2, true).
Proof.
  exists (vops_state w38_up), (vfinal (v2_authorize rev_oracle (vops_state w38_up) 0 q_doc)),
    (vfinal (v2_authorize id_oracle (vops_state w38_up) 0 q_doc)).
  split; [reach_vops w38_up|]. split; [distinct|]. split; vanswered.
Qed.
