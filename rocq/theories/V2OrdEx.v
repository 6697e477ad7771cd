(** Orders of set-up calls: witnesses. *)
From Verif Require Export V2OrdProofs V2Ex.

(** Roles a, b, c, d, of which d has a permission; ann has a. *)
Definition w101 : list vop :=
  [VNewRole "a"; VNewRole "b"; VNewRole "c"; VNewRole "d"; VRoleAdd 3 [("/doc", "GET")]; VAddRoles [0; 1; 2; 3];
   VNewTenant "acme" (Some "ns"); VAddTenant 0; VNewPR (PRole "ann" "acme" "" "" "a" None false); VAddPR [0]].
Definition top_down : list (string * list string) := [("a", ["b"; "c"]); ("b", ["d"]); ("c", ["d"])].
Definition bottom_up : list (string * list string) := [("b", ["d"]); ("c", ["d"]); ("a", ["b"; "c"])].
Lemma calls_agree st calls : agreeing st (child_calls calls).
Proof.
  intros i j x y _ Hx Hy. unfold child_calls in *. rewrite list_lookup_fmap in Hx, Hy. apply fmap_Some in Hx as (? & _ & ->), Hy as (? & _ & ->).
  exact (fun H => H).
Qed.
Lemma calls_set_up calls : Forall sets_up (child_calls calls).
Proof. apply Forall_map, Forall_true. intros c. exact I. Qed.
Lemma outs_fine (outs : list vout) : Forall (fun out => match out with WErr (Some _) => False | _ => True end) outs -> none_refused outs.
Proof. intros F e He. rewrite Forall_forall in F. exact (F _ He). Qed.
Ltac fine := apply outs_fine; repeat constructor.
Lemma c101_refuted : exists st ops ops' st1 outs1 st2 outs2 st1' st2', vreachable st /\ distinct_ids st /\
  Forall sets_up ops /\ agreeing st ops /\ ops' ≡ₚ ops /\
  vrun id_oracle 0 st ops = Ok (st1, outs1) /\ none_refused outs1 /\ vrun id_oracle 0 st ops' = Ok (st2, outs2) /\
  v2_authorize id_oracle st1 0 q_doc = Ok (st1', true) /\ v2_authorize id_oracle st2 0 q_doc = Ok (st2', false).
Proof.
  set (st := vops_state w101). set (r1 := vrun id_oracle 0 st (child_calls top_down)). set (r2 := vrun id_oracle 0 st (child_calls bottom_up)).
  exists st, (child_calls top_down), (child_calls bottom_up), (vfinal r1), [WErr None; WErr None; WErr None], (vfinal r2),
    [WErr None; WErr None; WErr (Some (err_circular "a" "c"))], (vfinal (v2_authorize id_oracle (vfinal r1) 0 q_doc)), (vfinal (v2_authorize id_oracle (vfinal r2) 0 q_doc)).
  split; [reach_vops w101|]. split; [distinct|]. split; [apply calls_set_up|]. split; [apply calls_agree|].
  split; [unfold child_calls; apply Permutation_map; unfold bottom_up, top_down; symmetry; exact (Permutation_cons_append [_; _] _)|].
  split; [vanswered|]. split; [fine|]. split; [vanswered|]. split; vanswered.
Qed.
(** The same graph with the children named one at a time may be built in any order. *)
Definition one_at_a_time : list (string * list string) := [("a", ["b"]); ("a", ["c"]); ("b", ["d"]); ("c", ["d"])].
Lemma c101_roles_ex : exists st st', vreachable st /\ (forall ops, ops ≡ₚ child_calls one_at_a_time -> goes_through st ops) /\
  goes_through st (child_calls top_down) /\ ~ goes_through st (child_calls bottom_up) /\
  v2_authorize id_oracle (vfinal (vrun id_oracle 0 st (child_calls one_at_a_time))) 0 q_doc = Ok (st', true).
Proof.
  set (st := vops_state w101).
  exists st, (vfinal (v2_authorize id_oracle (vfinal (vrun id_oracle 0 st (child_calls one_at_a_time))) 0 q_doc)).
  split; [reach_vops w101|]. split.
  - apply c101_roles. intros before p cs after E.
    assert (L : forall i, i < 4 -> forall x, one_at_a_time !! i = Some x ->
      exists l, listing (all_children (d_edges (w_dag st)) (delete i one_at_a_time)) x.2 l /\ NoDup (x.1 :: l)).
    { intros i Hi x Hx. apply (dag_add_child_accepts (Dag ∅ (all_children (d_edges (w_dag st)) (delete i one_at_a_time)) ∅)).
      destruct i as [|[|[|[|i]]]]; [| | | |lia]; injection Hx as <-; eexists; vm_compute; reflexivity. }
    assert (Hl : length before < 4) by (apply (f_equal length) in E; rewrite app_length in E; cbn in E; lia).
    specialize (L (length before) Hl (p, cs)). rewrite E in L. rewrite list_lookup_middle in L by reflexivity.
    rewrite delete_middle in L. exact (L eq_refl).
  - split; [|split].
    + exists (vfinal (vrun id_oracle 0 st (child_calls top_down))), [WErr None; WErr None; WErr None]. split; [vanswered|fine].
    + intros (st' & outs & H & N). assert (X : vanswer (vrun id_oracle 0 st (child_calls bottom_up)) = Some outs) by (rewrite H; reflexivity).
      assert (Y : vanswer (vrun id_oracle 0 st (child_calls bottom_up)) = Some [WErr None; WErr None; WErr (Some (err_circular "a" "c"))]) by (vm_compute; reflexivity).
      rewrite Y in X. injection X as <-. apply (N (err_circular "a" "c")). right. right. left.
    + vanswered.
Qed.
(** A set-up in two orders *)
Definition w101_objects : list vop :=
  [VNewRole "lead"; VNewRole "reader"; VNewTenant "acme" None; VNewTenant "sub" (Some "ns");
   VNewPR (PRole "ann" "acme" "" "" "lead" None true); VNewPR (PRole "ann" "sub" "s" "" "lead" None false)].
Definition w101_ops : list vop :=
  [VAddChildRole "lead" ["reader"]; VAddRoles [0; 1]; VRoleAdd 1 [("/doc", "GET")]; VRoleRemove 0 [("/doc", "GET")];
   VTenantNamespace 0 "ns" true; VTenantScopes 0 "ns" ["s"]; VTenantScopes 1 "ns" ["s"]; VTenantChildren 0 [1]; VAddTenant 0; VAddTenant 1;
   VTenantStatus 1 TBlocked; VSetDefault "acme"; VAddPR [0]; VAddPR [1]].
Definition w101_other : list vop :=
  [VAddPR [1]; VSetDefault "acme"; VAddTenant 1; VAddTenant 0; VTenantChildren 0 [1]; VTenantNamespace 0 "ns" true; VRoleAdd 1 [("/doc", "GET")];
   VTenantScopes 1 "ns" ["s"]; VTenantScopes 0 "ns" ["s"]; VTenantStatus 1 TBlocked; VAddPR [0]; VRoleRemove 0 [("/doc", "GET")];
   VAddRoles [0; 1]; VAddChildRole "lead" ["reader"]].
Lemma pick_perm {A} (x : A) l l1 l2 : l ≡ₚ l1 ++ l2 -> x :: l ≡ₚ l1 ++ x :: l2.
Proof. intros ->. apply Permutation_middle. Qed.
Lemma w101_perm : w101_other ≡ₚ w101_ops.
Proof.
  unfold w101_other, w101_ops.
  apply (pick_perm _ _ [_; _; _; _; _; _; _; _; _; _; _; _; _] []). cbn [app].
  apply (pick_perm _ _ [_; _; _; _; _; _; _; _; _; _; _] [_]). cbn [app].
  apply (pick_perm _ _ [_; _; _; _; _; _; _; _; _] [_; _]). cbn [app].
  apply (pick_perm _ _ [_; _; _; _; _; _; _; _] [_; _]). cbn [app].
  apply (pick_perm _ _ [_; _; _; _; _; _; _] [_; _]). cbn [app].
  apply (pick_perm _ _ [_; _; _; _] [_; _; _; _]). cbn [app].
  apply (pick_perm _ _ [_; _] [_; _; _; _; _]). cbn [app].
  apply (pick_perm _ _ [_; _; _; _] [_; _]). cbn [app].
  apply (pick_perm _ _ [_; _; _] [_; _]). cbn [app].
  apply (pick_perm _ _ [_; _; _] [_]). cbn [app].
  apply (pick_perm _ _ [_; _; _] []). cbn [app].
  apply (pick_perm _ _ [_; _] []). cbn [app].
  apply (pick_perm _ _ [_] []). cbn [app]. reflexivity.
Qed.
Lemma agreeing_pairs st ops : ForallOrdPairs (fun x y => ~ contradict st x y /\ ~ contradict st y x) ops -> agreeing st ops.
Proof.
  induction 1 as [|a l F _ IH]; intros i j x y Hij Hx Hy; [discriminate|]. rewrite Forall_forall in F.
  destruct i as [|i], j as [|j]; cbn in Hx, Hy.
  - congruence.
  - injection Hx as <-. exact (proj1 (F _ (elem_of_list_lookup_2 _ _ _ Hy))).
  - injection Hy as <-. exact (proj2 (F _ (elem_of_list_lookup_2 _ _ _ Hx))).
  - exact (IH i j x y (fun E => Hij (f_equal S E)) Hx Hy).
Qed.
Lemma w101_agree st : (forall id, tenant_called st 0 id -> ~ tenant_called st 1 id) -> agreeing st w101_ops.
Proof.
  intros H. apply agreeing_pairs. unfold w101_ops.
  repeat (apply FOP_cons; [repeat (apply Forall_cons; split); try apply Forall_nil; (split; cbn [contradict]; try exact (fun X => X))|]); try apply FOP_nil.
  - intros (E & _). discriminate.
  - intros (E & _). discriminate.
  - intros (_ & id & H0 & H1). exact (H id H0 H1).
  - intros (_ & id & H1 & H0). exact (H id H0 H1).
Qed.
Definition q_scoped : request := Req "ann" "" "" "s" "/doc" "GET".
Lemma c101_ex : exists st st1 outs1 st2 outs2 st1' st2', vreachable st /\ distinct_ids st /\ Forall sets_up w101_ops /\ agreeing st w101_ops /\
  w101_other ≡ₚ w101_ops /\ vrun id_oracle 0 st w101_ops = Ok (st1, outs1) /\ none_refused outs1 /\
  vrun rev_oracle 0 st w101_other = Ok (st2, outs2) /\ none_refused outs2 /\
  v2_authorize id_oracle st1 0 q_scoped = Ok (st1', true) /\ v2_authorize rev_oracle st2 0 q_scoped = Ok (st2', true).
Proof.
  set (st := vops_state w101_objects). set (r1 := vrun id_oracle 0 st w101_ops). set (r2 := vrun rev_oracle 0 st w101_other).
  exists st, (vfinal r1), [WErr None; WUnit; WUnit; WUnit; WUnit; WErr None; WErr None; WUnit; WUnit; WUnit; WUnit; WUnit; WUnit; WUnit],
    (vfinal r2), [WUnit; WUnit; WUnit; WUnit; WUnit; WUnit; WUnit; WErr None; WErr None; WUnit; WUnit; WUnit; WUnit; WErr None],
    (vfinal (v2_authorize id_oracle (vfinal r1) 0 q_scoped)), (vfinal (v2_authorize rev_oracle (vfinal r2) 0 q_scoped)).
  split; [reach_vops w101_objects|]. split; [distinct|]. split; [repeat constructor|]. split.
  - apply w101_agree. intros id (t0 & H0 & E0) (t1 & H1 & E1). apply (f_equal (fmap vt_id)) in H0, H1.
    assert (X0 : vt_id <$> w_tenants st !! 0 = Some "acme") by (vm_compute; reflexivity).
    assert (X1 : vt_id <$> w_tenants st !! 1 = Some "sub") by (vm_compute; reflexivity).
    rewrite X0 in H0. rewrite X1 in H1. injection H0 as H0. injection H1 as H1. congruence.
  - split; [exact w101_perm|]. split; [vanswered|]. split; [fine|]. split; [vanswered|]. split; [fine|]. split; vanswered.
Qed.
