(** Concrete histories for V1Reg. *)
From Verif Require Export V1RegFin.

Definition w72_ops : list uop :=
  [UNewTenant "acme"; UAddTenant 0; UNewTenant "acme"; UNewRole "r"; UTAddRole 1 [0]].
Lemma c72_refuted : exists st st' st'' y a, ureachable st
  /\ ustep id_oracle st (UTAddPrincipal 1 "p" ["r"]) = Panic
  /\ ustep id_oracle st (UAddTenant 1) = Ok (st', YLoc 0)
  /\ ustep id_oracle st' (UTAddPrincipal 1 "p" ["r"]) = Ok (st'', y)
  /\ uget_tenant st'' "acme" = Some 0 /\ get_principal_roles id_oracle st'' "acme" "p" = Ok [a].
Proof.
  set (st := uops_state w72_ops).
  set (st' := ufinal (ustep id_oracle st (UAddTenant 1))).
  exists st, st', (ufinal (ustep id_oracle st' (UTAddPrincipal 1 "p" ["r"]))), YUnit, (TRow "p" "r" "acme" "" "" true).
  split_and!; [reach_uops w72_ops|vm_compute; reflexivity|uanswered|uanswered|vm_compute; reflexivity|].
  apply rows_of_ok. vm_compute. reflexivity.
Qed.
Lemma c72_ex :
  let st := uops_state [UNewRole "a"; UNewRole "a"; UAddRole 1; UAddRole 0; UAddScope "s"; UAddScope "s"; UAddScope "t";
                        UNewNamespace "n"; UAddNamespace 0; UAddAttribute (Attr "a b" "c"); UAddAttribute (Attr "a" "b c")] in
  uget_role st "a" = Some 1 /\ uget_role st "b" = None /\ uget_namespace st "n" = Some 0
  /\ uget_attribute st "a b c" = Some (Attr "a b" "c")
  /\ usummary_of st = USummary 0 0 1 2 1 0 1
  /\ uscope_list id_oracle st ≡ₚ ["s"; "t"].
Proof.
  cbv zeta. split_and!; try (vm_compute; reflexivity).
  assert (H : bool_decide (uscope_list id_oracle (uops_state [UNewRole "a"; UNewRole "a"; UAddRole 1; UAddRole 0; UAddScope "s"; UAddScope "s"; UAddScope "t";
                        UNewNamespace "n"; UAddNamespace 0; UAddAttribute (Attr "a b" "c"); UAddAttribute (Attr "a" "b c")]) ≡ₚ ["s"; "t"]) = true) by (vm_compute; reflexivity).
  by apply bool_decide_eq_true in H.
Qed.
Definition w73_ops : list uop :=
  [UNewRole "r"; UAddRole 0; UNewGroup "g"; UGroupAdd 0 [Attr "a" "x"; Attr "b" "y"]; UAddGroup 0].
Lemma c73_ex : exists st, ureachable st
  /\ uanswer (ustep id_oracle st (UAddPermissionsToRole "r" "g" [Attr "a" "x"])) = Some (YErr None)
  /\ uanswer (ustep id_oracle st (UAddPermissionsToRole "r" "g" [Attr "a" "x"; Attr "c" "z"]))
     = Some (YErr (Some "attribute 'c z' not associated to the group 'g'"))
  /\ uanswer (ustep id_oracle st (UAddPermissionsToRole "s" "g" [])) = Some (YErr (Some "no role available"))
  /\ uanswer (ustep id_oracle st (UAddPermissionsToRole "r" "h" [])) = Some (YErr (Some "no attribute group available")).
Proof.
  exists (uops_state w73_ops). split; [reach_uops w73_ops|]. split_and!; vm_compute; reflexivity.
Qed.
(** The check is against the registered group, the permissions go into the role's own group of that name. *)
Lemma c73_apart : exists st st' m, ureachable st
  /\ ustep id_oracle st (UAddPermissionsToRole "r" "g" [Attr "a" "x"]) = Ok (st', YErr None)
  /\ get_role_permissions id_oracle st' "r" = Ok (Some m) /\ (forall x, listed m "g" x <-> x = Attr "a" "x")
  /\ (exists g, h_groups (u_heap st') !! 0 = Some g /\ g_perms g !! "b y" = Some (Attr "b" "y")).
Proof.
  assert (Hr : ureachable (uops_state w73_ops)) by (reach_uops w73_ops).
  set (st' := ufinal (ustep id_oracle (uops_state w73_ops) (UAddPermissionsToRole "r" "g" [Attr "a" "x"]))).
  assert (Hs : ustep id_oracle (uops_state w73_ops) (UAddPermissionsToRole "r" "g" [Attr "a" "x"]) = Ok (st', YErr None)) by uanswered.
  assert (Hp : match get_role_permissions id_oracle st' "r" with Ok (Some m) => m !! "g" = Some [Attr "a" "x"] | _ => False end)
    by (vm_compute; reflexivity).
  exists (uops_state w73_ops), st'. destruct (get_role_permissions id_oracle st' "r") as [[m|]| |]; [|by destruct Hp..].
  exists m. split; [exact Hr|]. split; [exact Hs|]. split; [done|]. split.
  - clear -Hp. intros x. unfold listed. rewrite Hp. split.
    + intros (l & [= <-] & Hx). by apply elem_of_list_singleton in Hx.
    + intros ->. exists [Attr "a" "x"]. split; [done|]. by apply elem_of_list_singleton.
  - assert (H : (fun g => g_perms g !! "b y") <$> h_groups (u_heap st') !! 0 = Some (Some (Attr "b" "y"))) by (vm_compute; reflexivity).
    clear -H. destruct (h_groups (u_heap st') !! 0) as [g|]; [|done]. exists g. split; [done|]. simpl in H. congruence.
Qed.
Lemma c74_ex : exists st l a m, ureachable st /\ known st "cat" /\ (exists c, utenant_is st "acme" c)
  /\ get_permissions_for_principal id_oracle st "acme" "cat" = Ok l /\ (a, m) ∈ l /\ listed m "doc" (Attr "/d" "GET")
  /\ u_authorize id_oracle st "cat" (q_get ANil ANil) = Ok true.
Proof.
  assert (Hr : ureachable (uops_state w74_ops)) by (reach_uops w74_ops).
  assert (Hc : exists c, utenant_is (uops_state w74_ops) "acme" c) by (apply tenant_by; vm_compute; reflexivity).
  exists (uops_state w74_ops). destruct (permissions_exact id_oracle _ "acme" "cat" Hr) as (l & Hl & _ & _).
  destruct l as [|[a m] l].
  { assert (H : length (perms_of_ok (get_permissions_for_principal id_oracle (uops_state w74_ops) "acme" "cat")) = 1) by (vm_compute; reflexivity).
    rewrite Hl in H. discriminate H. }
  exists ((a, m) :: l), a, m. split; [exact Hr|]. split; [is_known|]. split; [exact Hc|]. split; [exact Hl|]. split; [left|].
  split; [|vm_compute; reflexivity].
  assert (H : (fun m => bool_decide (Attr "/d" "GET" ∈ default [] (m !! "doc"))) <$>
    head (perms_of_ok (get_permissions_for_principal id_oracle (uops_state w74_ops) "acme" "cat")) = Some true) by (vm_compute; reflexivity).
  rewrite Hl in H. clear -H. simpl in H. injection H as H. apply bool_decide_eq_true in H.
  destruct (m !! "doc") as [x|] eqn:E; [by exists x|]. simpl in H. by apply elem_of_nil in H.
Qed.
(** A tenant with a default namespace; a second namespace object of the same name; a chain of tenants. *)
Definition w78_ops : list uop :=
  [UNewTenant "a"; UNewTenant "b"; UNewTenant "c"; UNewTenant "b"; UNewNamespace "n"; UNewNamespace "n";
   UTAddNamespace 0 [1; 0]; UTSetDefault 0 "m"; UTSetDefault 0 "n"; UTAddScopes 0 ["s"];
   UTAddDescendent 0 [1; 3]; UTAddDescendent 1 [2]; UTAddDescendent 3 [3]].
Lemma c78_ex : exists st c m, ureachable st /\ u_tenants st !! 0 = Some c /\ ut_namespaces c !! "n" = Some 1
  /\ ut_default c = Some 1 /\ u_nss st !! 1 = Some m /\ "s" ∈ un_scopes m /\ "s" ∈ ut_scopes c
  /\ get_descendant_tenants id_oracle st 0 = Ok [1; 2] /\ get_descendant_tenants id_oracle st 3 = Hang.
Proof.
  assert (Hr : ureachable (uops_state w78_ops)) by (reach_uops w78_ops).
  assert (H1 : (fun c => (ut_namespaces c !! "n", ut_default c, bool_decide ("s" ∈ ut_scopes c))) <$> u_tenants (uops_state w78_ops) !! 0
    = Some (Some 1, Some 1, true)) by (vm_compute; reflexivity).
  assert (H2 : (fun m => bool_decide ("s" ∈ un_scopes m)) <$> u_nss (uops_state w78_ops) !! 1 = Some true) by (vm_compute; reflexivity).
  assert (H3 : get_descendant_tenants id_oracle (uops_state w78_ops) 0 = Ok [1; 2]) by (vm_compute; reflexivity).
  assert (H4 : get_descendant_tenants id_oracle (uops_state w78_ops) 3 = Hang) by (vm_compute; reflexivity).
  exists (uops_state w78_ops).
  destruct (u_tenants (uops_state w78_ops) !! 0) as [c|]; [|discriminate H1].
  destruct (u_nss (uops_state w78_ops) !! 1) as [m|]; [|discriminate H2].
  exists c, m. simpl in H1, H2. injection H1 as H1 H1' H1''. injection H2 as H2.
  apply bool_decide_eq_true in H1'', H2. split; [exact Hr|]. clear Hr. by split_and!.
Qed.
