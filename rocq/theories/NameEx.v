(** The program of examples/main.go, and programs that do not keep names apart. *)
From Verif Require Import RootEx RDecEx TenEx NameProofs.

(** examples/main.go:82-115: the permissions *)
Definition coder_permissions : list attr :=
  [Attr "/coding/:wid/:eid/start-coding" "POST"; Attr "/coding/:wid/open" "GET"; Attr "/coding/:wid/in-progress" "GET"; Attr "/coding/:wid/:eid/review" "POST"].
Definition qa_permissions : list attr :=
  [Attr "/coding/:wid/:eid/start-qa" "POST"; Attr "/coding/:wid/qa" "GET"; Attr "/coding/:wid/qa-in-progress" "GET"; Attr "/coding/:wid/:eid/qa-review" "POST"].
Definition suspend_permissions : list attr :=
  [Attr "/coding/:wid/suspended" "GET"; Attr "/coding/:wid/:eid/release-suspend" "POST"; Attr "/coding/:wid/:eid/request-abandon" "POST"].
Definition admin_permissions : list attr := [Attr "/admin/principal/add" "POST"; Attr "/admin/principal/edit" "PUT"].
(** examples/main.go:9-31 with 117-157 *)
Definition w104_ops : list op :=
  [ONewGroup "backend"; OGroupAdd 0 (qa_permissions ++ coder_permissions ++ suspend_permissions); ONewGroup "page"; OGroupAdd 1 admin_permissions; OAddGroup 0; OAddGroup 1;
   ONewTenant "TenantA"; OAddTenant 0; ONewTenant "TenantB"; OAddTenant 1; OAddNamespace "NamespaceA"; OTenantAddNamespaces 0 ["NamespaceA"]; OTenantAddDescendant 0 [1]; OTenantChildren "TenantA";
   ONewRole "coder"; OAddRole 0; ONewRole "qa"; OAddRole 1; ONewRole "suspend-manager"; OAddRole 2; ONewRole "admin"; OAddRole 3;
   OAddPermissionsToRole "coder" "backend" coder_permissions; OAddPermissionsToRole "qa" "backend" qa_permissions; OAddPermissionsToRole "suspend-manager" "backend" suspend_permissions;
   OAddPermissionsToRole "admin" "page" admin_permissions; ORoleAddDescendant 3 [0; 1; 2]; OTenantAddRoles 0 [0; 1; 2];
   OAddScope "Entity29"; OAddScope "Entity30"; OTenantAddScopes 0 ["Entity29"]; OTenantAddScopes 1 ["Entity30"]; OAddPrincipal "principalA";
   OTenantAddScopesToNamespace 0 "NamespaceA" "Entity29"; OTenantAddPrincipal 0 "principalA" true ["coder"]].
Definition sort_in_main (s : string) : sort :=
  if bool_decide (s ∈ ["TenantA"; "TenantB"]) then ATenant else if bool_decide (s = "NamespaceA") then ANamespace
  else if bool_decide (s ∈ ["Entity29"; "Entity30"]) then AScope else if bool_decide (s = "principalA") then APrincipal else ARole.
Lemma w104_run : run id_oracle 0 init_state w104_ops = Ok (ops_state w104_ops, ops_outs w104_ops).
Proof. apply run_runs. vm_compute. reflexivity. Qed.
Lemma w104_names : keeps_names_apart w104_ops.
Proof. exists sort_in_main. unfold w104_ops. repeat (apply Forall_cons; split; [cbn [names_kept]|]); try apply Forall_nil; try exact I; repeat (split || apply Forall_cons || apply Forall_nil); vm_compute; reflexivity. Qed.
Lemma w104_not_asked : forall x, x ∈ w104_ops -> ~ asks_about "principalA" x.
Proof.
  assert (E : forallb (fun x => match x with OImplicitTenants _ | OAuthorize _ _ => false | _ => true end) w104_ops = true) by (vm_compute; reflexivity).
  intros x Hx A. apply elem_of_list_In in Hx. apply (proj1 (forallb_forall _ _) E) in Hx. destruct x; contradiction || discriminate.
Qed.
Lemma w104_made k x r : zip w104_ops (ops_outs w104_ops) !! k = Some (x, r) -> made w104_ops (ops_outs w104_ops) x r.
Proof. intros H. exact (elem_of_list_lookup_2 _ k _ H). Qed.
Lemma w104_called k id : t_id <$> s_tenants (ops_state w104_ops) !! k = Some id -> called (ops_state w104_ops) k id.
Proof. intros H. exact H. Qed.
Lemma w104_role : given_role w104_ops (ops_outs w104_ops) (ops_state w104_ops) "principalA" "coder" "TenantA".
Proof.
  exists 0, true, ["coder"]. split; [apply w104_called; vm_compute; reflexivity|]. split; [apply (w104_made 34); vm_compute; reflexivity|left].
Qed.
Lemma w104_permission : given_permission w104_ops (ops_outs w104_ops) "coder" "backend" "/coding/1/2/start-coding POST".
Proof.
  exists coder_permissions, (Attr "/coding/:wid/:eid/start-coding" "POST"). split; [apply (w104_made 22); vm_compute; reflexivity|]. split; [left|right].
  apply match_resource_true. vm_compute. reflexivity.
Qed.
(** The requests of examples/main.go:33-77, all expected to be granted *)
Definition in_main (t s g a : any) : opts := Opts t (AStr "NamespaceA") s g a.
Definition start_coding : any := AStr "/coding/1/2/start-coding POST".
Definition w104_members : list opts := [in_main (AStr "TenantA") (AStr "Entity29") ANil ANil; in_main (AStr "TenantB") (AStr "Entity29") ANil ANil].
Definition w104_activities : list opts :=
  [in_main (AStr "TenantA") (AStr "Entity29") (AStr "backend") start_coding; in_main (AStr "TenantA") ANil (AStr "backend") start_coding;
   in_main (AStr "TenantB") (AStr "Entity29") (AStr "backend") start_coding; in_main (AStr "TenantB") (AStr "Entity30") (AStr "backend") start_coding].
Lemma w104_known t s g a : t = "TenantA" \/ t = "TenantB" -> s = ANil \/ s = AStr "Entity29" \/ s = AStr "Entity30" -> known_things w104_ops (ops_state w104_ops) (in_main (AStr t) s g a).
Proof.
  intros Ht Hs. split_and!; cbn [in_main o_tenant o_namespace o_scope].
  - right. exists t. split; [reflexivity|]. destruct Ht as [->| ->]; [exists 0|exists 1].
    + split; [apply w104_called; vm_compute; reflexivity|]. apply (elem_of_list_lookup_2 _ 7). reflexivity.
    + split; [apply w104_called; vm_compute; reflexivity|]. apply (elem_of_list_lookup_2 _ 9). reflexivity.
  - right. exists "NamespaceA". split; [reflexivity|]. apply (elem_of_list_lookup_2 _ 10). reflexivity.
  - destruct Hs as [->|[->| ->]]; [left; reflexivity| |]; right; eexists; (split; [reflexivity|]); [apply (elem_of_list_lookup_2 _ 28)|apply (elem_of_list_lookup_2 _ 29)]; reflexivity.
Qed.
Lemma w104_part t g a : part_of w104_ops (ops_state w104_ops) "TenantA" (in_main (AStr t) (AStr "Entity29") g a).
Proof.
  exists "NamespaceA", "Entity29". split; [reflexivity|]. split; [reflexivity|]. exists 0. split; [apply w104_called; vm_compute; reflexivity|]. left.
  apply (elem_of_list_lookup_2 _ 33). reflexivity.
Qed.
Lemma c104_ex : run id_oracle 0 init_state w104_ops = Ok (ops_state w104_ops, ops_outs w104_ops) /\ keeps_names_apart w104_ops
  /\ (forall x, x ∈ w104_ops -> ~ asks_about "principalA" x)
  /\ given_role w104_ops (ops_outs w104_ops) (ops_state w104_ops) "principalA" "coder" "TenantA"
  /\ given_permission w104_ops (ops_outs w104_ops) "coder" "backend" "/coding/1/2/start-coding POST"
  /\ Forall (fun q => known_things w104_ops (ops_state w104_ops) q /\ ~ asks_activity q /\ part_of w104_ops (ops_state w104_ops) "TenantA" q) w104_members
  /\ Forall (fun q => known_things w104_ops (ops_state w104_ops) q /\ shape_of q <> FT /\ shape_of q <> FNone /\ o_group q = AStr "backend" /\ o_activity q = start_coding) w104_activities
  /\ Forall (fun q => exists st', authorize rev_oracle (ops_state w104_ops) "principalA" q = Ok (st', true)) (w104_members ++ w104_activities).
Proof.
  split; [exact w104_run|]. split; [exact w104_names|]. split; [exact w104_not_asked|]. split; [exact w104_role|]. split; [exact w104_permission|]. split; [|split].
  - repeat apply Forall_cons_2; try apply Forall_nil_2; (split; [apply w104_known; tauto|split; [intros [[] _]; reflexivity|apply w104_part]]).
  - repeat apply Forall_cons_2; try apply Forall_nil_2; (split; [apply w104_known; tauto|split; [discriminate|split; [discriminate|split; reflexivity]]]).
  - repeat apply Forall_cons_2; try apply Forall_nil_2; (eexists; answered).
Qed.

(** Names that are not kept apart: there is a scope called like the principal and a principal called like the role. *)
Definition w104b_ops : list op :=
  [ONewGroup "backend"; OGroupAdd 0 [Attr "/doc" "GET"]; OAddGroup 0; ONewTenant "acme"; OAddTenant 0; OAddNamespace "hr"; OTenantAddNamespaces 0 ["hr"]; ONewRole "clerk"; OAddRole 0;
   OAddPermissionsToRole "clerk" "backend" [Attr "/doc" "GET"]; OAddPrincipal "ann"; OTenantAddPrincipal 0 "ann" true ["clerk"];
   OAddScope "ann"; OAddPrincipal "clerk"; OTenantAssignScopes 0 "clerk" true ["ann"]].
Definition w104b_q : opts := Opts (AStr "acme") (AStr "hr") ANil (AStr "backend") (AStr "/doc GET").
Lemma w104b_not_asked : forall x, x ∈ w104b_ops -> ~ asks_about "ann" x.
Proof.
  assert (E : forallb (fun x => match x with OImplicitTenants _ | OAuthorize _ _ => false | _ => true end) w104b_ops = true) by (vm_compute; reflexivity).
  intros x Hx A. apply elem_of_list_In in Hx. apply (proj1 (forallb_forall _ _) E) in Hx. destruct x; contradiction || discriminate.
Qed.
Lemma c104_refuted : exists ops outs st p r id g act q st', run id_oracle 0 init_state ops = Ok (st, outs) /\ (forall x, x ∈ ops -> ~ asks_about p x)
  /\ given_role ops outs st p r id /\ given_permission ops outs r g act /\ known_things ops st q /\ o_tenant q = AStr id /\ shape_of q = FTN /\ o_group q = AStr g /\ o_activity q = AStr act
  /\ authorize id_oracle st p q = Ok (st', false).
Proof.
  exists w104b_ops, (ops_outs w104b_ops), (ops_state w104b_ops), "ann", "clerk", "acme", "backend", "/doc GET", w104b_q, (final (authorize id_oracle (ops_state w104b_ops) "ann" w104b_q)).
  split; [apply run_runs; vm_compute; reflexivity|]. split; [exact w104b_not_asked|]. split; [|split; [|split; [|split; [reflexivity|split; [reflexivity|split; [reflexivity|split; [reflexivity|answered]]]]]]].
  - exists 0, true, ["clerk"]. split; [vm_compute; reflexivity|]. split; [apply (elem_of_list_lookup_2 _ 11); vm_compute; reflexivity|left].
  - exists [Attr "/doc" "GET"], (Attr "/doc" "GET"). split; [apply (elem_of_list_lookup_2 _ 9); vm_compute; reflexivity|]. split; [left|left; reflexivity].
  - split_and!; cbn [w104b_q o_tenant o_namespace o_scope].
    + right. exists "acme". split; [reflexivity|]. exists 0. split; [vm_compute; reflexivity|]. apply (elem_of_list_lookup_2 _ 4). reflexivity.
    + right. exists "hr". split; [reflexivity|]. apply (elem_of_list_lookup_2 _ 5). reflexivity.
    + left. reflexivity.
Qed.

(** ** C103 *)
Definition w103_more : list op :=
  [OAddPrincipal "principalB"; OTenantAddPrincipal 0 "principalB" false ["coder"; "qa"]; OTenantAssignScopes 1 "principalB" true ["Entity30"]; OTenantSetDefault 0 "NamespaceA";
   OTenantAddPrincipal 0 "principalA" false ["qa"]; OTenantAddPrincipalInNamespace 0 "principalB" "NamespaceA" "admin"].
Definition w103_q : opts := in_main (AStr "TenantA") (AStr "Entity29") (AStr "backend") start_coding.
Definition w103_st : state := final (authorize id_oracle (ops_state w104_ops) "principalA" w103_q).
Definition sort_later (s : string) : sort := if bool_decide (s = "principalB") then APrincipal else sort_in_main s.
Lemma w103_names : keeps_names_apart (w104_ops ++ w103_more).
Proof. exists sort_later. unfold w104_ops, w103_more. cbn [app]. repeat (apply Forall_cons; split; [cbn [names_kept]|]); try apply Forall_nil; try exact I; repeat (split || apply Forall_cons || apply Forall_nil); vm_compute; reflexivity. Qed.
Lemma c103_ex : run id_oracle 0 init_state w104_ops = Ok (ops_state w104_ops, ops_outs w104_ops) /\ keeps_names_apart (w104_ops ++ w103_more)
  /\ authorize id_oracle (ops_state w104_ops) "principalA" w103_q = Ok (w103_st, true)
  /\ (exists outs, run id_oracle 0 w103_st w103_more = Ok (then_state w103_st w103_more, outs))
  /\ exists st', authorize rev_oracle (then_state w103_st w103_more) "principalA" w103_q = Ok (st', true).
Proof.
  split; [exact w104_run|]. split; [exact w103_names|]. split; [unfold w103_st; answered|]. split; [eexists; apply then_run; vm_compute; reflexivity|]. eexists. answered.
Qed.
Definition sort_in_e100 (s : string) : sort :=
  if bool_decide (s = "acme") then ATenant else if bool_decide (s = "hr") then ANamespace else if bool_decide (s = "s") then AScope else if bool_decide (s = "ann") then APrincipal else ARole.
Lemma c103_order_ex : run id_oracle 0 init_state e100_ops = Ok (ops_state e100_ops, ops_outs e100_ops) /\ keeps_names_apart (e100_ops ++ e100_ops1)
  /\ Forall only_stores e100_ops1 /\ e100_ops2 ≡ₚ e100_ops1
  /\ (exists outs1, run id_oracle 0 (ops_state e100_ops) e100_ops1 = Ok (then_state (ops_state e100_ops) e100_ops1, outs1))
  /\ (exists outs2, run id_oracle 0 (ops_state e100_ops) e100_ops2 = Ok (then_state (ops_state e100_ops) e100_ops2, outs2))
  /\ settled (then_state (ops_state e100_ops) e100_ops1) [] "ann".
Proof.
  split; [apply run_runs; vm_compute; reflexivity|]. split.
  { exists sort_in_e100. unfold e100_ops, e100_ops1. cbn [app]. repeat (apply Forall_cons; split; [cbn [names_kept]|]); try apply Forall_nil; try exact I; repeat (split || apply Forall_cons || apply Forall_nil); vm_compute; reflexivity. }
  split; [repeat constructor|]. split; [exact (Permutation_rev e100_ops2)|]. split; [eexists; apply then_run; vm_compute; reflexivity|].
  split; [eexists; apply then_run; vm_compute; reflexivity|exact e100_settled].
Qed.
