(** Concrete histories for the v2 registries. *)
From Verif Require Export V2RegProofs V2Ex.

Definition w75_ops : list vop :=
  [VNewRole "a"; VNewRole "a"; VNewRole "b"; VAddRoles [0; 2; 1]; VNewTenant "t" (Some "ns"); VNewTenant "t" None; VNewTenant "u" None;
   VAddTenant 0; VAddTenant 1; VSetDefault "x"; VSetDefault "t"; VTenantChildren 1 [0; 2]; VTenantNamespace 1 "n" true;
   VTenantScopes 1 "n" ["s"]; VTenantNamespace 1 "n" false; VTenantScopes 1 "m" ["s"]; VTenantStatus 1 TBlocked;
   VRoleAdd 0 [("/a", "GET"); ("/b", "PUT")]; VRoleRemove 0 [("/a", "GET")]].
Lemma c75_ex : exists st c r, vreachable st /\ v2_get_role st "a" = Some 1 /\ v2_get_role st "b" = Some 2 /\ v2_get_role st "c" = None
  /\ v2_get_tenant st "t" = Some 1 /\ v2_get_tenant st "u" = None /\ v2_get_default_tenant st = Some 1
  /\ tenant_at st 1 c /\ vt_namespaces c = {["n" := {["s"]}]} /\ vt_default c = "n" /\ vt_status c = TBlocked
  /\ vt_children c = {["t" := 0; "u" := 2]} /\ w_roles st !! 0 = Some r /\ vr_perms r = {["/b PUT"]}.
Proof.
  exists (vops_state w75_ops).
  exists (default (new_vtenant "" None) (w_tenants (vops_state w75_ops) !! 1)), (default (VRole "" ∅) (w_roles (vops_state w75_ops) !! 0)).
  split; [reach_vops w75_ops|].
  split_and!; try (vm_compute; reflexivity); apply (bool_decide_unpack _); vm_compute; exact I.
Qed.
(** The answers along the way: the scope was refused for the namespace that does not exist. *)
Lemma c75_errors : vops_outs w75_ops !! 13 = Some (WErr None)
  /\ vops_outs w75_ops !! 15 = Some (WErr (Some "namespace m does not exist in tenant t")).
Proof. split; vm_compute; reflexivity. Qed.
