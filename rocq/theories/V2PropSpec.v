(** Notions used in the statements of the v2 properties. *)
From Verif Require Export V2RemSpec.

(** The same authorizer as if no role had ever been resolved. *)
Definition forget (st : vstate) : vstate :=
  vw_dag st (Dag (d_roles (w_dag st)) (d_edges (w_dag st)) ∅).
(** What is remembered about role [r], if anything, is what the role graph says now. *)
Definition up_to_date (st : vstate) (r : string) : Prop :=
  forall s, d_resolved (w_dag st) !! r = Some s ->
    forall p, p ∈ s <-> confers (w_roles st) (w_dag st) r p.
Definition names_up_to_date (st : vstate) (r : string) : Prop :=
  forall s, d_resolved (w_dag st) !! r = Some s ->
    forall x, x ∈ s <-> includes (w_roles st) (w_dag st) r x.
(** Calls that change roles or the role graph; calls that decide. *)
Definition changes_roles (x : vop) : Prop :=
  match x with VRoleAdd _ _ | VRoleRemove _ _ | VAddRoles _ | VAddChildRole _ _ => True | _ => False end.
Definition decides (x : vop) : Prop :=
  match x with VAuthorize _ _ | VCan _ _ _ => True | _ => False end.
Definition is_can (x : vop) : Prop := match x with VCan _ _ _ => True | _ => False end.
Definition is_authorize (x : vop) : Prop := match x with VAuthorize _ _ => True | _ => False end.

(** Two authorizers that differ at most in the assignments. *)
Record same_setup (st1 st2 : vstate) : Prop := {
  ss_roles : w_roles st1 = w_roles st2;
  ss_tenants : w_tenants st1 = w_tenants st2;
  ss_dag : w_dag st1 = w_dag st2;
  ss_reg : w_reg st1 = w_reg st2;
  ss_default : w_default st1 = w_default st2
}.
(** [pr] is given in tenant object [t] or in a tenant below it. *)
Definition given_below (st : vstate) (t : nat) (pr : prole) : Prop :=
  exists t' c, rtc (child_tenant st) t t' /\ tenant_at st t' c /\ pr_tenant pr = vt_id c.
(** The same assignment with another scope. *)
Definition with_scope (pr : prole) (s : string) : prole :=
  PRole (pr_principal pr) (pr_tenant pr) s (pr_namespace pr) (pr_role pr) (pr_expiry pr) (pr_manage pr).
(** Two tenants that differ at most in their status. *)
Definition same_but_status (c1 c2 : vtenant) : Prop :=
  vt_id c1 = vt_id c2 /\ vt_namespaces c1 = vt_namespaces c2 /\ vt_default c1 = vt_default c2 /\
  vt_children c1 = vt_children c2.
(** Two authorizers that differ at most in the status of tenants. *)
Record differ_in_status (st1 st2 : vstate) : Prop := {
  ds_roles : w_roles st1 = w_roles st2;
  ds_tenants : Forall2 same_but_status (w_tenants st1) (w_tenants st2);
  ds_prs : w_prs st1 = w_prs st2;
  ds_assign : w_assign st1 = w_assign st2;
  ds_dag : w_dag st1 = w_dag st2;
  ds_reg : w_reg st1 = w_reg st2;
  ds_default : w_default st1 = w_default st2
}.
