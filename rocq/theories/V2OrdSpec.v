(** Setting a v2 authorizer up in different orders. *)
From Verif Require Export V2Spec.

(** The calls that set an authorizer up, made on objects that exist already *)
Definition sets_up (x : vop) : Prop :=
  match x with
  | VRoleAdd _ _ | VRoleRemove _ _ | VAddRoles _ | VAddChildRole _ _ | VTenantNamespace _ _ _ | VTenantScopes _ _ _
  | VTenantChildren _ _ | VTenantStatus _ _ | VAddTenant _ | VSetDefault _ | VAddPR _ => True
  | _ => False
  end.
(** No call returned an error. *)
Definition none_refused (outs : list vout) : Prop := forall e, WErr (Some e) ∉ outs.

Definition role_called (st : vstate) (l : nat) (n : string) : Prop :=
  exists r, w_roles st !! l = Some r /\ vr_name r = n.
Definition tenant_called (st : vstate) (l : nat) (id : string) : Prop := exists t, tenant_at st l t /\ vt_id t = id.
(** The two calls want different things of the same object or name. *)
Definition contradict (st : vstate) (x y : vop) : Prop :=
  match x, y with
  | VRoleAdd r ps, VRoleRemove r' ps' | VRoleRemove r' ps', VRoleAdd r ps =>
      r = r' /\ exists p p', p ∈ ps /\ p' ∈ ps' /\ perm_string p = perm_string p'
  | VAddRoles rs, VAddRoles rs' =>
      exists l l' n, l ∈ rs /\ l' ∈ rs' /\ l <> l' /\ role_called st l n /\ role_called st l' n
  | VTenantNamespace t n true, VTenantNamespace t' n' true => t = t' /\ n <> n'
  | VTenantChildren t cs, VTenantChildren t' cs' =>
      t = t' /\ exists c c' id, c ∈ cs /\ c' ∈ cs' /\ c <> c' /\ tenant_called st c id /\ tenant_called st c' id
  | VTenantStatus t s, VTenantStatus t' s' => t = t' /\ s <> s'
  | VAddTenant t, VAddTenant t' => t <> t' /\ exists id, tenant_called st t id /\ tenant_called st t' id
  | VSetDefault n, VSetDefault n' => n <> n'
  | _, _ => False
  end.
Definition agreeing (st : vstate) (ops : list vop) : Prop :=
  forall i j x y, i <> j -> ops !! i = Some x -> ops !! j = Some y -> ~ contradict st x y.

(** The same objects, registered and linked in the same way; lists may be in another order. *)
Record alike (st1 st2 : vstate) : Prop := {
  al_roles : w_roles st1 = w_roles st2;
  al_tenants : w_tenants st1 = w_tenants st2;
  al_prs : w_prs st1 = w_prs st2;
  al_names : d_roles (w_dag st1) = d_roles (w_dag st2);
  al_resolved : d_resolved (w_dag st1) = d_resolved (w_dag st2);
  al_children : forall r, default [] (d_edges (w_dag st1) !! r) ≡ₚ default [] (d_edges (w_dag st2) !! r);
  al_assign : w_assign st1 ≡ₚ w_assign st2;
  al_reg : w_reg st1 = w_reg st2;
  al_default : w_default st1 = w_default st2
}.

(** AddChildRole calls, and the edges once all of them are accepted *)
Definition child_calls (calls : list (string * list string)) : list vop := map (fun c => VAddChildRole c.1 c.2) calls.
Fixpoint all_children (e : gmap string (list string)) (calls : list (string * list string)) : gmap string (list string) :=
  match calls with
  | [] => e
  | c :: calls' => all_children (with_children e c.1 c.2) calls'
  end.
(** The calls in this order are all accepted. *)
Definition goes_through (st : vstate) (ops : list vop) : Prop :=
  exists st' outs, vrun id_oracle 0 st ops = Ok (st', outs) /\ none_refused outs.
