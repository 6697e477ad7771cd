(** Properties of package v2: registries and set-up. *)
From Verif Require Import V2RegSpec V2RegEx.

(** ** C75: lookups return the last object registered under the name; set-up methods do what they say and nothing else *)
Theorem C75_roles (o : oracle) (ops : list vop) (st : vstate) (outs : list vout) (name : string) :
  vrun o 0 v2_init ops = Ok (st, outs) ->
  v2_get_role st name = last_such (vrole_named st name) (concat (offers_roles <$> ops)).
Proof. exact (vroles_history o ops st outs name). Qed.
Print Assumptions C75_roles.
Theorem C75_tenants (o : oracle) (ops : list vop) (st : vstate) (outs : list vout) (id : string) :
  vrun o 0 v2_init ops = Ok (st, outs) ->
  v2_get_tenant st id = last_such (vtenant_named st id) (concat (offers_tenants <$> ops)).
Proof. exact (vtenants_history o ops st outs id). Qed.
Print Assumptions C75_tenants.
Theorem C75_default (o : oracle) (ops : list vop) (st : vstate) (outs : list vout) : vrun o 0 v2_init ops = Ok (st, outs) ->
  v2_get_default_tenant st = match last (concat (offers_default <$> ops)) with
                             | Some id => if bool_decide (id = "") then None else v2_get_tenant st id
                             | None => None
                             end.
Proof. exact (vdefault_history o ops st outs). Qed.
Print Assumptions C75_default.
(** AddTenants is AddTenant one after the other. *)
Theorem C75_add_tenants (o : oracle) (st : vstate) (ts : list nat) (st' : vstate) : v2_add_tenants o 0 st ts = Ok st' ->
  exists outs, vrun o 0 st (VAddTenant <$> ts) = Ok (st', outs).
Proof. exact (vadd_tenants_each o st ts st'). Qed.
Print Assumptions C75_add_tenants.
Theorem C75_add_tenant (o : oracle) (st : vstate) (t : nat) (st' : vstate) (y : vout) : vstep o st (VAddTenant t) = Ok (st', y) ->
  forall c, tenant_at st t c -> st' = vw_reg st (<[vt_id c := t]> (w_reg st)) (w_parents st').
Proof. exact (add_tenant_exact o st t st' y). Qed.
Print Assumptions C75_add_tenant.
Theorem C75_add_roles (o : oracle) (st : vstate) (ls : list nat) (st' : vstate) (y : vout) : vstep o st (VAddRoles ls) = Ok (st', y) ->
  st' = vw_dag st (Dag (d_roles (w_dag st')) (d_edges (w_dag st)) (d_resolved (w_dag st)))
  /\ forall name, v2_get_role st' name =
       match last_such (vrole_named st name) ls with Some l => Some l | None => v2_get_role st name end.
Proof. exact (add_roles_exact o st ls st' y). Qed.
Print Assumptions C75_add_roles.
Theorem C75_set_default (o : oracle) (st : vstate) (id : string) (st' : vstate) (y : vout) :
  vstep o st (VSetDefault id) = Ok (st', y) -> st' = vw_default st id.
Proof. exact (set_default_v2_exact o st id st' y). Qed.
Print Assumptions C75_set_default.
Theorem C75_role_add (o : oracle) (st : vstate) (r : nat) (ps : list (string * string)) (st' : vstate) (y : vout) :
  vstep o st (VRoleAdd r ps) = Ok (st', y) -> forall ro, w_roles st !! r = Some ro ->
  exists X, (forall p, p ∈ X <-> p ∈ vr_perms ro \/ exists re ac, (re, ac) ∈ ps /\ p = res_act re ac)
    /\ vrole_becomes st r (VRole (vr_name ro) X) st'.
Proof. exact (role_add_exact o st r ps st' y). Qed.
Print Assumptions C75_role_add.
Theorem C75_role_remove (o : oracle) (st : vstate) (r : nat) (ps : list (string * string)) (st' : vstate) (y : vout) :
  vstep o st (VRoleRemove r ps) = Ok (st', y) -> forall ro, w_roles st !! r = Some ro ->
  exists X, (forall p, p ∈ X <-> p ∈ vr_perms ro /\ forall re ac, (re, ac) ∈ ps -> p <> res_act re ac)
    /\ vrole_becomes st r (VRole (vr_name ro) X) st'.
Proof. exact (role_remove_exact o st r ps st' y). Qed.
Print Assumptions C75_role_remove.
Theorem C75_new_tenant (o : oracle) (st : vstate) (id : string) (def : option string) (st' : vstate) (y : vout) :
  vstep o st (VNewTenant id def) = Ok (st', y) ->
  exists c, st' = vw_tenants st (w_tenants st ++ [c]) /\ y = WLoc (length (w_tenants st))
    /\ vt_id c = id /\ vt_status c = TActive /\ vt_children c = ∅ /\ vt_default c = default "" def
    /\ forall n s, vt_namespaces c !! n = Some s <-> def = Some n /\ s = ∅.
Proof. exact (new_tenant_exact o st id def st' y). Qed.
Print Assumptions C75_new_tenant.
Theorem C75_add_namespace (o : oracle) (st : vstate) (t : nat) (n : string) (b : bool) (st' : vstate) (y : vout) :
  vstep o st (VTenantNamespace t n b) = Ok (st', y) -> forall c, tenant_at st t c -> exists m,
    (forall k, m !! k = if decide (k = n) then Some (default ∅ (vt_namespaces c !! n)) else vt_namespaces c !! k)
    /\ vtenant_becomes st t (VTenant (vt_id c) m (if b then n else vt_default c) (vt_status c) (vt_children c)) st'.
Proof. exact (tenant_namespace_exact o st t n b st' y). Qed.
Print Assumptions C75_add_namespace.
Theorem C75_add_scopes (o : oracle) (st : vstate) (t : nat) (n : string) (ss : list string) (st' : vstate) (y : vout) :
  vstep o st (VTenantScopes t n ss) = Ok (st', y) -> forall c, tenant_at st t c ->
  match vt_namespaces c !! n with
  | None => st' = st /\ y = WErr (Some ("namespace " ++ n ++ " does not exist in tenant " ++ vt_id c)%string)
  | Some s => y = WErr None /\ exists X, (forall x, x ∈ X <-> x ∈ s \/ x ∈ ss)
      /\ vtenant_becomes st t (VTenant (vt_id c) (<[n := X]> (vt_namespaces c)) (vt_default c) (vt_status c) (vt_children c)) st'
  end.
Proof. exact (tenant_scopes_exact o st t n ss st' y). Qed.
Print Assumptions C75_add_scopes.
Theorem C75_add_children (o : oracle) (st : vstate) (t : nat) (cs : list nat) (st' : vstate) (y : vout) :
  vstep o st (VTenantChildren t cs) = Ok (st', y) -> forall c, tenant_at st t c -> exists m,
    (forall k, m !! k = match last_such (vtenant_named st k) cs with Some l => Some l | None => vt_children c !! k end)
    /\ vtenant_becomes st t (VTenant (vt_id c) (vt_namespaces c) (vt_default c) (vt_status c) m) st'.
Proof. exact (tenant_children_exact o st t cs st' y). Qed.
Print Assumptions C75_add_children.
Theorem C75_add_assignments (o : oracle) (st : vstate) (ls : list nat) (st' : vstate) (y : vout) : vstep o st (VAddPR ls) = Ok (st', y) ->
  w_assign st' = w_assign st ++ (Some <$> ls) /\ st' = vw_index (vw_assign st (w_assign st')) (w_index st').
Proof. exact (add_assignments_exact o st ls st' y). Qed.
Print Assumptions C75_add_assignments.
(** The name of a status; a value outside the five constants panics. *)
Theorem C75_status_string (n : Z) (s : string) : status_string n = Ok s <->
  (n, s) ∈ [(0, "active"); (1, "inactive"); (2, "pending"); (3, "blocked"); (4, "banned")]%Z.
Proof. exact (status_string_exact n s). Qed.
Print Assumptions C75_status_string.
Theorem C75_status_panics (n : Z) : status_string n = Panic <-> (n < 0 \/ 4 < n)%Z.
Proof. exact (status_string_panics n). Qed.
Print Assumptions C75_status_panics.
Example C75_ex : exists st c r, vreachable st /\ v2_get_role st "a" = Some 1 /\ v2_get_role st "b" = Some 2 /\ v2_get_role st "c" = None
  /\ v2_get_tenant st "t" = Some 1 /\ v2_get_tenant st "u" = None /\ v2_get_default_tenant st = Some 1
  /\ tenant_at st 1 c /\ vt_namespaces c = {["n" := {["s"]}]} /\ vt_default c = "n" /\ vt_status c = TBlocked
  /\ vt_children c = {["t" := 0; "u" := 2]} /\ w_roles st !! 0 = Some r /\ vr_perms r = {["/b PUT"]}.
Proof. exact c75_ex. Qed.
Example C75_errors_ex : vops_outs w75_ops !! 13 = Some (WErr None)
  /\ vops_outs w75_ops !! 15 = Some (WErr (Some "namespace m does not exist in tenant t")).
Proof. exact c75_errors. Qed.
