(** What a user expects of calls that ask and assign on one v1 manager at the same time. *)
From Verif Require Export V1RowsModel.

(** [M] is met when the calls run on the manager [st]. *)
Definition j_met (st : ustate) (cs : list jcall) (M : jmachine) : Prop := exists xs, jrun (jstart st cs) xs = Some M.
(** The call has returned (or panicked). *)
Definition j_returned (M : jmachine) (i : nat) (r : res jout) : Prop := j_codes M !! i = Some (JRet r).

(** The same call in the sequential model *)
Definition j_asked {A : Type} (st : ustate) (f : A -> jout) (x : res A) : res (ustate * jout) := let! a := x in Ok (st, f a).
Definition j_told (x : res ustate) : res (ustate * jout) := let! st := x in Ok (st, JDone).
Definition j_seq (st : ustate) (c : jcall) : res (ustate * jout) :=
  match c with
  | JAuthorize o p q => j_asked st JBool (u_authorize o st p q)
  | JTenants o p => j_asked st JStrings (get_tenants_for_principal o st p)
  | JRoles o t p => j_asked st JRows (get_principal_roles o st t p)
  | JTenantRoles o t => j_asked st JRows (get_tenant_roles o st t)
  | JImplicit o t p => j_asked st JRows (get_implicit_principal_roles o st t p)
  | JScopes o p => j_asked st JMaybe (get_scopes_for_principal o st p)
  | JTenantScopes o t p => j_asked st JMaybe (get_tenant_scopes_for_principal o st t p)
  | JPermissions o t p => j_asked st JPerms (get_permissions_for_principal o st t p)
  | JAddRole p r t ns s m => j_told (u_add_principal_role st p r t ns s m)
  | JAddPrincipal t p rs => j_told (ut_add_principal st t p rs)
  | JAddInNamespace o t p ns rs => j_told (ut_add_principal_in_namespace o st t p ns rs)
  | JAssignScopes o t p ss => j_told (ut_assign_scopes o st t p ss)
  | JAssignWithRole o t p r ss => j_told (ut_assign_scopes_with_role o st t p r ss)
  end.
Definition j_answer (st : ustate) (c : jcall) : res jout := let! r := j_seq st c in Ok r.2.

(** A question *)
Definition j_asks (c : jcall) : Prop :=
  match c with
  | JAuthorize _ _ _ | JTenants _ _ | JRoles _ _ _ | JTenantRoles _ _ | JImplicit _ _ _ | JScopes _ _ | JTenantScopes _ _ _ | JPermissions _ _ _ => True
  | _ => False
  end.
(** The call returns and leaves the manager as it is. *)
Definition j_idle (st : ustate) (c : jcall) : Prop := j_asks c \/ exists out, j_seq st c = Ok (st, out).
(** Whom and which tenant an assigning call is about *)
Definition j_about (st : ustate) (c : jcall) (p t : string) : Prop :=
  match c with
  | JAddRole p' _ l _ _ _ | JAddPrincipal l p' _ | JAddInNamespace _ l p' _ _ | JAssignScopes _ l p' _ | JAssignWithRole _ l p' _ _ =>
      p' = p /\ exists c, u_tenants st !! l = Some c /\ ut_id c = t
  | _ => False
  end.
(** A request for a place only, or for an activity only *)
Definition j_plain (q : uopts) : Prop := uo_group q = ANil /\ uo_activity q = ANil /\ (uo_tenant q <> ANil \/ uo_namespace q <> ANil \/ uo_scope q <> ANil).
Definition j_act_only (q : uopts) : Prop := uo_tenant q = ANil /\ uo_namespace q = ANil /\ uo_scope q = ANil /\ uo_group q = ANil /\ uo_activity q <> ANil.
Definition j_tenant_only (q : uopts) : Prop := uo_tenant q <> ANil /\ uo_namespace q = ANil /\ uo_scope q = ANil /\ uo_group q = ANil /\ uo_activity q = ANil.
(** An Authorize call that looks at the assignments *)
Definition j_looks (st : ustate) (p : string) (q : uopts) : Prop :=
  p ∈ u_principals st /\ ~ j_tenant_only q /\ (j_plain q \/ j_act_only q \/ is_Some (u_tenant st (to_string (uo_tenant q)))).
(** The row AddPrincipalRole adds *)
Definition j_row (st : ustate) (p r : string) (t : nat) (ns : option nat) (scope : option string) (m : list bool) (h : string) : Prop :=
  exists c n, u_tenants st !! t = Some c /\ match ns with None => n = "" | Some l => exists x, u_nss st !! l = Some x /\ un_id x = n end
    /\ h = row_string (TRow p r (ut_id c) n (default "" scope) (match m with [] => true | b :: _ => b end)).
(** A question that looks at the assignments *)
Definition j_reads (st : ustate) (c : jcall) : Prop :=
  match c with
  | JAuthorize _ p q => j_looks st p q
  | JScopes _ p => p ∈ u_principals st
  | JTenantScopes _ t p => p ∈ u_principals st /\ is_Some (u_reg st !! t)
  | _ => True
  end.
(** A list of assignments, or of what they give *)
Definition j_lists (c : jcall) : Prop :=
  match c with
  | JTenants _ _ | JRoles _ _ _ | JTenantRoles _ _ | JScopes _ _ | JTenantScopes _ _ _ | JPermissions _ _ _ => True
  | _ => False
  end.
