(** What it means to go on setting an authorizer of package v2 up without taking anything back. *)
From Verif Require Export V2PropSpec.
Local Open Scope string_scope.

(** The call only adds to what is there: no role takes the place of another one registered under
    the same name, and no namespace is made the default one or joins a single namespace that is
    used for want of a default; an expiry moves away and a tenant becomes active. *)
Definition addition (st : vstate) (x : vop) : Prop :=
  match x with
  | VNewRole _ | VNewTenant _ _ | VNewPR _ | VRoleAdd _ _ | VAddChildRole _ _ | VTenantScopes _ _ _
  | VTenantChildren _ _ | VAddTenant _ | VAddPR _ | VClearExpiry _ => True
  | VTenantStatus _ s => s = TActive
  | VSetExpiry _ l e => forall pr, w_prs st !! l = Some pr -> exists e0, pr_expiry pr = Some e0 /\ (e0 <= e)%Z
  | VAddRoles rs => forall l r l0, l ∈ rs -> w_roles st !! l = Some r -> d_roles (w_dag st) !! vr_name r = Some l0 -> l0 = l
  | VTenantNamespace t n is_default => forall c, tenant_at st t c ->
      (is_default = true -> vt_default c = n) /\
      (vt_default c = "" -> forall n', dom (vt_namespaces c) = {[n']} -> n = n')
  | _ => False
  end.
(** [st'] comes after [st] by an addition or by a question of the kind [ask]. *)
Definition goes_on (ask : vop -> Prop) (st st' : vstate) : Prop :=
  exists o x y, (addition st x \/ ask x) /\ vstep o st x = Ok (st', y).
(** No assignment of the principal who asks is for the scope asked for, unless none is asked for. *)
Definition no_scope_given (st : vstate) (q : request) : Prop :=
  q_scope q = "" \/ forall pr, assigned st pr -> pr_principal pr = q_principal q -> pr_scope pr <> q_scope q.
(** Every assignment of [user] is for some scope. *)
Definition all_scoped (st : vstate) (user : string) : Prop :=
  forall pr, assigned st pr -> pr_principal pr = user -> pr_scope pr <> "".
