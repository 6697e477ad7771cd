(** When package v2 fails to return, told from the calls a program has made (not from any state). *)
From Verif Require Export V2CallsSpec V2OrdSpec.

(** ** Calls that set something up *)
(** The call uses only objects that the constructors have returned. *)
Definition pointers_made (h : history) (x : vop) : Prop :=
  match x with
  | VRoleAdd r _ | VRoleRemove r _ => r < length (roles_made h)
  | VAddRoles rs => Forall (fun r => r < length (roles_made h)) rs
  | VTenantNamespace t _ _ | VTenantScopes t _ _ | VTenantStatus t _ | VAddTenant t => t < length (tenants_made h)
  | VTenantChildren t cs => Forall (fun t => t < length (tenants_made h)) (t :: cs)
  | VAddPR ls => Forall (fun l => l < length (assignments_made h)) ls
  | VSetExpiry _ l _ | VSetExpiryDuration _ l _ | VClearExpiry l => l < length (assignments_made h)
  | _ => True
  end.

(** ** What RemovePrincipalRole leaves behind *)
(** Among the assignments in force, one that meets the criteria was given before one that does not. *)
Definition out_of_order (h : history) (c : prole) : Prop :=
  exists i j a b, i < j /\ held h !! i = Some a /\ held h !! j = Some b /\ taken (assignments_made h) c a /\ ~ taken (assignments_made h) c b.
(** No criterion is given: everything is taken back. *)
Definition no_criteria (c : prole) : Prop :=
  pr_principal c = "" /\ pr_tenant c = "" /\ pr_namespace c = "" /\ pr_scope c = "" /\ pr_role c = "".
(** An assignment was taken back that was given before one that stayed, and not everything was taken back since. *)
Definition nil_left (h : history) : Prop :=
  exists h1 c r h2, h = h1 ++ (VRemovePR c, r) :: h2 /\ out_of_order h1 c /\ forall c' r', (VRemovePR c', r') ∈ h2 -> ~ no_criteria c'.
(** The call looks through all assignments. *)
Definition looks_through (h : history) (x : vop) : Prop :=
  match x with
  | VRemovePR c => ~ no_criteria c
  | VAuthorize _ q | VCan _ q _ =>
      q_tenant q = "" /\ default_tenant h = ""
      \/ exists id t n, id <> "" /\ (q_tenant q = id \/ q_tenant q = "" /\ default_tenant h = id) /\ tenant_under h id t /\ in_namespace h t q n
  | _ => False
  end.

(** ** Permissions on which comparing does not end *)
(** The permission [p] is one of those that the request is compared with. *)
Definition compared (h : history) (now : Z) (q : request) (p : string) : Prop :=
  (q_resource q <> "" \/ q_action q <> "") /\ exists t n, about h q t /\ in_namespace h t q n
    /\ (scope_perm h now (q_principal q) t n (q_scope q) p
        \/ general_perm h now (q_principal q) t n p /\ forall p', ~ scope_perm h now (q_principal q) t n (q_scope q) p').
(** None of them makes the comparison run forever (C02 tells which do). *)
Definition permissions_decide (h : history) (now : Z) (q : request) : Prop :=
  forall p, compared h now q p -> ~ StrLoops p (res_act (q_resource q) (q_action q)).
