(** What package v2 should decide, told from the calls a program has made (not from any state). *)
From Verif Require Export V2PropSpec.

(** The calls made so far, each with what it returned *)
Definition history : Type := list (vop * vout).
(** What the last call says that says something about the matter *)
Definition latest {A} (says : vop -> vout -> option A) (h : history) : option A := last (omap (fun e => says e.1 e.2) h).

(** The objects made, in the order of their creation *)
Definition roles_made (h : history) : list string := omap (fun e => match e.1 with VNewRole n => Some n | _ => None end) h.
Definition tenants_made (h : history) : list (string * option string) := omap (fun e => match e.1 with VNewTenant id d => Some (id, d) | _ => None end) h.
Definition assignments_made (h : history) : list prole := omap (fun e => match e.1 with VNewPR pr => Some pr | _ => None end) h.

(** ** Roles *)
(** The roles given to AddRole, AddRoles *)
Definition roles_added (h : history) : list nat := h ≫= (fun e => match e.1 with VAddRoles rs => rs | _ => [] end).
(** The role of the name [n]: the last one added that bears it *)
Definition role_under (h : history) (n : string) : option nat := last (filter (fun l => roles_made h !! l = Some n) (roles_added h)).
(** The permission [p] was given to the role and not taken away since. *)
Definition role_can (h : history) (l : nat) (p : string) : Prop :=
  latest (fun x _ => match x with
    | VRoleAdd l' ps => if decide (l' = l /\ p ∈ perm_string <$> ps) then Some true else None
    | VRoleRemove l' ps => if decide (l' = l /\ p ∈ perm_string <$> ps) then Some false else None
    | _ => None
    end) h = Some true.
(** [b] was accepted as a child of [a]. *)
Definition child_role (h : history) (a b : string) : Prop := exists cs, (VAddChildRole a cs, WErr None) ∈ h /\ b ∈ cs.
Definition role_above (h : history) (a b : string) : Prop := is_Some (role_under h a) /\ child_role h a b.
Definition role_yields (h : history) (r p : string) : Prop :=
  exists r' l, rtc (role_above h) r r' /\ role_under h r' = Some l /\ role_can h l p.
Definition role_covers (h : history) (r x : string) : Prop := rtc (role_above h) r x /\ is_Some (role_under h x).

(** ** Tenants *)
Definition tenant_id (h : history) (t : nat) (id : string) : Prop := exists d, tenants_made h !! t = Some (id, d).
(** Every tenant was made under an id of its own. *)
Definition own_ids (h : history) : Prop := NoDup (tenants_made h).*1.
(** The tenant [t], with this id, was given to AddTenant. *)
Definition tenant_under (h : history) (id : string) (t : nat) : Prop := tenant_id h t id /\ VAddTenant t ∈ h.*1.
Definition is_child (h : history) (a b : nat) : Prop := exists cs, VTenantChildren a cs ∈ h.*1 /\ b ∈ cs.
Definition status_now (h : history) (t : nat) : tstatus :=
  default TActive (latest (fun x _ => match x with VTenantStatus t' s => if decide (t' = t) then Some s else None | _ => None end) h).
(** The namespace last declared the default, else the one given to NewTenant, if any *)
Definition default_now (h : history) (t : nat) : string :=
  match latest (fun x _ => match x with VTenantNamespace t' n true => if decide (t' = t) then Some n else None | _ => None end) h with
  | Some n => n
  | None => match tenants_made h !! t with Some (_, Some n) => n | _ => "" end
  end.
Definition has_namespace (h : history) (t : nat) (n : string) : Prop :=
  (exists id, tenants_made h !! t = Some (id, Some n)) \/ exists b, VTenantNamespace t n b ∈ h.*1.
Definition has_scope (h : history) (t : nat) (n s : string) : Prop := exists ss, (VTenantScopes t n ss, WErr None) ∈ h /\ s ∈ ss.
Definition default_tenant (h : history) : string := default "" (latest (fun x _ => match x with VSetDefault id => Some id | _ => None end) h).

(** ** Assignments *)
(** What a call says about the expiry of the assignment [l] *)
Definition expiry_said (l : nat) (x : vop) (r : vout) : option (option Z) :=
  match x with
  | VSetExpiry _ l' e => match r with WErr None => if decide (l' = l) then Some (Some e) else None | _ => None end
  | VSetExpiryDuration now l' (DString (Some d)) | VSetExpiryDuration now l' (DDuration d) => if decide (l' = l) then Some (Some (now + d)%Z) else None
  | VSetExpiryDuration now l' DOther => if decide (l' = l) then Some (Some now) else None
  | VClearExpiry l' => if decide (l' = l) then Some None else None
  | _ => None
  end.
(** The assignment object [l] meets all the criteria [c] given to RemovePrincipalRole. *)
Definition taken (made : list prole) (c : prole) (l : nat) : Prop := exists pr, made !! l = Some pr /\ meets c pr.
Global Instance meets_decision c pr : Decision (meets c pr).
Proof. unfold meets. apply _. Defined.
Global Instance taken_decision made c l : Decision (taken made c l).
Proof.
  unfold taken. destruct (made !! l) as [pr|]; [|right; intros (pr & [=] & _)].
  destruct (decide (meets c pr)) as [M|M]; [left; exists pr; split; [reflexivity|exact M]|right; intros (pr' & [= <-] & H); exact (M H)].
Defined.
(** The assignments in force, in the order given: AddPrincipalRole adds, RemovePrincipalRole takes back those that meet the criteria. *)
Definition held_of (made : list prole) (h : history) : list nat :=
  fold_left (fun ls e => match e.1 with VAddPR new => ls ++ new | VRemovePR c => filter (fun l => ~ taken made c l) ls | _ => ls end) h [].
Definition held (h : history) : list nat := held_of (assignments_made h) h.
(** The assignment [pr], with the expiry last set, is in force. *)
Definition assigned_now (h : history) (pr : prole) : Prop :=
  exists l pr0, l ∈ held h /\ assignments_made h !! l = Some pr0 /\ pr = with_expiry pr0 (default (pr_expiry pr0) (latest (expiry_said l) h)).

(** ** Decisions *)
(** The tenants the request is about *)
Definition about (h : history) (q : request) (t : nat) : Prop :=
  (exists id, id <> "" /\ (q_tenant q = id \/ q_tenant q = "" /\ default_tenant h = id) /\ tenant_under h id t)
  \/ (q_tenant q = "" /\ default_tenant h = "" /\
      exists pr, assigned_now h pr /\ pr_principal pr = q_principal q /\ pr_tenant pr <> "" /\ tenant_under h (pr_tenant pr) t /\ status_now h t = TActive).
(** The namespace meant, which has to contain the scope named *)
Definition in_namespace (h : history) (t : nat) (q : request) (n : string) : Prop :=
  (q_namespace q = n /\ n <> "" \/ q_namespace q = "" /\ default_now h t = n /\ n <> ""
   \/ q_namespace q = "" /\ default_now h t = "" /\ forall n', has_namespace h t n' <-> n' = n)
  /\ has_namespace h t n /\ (q_scope q = "" \/ has_scope h t n (q_scope q)).
(** [user] manages the child tenant [b] from [a]. *)
Definition manages_below (h : history) (user : string) (a b : nat) : Prop :=
  is_child h a b /\ exists id pr, tenant_id h a id /\ assigned_now h pr /\ pr_principal pr = user /\ pr_tenant pr = id /\ pr_manage pr = true.
(** The assignment counts for [user] in the tenant [t] and the namespace [n]. *)
Definition in_force (h : history) (now : Z) (user : string) (t : nat) (n : string) (pr : prole) : Prop :=
  assigned_now h pr /\ pr_principal pr = user /\ ~ expired now pr /\ (pr_namespace pr = "" \/ pr_namespace pr = n)
  /\ exists t', rtc (manages_below h user) t t' /\ tenant_id h t' (pr_tenant pr).
(** Permissions for the scope; if there are none, those of the assignments without a scope *)
Definition scope_perm (h : history) (now : Z) (user : string) (t : nat) (n s p : string) : Prop :=
  exists pr, in_force h now user t n pr /\ pr_scope pr = s /\ role_yields h (pr_role pr) p.
Definition general_perm (h : history) (now : Z) (user : string) (t : nat) (n p : string) : Prop :=
  exists pr, in_force h now user t n pr /\ pr_scope pr = "" /\ role_yields h (pr_role pr) p.
Definition granted (h : history) (now : Z) (q : request) : Prop :=
  exists t n p, about h q t /\ in_namespace h t q n /\ matches_perm q p
    /\ (scope_perm h now (q_principal q) t n (q_scope q) p
        \/ general_perm h now (q_principal q) t n p /\ forall p', ~ scope_perm h now (q_principal q) t n (q_scope q) p').
(** [Can]: one of the roles, or a role above it, is assigned. *)
Definition holds (h : history) (now : Z) (q : request) (roles : list string) : Prop :=
  exists t n pr x, about h q t /\ in_namespace h t q n /\ in_force h now (q_principal q) t n pr /\ pr_role pr <> ""
    /\ (x = pr_role pr \/ role_covers h (pr_role pr) x) /\ x ∈ roles.
