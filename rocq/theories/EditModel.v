(** Model of what a caller of package v2 can do without calling it: writing to the exported fields
    of the objects it keeps pointers to.  The authorizer holds the same pointers (v2/v2.go:102-113,
    v2/role.go:53-59, 76-82, v2/init.go). *)
From Verif Require Export V2Model.

Inductive edit : Type :=
| EAssignment (l : nat) (pr : prole)                       (* v2/v2.go:14-22: *pr = PrincipalRole{...} *)
| EDefaultNS (t : nat) (n : string)                        (* v2/entities.go:69: tenant.DefaultNS = n *)
| ENamespaces (t : nat) (m : gmap string (gset string))    (* 68: tenant.Namespaces = m; not shared between tenants *)
| EChildren (t : nat) (ks : gset string)                   (* 71: delete(tenant.ChildTenants, k) for k in ks *)
| EPermissions (r : nat) (ps : gset string)                (* 19: role.Permissions = ps *)
| ETenantID (t : nat) (id : string)                        (* 67: tenant.ID = id *)
| ERoleName (r : nat) (n : string).                        (* 18: role.Name = n *)

Definition set_assignment (pr : prole) (_ : prole) : prole * option string := (pr, None).
Definition set_default (n : string) (t : vtenant) : vtenant :=
  VTenant (vt_id t) (vt_namespaces t) n (vt_status t) (vt_children t).
Definition set_namespaces (m : gmap string (gset string)) (t : vtenant) : vtenant :=
  VTenant (vt_id t) m (vt_default t) (vt_status t) (vt_children t).
Definition drop_children (ks : gset string) (t : vtenant) : vtenant :=
  VTenant (vt_id t) (vt_namespaces t) (vt_default t) (vt_status t) (filter (fun kv => kv.1 ∉ ks) (vt_children t)).
Definition set_tenant_id (id : string) (t : vtenant) : vtenant :=
  VTenant id (vt_namespaces t) (vt_default t) (vt_status t) (vt_children t).
Definition set_permissions (ps : gset string) (r : vrole) : vrole := VRole (vr_name r) ps.
Definition set_role_name (n : string) (r : vrole) : vrole := VRole n (vr_perms r).

(** A write through a nil pointer panics. *)
Definition edit_step (st : vstate) (e : edit) : res vstate :=
  match e with
  | EAssignment l pr => let! r := upd_pr st l (set_assignment pr) in Ok r.1
  | EDefaultNS t n => upd_tenant st t (set_default n)
  | ENamespaces t m => upd_tenant st t (set_namespaces m)
  | EChildren t ks => upd_tenant st t (drop_children ks)
  | EPermissions r ps => upd_role st r (set_permissions ps)
  | ETenantID t id => upd_tenant st t (set_tenant_id id)
  | ERoleName r n => upd_role st r (set_role_name n)
  end.

(** Histories of calls and writes *)
Inductive eop : Type :=
| ECall (x : vop)
| EWrite (e : edit).
Definition estep (o : oracle) (st : vstate) (x : eop) : res (vstate * vout) :=
  match x with
  | ECall x => vstep o st x
  | EWrite e => wunit (edit_step st e)
  end.
Fixpoint erun (o : oracle) (i : nat) (st : vstate) (ops : list eop) : res (vstate * list vout) :=
  match ops with
  | [] => Ok (st, [])
  | x :: ops' =>
      let! s1 := estep (sub o i) st x in
      let! s2 := erun o (S i) s1.1 ops' in
      Ok (s2.1, s1.2 :: s2.2)
  end.
