(** Permissions of package v2 as objects with a category (V2Model has the pair of resource and
    action only, which is all that a role keeps). *)
From Verif Require Export V2Model.

(** v2/entities.go:7-11 Permission *)
Record vperm : Type := VPerm { vp_category : string; vp_resource : string; vp_action : string }.
(** v2/entities.go:13-15 NewPermission *)
Definition new_permission (category resource method : string) : vperm := VPerm category resource method.
(** v2/role.go:8-10 String *)
Definition vp_string (p : vperm) : string := String.append (vp_resource p) (String.append " " (vp_action p)).
(** v2/role.go:12-18 AddPermission on the role object at [r] *)
Definition add_permissions (st : vstate) (r : nat) (ps : list vperm) : res vstate :=
  upd_role st r (fun c => VRole (vr_name c) (list_to_set (vp_string <$> ps) ∪ vr_perms c)).
(** v2/role.go:20-26 RemovePermission on the role object at [r] *)
Definition remove_permissions (st : vstate) (r : nat) (ps : list vperm) : res vstate :=
  upd_role st r (fun c => VRole (vr_name c) (vr_perms c ∖ list_to_set (vp_string <$> ps))).
