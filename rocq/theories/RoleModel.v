(** Model of role.go (and of v1/role.go, which is the same code except for the spelling of
    AddDescendent and the map package; v1 line numbers are one less up to line 103). *)
From Verif Require Export MatchModel UtilsModel.

(** role.go:13-16 Attribute (never modified after NewAttribute, permission.go:46-51: a value) *)
Record attr : Type := Attr { resource : string; action : string }.
Global Instance attr_eq_dec : EqDecision attr.
Proof. solve_decision. Defined.
Global Instance attr_countable : Countable attr.
Proof.
  apply (inj_countable' (fun a => (resource a, action a)) (fun p => Attr p.1 p.2)).
  by intros [].
Defined.

(** role.go:18-24 Attribute.String with a delimiter *)
Definition attr_string_with (delim : string) (a : attr) : string :=
  String.append (resource a) (String.append delim (action a)).
(** role.go:18-24 Attribute.String() *)
Definition attr_string (a : attr) : string := attr_string_with " " a.

(** role.go:26-29 AttributeGroup *)
Record group : Type := Group { g_id : string; g_perms : gmap string attr }.
(** role.go:37-43 Role; [r_perms] and [r_desc] hold pointers (heap locations). *)
Record role_obj : Type := Role {
  r_id : string;
  r_lock : bool;
  r_perms : gmap string nat;
  r_desc : gmap string nat
}.
(** All roles and attribute groups that exist.  A location outside the list is the nil pointer. *)
Record rheap : Type := RHeap { h_roles : list role_obj; h_groups : list group }.

Definition set_role (h : rheap) (l : nat) (r : role_obj) : rheap :=
  RHeap (<[l := r]> (h_roles h)) (h_groups h).
Definition set_group (h : rheap) (l : nat) (g : group) : rheap :=
  RHeap (h_roles h) (<[l := g]> (h_groups h)).

(** Errors are returned as [Some message]; [None] is a nil error. *)
Definition goerr : Type := option string.

(** permission.go:24-30 NewRole *)
Definition new_role (h : rheap) (id : string) : nat * rheap :=
  (length (h_roles h), RHeap (h_roles h ++ [Role id false ∅ ∅]) (h_groups h)).
(** permission.go:32-37 NewAttributeGroup *)
Definition new_group (h : rheap) (id : string) : nat * rheap :=
  (length (h_groups h), RHeap (h_roles h) (h_groups h ++ [Group id ∅])).
(** permission.go:39-44 NewAttributes *)
Definition new_attributes (resource : string) (actions : list string) : list attr :=
  (fun a => Attr resource a) <$> actions.

(** role.go:31-35 AddAttributes: later attributes replace earlier ones with the same key *)
Definition add_attributes (h : rheap) (gl : nat) (attrs : list attr) : res rheap :=
  match h_groups h !! gl with
  | None => Panic
  | Some g => Ok (set_group h gl (Group (g_id g)
      (foldl (fun m a => <[attr_string a := a]> m) (g_perms g) attrs)))
  end.

(** role.go:45-47 Lock, 53-55 Unlock *)
Definition role_set_lock (h : rheap) (l : nat) (b : bool) : res rheap :=
  match h_roles h !! l with
  | None => Panic
  | Some r => Ok (set_role h l (Role (r_id r) b (r_perms r) (r_desc r)))
  end.

(** ** Transitive descendants.
    role.go:94-102 GetDescendantRoles and tenant.go:31-38 GetDescendants are the same recursion
    (visit every child: emit it, then everything below it), so the model shares it: [next l] is
    the children map of object [l], [None] if [l] is nil.  The result keeps key and pointer.
    The recursion has no termination argument in Go; the fuel is justified in RoleProofs
    (running out of it means the Go call recurses forever). *)
Section descend.
  Context (next : nat -> option (gmap string nat)).
  Fixpoint visit (rec : oracle -> nat -> res (list (string * nat))) (o : oracle) (i : nat)
      (l : list (string * nat)) : res (list (string * nat)) :=
    match l with
    | [] => Ok []
    | (k, c) :: l' =>
        let! below := rec (sub o i) c in
        let! rest := visit rec o (S i) l' in
        Ok ((k, c) :: below ++ rest)
    end.
  Fixpoint descend (fuel : nat) (o : oracle) (l : nat) : res (list (string * nat)) :=
    match fuel with
    | 0 => Hang
    | S fuel' =>
        match next l with
        | None => Panic
        | Some m => visit (descend fuel') o 1 (ordered (sub o 0) (map_to_list m))
        end
    end.
End descend.

Definition role_children (h : rheap) (l : nat) : option (gmap string nat) :=
  r_desc <$> h_roles h !! l.

(** role.go:94-102 GetDescendantRoles *)
Definition get_descendant_roles (o : oracle) (h : rheap) (l : nat) : res (list nat) :=
  let! ds := descend (role_children h) (S (length (h_roles h))) o l in Ok (ds.*2).

(** role.go:66-72: the ForEach that stops at the first matching permission *)
Fixpoint any_match (value : string) (perms : list string) : res bool :=
  match perms with
  | [] => Ok false
  | p :: ps => let! b := match_resource value p in
               if b then Ok true else any_match value ps
  end.

(** role.go:78-90: the loop over the descendants *)
Fixpoint has_loop (rec : oracle -> nat -> res bool) (h : rheap) (allowed : list string)
    (o : oracle) (i : nat) (ds : list nat) : res bool :=
  match ds with
  | [] => Ok false
  | d :: ds' =>
      match h_roles h !! d with
      | None => Panic
      | Some r =>
          if Nat.ltb 0 (length allowed) && negb (contains allowed (r_id r)) then
            has_loop rec h allowed o (S i) ds'
          else
            let! b := rec (sub o i) d in
            if b then Ok true else has_loop rec h allowed o (S i) ds'
      end
  end.

(** role.go:57-92 Has (a group stored under a key is never nil: AddPermissionResourceGroup
    dereferences it first, so the nil test of line 59 is omitted) *)
Fixpoint has_fuel (fuel : nat) (o : oracle) (h : rheap) (l : nat) (grp perm : string)
    (allowed : list string) : res bool :=
  match fuel with
  | 0 => Hang
  | S fuel' =>
      match h_roles h !! l with
      | None => Panic
      | Some r =>
          match r_perms r !! grp with
          | None => Ok false                                             (* 58-61 *)
          | Some gl =>
              match h_groups h !! gl with
              | None => Panic
              | Some g =>
                  match g_perms g !! perm with
                  | Some _ => Ok true                                    (* 62-64 *)
                  | None =>
                      let! m := any_match perm (ordered (sub o 0) (map_to_list (g_perms g)).*1) in
                      if m then Ok true                                  (* 65-75 *)
                      else
                        let! ds := get_descendant_roles (sub o 1) h l in
                        has_loop (fun o' d => has_fuel fuel' o' h d grp perm allowed)
                          h allowed (sub o 2) 0 ds                       (* 76-91 *)
                  end
              end
          end
      end
  end.
Definition role_has (o : oracle) (h : rheap) (l : nat) (grp perm : string)
    (allowed : list string) : res bool :=
  has_fuel (S (length (h_roles h))) o h l grp perm allowed.

Definition err_locked : goerr := Some "changes not allowed".

(** role.go:109-113 *)
Fixpoint add_descendants_loop (h : rheap) (desc : gmap string nat) (ds : list nat)
    : res (gmap string nat) :=
  match ds with
  | [] => Ok desc
  | d :: ds' =>
      match h_roles h !! d with
      | None => Panic
      | Some c =>
          add_descendants_loop h
            (match desc !! r_id c with Some _ => desc | None => <[r_id c := d]> desc end) ds'
      end
  end.
(** role.go:105-115 AddDescendant.  Simplification: when a nil descendant panics halfway, the
    earlier ones are not kept (a panic ends the history). *)
Definition role_add_descendant (h : rheap) (l : nat) (ds : list nat) : res (rheap * goerr) :=
  match h_roles h !! l with
  | None => Panic
  | Some r =>
      if r_lock r then Ok (h, err_locked)
      else let! desc := add_descendants_loop h (r_desc r) ds in
           Ok (set_role h l (Role (r_id r) (r_lock r) (r_perms r) desc), None)
  end.

(** role.go:130-134: keep the first attribute with a given key *)
Definition add_missing (m : gmap string attr) (attrs : list attr) : gmap string attr :=
  foldl (fun m a => match m !! attr_string a with
                    | Some _ => m
                    | None => <[attr_string a := a]> m
                    end) m attrs.

(** role.go:118-137 AddPermission *)
Definition role_add_permission (h : rheap) (l : nat) (grp : string) (attrs : list attr)
    : res (rheap * goerr) :=
  match h_roles h !! l with
  | None => Panic
  | Some r =>
      if r_lock r then Ok (h, err_locked)
      else
        match r_perms r !! grp with
        | Some gl =>                                                     (* existing group *)
            match h_groups h !! gl with
            | None => Panic
            | Some g => Ok (set_group h gl (Group (g_id g) (add_missing (g_perms g) attrs)), None)
            end
        | None =>                                                        (* 123-128, 135 *)
            let gl := length (h_groups h) in
            Ok (RHeap (<[l := Role (r_id r) (r_lock r) (<[grp := gl]> (r_perms r)) (r_desc r)]> (h_roles h))
                      (h_groups h ++ [Group grp (add_missing ∅ attrs)]), None)
        end
  end.

(** role.go:139-147 AddPermissionResourceGroup: stores the pointer itself (lines 143-145) *)
Definition role_add_group (h : rheap) (l : nat) (gl : nat) : res (rheap * goerr) :=
  match h_roles h !! l with
  | None => Panic
  | Some r =>
      if r_lock r then Ok (h, err_locked)
      else
        match h_groups h !! gl with
        | None => Panic
        | Some g =>
            match r_perms r !! g_id g with
            | Some _ => Ok (h, None)
            | None => Ok (set_role h l (Role (r_id r) (r_lock r) (<[g_id g := gl]> (r_perms r)) (r_desc r)), None)
            end
        end
  end.

(** The attributes of a group, in iteration order. *)
Definition group_attrs (o : oracle) (g : group) : list attr :=
  ordered o (map_to_list (g_perms g)).*2.

(** role.go:149-157 GetResourceGroupPermissions *)
Definition get_group_permissions (o : oracle) (h : rheap) (l : nat) (grp : string) : res (list attr) :=
  match h_roles h !! l with
  | None => Panic
  | Some r =>
      match r_perms r !! grp with
      | None => Ok []
      | Some gl => match h_groups h !! gl with
                   | None => Panic
                   | Some g => Ok (group_attrs o g)
                   end
      end
  end.

(** role.go:166-174: append the role's own permissions, group by group *)
Fixpoint add_own (o : oracle) (i : nat) (h : rheap) (acc : gmap string (list attr))
    (gs : list (string * nat)) : res (gmap string (list attr)) :=
  match gs with
  | [] => Ok acc
  | (grp, gl) :: gs' =>
      match h_groups h !! gl with
      | None => Panic
      | Some g =>
          add_own o (S i) h (<[grp := default [] (acc !! grp) ++ group_attrs (sub o i) g]> acc) gs'
      end
  end.
Fixpoint fold_roles (rec : oracle -> gmap string (list attr) -> nat -> res (gmap string (list attr)))
    (o : oracle) (i : nat) (acc : gmap string (list attr)) (ds : list nat)
    : res (gmap string (list attr)) :=
  match ds with
  | [] => Ok acc
  | d :: ds' => let! acc' := rec (sub o i) acc d in fold_roles rec o (S i) acc' ds'
  end.
(** role.go:159-179 GetAllImplicitPermissions; [acc] is the map passed down by line 176 *)
Fixpoint all_perms_fuel (fuel : nat) (o : oracle) (h : rheap) (acc : gmap string (list attr)) (l : nat)
    : res (gmap string (list attr)) :=
  match fuel with
  | 0 => Hang
  | S fuel' =>
      match h_roles h !! l with
      | None => Panic
      | Some r =>
          let! acc1 := add_own (sub o 0) 1 h acc (ordered (sub (sub o 0) 0) (map_to_list (r_perms r))) in
          let! ds := get_descendant_roles (sub o 1) h l in
          fold_roles (fun o' a d => all_perms_fuel fuel' o' h a d) (sub o 2) 0 acc1 ds
      end
  end.
Definition get_all_implicit_permissions (o : oracle) (h : rheap) (l : nat)
    : res (gmap string (list attr)) :=
  all_perms_fuel (S (length (h_roles h))) o h ∅ l.

(** role.go:181-193 GetPermissions *)
Definition get_permissions (o : oracle) (h : rheap) (l : nat) : res (gmap string (list attr)) :=
  match h_roles h !! l with
  | None => Panic
  | Some r => add_own (sub o 0) 1 h ∅ (ordered (sub (sub o 0) 0) (map_to_list (r_perms r)))
  end.
