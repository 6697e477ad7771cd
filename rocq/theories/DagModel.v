(** Model of the v2 role graph: v2/role.go:61-179 RoleDAG, with the roles of v2/entities.go:17-25. *)
From Verif Require Export Base.

(** v2/entities.go:17-25 Role, NewRole.  Roles are shared through pointers, so they live in a
    heap (a list); the lock is omitted (sequential model). *)
Record vrole : Type := VRole {
  vr_name : string;
  vr_perms : gset string
}.

(** v2/role.go:61-74 RoleDAG, NewRoleDAG; [d_roles] holds locations of the role heap. *)
Record dag : Type := Dag {
  d_roles : gmap string nat;
  d_edges : gmap string (list string);
  d_resolved : gmap string (gset string)
}.
Definition new_dag : dag := Dag ∅ ∅ ∅.

(** dag.edges[role]: the nil slice when the key is missing *)
Definition edges_of (e : gmap string (list string)) (r : string) : list string := default [] (e !! r).

(** v2/role.go:76-82 AddRole: a later role replaces an earlier one of the same name *)
Fixpoint dag_add_roles (h : list vrole) (d : dag) (ls : list nat) : res dag :=
  match ls with
  | [] => Ok d
  | l :: ls' =>
      match h !! l with
      | None => Panic
      | Some r => dag_add_roles h (Dag (<[vr_name r := l]> (d_roles d)) (d_edges d) (d_resolved d)) ls'
      end
  end.

(** v2/role.go:102-106 (with [rec] the closure dfs) and 109-113: the loops over children.  The
    result is the visited set and the child at which a repeated role was found. *)
Fixpoint circ_loop (rec : gset string -> string -> res (gset string * bool)) (visited : gset string)
    (cs : list string) : res (gset string * option string) :=
  match cs with
  | [] => Ok (visited, None)
  | c :: cs' => let! vb := rec visited c in
                if vb.2 then Ok (vb.1, Some c) else circ_loop rec vb.1 cs'
  end.
(** v2/role.go:97-108 dfs.  The recursion ends because visited grows; the fuel is justified in
    DagProofs (it never runs out). *)
Fixpoint circ_dfs (fuel : nat) (e : gmap string (list string)) (visited : gset string) (r : string)
    : res (gset string * bool) :=
  match fuel with
  | 0 => Hang
  | S fuel' =>
      if bool_decide (r ∈ visited) then Ok (visited, true)
      else let! vc := circ_loop (circ_dfs fuel' e) ({[r]} ∪ visited) (edges_of e r) in
           Ok (vc.1, match vc.2 with Some _ => true | None => false end)
  end.
Definition err_circular (p c : string) : string :=
  String.append "circular role dependency detected: " (String.append p (String.append " -> " c)).
(** v2/role.go:94-115 checkCircularDependency *)
Definition check_circular (e : gmap string (list string)) (parent : string) (cs : list string)
    : res (option string) :=
  let! vc := circ_loop (circ_dfs (S (size e)) e) {[parent]} cs in
  Ok (err_circular parent <$> vc.2).
(** v2/role.go:84-92 AddChildRole *)
Definition dag_add_child (d : dag) (parent : string) (cs : list string) : res (dag * option string) :=
  let! err := check_circular (d_edges d) parent cs in
  Ok (match err with
      | Some e => (d, Some e)
      | None => (Dag (d_roles d) (<[parent := edges_of (d_edges d) parent ++ cs]> (d_edges d)) (d_resolved d),
                 None)
      end).

(** Total number of stored edges: bounds the number of iterations of the loops below. *)
Definition edge_count (e : gmap string (list string)) : nat :=
  sum_list (length <$> (map_to_list e).*2).

Section resolve.
  (** What one role adds to the result: its permissions (v2/role.go:141-143) or its name (174). *)
  Variable contrib : vrole -> gset string.
  (** v2/role.go:127-145 and 160-176: the same queue loop twice.  The fuel is justified in
      DagProofs (it never runs out). *)
  Fixpoint bfs (fuel : nat) (h : list vrole) (d : dag) (visited result : gset string)
      (queue : list string) : res (gset string) :=
    match fuel with
    | 0 => Hang
    | S fuel' =>
        match queue with
        | [] => Ok result
        | c :: q =>
            if bool_decide (c ∈ visited) then bfs fuel' h d visited result q
            else
              match d_roles d !! c with
              | None => bfs fuel' h d ({[c]} ∪ visited) result q
              | Some l =>
                  match h !! l with
                  | None => Panic
                  | Some r => bfs fuel' h d ({[c]} ∪ visited) (contrib r ∪ result)
                                (q ++ edges_of (d_edges d) c)
                  end
              end
        end
    end.
  (** v2/role.go:118-148 ResolvePermissions, 151-179 ResolveChildRoles: the cache is shared.
      The window between RUnlock and Lock does not matter sequentially. *)
  Definition resolve (h : list vrole) (d : dag) (name : string) : res (dag * gset string) :=
    match d_resolved d !! name with
    | Some s => Ok (d, s)
    | None =>
        let! s := bfs (2 + edge_count (d_edges d)) h d ∅ ∅ [name] in
        Ok (Dag (d_roles d) (d_edges d) (<[name := s]> (d_resolved d)), s)
    end.
End resolve.
Definition name_of (r : vrole) : gset string := {[vr_name r]}.
Definition resolve_permissions : list vrole -> dag -> string -> res (dag * gset string) := resolve vr_perms.
Definition resolve_child_roles : list vrole -> dag -> string -> res (dag * gset string) := resolve name_of.
