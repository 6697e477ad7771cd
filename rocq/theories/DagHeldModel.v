(** Model of the caller's hold on the cache of a v2 role graph: ResolvePermissions and ResolveChildRoles return the map they keep,
    so that a caller who changes the answer changes the cache. *)
From Verif Require Export CDagModel.

(** v2/role.go:120-123, 146-147, 153-156, 177-178: the map returned is the one kept, at the first call and later.  What a caller
    does who holds an answer for [name] and makes its keys [s], by [m[k] = struct{}{}], [delete] and [clear].  [None]: nobody
    holds a map for [name]. *)
Definition edit_answer (d : dag) (name : string) (s : gset string) : option dag :=
  _ ← d_resolved d !! name; Some (Dag (d_roles d) (d_edges d) (<[name := s]> (d_resolved d))).
