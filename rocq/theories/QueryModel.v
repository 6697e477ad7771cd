(** The remaining queries of the root package (query.go, activity_group.go, permission.go). *)
From Verif Require Export AuthModel.

(** query.go:64-67 GetScopesByPrincipal *)
Definition get_scopes_by_principal (o : oracle) (st : state) (p : any) : list data :=
  search o st (row_filter ANil ANil ANil p) filter_scope_by_principal.
(** query.go:82-88 GetNamespacesByPrincipal *)
Definition get_namespaces_by_principal (o : oracle) (st : state) (p : any) : list data :=
  concat (imap (fun i t => get_namespace_for_principal_by_tenant (sub o (S i)) st p t)
               (get_tenants_by_principal (sub o 0) st p)).
(** query.go:95-98, 135-137 GetNamespace(s)ByTenant *)
Definition get_namespaces_by_tenant (o : oracle) (st : state) (t : any) : list data :=
  search o st (row_filter t ANil ANil ANil) filter_namespace_by_tenant.
(** query.go:100-103 GetScopesByTenant *)
Definition get_scopes_by_tenant (o : oracle) (st : state) (t : any) : list data :=
  search o st (row_filter t ANil ANil ANil) filter_scope_by_tenant.
(** query.go:70-75 GetImplicitScopesByPrincipal: prints, never appends to its result *)
Definition get_implicit_scopes_by_principal (o : oracle) (st : state) (p : any) : res (state * list data) :=
  match p with
  | AStr p => let! su := get_implicit_tenants o st p in Ok (su.1, [])
  | _ => Panic
  end.

(** activity_group.go:45-54: the other implicit tenants, until one has rows of the principal.
    The filter keeps the last tenant tried. *)
Fixpoint fallback_loop (o : oracle) (i : nat) (st : state) (t0 : any) (f : data) (ts : list string)
    : data * list data :=
  match ts with
  | [] => (f, [])
  | t :: ts' =>
      if any_eq (AStr t) t0 then fallback_loop o (S i) st t0 f ts'
      else
        let f' := Data (AStr t) (namespace f) (scope f) (principal f) (role f) (manage f) in
        match search (sub o i) st f' filter_principal_by_tenant with
        | [] => fallback_loop o (S i) st t0 f' ts'
        | rs => (f', rs)
        end
  end.
(** activity_group.go:75-77: seen[r.Scope] = append(seen[r.Scope], r.Role) *)
Fixpoint seen_add (seen : list (any * list any)) (k r : any) : list (any * list any) :=
  match seen with
  | [] => [(k, [r])]
  | (k', rs) :: seen' => if decide (k' = k) then (k', rs ++ [r]) :: seen' else (k', rs) :: seen_add seen' k r
  end.
(** activity_group.go:65-72 combineFn *)
Definition combine_rows (p a : data) : data := Data (tenant p) ANil (scope p) (principal a) (role a) ANil.
(** activity_group.go:40-86 GetScopesWithRolesForPrincipal; a ScopeRoles is a pair *)
Definition get_scopes_with_roles (o : oracle) (st : state) (p t n : any) : res (state * list (any * list any)) :=
  let f := row_filter t n ANil p in
  let own := search (sub o 0) st f filter_principal_by_tenant in
  let! sfr := match own with
              | [] => match p with
                      | AStr ps => let! su := get_implicit_tenants (sub o 1) st ps in
                                   Ok (su.1, fallback_loop (sub o 2) 1 su.1 t f (ordered (sub (sub o 2) 0) (elements su.2)))
                      | _ => Panic
                      end
              | _ => Ok (st, (f, own))
              end in
  let '(st1, (f1, principals)) := sfr in
  let entities := match search (sub o 3) st1 f1 filter_scope_by_tenant_and_namespace with
                  | [] => search (sub o 4) st1 f1 filter_scope_by_tenant
                  | rs => rs
                  end in
  let scoped := search (sub o 5) st1 f1 filter_scope_principal_by_tenant in
  let result := join_slices entities principals match_tenant combine_rows ++ scoped in
  Ok (st1, ordered (sub o 6) (foldl (fun seen r => seen_add seen (scope r) (role r)) [] result)).

(** permission.go:98-100: groupPermissions[permission] = append(...) *)
Definition note_role (id : string) (gm : gmap attr (list string)) (attrs : list attr) : gmap attr (list string) :=
  foldl (fun gm a => <[a := default [] (gm !! a) ++ [id]]> gm) gm attrs.
(** permission.go:93-102: one role *)
Definition note_groups (id : string) (seen : gmap string (gmap attr (list string))) (l : list (string * list attr))
    : gmap string (gmap attr (list string)) :=
  foldl (fun seen ga => <[ga.1 := note_role id (default ∅ (seen !! ga.1)) ga.2]> seen) seen l.
(** permission.go:92-104 *)
Fixpoint note_roles (o : oracle) (i : nat) (h : rheap) (seen : gmap string (gmap attr (list string)))
    (ls : list nat) : res (gmap string (gmap attr (list string))) :=
  match ls with
  | [] => Ok seen
  | l :: ls' =>
      match h_roles h !! l with
      | None => Panic
      | Some r =>
          let! m := get_all_implicit_permissions (sub (sub o i) 0) h l in
          note_roles o (S i) h (note_groups (r_id r) seen (ordered (sub (sub o i) 1) (map_to_list m))) ls'
      end
  end.
(** permission.go:105-112; a category without attributes gets no entry *)
Fixpoint respond (o : oracle) (i : nat) (l : list (string * gmap attr (list string)))
    : gmap string (list (attr * list string)) :=
  match l with
  | [] => ∅
  | (grp, gm) :: l' =>
      let rest := respond o (S i) l' in
      match ordered (sub o i) (map_to_list gm) with
      | [] => rest
      | al => <[grp := al]> rest
      end
  end.
(** permission.go:89-115 GetRolesForAvailablePermissions *)
Definition get_roles_for_available_permissions (o : oracle) (st : state)
    : res (gmap string (list (attr * list string))) :=
  let! seen := note_roles (sub o 1) 0 (s_heap st) ∅ (ordered (sub o 0) (map_to_list (m_roles st)).*2) in
  Ok (respond (sub o 2) 1 (ordered (sub (sub o 2) 0) (map_to_list seen))).
