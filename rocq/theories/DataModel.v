(** Model of filters.go: the rows of the relation and the row predicates. *)
From Verif Require Export Base.

(** filters.go:7-14 Data *)
Record data : Type := Data {
  tenant : any;
  namespace : any;
  scope : any;
  principal : any;
  role : any;
  manage : any
}.

Global Instance data_eq_dec : EqDecision data.
Proof. solve_decision. Defined.

(** filters.go:16-28 DataKeyExtractor (the nil-pointer case cannot occur: Insert returns first) *)
Definition data_keys (d : data) : list any :=
  [tenant d; namespace d; scope d; principal d; role d; manage d].

(** filters.go:153-158 MatchTenant *)
Definition match_tenant (row filter : data) : bool :=
  if is_nil (tenant row) then false else any_eq (tenant row) (tenant filter).
(** filters.go:160-165 MatchNamespace *)
Definition match_namespace (row filter : data) : bool :=
  if is_nil (namespace row) then false else any_eq (namespace row) (namespace filter).
(** filters.go:167-172 MatchScope *)
Definition match_scope (row filter : data) : bool :=
  if is_nil (scope row) then false else any_eq (scope row) (scope filter).
(** filters.go:174-179 MatchPrincipal *)
Definition match_principal (row filter : data) : bool :=
  if is_nil (principal row) then false else any_eq (principal row) (principal filter).
(** filters.go:181-186 MatchRole *)
Definition match_role (row filter : data) : bool :=
  if is_nil (role row) then false else any_eq (role row) (role filter).

(** filters.go:30-50 FilterFunc *)
Definition filter_func (filter row : data) : bool :=
  if negb (is_nil (tenant filter)) && negb (match_tenant row filter) then false else
  if negb (is_nil (principal filter)) && negb (match_principal row filter) then false else
  if negb (is_nil (role filter)) && negb (match_role row filter) then false else
  if negb (is_nil (namespace filter)) && negb (match_namespace row filter) then false else
  if negb (is_nil (scope filter)) && negb (match_scope row filter) then false else
  if negb (is_nil (manage filter)) && negb (any_eq (manage filter) (manage row)) then false else
  true.

(** filters.go:52-54 *)
Definition filter_tenants_by_principal (filter row : data) : bool :=
  match_principal row filter && negb (is_nil (tenant row)).
(** filters.go:56-58 *)
Definition filter_tenant (filter row : data) : bool :=
  match_tenant row filter && negb (is_nil (tenant row)).
(** filters.go:60-62 *)
Definition filter_scope_by_principal (filter row : data) : bool :=
  match_principal row filter && negb (is_nil (scope row)) && negb (is_nil (tenant row)).
(** filters.go:64-66 *)
Definition filter_role_by_tenant (filter row : data) : bool :=
  match_tenant row filter && match_role row filter.
(** filters.go:68-70 *)
Definition filter_namespace_by_tenant (filter row : data) : bool :=
  match_tenant row filter && negb (is_nil (namespace row)).
(** filters.go:72-74 *)
Definition filter_scope_by_tenant (filter row : data) : bool :=
  match_tenant row filter && negb (is_nil (scope row)).
(** filters.go:76-78 *)
Definition filter_scope_by_tenant_and_namespace (filter row : data) : bool :=
  match_tenant row filter && match_namespace row filter && negb (is_nil (scope row)).
(** filters.go:80-82 *)
Definition filter_principal_by_tenant_and_namespace (filter row : data) : bool :=
  match_tenant row filter && match_namespace row filter && match_principal row filter.
(** filters.go:84-89 *)
Definition filter_scope_for_principal_by_tenant (filter row : data) : bool :=
  if is_nil (tenant filter) && is_nil (principal filter) || is_nil (scope row) then false
  else match_tenant row filter && (is_nil (principal row) || match_principal row filter).
(** filters.go:91-96 *)
Definition filter_scope_for_principal_by_namespace (filter row : data) : bool :=
  if is_nil (namespace filter) && is_nil (principal filter) || is_nil (scope row) then false
  else negb (is_nil (tenant row)) && (is_nil (principal row) || match_principal row filter).
(** filters.go:98-105 *)
Definition filter_scope_for_principal_by_tenant_and_namespace (filter row : data) : bool :=
  if is_nil (tenant filter) && is_nil (principal filter) && is_nil (namespace filter)
     || is_nil (scope row) then false
  else match_tenant row filter &&
       (is_nil (namespace row) && is_nil (principal row)
        || match_namespace row filter && is_nil (principal row)
        || match_principal row filter).
(** filters.go:107-114 *)
Definition filter_role_for_principal_by_tenant_namespace_and_scope (filter row : data) : bool :=
  if is_nil (tenant filter) && is_nil (principal filter) && is_nil (namespace filter)
     && is_nil (scope filter) || is_nil (role row) then false
  else (match_tenant row filter && match_principal row filter)
       || (match_namespace row filter && match_principal row filter)
       || (match_scope row filter && match_principal row filter).
(** filters.go:116-122 *)
Definition filter_role_for_principal_by_tenant_and_namespace (filter row : data) : bool :=
  if is_nil (tenant filter) && is_nil (principal filter) && is_nil (namespace filter)
     || is_nil (role row) then false
  else (match_tenant row filter && match_principal row filter) || match_namespace row filter.
(** filters.go:124-129 *)
Definition filter_role_for_principal_by_tenant_and_scope (filter row : data) : bool :=
  if is_nil (tenant filter) && is_nil (principal filter) && is_nil (scope filter)
     || is_nil (role row) then false
  else (match_tenant row filter && match_principal row filter) || match_scope row filter.
(** filters.go:131-137 *)
Definition filter_namespace_for_principal_by_tenant (filter row : data) : bool :=
  if is_nil (tenant filter) && is_nil (principal filter) || is_nil (namespace row) then false
  else match_tenant row filter && (is_nil (principal row) || match_principal row filter).
(** filters.go:139-144 *)
Definition filter_principal_by_tenant (filter row : data) : bool :=
  if is_nil (tenant filter) && is_nil (principal filter) then false
  else match_principal row filter && match_tenant row filter.
(** filters.go:146-151 *)
Definition filter_scope_principal_by_tenant (filter row : data) : bool :=
  if is_nil (tenant filter) && is_nil (principal filter) then false
  else match_principal row filter && match_tenant row filter
       && negb (is_nil (scope row)) && negb (is_nil (role row)).

(** role_manager.go:48-106 GetTenantIDs, GetPrincipalIDs, GetRoleIDs, GetNamespaceIDs, GetScopeIDs:
    five copies of one loop; [seen] is the set of projected values met so far (as a list). *)
Fixpoint ids_loop (proj : data -> any) (seen acc : list any) (rs : list data) : list any :=
  match rs with
  | [] => acc
  | r :: rs' => if bool_decide (proj r ∈ seen) then ids_loop proj seen acc rs'
                else ids_loop proj (proj r :: seen) (acc ++ [proj r]) rs'
  end.
Definition get_tenant_ids (rs : list data) : list any := ids_loop tenant [] [] rs.
Definition get_principal_ids (rs : list data) : list any := ids_loop principal [] [] rs.
Definition get_role_ids (rs : list data) : list any := ids_loop role [] [] rs.
Definition get_namespace_ids (rs : list data) : list any := ids_loop namespace [] [] rs.
Definition get_scope_ids (rs : list data) : list any := ids_loop scope [] [] rs.
