(** Model of a decision of the root package that runs while other goroutines add rows.  Authorize takes no lock; every search
    (query.go:18-20, trie/trie.go:106-133) walks the trie as it finds it.  [w a cb] is the list of rows that the
    search with address [a] and callback [cb] returns; addresses are those of the iteration orders (Base), in lexicographic order of time.  An insertion
    counts as one step here (CTrieModel has the steps within one, C80).  Tenants, roles, registries and caches change only by the call itself.  The functions are those of RootModel and AuthModel. *)
From Verif Require Export AuthModel.

Definition found : Type := list nat -> (data -> bool) -> list data.
(** The searches of the [k]-th sub-call *)
Definition sub_found (w : found) (k : nat) : found := fun a => w (k :: a).

(** query.go:18-20 search *)
Definition w_search (w : found) (f : data) (ff : data -> data -> bool) : list data := w [] (ff f).
(** query.go:22-24 GetTenantsByPrincipal *)
Definition w_tenants_by_principal (w : found) (p : any) : list any :=
  compact (tenant <$> w_search w (row_filter ANil ANil ANil p) filter_tenants_by_principal).
(** query.go:26-29 GetTenants *)
Definition w_tenants (w : found) (p : any) : list data :=
  w_search w (row_filter ANil ANil ANil p) filter_tenants_by_principal.
(** query.go:39-62 GetImplicitTenants *)
Definition w_implicit (o : oracle) (w : found) (st : state) (p : string) : res (state * gset string) :=
  match m_cache st !! p with
  | Some s => Ok (st, s)
  | None =>
      let! se := implicit_loop o 1 st ∅ (w_search (sub_found w 0) (row_filter ANil ANil ANil (AStr p)) filter_tenants_by_principal) in
      Ok (with_cache se.1 (<[p := se.2]> (m_cache se.1)), se.2)
  end.
(** query.go:119-121 GetScopesForPrincipalByTenantAndNamespace *)
Definition w_scopes_tn (w : found) (p t n : any) : list data :=
  w_search w (row_filter t n ANil p) filter_scope_for_principal_by_tenant_and_namespace.
(** query.go:110-117 GetScopeForPrincipalByNamespace *)
Definition w_scopes_n (w : found) (p n : any) : list data :=
  concat (imap (fun i t => w_scopes_tn (sub_found w (S i)) p t n) (w_tenants_by_principal (sub_found w 0) p)).

(** authorize.go:72-89 checkNoActivity *)
Definition w_no_activity (w : found) (p : string) (q : opts) (f : shape) : bool :=
  match f with
  | FT => contains (w_tenants_by_principal w (AStr p)) (o_tenant q)
  | FTN => contains (get_namespace_ids (w_search w (row_filter (o_tenant q) ANil ANil (AStr p))
                        filter_namespace_for_principal_by_tenant)) (o_namespace q)
  | FTS => contains (get_scope_ids (w_search w (row_filter (o_tenant q) ANil ANil (AStr p))
                        filter_scope_for_principal_by_tenant)) (o_scope q)
  | FNS => contains (get_scope_ids (w_scopes_n w (AStr p) (o_namespace q))) (o_scope q)
  | FTNS => contains (get_scope_ids (w_scopes_tn w (AStr p) (o_tenant q) (o_namespace q))) (o_scope q)
  | FNone => false
  end.

(** authorize.go:130-140 collectRoles *)
Definition w_roles (w : found) (p : string) (t : any) : res (list string * list string) :=
  let rs := w_search w (row_filter t ANil ANil ANil) filter_role_by_tenant in
  let! allowed := role_names (fun _ => true) rs in
  let! roles := role_names (fun d => any_eq (principal d) (AStr p)) rs in
  Ok (roles, allowed).
(** authorize.go:142-156 collectRolesByTenantAndNamespace *)
Definition w_roles_tn (w : found) (p : string) (t n : any) : res (list string * list string) :=
  let! allowed := role_names (fun _ => true) (w_search (sub_found w 0) (row_filter t ANil ANil ANil) filter_role_by_tenant) in
  let! roles := role_names (fun d => nil_or (namespace d) n)
                  (w_search (sub_found w 1) (row_filter t n ANil (AStr p)) filter_role_for_principal_by_tenant_and_namespace) in
  Ok (roles, allowed).
(** authorize.go:158-172 collectRolesByTenantAndScope *)
Definition w_roles_ts (w : found) (p : string) (t s : any) : res (list string * list string) :=
  let! allowed := role_names (fun _ => true) (w_search (sub_found w 0) (row_filter t ANil ANil ANil) filter_role_by_tenant) in
  let! roles := role_names (fun d => nil_or (scope d) s)
                  (w_search (sub_found w 1) (row_filter t ANil s (AStr p)) filter_role_for_principal_by_tenant_and_scope) in
  Ok (roles, allowed).
(** authorize.go:192-206 collectRolesByTenantNamespaceAndScope *)
Definition w_roles_tns (w : found) (p : string) (t n s : any) : res (list string * list string) :=
  let! allowed := role_names (fun _ => true) (w_search (sub_found w 0) (row_filter t ANil ANil ANil) filter_role_by_tenant) in
  let! roles := role_names (fun d => nil_or (namespace d) n && nil_or (scope d) s)
                  (w_search (sub_found w 1) (row_filter t n s (AStr p)) filter_role_for_principal_by_tenant_namespace_and_scope) in
  Ok (roles, allowed).
(** authorize.go:174-190 collectRolesByNamespaceAndScope *)
Fixpoint w_roles_ns_loop (w : found) (i : nat) (p : string) (n s : any) (ts : list data) : res (list string * list string) :=
  match ts with
  | [] => Ok ([], [])
  | t :: ts' =>
      let! ra := w_roles_tns (sub_found w i) p (tenant t) n s in
      let! rest := w_roles_ns_loop w (S i) p n s ts' in
      Ok (ra.1 ++ rest.1, ra.2 ++ rest.2)
  end.
Definition w_roles_ns (w : found) (p : string) (n s : any) : res (list string * list string) :=
  w_roles_ns_loop w 1 p n s (w_tenants (sub_found w 0) (AStr p)).
(** authorize.go:91-128 checkActivity *)
Definition w_collect (w : found) (p : string) (q : opts) (f : shape) : res (list string * list string) :=
  match f with
  | FT => w_roles w p (o_tenant q)
  | FTN => w_roles_tn w p (o_tenant q) (o_namespace q)
  | FTS => w_roles_ts w p (o_tenant q) (o_scope q)
  | FNS => w_roles_ns w p (o_namespace q) (o_scope q)
  | FTNS => w_roles_tns w p (o_tenant q) (o_namespace q) (o_scope q)
  | FNone => Ok ([], [])
  end.
Definition w_activity (o : oracle) (w : found) (st : state) (p : string) (q : opts) (f : shape) : res bool :=
  if is_nil (o_group q) then Ok false else
  if is_nil (o_activity q) then Ok false else
  let! ra := w_collect (sub_found w 0) p q f in
  match ra.1 with
  | [] => Ok false
  | roles => any_role_has (sub o 1) 0 st q (compact_adjacent ra.2) (compact_adjacent roles)
  end.
(** authorize.go:46-51 authorize *)
Definition w_one (o : oracle) (w : found) (st : state) (no_activity : bool) (p : string) (q : opts) (f : shape) : res bool :=
  if no_activity then Ok (w_no_activity w p q f) else w_activity o w st p q f.
(** authorize.go:34-42 *)
Fixpoint w_tenant_loop (o : oracle) (w : found) (i : nat) (st : state) (no_activity : bool) (p : string) (q : opts)
    (f : shape) (ts : list string) : res bool :=
  match ts with
  | [] => Ok false
  | t :: ts' =>
      if any_eq (o_tenant q) (AStr t) then w_tenant_loop o w (S i) st no_activity p q f ts'
      else
        let q' := set_o_tenant q (AStr t) in
        let! b := w_one (sub o i) (sub_found w i) st no_activity p q' f in
        if b then Ok true else w_tenant_loop o w (S i) st no_activity p q' f ts'
  end.
(** authorize.go:9-44 Authorize *)
Definition w_root_authorize (o : oracle) (w : found) (st : state) (p : string) (q : opts) : res (state * bool) :=
  if negb (bool_decide (p ∈ m_principals st)) then Ok (st, false) else
  let! su := w_implicit (sub o 0) (sub_found w 0) st p in
  let st1 := su.1 in
  if bool_decide (su.2 = ∅) then Ok (st1, false) else
  let! v := validate_resources st1 q in
  if negb v then Ok (st1, false) else
  let no_activity := negb (negb (is_nil (o_group q)) && negb (is_nil (o_activity q))) in
  let f := shape_of q in
  let! b := w_one (sub o 1) (sub_found w 1) st1 no_activity p q f in
  if b then Ok (st1, true)
  else
    let! b' := w_tenant_loop (sub o 2) (sub_found w 2) 0 st1 no_activity p q f (ordered (sub o 3) (elements su.2)) in
    Ok (st1, b').
