{"id": "C01", "title": "Pattern language of MatchResource", "statement": "MatchResource(value, pattern) returns true exactly when value belongs to the pattern's language: ordinary bytes match themselves; ':' consumes one byte of the value plus everything up to the next '/' while the pattern skips to its own next '/'; a '*' (or run of '*') at the very end of the pattern accepts any rest. Whenever the call returns at all, false means the value is not in that language.", "quantifier": "every value string and every pattern string, of any length and any bytes", "why_tests_cant": "the set of (value, pattern) pairs is infinite and the scanner carries two indices whose interaction depends on unboundedly many earlier bytes", "anchors": ["utils/str.go: MatchResource"]}
{"id": "C02", "title": "MatchResource always returns", "statement": "Every call MatchResource(value, pattern) returns; no pattern stored in a role can make an authorization check loop forever.", "quantifier": "every value string and every pattern string", "why_tests_cant": "a test cannot distinguish a very long run from a non-terminating one, nor enumerate patterns", "anchors": ["utils/str.go: MatchResource", "v2/v2.go: matchPermission", "role.go: Role.Has"]}
{"id": "C03", "title": "A permission only grants its own action", "statement": "A permission built from (resource, action) matches a request string 'resource action' only if the request's action equals the permission's action.", "quantifier": "every permission (resource, action) and every request (resource, action)", "why_tests_cant": "holds or fails depending on the shape of the last path segment, for unboundedly many resources", "anchors": ["utils/str.go: MatchResource", "v2/v2.go: matchPermission, Request.String", "v2/role.go: Permission.String"]}
{"id": "C04", "title": "A path parameter stands for one path segment", "statement": "In a star-free pattern a ':name' parameter matches exactly one non-empty piece of the value that contains no '/', so value and pattern have the same number of path segments.", "quantifier": "every star-free pattern and every value it accepts", "why_tests_cant": "requires relating segment structure of arbitrary long strings", "anchors": ["utils/str.go: MatchResource"]}
{"id": "C05", "title": "Literal permissions are exact", "statement": "A pattern without ':' and '*' matches a value exactly when the two strings are equal, and the check always returns.", "quantifier": "every value and every pattern free of ':' and '*'", "why_tests_cant": "infinite domain", "anchors": ["utils/str.go: MatchResource"]}
{"id": "C06", "title": "Slice helpers preserve content and order", "statement": "Compact returns every distinct element exactly once in first-occurrence order; Contains decides membership; JoinSlices returns exactly the combined pairs satisfying the join predicate, left-major; the Get*IDs projections return each distinct projected value once.", "quantifier": "all slices of comparable values", "why_tests_cant": "all lengths and duplicate patterns", "anchors": ["utils/str.go: Compact, Contains", "utils/filters.go: JoinSlices, FilterByFields", "role_manager.go: GetTenantIDs, GetPrincipalIDs, GetRoleIDs, GetNamespaceIDs, GetScopeIDs"]}
{"id": "C07", "title": "Trie search is exact", "statement": "After any sequence of Insert calls, SearchFunc(filter, cb) returns exactly the stored rows on which cb holds, each once, where the stored rows are the inserted rows minus those later overwritten by a row with the same list of non-nil keys; Data returns all of them.", "quantifier": "every sequence of inserts, every filter and callback, every map iteration order", "why_tests_cant": "unbounded histories and nondeterministic iteration order", "anchors": ["trie/trie.go: Insert, SearchFunc, Search, search, Data"]}
{"id": "C08", "title": "Inserting a row never loses another row", "statement": "Insert of one row never removes or replaces a different row (one that differs in some field).", "quantifier": "every trie content and every inserted row", "why_tests_cant": "depends on collisions between arbitrary identifiers of different kinds", "anchors": ["trie/trie.go: Insert, addChild", "filters.go: DataKeyExtractor"]}
{"id": "C09", "title": "First agrees with Search", "statement": "First/FirstFunc return nil exactly when the corresponding Search returns no row, and otherwise a row that Search also returns.", "quantifier": "every trie, filter, callback and iteration order", "why_tests_cant": "early exit inside a nondeterministic traversal", "anchors": ["trie/trie.go: First, FirstFunc, first, search"]}
{"id": "C10", "title": "Persistent link sequences behave like slices", "statement": "For ds.Link, AsSlice of Append is AsSlice plus the element at the end, AsSlice of Concat is the concatenation, IsEmpty holds exactly when AsSlice is empty, and no operation changes the content of an existing link.", "quantifier": "every link built by any nesting of Empty, Append and Concat", "why_tests_cant": "arbitrary nesting of constructors", "anchors": ["ds/ds.go: Link, Empty, Append, Concat, AsSlice, IsEmpty"]}
{"id": "C11", "title": "Authorize denies unknown parties", "statement": "permission.RoleManager.Authorize never returns true for a principal that was not registered, or when the requested tenant, namespace or scope was not registered, or when the principal has no tenant association at all.", "quantifier": "every history of API calls and every option combination", "why_tests_cant": "unbounded histories", "anchors": ["authorize.go: Authorize, validateResources"]}
{"id": "C12", "title": "Authorize without activity: exact decision", "statement": "Without an activity, Authorize returns true exactly when principal and named resources are registered and, for the requested tenant or some tenant in the principal's implicit tenant set, a stored row links that tenant with the requested namespace/scope either for everybody or for this principal (for tenant-only requests: for this principal). Requests naming only a namespace, only a scope or nothing are always denied.", "quantifier": "every reachable state, principal, option combination and map iteration order", "why_tests_cant": "the decision ranges over arbitrary row sets and iteration orders", "anchors": ["authorize.go: Authorize, checkNoActivity", "query.go", "filters.go"]}
{"id": "C13", "title": "Authorize with activity: exact decision", "statement": "With an attribute group and activity, Authorize returns true only if some registered role, reached through a stored row selected for the request, holds a matching permission directly or through descendants; and it returns true whenever such a role exists and no stored pattern makes matching loop.", "quantifier": "every reachable state, request and iteration order", "why_tests_cant": "arbitrary row sets, role graphs and iteration orders", "anchors": ["authorize.go: checkActivity, collectRoles*", "role.go: Role.Has", "query.go"]}
{"id": "C14", "title": "Tenant isolation (root package)", "statement": "Authorize for tenant T returns true only if the principal is associated with T or with an ancestor of T whose descendants it may manage.", "quantifier": "every reachable state, principal and tenant", "why_tests_cant": "must hold for every population of tenants and rows", "anchors": ["authorize.go: Authorize"]}
{"id": "C15", "title": "Principal isolation (root package)", "statement": "An activity is only granted through roles assigned to the requesting principal, never through a role assigned to a different principal.", "quantifier": "every reachable state and request", "why_tests_cant": "must hold for every population of rows", "anchors": ["filters.go: filterRoleForPrincipalByTenantAndNamespace, filterRoleForPrincipalByTenantAndScope", "authorize.go: collectRolesByTenantAndNamespace"]}
{"id": "C16", "title": "Tenant-level activity grants work", "statement": "A principal holding in tenant T a role with a matching permission is authorized for that activity when the request names just tenant T.", "quantifier": "every reachable state and request", "why_tests_cant": "ranges over all roles, permissions and rows", "anchors": ["filters.go: filterRoleByTenant", "query.go: GetRolesByTenant", "authorize.go: collectRoles"]}
{"id": "C17", "title": "Grants take effect for later calls", "statement": "After AddPrincipalWithRole/AddScopeToPrincipal/AddDescendant succeeds, later Authorize calls take it into account whatever calls were made before.", "quantifier": "every history in which queries and grants interleave", "why_tests_cant": "depends on which queries happened earlier in an unbounded history", "anchors": ["query.go: GetImplicitTenants", "role_manager.go: TenantChildren", "authorize.go: Authorize"]}
{"id": "C18", "title": "Queries are read-only and repeatable", "statement": "Authorize and the Get* queries never change registered entities, rows or roles, and repeating an Authorize call that returned gives the same answer while nothing is added in between.", "quantifier": "every reachable state, request, and every pair of iteration orders", "why_tests_cant": "iteration order differs between calls, histories are unbounded", "anchors": ["authorize.go: Authorize", "query.go: GetImplicitTenants"]}
{"id": "C19", "title": "Implicit tenants are exactly own tenants plus managed descendants", "statement": "GetImplicitTenants(p) contains each tenant p has a row in and every transitive descendant of each tenant where some row of p has ManageDescendants true, and nothing else, independent of iteration order.", "quantifier": "every reachable state and iteration order", "why_tests_cant": "order of map traversal decides which row is seen first", "anchors": ["query.go: GetImplicitTenants", "role_manager.go: TenantChildren", "tenant.go: GetDescendants"]}
{"id": "C20", "title": "Role.Has is exact over the descendant graph", "statement": "Role.Has(group, perm, allowed...) returns true exactly when the role owns the group and either one of its own patterns in that group matches, or a transitive descendant (in allowed, when allowed is non-empty) owns the group with a matching pattern.", "quantifier": "every role graph, group, permission, allowed list and iteration order", "why_tests_cant": "arbitrary graphs", "anchors": ["role.go: Role.Has, GetDescendantRoles", "v1/role.go: Role.Has, GetDescendantRoles"]}
{"id": "C21", "title": "A role inherits its descendants' permissions", "statement": "If a transitive descendant of a role has a permission then the role has it too.", "quantifier": "every role graph, group and permission", "why_tests_cant": "arbitrary graphs", "anchors": ["role.go: Role.Has", "v1/role.go: Role.Has"]}
{"id": "C22", "title": "Role queries terminate", "statement": "Has, GetDescendantRoles and GetAllImplicitPermissions return for every role graph that AddDescendant lets the user build.", "quantifier": "every sequence of AddDescendant calls", "why_tests_cant": "non-termination / stack overflow over all graphs", "anchors": ["role.go: AddDescendant, GetDescendantRoles, Has, GetAllImplicitPermissions", "v1/role.go", "tenant.go: AddDescendant, GetDescendants"]}
{"id": "C23", "title": "A locked role cannot change", "statement": "While a role is locked, AddDescendant, AddPermission and AddPermissionResourceGroup on it return an error, and no API call changes its permissions or descendants.", "quantifier": "every history of calls between Lock and Unlock", "why_tests_cant": "all interleavings of calls, including through shared attribute groups", "anchors": ["role.go: Lock, Unlock, AddDescendant, AddPermission, AddPermissionResourceGroup", "v1/role.go"]}
{"id": "C24", "title": "AddPermissionsToRole is validated and atomic", "statement": "AddPermissionsToRole succeeds only if role and group are registered, all attributes belong to the group and the role is unlocked; then the role's group holds exactly its old permissions plus the new ones, and nothing else changes; on error nothing changes.", "quantifier": "every state and attribute list", "why_tests_cant": "all positions of the offending attribute", "anchors": ["role.go: AddPermissionsToRole, AddPermission", "v1/role_manager.go: AddPermissionsToRole"]}
{"id": "C25", "title": "Registries keep the first object per id", "statement": "AddTenant/AddNamespace/AddScope/AddPrincipal/AddRole/AddAttribute/AddAttributeGroup return the object already registered under the id if there is one and change nothing, otherwise register the argument; Get* return it afterwards and Total* count distinct ids.", "quantifier": "every history of registrations", "why_tests_cant": "unbounded histories", "anchors": ["tenant.go: AddTenant", "namespace.go", "scope.go", "principal.go", "permission.go: AddRole", "activity.go", "activity_group.go", "v1/role_manager.go"]}
{"id": "C26", "title": "Distinct attributes stay distinct", "statement": "Two attributes with different (resource, action) never share a key in groups, roles or the attribute registry.", "quantifier": "all pairs of attributes", "why_tests_cant": "infinite domain of strings", "anchors": ["role.go: Attribute.String, AddAttributes", "activity.go: AddAttribute"]}
{"id": "C27", "title": "The v2 role graph stays acyclic", "statement": "After any sequence of AddChildRole calls, no role is its own transitive child; a rejected call changes nothing.", "quantifier": "every sequence of AddChildRole calls", "why_tests_cant": "unbounded histories and graph sizes", "anchors": ["v2/role.go: RoleDAG.AddChildRole, checkCircularDependency"]}
{"id": "C28", "title": "AddChildRole rejects only cycles", "statement": "AddChildRole returns an error only if adding the edges would create a cycle.", "quantifier": "every role graph and child list", "why_tests_cant": "all graphs", "anchors": ["v2/role.go: checkCircularDependency"]}
{"id": "C29", "title": "ResolvePermissions is the union over reachable roles", "statement": "The first ResolvePermissions(role) (and ResolveChildRoles) returns exactly the permissions (names) of the registered roles reachable from role through registered roles, and always terminates.", "quantifier": "every role graph, including cyclic or dangling edges", "why_tests_cant": "arbitrary graphs", "anchors": ["v2/role.go: ResolvePermissions, ResolveChildRoles"]}
{"id": "C30", "title": "Role changes reach later decisions", "statement": "After AddPermission, RemovePermission, AddRole or AddChildRole returns, later Authorize calls use the changed role.", "quantifier": "every history", "why_tests_cant": "depends on whether the role was resolved earlier in an unbounded history", "anchors": ["v2/role.go: RoleDAG.resolved, ResolvePermissions, RemovePermission"]}
{"id": "C31", "title": "v2 Authorize: exact decision", "statement": "Authorize(request) returns true only if for some target tenant (the requested one, else the default, else the active tenants the principal has roles in) with a resolvable namespace containing the scope, the scope-specific permissions of the principal's unexpired roles in that tenant and in managed child tenants contain a permission matching 'resource action'; when there are no scope-specific permissions the unscoped ones are used. Conversely it returns true whenever this holds and no stored pattern loops.", "quantifier": "every reachable state, request, time and iteration order", "why_tests_cant": "unbounded state and nondeterministic order", "anchors": ["v2/v2.go: Authorize, findTargetTenants, resolvePrincipalPermissions, findPrincipalTenants"]}
{"id": "C32", "title": "v2 Can: exact decision", "statement": "Can(request, roles...) returns true exactly when for some target tenant with a resolvable namespace containing the scope one of the listed roles is among the principal's unexpired roles (or their resolved children) in that tenant or managed child tenants.", "quantifier": "every reachable state, request, role list, time and iteration order", "why_tests_cant": "unbounded state and nondeterministic order", "anchors": ["v2/v2.go: Can, resolvePrincipalRoles"]}
{"id": "C33", "title": "Can and Authorize do not influence each other", "statement": "The answer of Authorize does not depend on earlier Can calls and vice versa.", "quantifier": "every history of queries", "why_tests_cant": "unbounded histories", "anchors": ["v2/role.go: ResolvePermissions, ResolveChildRoles share RoleDAG.resolved"]}
{"id": "C34", "title": "Scope isolation of Can", "statement": "Can for scope S only counts role assignments that are unscoped or scoped to S.", "quantifier": "every state and request", "why_tests_cant": "all populations of assignments", "anchors": ["v2/v2.go: resolvePrincipalRoles"]}
{"id": "C35", "title": "Expired assignments grant nothing", "statement": "An assignment whose expiry has passed has no influence on Authorize or Can.", "quantifier": "every state, request and instant", "why_tests_cant": "all instants and states", "anchors": ["v2/v2.go: PrincipalRole.IsExpired, resolvePrincipalPermissions, resolvePrincipalRoles"]}
{"id": "C36", "title": "RemovePrincipalRole removes exactly the matching assignments", "statement": "After RemovePrincipalRole(target) succeeds the remaining assignments are exactly the previous ones not matching target, in order; on error nothing changes; later calls do not crash.", "quantifier": "every list of assignments and every target", "why_tests_cant": "all positions and counts of matching entries", "anchors": ["v2/v2.go: RemovePrincipalRole"]}
{"id": "C37", "title": "Inactive tenants deny access", "statement": "Authorize and Can never return true on account of a tenant whose status is not active.", "quantifier": "every state and request", "why_tests_cant": "all states", "anchors": ["v2/v2.go: findTargetTenants, findPrincipalTenants", "v2/entities.go: TenantStatus"]}
{"id": "C38", "title": "ManageChildTenant extends a role to child tenants", "statement": "A role assigned in tenant T with ManageChildTenant grants its permissions for requests naming a child of T, and roles in a child tenant grant nothing in the parent.", "quantifier": "every tenant tree, assignment and request", "why_tests_cant": "all trees", "anchors": ["v2/v2.go: resolvePrincipalPermissions"]}
{"id": "C39", "title": "Tenant isolation (v2)", "statement": "A request naming tenant T is decided only by assignments of the requesting principal in T or in transitive child tenants of T; assignments of other principals and in unrelated tenants have no influence.", "quantifier": "every state and pair of requests", "why_tests_cant": "all populations of assignments", "anchors": ["v2/v2.go: Authorize, resolvePrincipalPermissions"]}
{"id": "C40", "title": "v2 Authorize never crashes", "statement": "Authorize and Can do not panic in any state reachable through the API.", "quantifier": "every history of API calls", "why_tests_cant": "unbounded histories", "anchors": ["v2/v2.go: RemovePrincipalRole, resolvePrincipalPermissions"]}
{"id": "C41", "title": "Concurrent Authorize calls do not mix results", "statement": "Each of several concurrent Authorize calls decides on its own principal's permissions, under every schedule.", "quantifier": "every number of goroutines and every interleaving", "why_tests_cant": "schedules cannot be enumerated by tests", "anchors": ["v2/v2.go: resolvePrincipalPermissions (sync.Pool)", "utils/pool.go"]}
{"id": "C42", "title": "Expiry setters report invalid input", "statement": "SetExpiry rejects instants in the past and otherwise makes the assignment expire exactly after that instant; SetExpiryDuration either sets the expiry to now plus the duration or reports an error; ClearExpiry removes it.", "quantifier": "every instant and every duration argument", "why_tests_cant": "all instants", "anchors": ["v2/v2.go: SetExpiry, SetExpiryDuration, ClearExpiry, IsExpired"]}
{"id": "C43", "title": "Assignment index agrees with assignment list", "statement": "After any sequence of AddPrincipalRole and RemovePrincipalRole calls the per-principal, per-tenant index lists exactly the assignments in the main list.", "quantifier": "every history of additions and removals", "why_tests_cant": "unbounded histories", "anchors": ["v2/v2.go: AddPrincipalRole, RemovePrincipalRole"]}
{"id": "C44", "title": "v1 assignment encoding round-trips", "statement": "The six fields given to v1 AddPrincipalRole are returned unchanged by GetPrincipalRoles and the other readers.", "quantifier": "all identifier strings", "why_tests_cant": "infinite domain of identifiers, including ones containing the separator", "anchors": ["v1/role_manager.go: AddPrincipalRole, getTenantPrincipals"]}
{"id": "C45", "title": "v1 readers never crash on stored assignments", "statement": "Reading any stored assignment never indexes out of range.", "quantifier": "all identifier strings and histories", "why_tests_cant": "infinite domain", "anchors": ["v1/role_manager.go: getTenantPrincipals"]}
{"id": "C46", "title": "v1 Authorize: exact decision by option combination", "statement": "For each combination of options without activity v1 Authorize returns true exactly when a stored assignment (or registration) of the stated shape exists.", "quantifier": "every state, principal and option combination", "why_tests_cant": "all states", "anchors": ["v1/role_manager.go: Authorize, authorizeFor*"]}
{"id": "C47", "title": "v1 tenant membership", "statement": "v1 Authorize with only a tenant returns true only if the principal has an assignment in that tenant.", "quantifier": "every state", "why_tests_cant": "all states", "anchors": ["v1/role_manager.go: authorizeForTenant"]}
{"id": "C48", "title": "v1 namespace and scope restrictions are enforced with activities", "statement": "v1 Authorize with tenant, namespace, scope, group and activity returns true only if the allowed-role computation for that namespace and scope is non-empty.", "quantifier": "every state and request", "why_tests_cant": "all states", "anchors": ["v1/role_manager.go: authorizeComplex, GetAllowedRoles", "v1/role.go: Role.Has"]}
{"id": "C49", "title": "v1 principal isolation for namespace and scope", "statement": "v1 Authorize with tenant, namespace and scope returns true only if an assignment of this principal or a principal-independent assignment of the scope to the namespace exists.", "quantifier": "every state and request", "why_tests_cant": "all states", "anchors": ["v1/role_manager.go: authorizeForTenantNamespaceAndScope"]}
{"id": "C50", "title": "v1 GetAllowedRoles results stay valid", "statement": "The slice returned by GetAllowedRoles is not changed by later calls.", "quantifier": "every sequence of calls", "why_tests_cant": "depends on pooling behaviour and schedules", "anchors": ["v1/role_manager.go: GetAllowedRoles", "utils/pool.go: SlicePool", "v1/util.go"]}
{"id": "C51", "title": "Trie Search is query by example", "statement": "Search(filter) returns exactly the stored rows that equal the filter in every field the filter sets (non-nil); a nil filter field accepts anything.", "quantifier": "every stored relation, every filter, every iteration order", "why_tests_cant": "all combinations of set and unset fields over arbitrary contents", "anchors": ["filters.go: FilterFunc, MatchTenant, MatchNamespace, MatchScope, MatchPrincipal, MatchRole", "trie/trie.go: Search"]}
{"id": "C52", "title": "Permission listings are complete and without repetition", "statement": "GetAllImplicitPermissions(role) lists, group by group, exactly the attributes held by the role or one of its transitive descendants, each once; GetPermissions and GetResourceGroupPermissions list exactly the role's own.", "quantifier": "every role graph and iteration order", "why_tests_cant": "arbitrary graphs", "anchors": ["role.go: GetAllImplicitPermissions, GetPermissions, GetResourceGroupPermissions"]}
{"id": "C53", "title": "Authorize never panics", "statement": "Authorize returns without panicking whatever was stored through AddData and whatever values the options carry.", "quantifier": "every history, request and iteration order", "why_tests_cant": "rows and options are of type any; unbounded histories", "anchors": ["authorize.go: validateResources, collectRoles*", "query.go: GetImplicitTenants", "role_manager.go: AddData"]}
{"id": "C54", "title": "Granting several roles or scopes is exact and all-or-nothing", "statement": "tenant.AddPrincipal(p, md, roles...) and AssignScopesToPrincipal store exactly one row per role (scope) plus one for the default namespace when they return nil, and leave the data unchanged when they return an error.", "quantifier": "every state, tenant, principal and list of roles or scopes", "why_tests_cant": "arbitrary lists with unknown entries at any position", "anchors": ["tenant.go: AddPrincipal, AddPrincipalWithRole, AssignScopesToPrincipal, AddScopeToPrincipal"]}
{"id": "C55", "title": "v2 decisions do not depend on map iteration order", "statement": "Asked twice in the same state at the same instant, Authorize (Can) gives the same answer, whatever order Go's maps are iterated in.", "quantifier": "every reachable state, request, instant and pair of iteration orders", "why_tests_cant": "Go randomises map iteration; a test sees a few orders of a few maps.", "anchors": ["v2/v2.go:257-420", "v2/role.go:119-178"]}
{"id": "C56", "title": "v1 tenant methods write exactly the documented assignments", "statement": "Tenant.AddPrincipal, AddPrincipalInNamespace, AssignScopesToPrincipal, AssignScopesWithRole add exactly the assignments for the given roles and scopes the tenant has, in its default namespace (or the named one), and change nothing else; AddScopesToNamespace and AddRolesToNamespace add the entries up to the first one the tenant does not have.", "quantifier": "every reachable state, tenant and argument list", "why_tests_cant": "all states and argument lists; 'nothing else' ranges over every stored assignment", "anchors": ["v1/tenant.go: AddPrincipal, AddPrincipalInNamespace, AssignScopesToPrincipal, AssignScopesWithRole, AddScopesToNamespace, AddRolesToNamespace"]}
{"id": "C57", "title": "v1 Authorize with only an activity considers every resource group", "statement": "If a principal is granted an activity in some resource group of some tenant, Authorize with only that activity returns true.", "quantifier": "every reachable state", "why_tests_cant": "all states", "anchors": ["v1/role_manager.go: authorizeForActivity", "v1/role.go: Has"]}
{"id": "C58", "title": "v1 Authorize never panics", "statement": "Authorize returns for every known principal and every combination of options (given terminating patterns and acyclic roles).", "quantifier": "every reachable state and request", "why_tests_cant": "all histories and option combinations", "anchors": ["v1/role_manager.go: authorizeForActivity, authorizeForNamespace"]}
{"id": "C59", "title": "v1 additions never take access away", "statement": "v1 has no removal methods, so what Authorize granted stays granted after any further calls.", "quantifier": "every reachable state, request and sequence of later calls", "why_tests_cant": "unbounded histories", "anchors": ["v1/role_manager.go: Authorize, authorizeComplex", "v1/role.go: Has"]}
{"id": "C60", "title": "v1 GetImplicitPrincipalRoles returns only assignments of the principal", "statement": "Every assignment returned by GetImplicitPrincipalRoles(tenant, principal) is one of that principal.", "quantifier": "every reachable state", "why_tests_cant": "all states", "anchors": ["v1/role_manager.go: GetImplicitPrincipalRoles"]}
{"id": "C61", "title": "v1 GetTenantsForPrincipal lists every tenant once", "statement": "GetTenantsForPrincipal returns each tenant in which the principal has an assignment, without duplicates.", "quantifier": "every reachable state and map order", "why_tests_cant": "depends on map iteration order", "anchors": ["v1/role_manager.go: GetTenantsForPrincipal", "utils/str.go: Compact"]}
{"id": "C62", "title": "v1 tenants are isolated from each other", "statement": "A method called on one tenant does not change decisions for requests about another tenant.", "quantifier": "every reachable state, tenant method and request naming another tenant", "why_tests_cant": "all pairs of states and requests", "anchors": ["v1/tenant.go", "v1/role_manager.go: Authorize"]}
{"id": "C63", "title": "v1 scope listings are exact", "statement": "GetScopesForPrincipal and GetTenantScopesForPrincipal return exactly the non-empty scopes of the principal's assignments (in the tenant), and an error exactly for unknown principals or tenants.", "quantifier": "every reachable state and map order", "why_tests_cant": "all states", "anchors": ["v1/role_manager.go: GetScopesForPrincipal, GetTenantScopesForPrincipal"]}
{"id": "C64", "title": "Role changes have exactly the stated effect", "statement": "On an unlocked role AddDescendant adds for each new id the first given role with it; AddPermissionResourceGroup stores the given group unless one with its id is there; AddPermission adds the first attribute for each new key. Nothing else changes, except in roles sharing the group object.", "quantifier": "every reachable state, role and argument list", "why_tests_cant": "'nothing else' ranges over all roles and groups; all argument lists", "anchors": ["role.go: AddDescendant, AddPermission, AddPermissionResourceGroup"]}
{"id": "C65", "title": "Additions never take access away", "statement": "What Role.Has or Authorize granted stays granted whatever is called later (the library has no removal in the root package).", "quantifier": "every reachable state, request and sequence of later calls", "why_tests_cant": "unbounded histories", "anchors": ["role.go: Has", "authorize.go: Authorize", "trie/trie.go: Insert"]}
{"id": "C66", "title": "Listing queries return exactly the matching rows", "statement": "GetScopesByPrincipal, GetNamespacesByTenant, GetScopesByTenant, GetTenants, GetTenantsByPrincipal, GetNamespacesForPrincipalByTenant, GetScopesForPrincipalByTenant and GetNamespacesByPrincipal return exactly the stored rows (or tenants) they are named after, each once, in every iteration order. GetImplicitScopesByPrincipal never returns a row.", "quantifier": "every reachable manager, principal and tenant value, iteration order", "why_tests_cant": "all row sets and all map iteration orders", "anchors": ["query.go: GetScopesByPrincipal, GetNamespacesByTenant, GetScopesByTenant, GetTenants, GetTenantsByPrincipal, GetNamespacesForPrincipalByTenant, GetScopesForPrincipalByTenant, GetNamespacesByPrincipal, GetImplicitScopesByPrincipal", "filters.go"]}
{"id": "C67", "title": "Listings for a principal stay with the principal, tenant and namespace asked about", "statement": "GetRolesForPrincipalByTenantAndNamespace, ...AndScope and ...NamespaceAndScope list only role rows of that principal in that tenant; GetScopesForPrincipalByTenantAndNamespace lists only scopes of that namespace or of none.", "quantifier": "every reachable manager and arguments", "why_tests_cant": "all row sets; the leak needs a row of another principal in another tenant", "anchors": ["query.go: GetRolesForPrincipalByTenantAndNamespace, GetRolesForPrincipalByTenantAndScope, GetRolesForPrincipalByTenantNamespaceAndScope, GetScopesForPrincipalByTenantAndNamespace, GetScopeForPrincipalByNamespace", "filters.go"]}
{"id": "C68", "title": "GetScopesWithRolesForPrincipal lists the principal's scopes in that tenant with its roles", "statement": "Each scope listed belongs to the tenant asked about and is open to the principal, each role under it is a role the principal holds there, and the answer does not depend on the iteration order.", "quantifier": "every reachable manager, principal, tenant, namespace, iteration order", "why_tests_cant": "all row sets, all map iteration orders", "anchors": ["activity_group.go: GetScopesWithRolesForPrincipal"]}
{"id": "C69", "title": "GetRolesForAvailablePermissions lists each permission with exactly the roles that have it", "statement": "Role id is listed for an attribute of a category iff the role registered under it has the attribute there, itself or through descendants, and it is listed once; the call returns iff no registered role reaches a cycle.", "quantifier": "every reachable manager, every iteration order", "why_tests_cant": "all role graphs, all map iteration orders; non-termination", "anchors": ["permission.go: GetRolesForAvailablePermissions"]}
{"id": "C72", "title": "v1: registries hold the first object offered under an id, and a refused object stays outside", "statement": "In package v1, AddRole, AddAttributeGroup, AddTenant, AddNamespace and AddAttribute keep the first object offered under an id: a later call with the same id returns the registered object and has no effect; lookups return exactly that object; listings and totals count each registered id once. In particular an object that was refused does not become connected to the manager. AddTenant violates the last part: it connects the refused tenant object to the manager, and that object's AddPrincipal then writes assignments under the registered tenant's id.", "quantifier": "every sequence of v1 operations of any length from an empty manager, every id and every object", "why_tests_cant": "it is a statement about all histories; the violating history needs a second object with a used id followed by operations on the refused object", "anchors": ["v1/role_manager.go: RoleManager.AddRole", "v1/role_manager.go: RoleManager.AddTenant", "v1/role_manager.go: RoleManager.AddNamespace", "v1/role_manager.go: RoleManager.AddAttribute", "v1/role_manager.go: RoleManager.AddAttributeGroup"]}
{"id": "C73", "title": "v1: AddPermissionsToRole is validated and all-or-nothing", "statement": "RoleManager.AddPermissionsToRole succeeds exactly when the role is registered and unlocked, the attribute group is registered, and every attribute belongs to the group; on success the role's own group of that name gains exactly the attributes not already present (first one per key) and nothing else changes; on failure nothing changes and the error names the first problem.", "quantifier": "every reachable manager state, role id, group id and list of attributes of any length", "why_tests_cant": "all-or-nothing behaviour must hold for every position of the offending attribute and every state of sharing between roles and groups", "anchors": ["v1/role_manager.go: RoleManager.AddPermissionsToRole", "v1/role.go: Role.AddPermission"]}
{"id": "C74", "title": "v1: GetPermissionsForPrincipal agrees with Authorize", "statement": "The permissions that GetPermissionsForPrincipal lists for a principal in a tenant are those that Authorize grants there. The code violates this in both directions (permissions of descendant roles are granted but not listed; assignments of principals that are not registered are listed but not granted). What holds: the listing is, for each assignment with a registered role, exactly what the role itself holds; and for registered principals and tenants everything listed is granted.", "quantifier": "every reachable manager state, tenant, principal and permission", "why_tests_cant": "two independent traversals of the role graph are compared for all graphs and assignments", "anchors": ["v1/role_manager.go: RoleManager.GetPermissionsForPrincipal", "v1/role_manager.go: RoleManager.GetRolePermissions", "v1/role_manager.go: RoleManager.Authorize"]}
{"id": "C78", "title": "v1: tenant and namespace set-up has exactly the stated effect", "statement": "AddDescendent, AddNamespace, AddRole, AddScopes and SetDefaultNamespace of a v1 tenant, and AddRoles and AddScopes of a namespace, add exactly their arguments to exactly that object (AddScopes also to the tenant's default namespace; SetDefaultNamespace with an unknown id does nothing) and leave every other object alone. GetDescendantTenants returns exactly the tenants below the given one, or fails to return when there is a cycle below it.", "quantifier": "every reachable manager state, object and argument list of any length", "why_tests_cant": "absence of side effects on all other objects is a statement about the whole state, and the descendant walk is over arbitrary graphs", "anchors": ["v1/tenant.go: Tenant.AddDescendent", "v1/tenant.go: Tenant.AddNamespace", "v1/tenant.go: Tenant.AddRole", "v1/tenant.go: Tenant.AddScopes", "v1/tenant.go: Tenant.SetDefaultNamespace", "v1/tenant.go: Namespace.AddRoles", "v1/tenant.go: Namespace.AddScopes", "v1/tenant.go: Tenant.GetDescendantTenants"]}
{"id": "C75", "title": "v2: lookups return what was registered last, set-up methods have exactly the stated effect", "statement": "In package v2 GetRole and GetTenant return the last object registered under the name, nothing if there is none; GetDefaultTenant looks up the last default set. AddPermission, RemovePermission, AddNamespace, AddScopeToNamespace, AddChildTenant, AddTenant, AddRoles, AddPrincipalRole and SetDefaultTenant change exactly what they name and nothing else (adding an existing namespace keeps its scopes; adding scopes to a missing namespace is refused with an error and no effect). TenantStatus.String names the five constants and panics on every other value.", "quantifier": "every sequence of v2 operations of any length, every name, object and argument list", "why_tests_cant": "absence of other effects is a statement about the whole state for all states and arguments", "anchors": ["v2/init.go: Authorizer.GetRole", "v2/init.go: Authorizer.GetTenant", "v2/init.go: Authorizer.AddTenant", "v2/v2.go: Authorizer.GetDefaultTenant", "v2/role.go: Role.AddPermission", "v2/role.go: Tenant.AddNamespace", "v2/role.go: Tenant.AddScopeToNamespace", "v2/role.go: Tenant.AddChildTenant", "v2/entities.go: TenantStatus.String"]}
{"id": "C77", "title": "Rows added concurrently are all found afterwards", "statement": "When several goroutines call AddData on one manager and all have returned, every row added is found (or a row with the same keys), rows that were there before are still there, and no other row appears. The code violates the first part: two rows that share keys not yet in the trie can both create the missing node, and one of the rows is lost for good. Nothing is lost exactly when any two rows of the batch part ways at a node that was there before. The other two parts hold in every interleaving. Insertions made one at a time give exactly the rows of the sequential trie.", "quantifier": "every trie that arises from batches of insertions, every batch of any size, every key extractor, every interleaving", "why_tests_cant": "the loss needs a particular interleaving of two goroutines; absence of loss is a statement about all interleavings", "anchors": ["trie/trie.go: Trie.Insert", "trie/trie.go: Node.addChild", "role_manager.go: RoleManager.AddData"]}
{"id": "C80", "title": "Insertions never block each other, and searches never meet half-written rows", "statement": "A goroutine in Insert makes at most two steps per key and two more, however the others are scheduled, and can always move; any partly executed batch can be completed. Once all goroutines have returned every node marked as an end carries a row. While Insert runs this is violated: a concurrent search can meet a marked node without a row and passes nil to its callback (which the filters dereference); this happens only at the place of a row whose Insert has one statement left.", "quantifier": "every trie that arises, every batch of any size, every interleaving", "why_tests_cant": "progress and transient states are about all interleavings", "anchors": ["trie/trie.go: Trie.Insert", "trie/trie.go: Trie.search", "role_manager.go: RoleManager.AddData"]}
{"id": "C79", "title": "Concurrent registration agrees on one object per id", "statement": "When several goroutines register objects (AddRole, AddTenant, AddNamespace, AddScope, AddPrincipal, AddAttribute, AddAttributeGroup; root package and v1), everybody is given back the object that is registered under the id afterwards. The code violates this: two goroutines offering different objects under a new id can both get their own object back, and changes made through the loser have no effect on the manager. The property holds in every interleaving exactly when nobody offers a second object under a new id. In every interleaving registered objects stay, every call returns the old object or one that was offered under the id, and exactly the ids offered are added.", "quantifier": "every registry content, every list of objects of any length, every interleaving", "why_tests_cant": "the split needs a particular interleaving; agreement is about all interleavings", "anchors": ["permission.go: RoleManager.AddRole", "tenant.go: RoleManager.AddTenant", "namespace.go: RoleManager.AddNamespace", "scope.go: RoleManager.AddScope", "principal.go: RoleManager.AddPrincipal", "activity.go: RoleManager.AddAttribute", "activity_group.go: RoleManager.AddAttributeGroup", "v1/role_manager.go: RoleManager.AddRole"]}
{"id": "C81", "title": "v2: concurrent assignments and removals act as if made one after the other", "statement": "When several goroutines call AddPrincipalRole and RemovePrincipalRole on one authorizer, the assignments and the results are those of the same calls made one after the other. The code violates this because RemovePrincipalRole takes no lock: whenever something can be removed and a row not meant is added at the same time, the row added can be lost, the removal can be undone, and the removal can panic, none of which happens one after the other. It holds for any number of AddPrincipalRole calls: no row is lost or doubled and the rows of a call stay together. No mixture of calls blocks for good.", "quantifier": "every list of assignments, every number of calls and rows, every interleaving", "why_tests_cant": "the bad outcomes need particular interleavings; the good ones are about all interleavings", "anchors": ["v2/v2.go: Authorizer.AddPrincipalRole", "v2/v2.go: Authorizer.RemovePrincipalRole"]}
{"id": "C76", "title": "v2: concurrent calls on a role graph act as if made one after the other", "statement": "When several goroutines call AddRole, AddChildRole, ResolvePermissions, ResolveChildRoles, GetRole on one RoleDAG and AddPermission, RemovePermission on its roles, then the graph, the roles and all results are those of the same calls made one after the other, in an order in which a call that had returned before another one began comes first. The code violates this: of two first resolutions of a role with an AddChildRole in between, one can answer without and the other with the new edge (one after the other they always agree), and a first resolution can see, and remember, any part of what one AddPermission grants. It holds for all mixtures in which no role not yet resolved is resolved twice or while permissions change, and GetRole is not called beside AddRole.", "quantifier": "every role graph, every number and mixture of calls, every interleaving", "why_tests_cant": "the bad outcomes need particular interleavings; the good ones are about all interleavings", "anchors": ["v2/role.go: RoleDAG.AddRole", "v2/role.go: RoleDAG.AddChildRole", "v2/role.go: RoleDAG.ResolvePermissions", "v2/role.go: RoleDAG.ResolveChildRoles", "v2/role.go: Role.AddPermission"]}
{"id": "C82", "title": "v2: calls on a role graph are free of data races", "statement": "No two goroutines in calls on one RoleDAG or its roles can touch the same map in either order, one of them writing. The code violates this: GetRole reads the map of roles without the lock while AddRole writes it, and ResolvePermissions iterates over the permissions of a role without its lock while AddPermission or RemovePermission changes them. There are no other races: the edges and the remembered answers are always safe.", "quantifier": "every role graph, every number and mixture of calls, every interleaving", "why_tests_cant": "a race needs a particular interleaving; absence of further races is about all interleavings", "anchors": ["v2/role.go: RoleDAG.ResolvePermissions", "v2/role.go: Role.AddPermission", "v2/role.go: Role.RemovePermission", "v2/init.go: Authorizer.GetRole"]}
{"id": "C83", "title": "v2: concurrent calls never close a cycle and never block each other for good", "statement": "Starting from a graph without cycles there is none at any moment of any interleaving of calls on the graph, although every AddChildRole checks before it writes. As long as some call has not returned, some goroutine can move.", "quantifier": "every role graph, every number and mixture of calls, every interleaving", "why_tests_cant": "check-then-act errors and deadlocks need particular interleavings", "anchors": ["v2/role.go: RoleDAG.AddChildRole", "v2/role.go: RoleDAG.ResolvePermissions"]}
{"id": "C84", "title": "v2: while a graph only grows, answers lie between before and after", "statement": "When calls on a role graph overlap that only add (roles under unused names, edges, permissions), then every answer of a first resolution contains all that the role gave at the start, and nothing that it does not give when the call has returned.", "quantifier": "every role graph, every number and mixture of adding and resolving calls, every interleaving, every moment", "why_tests_cant": "quantifies over all interleavings, including half-finished calls", "anchors": ["v2/role.go: RoleDAG.ResolvePermissions", "v2/role.go: RoleDAG.ResolveChildRoles", "v2/role.go: Role.AddPermission"]}
{"id": "C85", "title": "Permissions added to a role at the same time are all there afterwards", "statement": "When several goroutines call AddPermission on one role and every call returns nil, Role.Has finds all permissions of all calls once they have returned, keeps what was there before, and finds nothing else. (False when two of them create the same resource group.)", "quantifier": "every role, every number of calls, every interleaving of their map accesses", "why_tests_cant": "losing a permission takes a particular interleaving; the safe case needs all interleavings", "anchors": ["role.go: Role.AddPermission", "role.go: Role.AddPermissionResourceGroup", "v1/role.go: Role.AddPermission"]}
{"id": "C86", "title": "Once Lock has returned, a role does not change", "statement": "After Role.Lock has returned, and as long as nobody calls Unlock, the permissions of the role stay as they are, whatever other goroutines call. (False for calls that were already under way.)", "quantifier": "every role, every mixture of calls, every interleaving, every moment after Lock", "why_tests_cant": "the flag is checked once at the start of a call; the failure takes a particular interleaving", "anchors": ["role.go: Role.Lock", "role.go: Role.AddPermission", "role.go: Role.AddPermissionResourceGroup", "v1/role.go: Role.Lock"]}
{"id": "C87", "title": "A v2 Can beside changes of the assignments", "statement": "Can, while other goroutines add assignments, answers what it would have answered alone at some moment between start and end of the call. Whatever is added or removed meanwhile, roles held through lasting assignments are found, and no role is found that the assignments of all moments together would not give.", "quantifier": "every reachable authorizer with distinct tenant ids, every request, every sequence of lists the loops may meet, every iteration order", "why_tests_cant": "the call reads the list of assignments afresh for every tenant, without a lock; a test meets a few of the possible sequences", "anchors": ["v2/v2.go: Authorizer.Can", "v2/v2.go: Authorizer.resolvePrincipalRoles", "v2/v2.go: Authorizer.findPrincipalTenants"]}
{"id": "C88", "title": "A v2 Authorize beside changes of the assignments", "statement": "Authorize, while other goroutines add assignments, answers what it would have answered alone at some moment between start and end of the call. (False for requests with a scope on tenants with children; true otherwise.)", "quantifier": "every reachable authorizer with distinct tenant ids, every request, every sequence of lists the loops may meet, every iteration order", "why_tests_cant": "the wrong answers take two additions that fall between the readings of two tenants", "anchors": ["v2/v2.go: Authorizer.Authorize", "v2/v2.go: Authorizer.resolvePrincipalPermissions"]}
{"id": "C89", "title": "AddData takes the row as it is", "statement": "The listings and decisions of the root manager show each stored row as it was when AddData was called, whatever the caller later does with their struct or with the structs a listing returned. (False: the pointer is kept; true when no struct is changed after it was added.)", "quantifier": "every sequence of creating, adding and overwriting rows, every filter, every iteration order", "why_tests_cant": "tests add literal structs; the wrong rows appear only with programs that fill one struct again and again, or edit an answer", "anchors": ["role_manager.go: RoleManager.AddData", "trie/trie.go: Trie.Insert", "trie/trie.go: Trie.search", "authorize.go: RoleManager.Authorize"]}
{"id": "C90", "title": "Answers of GetImplicitTenants and TenantChildren belong to the caller", "statement": "A caller may do what they like with the map GetImplicitTenants returned or the slice TenantChildren returned: no verdict depends on it. (False: both are the manager's own caches; changing the map settles all later verdicts on that principal, and on no other.)", "quantifier": "every state, every change of the answer, every later request, every later history of calls", "why_tests_cant": "the effect shows only in later calls, possibly by other parts of the program, for every later history", "anchors": ["query.go: RoleManager.GetImplicitTenants", "role_manager.go: RoleManager.TenantChildren", "authorize.go: RoleManager.Authorize"]}
{"id": "C91", "title": "The audit log tells the verdict", "statement": "Of the entries one call of Authorize or Can writes to the audit log, the last is the verdict the caller got (granted; failed; or refused because the tenant is unknown, which is logged exactly then), no other entry is a verdict, and all carry the attributes of that request. A call that does not return has logged no verdict. 'Failed to resolve' is logged only if the principal holds nothing in a tenant the request is directed at, and always then unless the call is granted. Logging changes no decision.", "quantifier": "every state, every request, every iteration order, with and without a logger", "why_tests_cant": "which entries are written depends on the order the tenants are visited in; a test sees one order and one set of tenants", "anchors": ["v2/v2.go: Authorizer.Log", "v2/v2.go: Authorizer.Authorize", "v2/v2.go: Authorizer.Can"]}
{"id": "C92", "title": "A logged grant says what was allowed", "statement": "Whoever reads an entry 'Authorization granted' learns from its attributes a request that is allowed. (False: Can logs the same entry, with a resource and action that were never checked, and without the roles asked for; the default tenant is not logged. True of the entries of Authorize.)", "quantifier": "every state with distinct ids, every request, every set of roles, every iteration order", "why_tests_cant": "a statement on every entry of every call, about all readers of the log; a test compares one entry with one expectation", "anchors": ["v2/v2.go: Authorizer.Log", "v2/v2.go: Authorizer.Can", "v2/v2.go: Authorizer.Authorize"]}
{"id": "C70", "title": "utils.Intersection and Union are the set operations", "statement": "Intersection(a, b) returns exactly the elements of b that occur in a, in the order of b; Union(a, b) returns a followed by exactly the elements of b that do not occur in a, every element once.", "quantifier": "all slices of structs or maps, all field and key texts, all map iteration orders", "why_tests_cant": "A violation needs two different elements with one serialised text, or a map whose keys come in two orders; no finite list of samples covers all texts and orders.", "anchors": ["utils/str.go:Intersection", "utils/str.go:Union", "utils/str.go:Serialize"]}
{"id": "C71", "title": "utils.ToInt64 tells strings apart", "statement": "Two different strings have different numbers ToInt64.", "quantifier": "all pairs of strings", "why_tests_cant": "Collisions of a 64-bit hash are not met by sampling.", "anchors": ["utils/str.go:ToInt64"]}
{"id": "C93", "title": "Answers of a v2 role graph belong to the caller", "statement": "A caller of RoleDAG.ResolvePermissions or ResolveChildRoles may change the returned map: no later answer of the graph depends on it.", "quantifier": "all role graphs, all changes of an answer, all sequences of later calls", "why_tests_cant": "The effect shows only in later calls, for any role, any content and any calls in between.", "anchors": ["v2/role.go:ResolvePermissions", "v2/role.go:ResolveChildRoles"]}
{"id": "C94", "title": "A root decision made while rows are added", "statement": "An Authorize call of the root manager that runs while other goroutines add rows (AddData, AddPrincipal, AssignScopes, ...) gives an answer that could have been given at some moment of the call: between the rows before it and the rows after it.", "quantifier": "all reachable managers, all sequences of new rows, all interleavings of the call's searches with the additions, all iteration orders, all requests", "why_tests_cant": "A call makes many searches, each of which may meet any part of the rows being added; the interleavings and orders cannot be enumerated by tests and do not show up on demand.", "anchors": ["authorize.go:Authorize", "query.go:GetImplicitTenants", "trie/trie.go:search", "trie/trie.go:Insert"]}
{"id": "C95", "title": "Several goroutines asking the root manager at once", "statement": "Authorize calls that several goroutines make on one root manager at the same time, while nobody changes anything, do not disturb each other: each answers (or panics, or never returns) as it could have done alone, it leaves nothing behind but remembered tenants that GetImplicitTenants could have returned, no call waits for another, and each takes a number of steps that depends on its principal's rows only.", "quantifier": "all reachable managers, all numbers of calls, all interleavings of their accesses to the two caches, all iteration orders, all requests", "why_tests_cant": "The calls share two caches without a lock; which call meets which entry depends on the interleaving and on random iteration orders, neither of which a test can enumerate or provoke.", "anchors": ["authorize.go:Authorize", "query.go:GetImplicitTenants", "role_manager.go:TenantChildren"]}
{"id": "C96", "title": "Answers given at the same time fit some order and are repeated", "statement": "The answers of Authorize calls made by several goroutines at the same time, while nobody changes anything, are together those of the calls made one after the other in some order, and every answer is repeated when the question is asked again.", "quantifier": "all reachable managers, all numbers of calls, all interleavings of their accesses to the two caches, all iteration orders, all requests", "why_tests_cant": "The calls share two caches without a lock; which call meets which entry depends on the interleaving and on random iteration orders, neither of which a test can enumerate or provoke.", "anchors": ["authorize.go:Authorize", "query.go:GetImplicitTenants", "role_manager.go:TenantChildren"]}
{"id": "C97", "title": "Setting a root tenant up has exactly the stated effect", "statement": "NewTenant, AddNamespaces, AddScopesToNamespace, AddPrincipalInNamespace, AddRoles, AddScopes, AddPrincipal, AssignScopesToPrincipal, SetDefaultNamespace, AddDescendant and AddData store exactly the rows (links, default) of their arguments besides what is there already, except rows whose place is taken, and change nothing else; they panic exactly if the tenant has no manager (a role or tenant given is nil).", "quantifier": "all reachable managers, all tenants, all argument lists", "why_tests_cant": "Whatever is not looked at may have changed; that nothing else changes in any state and for any argument list needs a proof.", "anchors": ["tenant.go:AddNamespaces", "tenant.go:AddScopesToNamespace", "tenant.go:AddPrincipalInNamespace", "tenant.go:AddRoles", "tenant.go:AddScopes", "tenant.go:SetDefaultNamespace", "tenant.go:AddDescendant", "role_manager.go:AddData", "permission.go:NewTenant"]}
{"id": "C98", "title": "The default namespace of a tenant is that of its descendants", "statement": "When a tenant has a default namespace, its descendants have it too, however the calls of SetDefaultNamespace and AddDescendant are ordered.", "quantifier": "all reachable managers, all orders of calls", "why_tests_cant": "Tests fix one order of set-up calls; the claim is about all.", "anchors": ["tenant.go:SetDefaultNamespace", "tenant.go:AddDescendant"]}
{"id": "C99", "title": "Stored rows name registered things", "statement": "Every row Data() returns names only tenants, namespaces, scopes, principals and roles that have been registered with the manager, so registering a thing never gives it rights that were stored before.", "quantifier": "all histories of calls", "why_tests_cant": "An invariant of all histories; a test sees one.", "anchors": ["tenant.go:AddPrincipalInNamespace", "tenant.go:AddScopesToNamespace", "tenant.go:AddNamespace", "role_manager.go:AddData"]}
{"id": "C100", "title": "The order of grants does not matter", "statement": "Calls that only store rows (AddPrincipal, AssignScopesToPrincipal, AddNamespaces, \u2026) may be made in any order: they return the same, leave the same rows, and Authorize decides the same afterwards.", "quantifier": "all reachable managers, all lists of such calls, all permutations, all requests", "why_tests_cant": "Permutations of arbitrary call lists cannot be enumerated.", "anchors": ["tenant.go:AddPrincipal", "tenant.go:AssignScopesToPrincipal", "trie/trie.go:Insert"]}
{"id": "C101", "title": "The order of v2 set-up calls does not matter", "statement": "An authorizer may be set up in any order: the same calls of AddRole, AddChildRole, AddTenant, AddChildTenant, AddNamespace, AddScope, SetDefaultTenant, AddPrincipalRole and so on, none of them contradicting another, made in any order, are accepted alike, register and link the same, and Authorize and Can decide the same afterwards.", "quantifier": "all reachable authorizers, all lists of set-up calls, all permutations of them, all requests", "why_tests_cant": "Permutations of arbitrary call lists cannot be enumerated.", "anchors": ["v2/role.go:AddChildRole", "v2/role.go:checkCircularDependency", "v2/init.go:AddTenant", "v2/v2.go:AddPrincipalRole"]}
{"id": "C102", "title": "v1: the order of grants does not matter", "statement": "Calls that give people roles and scopes (AddPrincipalRole, AddPrincipal, AddPrincipalInNamespace, AssignScopesToPrincipal, AssignScopesWithRole) may be made in any order: they return the same, the manager ends up with the same assignments, and Authorize decides the same afterwards.", "quantifier": "all reachable managers, all lists of such calls, all permutations, all map iteration orders, all requests", "why_tests_cant": "Permutations of arbitrary call lists cannot be enumerated.", "anchors": ["v1/tenant.go:AddPrincipal", "v1/tenant.go:AddPrincipalInNamespace", "v1/tenant.go:AssignScopesToPrincipal", "v1/tenant.go:AssignScopesWithRole", "v1/role_manager.go:AddPrincipalRole"]}
{"id": "C103", "title": "Keeping names of different kinds apart keeps grants", "statement": "A program that never uses one name both for a tenant and a namespace, a namespace and a scope, and so on, never loses a row it stored: what Authorize has granted it grants after any further set-up, and grants may be made in any order.", "quantifier": "all programs that keep names apart, all rows, all requests, all further calls, all iteration orders", "why_tests_cant": "The guarantee is about every program following a naming convention; tests fix the names.", "anchors": ["trie/trie.go:Insert", "trie/trie.go:New", "tenant.go:AddPrincipal", "authorize.go:Authorize"]}
{"id": "C104", "title": "The documented set-up grants what it announces", "statement": "After the set-up of examples/main.go (permissions to roles, roles to tenants, tenants, namespaces and scopes registered and linked, a principal given a role), in whatever order and among whatever other calls, Authorize grants the principal the activities of the role and entry to the namespaces and scopes of the tenant.", "quantifier": "all programs containing these calls, all names, all requests naming registered things", "why_tests_cant": "The example shows six requests after one program; the claim is about every program containing the calls and every request.", "anchors": ["examples/main.go:mai1n", "tenant.go:AddPrincipal", "authorize.go:Authorize", "role.go:AddPermissionsToRole"]}
{"id": "C105", "title": "v2: decisions follow from the calls made", "statement": "In a program that first sets up and then asks, and gives every tenant its own id, Authorize returns true (when it returns) exactly when the calls made so far grant the request: an assignment made for the principal by AddPrincipalRole and not met by the criteria of a later RemovePrincipalRole, unexpired by what was last set, in the tenant meant or one managed below it, in the namespace and scope meant, of a role that by the AddRole, AddChildRole, AddPermission and RemovePermission calls has a permission matching the request. Likewise Can.", "quantifier": "all programs (interleavings of all calls, on any objects), all requests, all instants, all map iteration orders", "why_tests_cant": "The claim relates every possible program to its decisions.", "anchors": ["examples/v2.go:main", "v2/v2.go:Authorize", "v2/v2.go:Can", "v2/v2.go:AddPrincipalRole", "v2/role.go:AddChildRole", "v2/init.go:AddTenant"]}
{"id": "C106", "title": "v2: set-up and decisions from several goroutines do not race", "statement": "When several goroutines call the methods of one v2 authorizer and of its tenants, no two of them access the same variable, map or slice at the same time with one of them writing; and no goroutine waits for good.", "quantifier": "all authorizers, all lists of calls (Authorize, Can, AddTenant, GetTenant, SetDefaultTenant, GetDefaultTenant, AddPrincipalRole, RemovePrincipalRole, AddNamespace, AddScopeToNamespace, AddChildTenant, setting a status or an expiry), all interleavings", "why_tests_cant": "The race detector reports the races of the executions it sees; the claim is about every interleaving of every list of calls.", "anchors": ["v2/v2.go:Authorize", "v2/v2.go:Can", "v2/v2.go:AddPrincipalRole", "v2/v2.go:RemovePrincipalRole", "v2/v2.go:SetDefaultTenant", "v2/init.go:AddTenant", "v2/role.go:AddNamespace", "v2/role.go:AddChildTenant"]}
{"id": "C107", "title": "v2: asking at once is asking one after the other", "statement": "When several goroutines call Authorize, Can, GetTenant and GetDefaultTenant on one v2 authorizer that nobody changes, they are told what they would be told if they asked one after the other in some order.", "quantifier": "all authorizers, all lists of such calls, all interleavings, all map iteration orders", "why_tests_cant": "The answers depend on who resolves a role first; a test sees some of the interleavings.", "anchors": ["v2/v2.go:Authorize", "v2/v2.go:Can", "v2/role.go:ResolvePermissions", "v2/role.go:ResolveChildRoles", "v2/v2.go:GetDefaultTenant"]}
{"id": "C108", "title": "v2: no call crashes because others are running", "statement": "A call made on a v2 authorizer with proper arguments does not panic because other goroutines decide, register tenants, add assignments, namespaces, scopes and child tenants, or set, prolong or clear expiries meanwhile.", "quantifier": "all authorizers, all lists of calls, all interleavings", "why_tests_cant": "The crash needs a step of another goroutine between two particular reads.", "anchors": ["v2/v2.go:IsExpired", "v2/v2.go:ClearExpiry", "v2/v2.go:SetExpiry", "v2/v2.go:Authorize", "v2/v2.go:Can"]}
{"id": "C109", "title": "v1: decisions follow from the calls made", "statement": "If no id contains an underscore, whatever set-up calls a program made on a v1 manager and its objects, in whatever order and with questions in between, Authorize answers yes exactly when the calls made so far grant the request: the caller was added, and, depending on the options, the tenant was registered, a call assigned the caller something there, or a role assigned to the caller (and admitted for the tenant, namespace and scope asked) was given the activity for the group, by itself, through a group handed to it, or through a role accepted below it. It panics exactly when only an activity is asked for and something was assigned to the caller in a tenant never registered.", "quantifier": "all lists of calls of the v1 API (tenants, namespaces, roles, groups, scopes, principals, assignments, defaults, locks, questions), all callers and option values, all map iteration orders", "why_tests_cant": "A test runs one list of calls; the claim covers every list, including which of several registrations of one id counts, what a changed default namespace does, and permissions reaching a role through shared groups.", "anchors": ["v1/role_manager.go:Authorize", "v1/role_manager.go:AddPrincipalRole", "v1/role_manager.go:GetAllowedRoles", "v1/tenant.go:AddPrincipal", "v1/tenant.go:AssignScopesToPrincipal", "v1/role.go:Has", "v1/role.go:AddPermissionResourceGroup"]}
{"id": "C110", "title": "Root: nothing is allowed that no call granted", "statement": "Whatever calls a program made on a root manager and its objects, in whatever order and with questions in between, Authorize answers yes only if the calls made so far grant the request: the caller was added and given a row in some tenant, everything named in the request was registered, and for the tenant asked for or one the caller reaches (by a row, or below a tenant where a row lets the caller manage descendants) a call stored a row that fits the request and, if an activity is asked for, names a registered role that was given the activity for the group, by itself, through a group handed to it, or through a role accepted below it.", "quantifier": "all lists of calls of the root API, all callers and option values, all map iteration orders", "why_tests_cant": "A test runs one list of calls; the claim covers every list, including stale caches, rows that replace others, re-registered ids, changed default namespaces and shared groups.", "anchors": ["authorize.go:Authorize", "query.go:GetImplicitTenants", "role_manager.go:TenantChildren", "tenant.go:AddPrincipal", "tenant.go:AddDescendant", "role.go:Has", "trie/trie.go:Insert"]}
{"id": "C111", "title": "Root: everything the calls granted is allowed", "statement": "Whatever calls a program made on a root manager and its objects, Authorize answers yes whenever the calls made so far grant the request (as in C110).", "quantifier": "all lists of calls of the root API, all callers and option values, all map iteration orders", "why_tests_cant": "The losses need particular orders of calls, particular names or particular map orders; that there are no other losses is a claim about all lists of calls.", "anchors": ["authorize.go:Authorize", "query.go:GetImplicitTenants", "role_manager.go:TenantChildren", "tenant.go:AddDescendant", "trie/trie.go:Insert"]}
{"id": "C112", "title": "Root: a set-up call fails only on a tenant that is not registered yet", "statement": "Whatever calls a program made before, a further call that sets something up (constructors, Lock and Unlock, the calls on roles, groups, tenants and the manager), made on objects the constructors returned, returns, unless it gives a tenant something before AddTenant was called with that tenant: by a call on the tenant itself, or by AddDescendant on a parent that has a default namespace, which is passed on. In that case it panics, and it never hangs.", "quantifier": "all lists of calls of the root API, all set-up calls and arguments, all map iteration orders", "why_tests_cant": "Which objects a call touches, and whether they have a manager, depends on the whole list of calls before it; the claim covers all lists and all calls.", "anchors": ["tenant.go:AddNamespace", "tenant.go:AddDescendant", "tenant.go:SetDefaultNamespace", "tenant.go:AddTenant", "role.go:AddPermission", "role.go:AddPermissionsToRole"]}
{"id": "C113", "title": "Root: every request gets an answer", "statement": "Whatever calls a program made on a root manager and its objects, Authorize, GetImplicitTenants and TenantChildren return, without panic, and with the right answer.", "quantifier": "all lists of calls of the root API, all callers and option values, all map iteration orders", "why_tests_cant": "A call that never returns cannot be told from a slow one by a test; that there are no other causes than those named is a claim about all lists of calls.", "anchors": ["authorize.go:Authorize", "query.go:GetImplicitTenants", "role_manager.go:TenantChildren", "tenant.go:GetDescendants", "role.go:Has", "utils/str.go:MatchResource"]}
{"id": "C114", "title": "v1: a set-up call fails only on a tenant that is not registered yet", "statement": "Whatever calls a program made before, a further call of package v1 that sets something up, made on objects the constructors returned, returns, unless it makes an assignment in a tenant, or looks up the assignments of one, that AddTenant was not called with: AddScopesToNamespace once a scope of the tenant is reached for a namespace of the tenant, AddPrincipal with a role of the tenant, AddPrincipalInNamespace in a namespace of the tenant with no role or a role of the tenant, AssignScopesToPrincipal always, AssignScopesWithRole with any scope. In that case it panics, and it never hangs.", "quantifier": "all lists of calls of the v1 API, all set-up calls and arguments, all map iteration orders", "why_tests_cant": "Whether a tenant has a manager, and which roles, scopes and namespaces it has, depends on the whole list of calls before; the claim covers all lists and all calls.", "anchors": ["v1/tenant.go:AddScopesToNamespace", "v1/tenant.go:AddPrincipal", "v1/tenant.go:AddPrincipalInNamespace", "v1/tenant.go:AssignScopesToPrincipal", "v1/tenant.go:AssignScopesWithRole", "v1/role_manager.go:AddTenant"]}
{"id": "C115", "title": "v1: every request gets an answer", "statement": "Whatever calls a program made on a v1 manager and its objects (no underscores in ids), Authorize returns, without panic, and with the answer the calls made lead to.", "quantifier": "all lists of calls of the v1 API, all callers and option values, all map iteration orders", "why_tests_cant": "A call that never returns cannot be told from a slow one by a test; that there are no other causes than those named is a claim about all lists of calls.", "anchors": ["v1/role_manager.go:Authorize", "v1/role.go:Has", "v1/role.go:GetDescendantRoles"]}
{"id": "C116", "title": "v2: a call panics only after an assignment was taken back out of order", "statement": "Whatever calls a program made before, a further call of package v2 on objects the constructors returned returns (Authorize: does not panic), with one exception. If RemovePrincipalRole took back an assignment that was given before one that stayed, and not everything was taken back since, then RemovePrincipalRole with a criterion panics, and Authorize and Can panic on exactly the requests that name no tenant (and there is no default tenant) or name a registered one in which the namespace and scope asked for exist. Can never hangs.", "quantifier": "all lists of calls of the v2 API, all further calls and arguments, all map iteration orders", "why_tests_cant": "Whether a nil pointer is among the assignments depends on the whole list of calls before; the claim names all causes and covers all lists and all calls.", "anchors": ["v2/v2.go:RemovePrincipalRole", "v2/v2.go:Authorize", "v2/v2.go:Can", "v2/v2.go:AddPrincipalRole", "v2/role.go:AddChildRole"]}
{"id": "C117", "title": "v2: every request gets an answer", "statement": "Whatever calls a program made on a v2 authorizer and its objects (set-up first, then questions; tenants with ids of their own), Authorize returns, without panic, and with the answer the calls made lead to.", "quantifier": "all lists of calls of the v2 API, all requests, all instants, all map iteration orders", "why_tests_cant": "A call that never returns cannot be told from a slow one by a test; that there are no other causes than those named is a claim about all lists of calls.", "anchors": ["v2/v2.go:Authorize", "v2/v2.go:RemovePrincipalRole", "v2/v2.go:matchPermission", "utils/str.go:MatchResource"]}
{"id": "C118", "title": "Asking a role looks at each role below it once", "statement": "One call of Role.Has enters Has at most once for each role of the hierarchy below, so that a refusal takes a number of calls that grows with the number of roles and links.", "quantifier": "all role hierarchies reachable through the API, all groups, permissions and lists of allowed roles, all map iteration orders", "why_tests_cant": "How the number of calls grows with the depth of the hierarchy is a statement about hierarchies of every size; a test measures a few, and the slow ones do not end.", "anchors": ["role.go:Has", "role.go:GetDescendantRoles", "role.go:GetAllImplicitPermissions", "v1/role.go:Has"]}
{"id": "C119", "title": "v1: Authorize calls made at the same time do not mix their results", "statement": "While nobody changes the role manager, any number of goroutines may call v1 Authorize at the same time; each call answers as it would if it were the only one.", "quantifier": "all reachable managers, any number of calls with any principals and options, all interleavings of their steps, all choices of slices by the pool, all map iteration orders", "why_tests_cant": "The wrong answers need another goroutine to take a slice from the pool in the instants between GetAllowedRoles returning and its result being read; which interleavings do harm, and how much, is a claim about all schedules.", "anchors": ["v1/role_manager.go:GetAllowedRoles", "v1/role_manager.go:authorizeForActivity", "v1/role_manager.go:authorizeComplex", "v1/role_manager.go:getAllowedRoleIDs", "utils/pool.go:SlicePool", "v1/util.go"]}
{"id": "C120", "title": "What a manager prints can be read back", "statement": "AsString is valid JSON on one line from which exactly the stored rows can be read back, whatever the names; adding them to a new manager gives the same rows. String is a JSON object with the seven numbers of Summary. (As it stands names whose bytes are not UTF-8 are lost: two different managers print the same text.)", "quantifier": "all reachable managers, all names including quotes, control characters and any bytes, all orders in which maps are visited", "why_tests_cant": "A test prints a few names; the claim is about every byte sequence a caller may use as a name and every set of rows.", "anchors": ["role_manager.go:AsString", "role_manager.go:String", "v1/role_manager.go:String", "filters.go:Data", "trie/trie.go:Data", "utils/str.go:FromByte"]}
{"id": "C121", "title": "v1: assignments can be made while other goroutines ask or assign", "statement": "Roles and scopes may be assigned in a v1 manager while other goroutines call Authorize, list assignments or assign: the program goes on, every assignment that returned is kept, nothing else is added, and every question is answered as of some moment during the call. (As it stands the assignments are a plain map without a lock: Go's runtime ends the program, and answers are given that were right at no moment.)", "quantifier": "all managers, any number of goroutines with any calls that ask or assign, all interleavings of the look-ups, writes and steps of ranges over the map, all iteration orders", "why_tests_cant": "Whether the program survives depends on the schedule; exactly which pairs of calls can end it, and what can be relied on when it survives, are claims about all interleavings.", "anchors": ["v1/role_manager.go:AddPrincipalRole", "v1/role_manager.go:Authorize", "v1/role_manager.go:GetPrincipalRoles", "v1/role_manager.go:GetTenantsForPrincipal", "v1/role_manager.go:authorizeForActivity", "v1/tenant.go:AddPrincipal", "v1/tenant.go:AddPrincipalInNamespace", "v1/tenant.go:AssignScopesToPrincipal", "v1/tenant.go:AssignScopesWithRole"]}
{"id": "C122", "title": "v2: a Can during which time passes", "statement": "Can, while assignments of the principal run out during the call, answers as it would at some single instant between its start and its end; a role held until the end is found, and a role is found only if it was held at the start.", "quantifier": "all reachable authorizers with tenants told apart by id, all clocks that are not turned back, all requests and role lists, all iteration orders", "why_tests_cant": "A test cannot place an expiry between two readings of the clock inside one call; the claim is about every way the readings can fall.", "anchors": ["v2/v2.go:Can", "v2/v2.go:IsExpired", "v2/v2.go:resolvePrincipalRoles"]}
{"id": "C123", "title": "v2: an Authorize during which time passes", "statement": "Authorize, while assignments of the principal run out during the call, answers as it would at some single instant. (As it stands the clock is read anew for every assignment: a scoped request can be granted although no instant allows it, and denied although every instant allows it.)", "quantifier": "all reachable authorizers with tenants told apart by id, all clocks that are not turned back, all requests, all iteration orders", "why_tests_cant": "A test cannot place an expiry between two readings of the clock inside one call; what can be relied on nevertheless is a claim about every way the readings can fall.", "anchors": ["v2/v2.go:Authorize", "v2/v2.go:IsExpired", "v2/v2.go:resolvePrincipalPermissions"]}
{"id": "C124", "title": "Rows that were put in or read out do not change the manager later", "statement": "AddData takes a *Data and GetTenants, GetScopesByPrincipal, GetRolesByTenant and the other queries return []*Data. A caller can afterwards write to such a row, or use its variable for the next row, without changing what the manager answers: rows that were added stay found as they were, no assignment moves to somebody else and no decision changes.", "quantifier": "every history of making, adding and writing rows, every query, every iteration order; for decisions every manager and every request", "why_tests_cant": "what a write does depends on everything that was added before and after it, under which keys each row was filed then, and what it reads now", "anchors": ["role_manager.go: AddData, Source, Data", "query.go: search, GetTenants, GetScopesByPrincipal, GetRolesByTenant", "trie/trie.go: Insert, search", "filters.go: Data"]}
{"id": "C125", "title": "v2 decisions follow what the caller's objects say now", "statement": "AddTenant, AddRole and AddPrincipalRole keep the caller's pointers, and the fields of Tenant, Role and PrincipalRole are exported. A caller may write to these objects between calls; Authorize and Can then decide as if the objects had been handed over with their present contents: an assignment turned over to another principal, tenant or role counts for that one only, a new default namespace, namespace map or set of permissions takes effect at once, and nobody is let into a tenant without an assignment there.", "quantifier": "every history of calls mixed with writes, every request, every iteration order", "why_tests_cant": "registry, role graph and index were filed under what the objects said when handed over; whether they still fit depends on all writes and calls since", "anchors": ["v2/v2.go: AddTenant, AddRole, AddPrincipalRole, Authorize, Can", "v2/entities.go: Tenant, Role", "v2/role.go: ResolvePermissions, ResolveChildRoles"]}
{"id": "C126", "title": "v1: the documented set-up grants what it announces", "statement": "After the set-up of TestAuthorize and README.md (permissions to roles, roles above other roles, tenant, namespace and scopes registered and linked, a principal given a role, a namespace and scopes), in whatever order and among whatever other calls, Authorize grants the principal the activities of the role and of the roles below it, and entry to the namespace and the scopes given.", "quantifier": "all programs containing these calls, all names without underscores (C44 tells about those), all requests", "why_tests_cant": "the test makes one request after one program and only prints the answer; the claim is about every program containing the calls and every request", "anchors": ["v1/permission_test.go: TestAuthorize", "README.md", "v1/tenant.go: AddPrincipal, AddPrincipalInNamespace, AssignScopesToPrincipal, AddScopesToNamespace", "v1/role_manager.go: Authorize, AddPermissionsToRole", "v1/role.go: Has, AddDescendent"]}
{"id": "C127", "title": "v2: additions never take access away", "statement": "A request that Authorize (or Can) grants is still granted after more roles, permissions, child roles, tenants, namespaces, scopes, child tenants and assignments have been added, with questions in between.", "quantifier": "all reachable states with distinct tenant ids, all sequences of additions and questions of the same kind, all requests, iteration orders and instants", "why_tests_cant": "a test adds one thing after one set-up; whether an addition can shadow, replace or disambiguate something elsewhere depends on everything set up before", "anchors": ["v2/v2.go: Authorize, Can, AddPrincipalRole, resolvePrincipalPermissions, resolvePrincipalRoles, findTargetTenants", "v2/role.go: AddRole, AddChildRole, AddPermission, AddNamespace, AddScopeToNamespace, AddChildTenant", "v2/init.go: AddRole, AddRoles, AddTenant"]}
{"id": "C128", "title": "v2: permissions that differ do not interfere", "statement": "Giving a role one permission, or taking one from it, leaves the role's other permissions (those with another category, resource or action) as they were, and leaves the answers to requests the permission is not about as they were.", "quantifier": "all states, all roles, all lists of permissions; for decisions all reachable states with distinct tenant ids, all requests, iteration orders and instants", "why_tests_cant": "which permissions fall together depends on the bytes of resource and action; tests pick a few well-behaved strings", "anchors": ["v2/entities.go: Permission, NewPermission", "v2/role.go: Permission.String, AddPermission, RemovePermission", "v2/v2.go: Authorize, matchPermission, resolvePrincipalPermissions"]}
{"id": "C129", "title": "v2: taking things back never gives access", "statement": "A request that Authorize (or Can) denies is still denied after permissions have been removed from roles, assignments removed, expiries brought forward, tenants made inactive and time has passed, with questions in between.", "quantifier": "all reachable states with distinct tenant ids, all sequences of removals and questions of the same kind, all requests, iteration orders and later instants", "why_tests_cant": "whether something taken away was hiding something else depends on everything set up before; a test removes one thing from one set-up", "anchors": ["v2/v2.go: RemovePrincipalRole, SetExpiry, IsExpired, Authorize, Can, resolvePrincipalPermissions, resolvePrincipalRoles", "v2/role.go: RemovePermission", "v2/entities.go: TenantStatus"]}
{"id": "C130", "title": "v2: what a request leaves out is filled in from the default tenant, the active tenants and the default namespace", "statement": "A request without a tenant is answered like the request naming the default tenant; if there is none it is allowed exactly if the same request is allowed in one of the tenants. A request without a namespace is answered like the request naming the tenant's default or only namespace, and denied if there is neither. A request allowed without a scope is allowed in every scope of the namespace. The same holds for Can.", "quantifier": "all reachable states with distinct tenant ids, all requests, iteration orders and instants", "why_tests_cant": "relates the answers to two requests on the same state, for every state and every iteration order over the principal's tenants", "anchors": ["v2/v2.go: findTargetTenants, findPrincipalTenants, Authorize, Can, isScopeValidForNamespace"]}
{"id": "C131", "title": "Root: naming more in a request never allows more", "statement": "A request that Authorize allows with tenant, namespace and scope is allowed as well, asked right afterwards, with the scope, the namespace or both left out; leaving the tenant out makes it a request about all tenants of the principal.", "quantifier": "all reachable states, principals, requests, iteration orders and intermediate queries", "why_tests_cant": "relates the answers to two requests for every set of stored rows, every role graph and every iteration order", "anchors": ["authorize.go: Authorize, authorize, checkNoActivity, checkActivity", "query.go: GetImplicitTenants"]}
{"id": "C132", "title": "v1: naming more in a request never allows more", "statement": "A request that Authorize allows with a tenant, namespace and scope named is allowed as well with the namespace, the scope or both left out; a namespace and scope allowed without a tenant are allowed in some tenant.", "quantifier": "all reachable states, registered principals, requests and iteration orders", "why_tests_cant": "relates the answers to two requests for every set of stored rows, every role graph and every iteration order", "anchors": ["v1/role_manager.go:519-735 Authorize, authorizeForTenantAndNamespace, authorizeForTenantAndScope, authorizeForNamespaceAndScope, authorizeForTenantNamespaceAndScope, authorizeComplex", "v1/role_manager.go:442 GetAllowedRoles"]}
