# Formal model of oarkflow/permission in Rocq (Coq 8.16.1)

What is modelled, what is trusted, and how each property is settled. Theorem names are in MANIFEST.json, the
properties themselves in properties.jsonl, the wrong programs the theorems were tried against in seeded/LOG.jsonl.

## Modelling conventions

* **Values.** Go strings are byte strings (`string` = list of 8-bit `ascii`). `any` is the inductive `any`
  (`ANil | AStr | ABool | AInt`): nil, the two dynamic types the library itself stores, and one representative
  "other comparable" type so that failed type assertions can happen. Uncomparable dynamic types (slices, maps), for
  which Go's `==` and map access panic, are not modelled.
* **Outcomes.** A call yields `Ok x`, `Panic` (nil dereference, failed type assertion, index out of range) or `Hang`
  (the loop or recursion never finishes; unbounded recursion in Go ends in a fatal stack overflow). After a panic
  nothing more is said: a history ends there.
* **Maps.** Go maps and xsync maps are finite maps (`gmap`; association lists inside the tries). Every `range`,
  `ForEach`, `Values` visits the entries in an order chosen by an explicit `oracle` argument. Theorems quantify over
  all oracles, so they hold for every iteration order, and order dependence can be exhibited. Every iteration site of
  a run has its own address in the oracle, hence an independent order.
* **Pointers.** Objects that the API changes through pointers (roles, attribute groups, tenants, v1 namespaces, v2
  assignments, trie nodes in the concurrent model) live in heaps (lists indexed by location), so aliasing is modelled.
  Objects that never change after construction (attributes, scopes, principals, root namespaces) are values.
* **Time.** `time.Now()` is a parameter (`Z`), one reading per API call.  TickModel has the v2 decisions with a reading per assignment that has an expiry, as in the code (C122, C123); if time stands still it is the same model (C122_still, C123_still).
* **Loops and recursion** use fuel only where Go's own termination is in question; the fuel is proved adequate, so
  running out means that the Go code does not terminate.
* **Histories.** Properties about "every state" quantify over the states reached by any sequence of API calls from a
  new manager: `reachable` (root), `vreachable` (v2), `ureachable` (v1). Concurrent models are step machines with an
  arbitrary schedule.

## Files

For each area X: `XModel.v` holds the definitions with file and line citations, `XSpec.v` the independent
specification, `XProofs.v` and its companions the lemmas, `XEx.v` the concrete histories, and `Props*.v` the property
theorems, each closed by a lemma and followed by `Print Assumptions`.

| code | model |
|------|-------|
| utils/str.go MatchResource | MatchModel |
| utils/str.go Compact, Contains; utils/filters.go; ds/ds.go | UtilsModel |
| trie/trie.go, one goroutine | TrieModel |
| trie/trie.go Insert, several goroutines | CTrieModel |
| filters.go | DataModel |
| role.go, v1/role.go | RoleModel |
| role_manager.go, tenant.go, permission.go, principal.go, namespace.go, scope.go, activity*.go | RootModel, RegModel |
| authorize.go | AuthModel |
| query.go, activity_group.go:38-86, permission.go:88-115 | QueryModel |
| v2/role.go RoleDAG | DagModel |
| v2/v2.go, v2/init.go, v2/entities.go, v2/role.go | V2Model, V2RegModel |
| v2/v2.go decisions by several goroutines, utils/pool.go | PoolModel |
| v1/role_manager.go, v1/tenant.go, v1/permission.go, v1/options.go | V1Model, V1RegModel |
| v1 GetAllowedRoles and its slice pool | V1Slice |
| AddX of the managers, several goroutines | CRegModel |
| v2 AddPrincipalRole and RemovePrincipalRole, several goroutines (without the index) | CAssignModel |
| v2 RoleDAG methods, AddPermission, RemovePermission, GetRole, several goroutines (waiting writers do not keep readers out; map accesses atomic) | CDagModel |
| Role.AddPermission, AddPermissionResourceGroup, Lock, Unlock of root and v1, several goroutines (Get-and-Set of one permission in a group is one step; accesses to the flag atomic) | CRoleModel |
| v2 Authorize and Can while the list of assignments changes (each loop meets one list; roles, tenants and expiries stay as they are; no torn reads of the slice header) | CDecModel |
| role_manager.go AddData and the listings with rows as pointers | RowModel |
| query.go GetImplicitTenants, role_manager.go TenantChildren: callers that change the answer | HeldModel |
| v2 Log and the calls of it in Authorize and Can (attributes and messages; not the level, the time, the format or failures of the handler) | LogModel |
| utils/str.go Serialize, Intersection, Union (structs, maps with string or int keys; of a value only the text fmt prints for it; named string types with a String method left out), ToInt64 | StrModel |
| v2/role.go ResolvePermissions, ResolveChildRoles: callers that change the answer | DagHeldModel |
| Root Authorize while rows are added (each search meets what is there when it begins and any part of what is added meanwhile; an insertion is one step; registries, roles and tenants stay as they are) | RDecModel |
| Several goroutines in root Authorize at once, on a manager nobody changes (every access to principalCache and hierarchy is one step; what lies between two of them only reads) | RConcModel |
| Several goroutines on one v2 authorizer: Authorize, Can, GetTenant, GetDefaultTenant, SetDefaultTenant, AddTenant, AddPrincipalRole, RemovePrincipalRole, AddNamespace, AddScopeToNamespace, AddChildTenant, a status, the expiry methods (every read and write of a field, map or slice header is one step, so are Lock and Unlock; resolving a role is one step; a `range` reads the slice header or the map at its start; writes into the shared backing array by RemovePrincipalRole are in CAssignModel) | VConcModel |
| v1 decisions told from the list of calls made | V1CallsSpec (specification only; the model is V1Model) |
| Root decisions told from the list of calls made | RootCallsSpec, CallsSpec (specification only; the model is AuthModel and what it uses) |
| Which root calls return, told from the list of calls made | RootRetSpec (specification only; the model is AuthModel and what it uses) |
| Which v1 calls return, told from the list of calls made | V1RetSpec (specification only; the model is V1Model) |
| Which v2 calls return, told from the list of calls made | V2RetSpec (specification only; the model is V2Model) |
| Calls made by one call of Has | CostModel (role.go:57-92 again, with a count of the calls; C118_same_answer ties it to RoleModel) |
| Several v1 Authorize calls at the same time | V1PoolModel (GetAllowedRoles and its callers again, step by step: every Get, Put, write and read of the pooled string slices; the rest of a call is as in V1Model. Nobody changes the manager meanwhile; a string is read as a whole) |
| What AsString and String print | JsonModel (encoding/json of Go 1.22 as far as these calls use it: rows of strings, booleans, null and integers; JsonSpec reads such text back by RFC 8259 and RFC 3629. Values of other types in a row are not modelled; a reader that turns numbers into float64, as encoding/json does for a field of type any, is not modelled) |
| v1 calls that ask and assign at the same time | V1RowsModel (v1/role_manager.go:290-371, 408-440, 519-730 and v1/tenant.go:107-183 again, step by step: every range over u.tenantPrincipals, every look-up and write, and the flag by which Go's runtime detects a write. Other maps do not change meanwhile; pooled slices are private here, V1PoolModel has them) |
| v2 decisions during which time passes | TickModel (v2/v2.go:184-300, 355-439 again, with a reading of the clock in every IsExpired; the authorizer does not change meanwhile) |
| Rows the caller keeps pointers to | HandModel (trie/trie.go:60-133, role_manager.go:108-110, query.go:18-20 with rows as locations that the caller may write to between calls; writes at the same time as a search are not modelled) |
| v2 objects the caller writes to | EditModel (the exported fields of PrincipalRole, Tenant and Role, v2/v2.go:14-22 and v2/entities.go:17-20, 66-72, written between calls; maps shared between two tenants and writes during a call are not modelled) |
| v2 permissions with their category | PermModel (v2/entities.go:7-15, v2/role.go:8-26; C128_add_is_call and C128_remove_is_call tie it to V2Model) |

## Trusted base

* Coq's kernel, version 8.16.1.
* Axioms: none are added. `Print Assumptions` says "Closed under the global context" under every property theorem.
  The files import std++, which loads Coq's `ssreflect`; its seven `Coq.ssr.ssrunder` module-type parameters are
  present in the environment (`coqchk` lists them), but no theorem depends on them.
* The reading of the Go source. Each definition cites the lines it stands for.
* The simplifications listed next.

## Not modelled, or simplified

General
* The internals of `oarkflow/xsync` and `oarkflow/maps`: assumed to be finite maps with atomic operations.
* Memory exhaustion, integer overflow of lengths, log output other than v2's Log, `SummaryMap`.
* Functional options and constructors that only set fields are folded into the records they build.
* Weak memory: concurrent models interleave atomic steps; reorderings beyond that are left out. Go's crash on
  concurrent map access is modelled for v1's assignments (V1RowsModel) and left out elsewhere (C82 says where such races
  arise on the v2 role graph).

Root package
* RootModel takes rows given to AddData as values. In Go the caller's pointer is stored and Search returns it; RowModel has the pointers, and C89_values proves that values are right as long as added structs are left alone.
* `slices.Compact(allowedRoles)` at authorize.go:123 works in place and is called again for every role; the model compacts
  once. `allowedRoles` is always empty, since GetRolesByTenant finds nothing (C67_roles_by_tenant_empty).
* GetImplicitTenants and TenantChildren return their caches; in RootModel callers leave them alone, HeldModel adds callers that do not (C90).
* Queries that fill the tenant cache are functions of the state, not operations of a history, except Authorize.
* Nil pointers as arguments are modelled only where a definition says so.

Package v2
* Expiry instants are values; `now + d` does not wrap. `time.ParseDuration` is abstracted into its result.
* In V2Model, exported fields changed from outside other than Tenant.Status (EditModel has them); struct literals with nil maps.
* The audit log beyond attributes and messages (level, time, format, the handler).
* In the pool model the authorizer and its role cache do not change while decisions run, and `checkedTenantsPool` is
  left out.

Package v1
* Role and scope pointers inside tenant and namespace maps are kept as id sets. One manager per history.
* Nil scope, principal and option arguments.
* In the slice machine one call is atomic, growth of capacity is simplified, and `slices.Compact` clears the tail as
  in Go 1.22.

## Properties and outcome

"refuted" means that the code violates the property: a `_refuted` theorem gives the witness, and the other theorems
say what does hold, where possible as an exact characterisation. `_partial` theorems hold under the hypothesis they
show.

| id | property | status | outcome |
|----|----------|--------|---------|
| C01 | Pattern language of MatchResource | proved | exact characterisation of the pattern language |
| C02 | MatchResource always returns | refuted in part | REFUTED as stated: exact set of hanging inputs proved; terminates when stars are only trailing |
| C03 | A permission only grants its own action | refuted in part | REFUTED as stated: a parameter in the last segment swallows the action |
| C04 | A path parameter stands for one path segment | refuted in part | REFUTED as stated: ':' consumes one arbitrary byte, even '/' |
| C05 | Literal permissions are exact | proved |  |
| C06 | Slice helpers preserve content and order | proved |  |
| C07 | Trie search is exact | proved |  |
| C08 | Inserting a row never loses another row | refuted in part | REFUTED as stated: nil keys are skipped, so rows of different shape share a path; exact loss condition proved; holds when ids of different kinds never coincide |
| C09 | First agrees with Search | proved |  |
| C10 | Persistent link sequences behave like slices | proved | links are immutable values in the model (no exported mutator exists) |
| C11 | Authorize denies unknown parties | proved |  |
| C12 | Authorize without activity: exact decision | proved | the implicit tenant set is the one GetImplicitTenants reports; C12_fresh eliminates it when no cache is stale |
| C13 | Authorize with activity: exact decision | proved |  |
| C14 | Tenant isolation (root package) | refuted in part | REFUTED as stated: a row in any tenant opens every registered tenant (C14_any_tenant); holds when the principal has no other implicit tenant |
| C15 | Principal isolation (root package) | refuted in part | REFUTED as stated: rows of other principals with the requested namespace or scope lend their role; holds for requests naming both |
| C16 | Tenant-level activity grants work | refuted in part | REFUTED: tenant-level activity requests are always denied |
| C17 | Grants take effect for later calls | refuted in part | REFUTED as stated: the per-principal cache is never invalidated (C17_lockout); holds for principals not asked about before |
| C18 | Queries are read-only and repeatable | refuted in part | read-only and equal verdicts proved for all calls that return; REFUTED only in that a repetition may not return (looping pattern met in one iteration order) |
| C19 | Implicit tenants are exactly own tenants plus managed descendants | refuted in part | REFUTED as stated: order dependent; bounds hold always, exact when rows agree and no cache is stale |
| C20 | Role.Has is exact over the descendant graph | proved |  |
| C21 | A role inherits its descendants' permissions | refuted in part | REFUTED as stated: a role that does not itself own the group inherits nothing; holds when it owns the group |
| C22 | Role queries terminate | refuted in part | REFUTED as stated: AddDescendant accepts cycles; exact termination condition proved; holds for programs that close no cycle |
| C23 | A locked role cannot change | refuted in part | REFUTED as stated: group objects shared through AddPermissionResourceGroup can still be extended; the role object itself is frozen; permissions are frozen when groups are not shared |
| C24 | AddPermissionsToRole is validated and atomic | refuted in part | success condition, atomicity and effect exact; 'nothing else changes' REFUTED for roles sharing the group object, true otherwise |
| C25 | Registries keep the first object per id | refuted in part | proved for every registry of the root package, except that AddTenant gives the manager to the rejected object (REFUTED 'changes nothing') |
| C26 | Distinct attributes stay distinct | refuted in part | REFUTED as stated; exact collision condition; holds when resources (or actions) contain no space |
| C27 | The v2 role graph stays acyclic | proved | Every reachable role graph is acyclic (induction over histories); a rejected call changes nothing, an accepted one adds exactly the children given, a call that would close a cycle is rejected. |
| C28 | AddChildRole rejects only cycles | refuted in part | REFUTED: AddChildRole("a",["b","c"]) is rejected when b and c share a child, and so is ["b","b"], though no cycle arises. C28_exact says exactly which calls are accepted and rejected in every reachable state. |
| C29 | ResolvePermissions is the union over reachable roles | proved | First resolution = union over registered roles reachable through registered roles, for every graph (cyclic, dangling); always terminates; later resolutions return the same. |
| C30 | Role changes reach later decisions | refuted in part | REFUTED: after the first decision RemovePermission and AddPermission have no effect. C30_frozen: once resolved, a role stands for the same set in every later state. Proved: decisions reflect current roles whenever what is remembered is up to date, in particular when set-up precedes the first decision and only one kind of query is made. |
| C31 | v2 Authorize: exact decision | proved | Exact decision for every reachable state with distinct tenant ids, every request, instant and iteration order; C31_returns: it returns whenever the list has no nil and no stored pattern loops; C31_effect: a query changes nothing but fills in the memory of resolved roles. |
| C32 | v2 Can: exact decision | proved | Exact decision under distinct tenant ids; soundness without; always returns when the list has no nil. |
| C33 | Can and Authorize do not influence each other | refuted in part | REFUTED both ways (the resolved cache is shared by permissions and role names); a role called "*" lets Can escalate Authorize. Proved: independent once the roles of the principal have been resolved; queries of the same kind never influence each other. |
| C34 | Scope isolation of Can | refuted in part | REFUTED: Can ignores the scopes of assignments entirely (C34_scopes_ignored). |
| C35 | Expired assignments grant nothing | refuted in part | REFUTED: an expired managing assignment still opens child tenants. Proved: expired assignments that do not manage child tenants have no influence on Authorize or Can. |
| C36 | RemovePrincipalRole removes exactly the matching assignments | refuted in part | REFUTED: removing an assignment that is not at the end loses others and leaves nil pointers. Exact: returns, error iff nothing matches and then nothing changes; right length; right content iff what goes was at the end. |
| C37 | Inactive tenants deny access | refuted in part | REFUTED: statuses make no difference to requests directed at a tenant (C37_named_ignored). Proved for requests directed at no tenant. |
| C38 | ManageChildTenant extends a role to child tenants | refuted in part | REFUTED both ways: nothing is granted downwards (C38_not_downward), roles of the child are granted in the parent (C38_upward). Proved: without a managing assignment in the tenant only assignments in the tenant itself grant. |
| C39 | Tenant isolation (v2) | proved | Under distinct tenant ids: two set-ups that differ only in assignments of other principals, or of this principal outside the tenant named and the tenants below it, give the same answers. |
| C40 | v2 Authorize never crashes | refuted in part | REFUTED: after RemovePrincipalRole a decision can panic. Proved: no panic without a nil in the list, no nil without a removal; C40_panics_exactly says which requests panic. |
| C41 | Concurrent Authorize calls do not mix results | refuted in part | REFUTED: the map read after Put can be refilled by another call (wrong grant and wrong denial exhibited). Proved for every schedule and number of goroutines: maps between Get and Put are exclusive; a call whose map nobody takes while it reads answers rightly; a wrong grant always rests on something held by the principal of a call under way. Assumes the authorizer and its role cache do not change meanwhile. |
| C42 | Expiry setters report invalid input | refuted in part | REFUTED: unparsable durations are ignored without an error, other types expire at once. SetExpiry, ClearExpiry and valid durations proved. |
| C43 | Assignment index agrees with assignment list | refuted in part | REFUTED after a removal that leaves nil pointers. Proved: index and list agree in every reachable state whose list has no nil; and no call reads the index, so that two authorizers that differ only in it answer every later history alike. |
| C44 | v1 assignment encoding round-trips | refuted in part | REFUTED: identifiers containing '_' are read back as other assignments (C44_roundtrip_refuted, C44_injective_refuted). C44_roundtrip_exact: an assignment is returned iff no identifier contains '_'. C44_hole: every assignment to a principal 'q_...' becomes one of q. |
| C45 | v1 readers never crash on stored assignments | proved | all readers return on every reachable state; every stored string can be parsed |
| C46 | v1 Authorize: exact decision by option combination | proved | seven iff theorems, one per combination, plus unknown principals. The stated shapes are the code's; C47 and C49 discuss those that a user would not expect. |
| C47 | v1 tenant membership | refuted in part | REFUTED: any known principal passes for any registered tenant (C47_hole). _partial: membership is required for the other combinations except tenant+namespace+scope (C49). |
| C48 | v1 namespace and scope restrictions are enforced with activities | refuted in part | REFUTED (both ways); C48_exact is the exact decision; C48_hole the universal hole. |
| C49 | v1 principal isolation for namespace and scope | refuted in part | REFUTED; exact decision in C46_tenant_namespace_scope; _partial under absence of other principals' assignments. |
| C50 | v1 GetAllowedRoles results stay valid | refuted in part | REFUTED on the slice-pool machine, which does the work of GetAllowedRoles (C50_same_work); fresh results are right, and stay right while no later call takes the array; C50_hole: the next call can take it. |
| C51 | Trie Search is query by example | proved |  |
| C52 | Permission listings are complete and without repetition | refuted in part | content exact as a set; 'each once' REFUTED: permissions of deeper descendants are repeated; exactly how often: 2^(k-1) times for each way of k >= 1 steps (C52_times), so 2^n times in a line of n + 1 roles (C52_grows_refuted) |
| C53 | Authorize never panics | refuted in part | REFUTED as stated; holds when tenants and roles given to AddData and the options are strings or nil |
| C54 | Granting several roles or scopes is exact and all-or-nothing | refuted in part | exact effect proved; all-or-nothing REFUTED: the rows before the first error stay |
| C55 | v2 decisions do not depend on map iteration order | refuted in part | REFUTED when two tenant objects share an id. Proved with distinct ids: the answer does not depend on the iteration order. |
| C56 | v1 tenant methods write exactly the documented assignments | proved | exact effect of each method, 'adds' says nothing else changes |
| C57 | v1 Authorize with only an activity considers every resource group | refuted in part | REFUTED: only the group "" is looked at; C57_exact |
| C58 | v1 Authorize never panics | refuted in part | REFUTED for activity-only requests; C58_exact says when; C58_others: all other requests never panic |
| C59 | v1 additions never take access away | refuted in part | REFUTED for grants through descendant roles; proved for requests without group and activity, and for what the assigned role itself offers |
| C60 | v1 GetImplicitPrincipalRoles returns only assignments of the principal | refuted in part | REFUTED; C60_exact |
| C61 | v1 GetTenantsForPrincipal lists every tenant once | refuted in part | REFUTED (only adjacent duplicates are removed); as a set the result is exact |
| C62 | v1 tenants are isolated from each other | refuted in part | REFUTED by shared namespace objects and by underscores; proved otherwise |
| C63 | v1 scope listings are exact | proved | exact |
| C64 | Role changes have exactly the stated effect | proved | exact effect and frame; locked roles: C23 |
| C65 | Additions never take access away | refuted in part | REFUTED for Authorize through destroyed rows (C08); proved as long as no stored row is lost; proved in full for Role.Has |
| C66 | Listing queries return exactly the matching rows | proved | exact, with multiplicity |
| C67 | Listings for a principal stay with the principal, tenant and namespace asked about | refuted in part | REFUTED (rows of other principals and tenants are listed); exact characterisation of every listing, and the property when the rows naming the namespace or scope are the principal's own |
| C68 | GetScopesWithRolesForPrincipal lists the principal's scopes in that tenant with its roles | refuted in part | REFUTED (other principals' scopes, nil roles, other tenants, order dependence); exact characterisation of the answer |
| C69 | GetRolesForAvailablePermissions lists each permission with exactly the roles that have it | refuted in part | exact as a set and for termination; 'once' is REFUTED |
| C70 | utils.Intersection and Union are the set operations | refuted in part | REFUTED: elements are compared by a text that is not injective (a bar in a value), a map with int keys is written in iteration order, and Union keeps repetitions. Proved: exact set operations, in order, if no value prints a bar and no string key a colon; panics exactly on elements that are not maps or structs with exported fields. |
| C71 | utils.ToInt64 tells strings apart | refuted in part | REFUTED by two strings with number 0. Proved: strings that differ in one byte have different numbers; a common ending never makes or removes a collision. |
| C72 | v1: registries hold the first object offered under an id, and a refused object stays outside | refuted in part | REFUTED for AddTenant (C72_rejected_tenant_refuted): a refused tenant object is connected to the manager all the same. Everything else is proved for all histories; C72_add_tenant gives AddTenant's exact effect. |
| C73 | v1: AddPermissionsToRole is validated and all-or-nothing | proved | exact success condition, exact effect, errors in order, always returns |
| C74 | v1: GetPermissionsForPrincipal agrees with Authorize | refuted in part | REFUTED in both directions (C74_agrees_refuted); C74_exact says what is listed, C74_listed_granted_partial that it is granted for registered principals and tenants |
| C75 | v2: lookups return what was registered last, set-up methods have exactly the stated effect | proved | histories for the lookups, exact effects for the set-up methods |
| C76 | v2: concurrent calls on a role graph act as if made one after the other | refuted in part | REFUTED for arbitrary mixtures. Holds (with the order respecting real time) for calls that do not get in each other's way; every graph on which an edge matters has the two-answers outcome, and any part of a grant can be seen. |
| C77 | Rows added concurrently are all found afterwards | refuted in part | REFUTED (C77_all_found_refuted): a row sharing new keys with a concurrently added one can be lost. C77_exact: nothing is lost iff the rows part ways in the old trie. C77_only_added and C77_old_stay hold in every interleaving |
| C78 | v1: tenant and namespace set-up has exactly the stated effect | proved | exact effects; descendant walk returns exactly the reachable tenants or does not return on a cycle |
| C79 | Concurrent registration agrees on one object per id | refuted in part | REFUTED (C79_agreed_refuted, C79_hole); C79_exact: agreement in every interleaving iff nobody offers a second object under a new id; the other theorems hold in every interleaving |
| C80 | Insertions never block each other, and searches never meet half-written rows | refuted in part | progress proved; REFUTED for searches running at the same time (C80_never_half_refuted), with the exact place in C80_half_running |
| C81 | v2: concurrent assignments and removals act as if made one after the other | refuted in part | REFUTED for mixtures of additions and removals; proved for additions only; every removal that matches can go wrong with every simultaneous addition |
| C82 | v2: calls on a role graph are free of data races | refuted in part | REFUTED; the two kinds of races always occur and there are no others. |
| C83 | v2: concurrent calls never close a cycle and never block each other for good | proved | Pointers given are not nil. The preference of writers waiting for the lock is left out of the model. |
| C84 | v2: while a graph only grows, answers lie between before and after | proved | All resolutions of one kind (both kinds share one cache, see C33). Map accesses are taken as atomic; with AddPermission beside ResolvePermissions the Go runtime may abort instead (C82). |
| C85 | Permissions added to a role at the same time are all there afterwards | refuted in part | REFUTED: calls that create the same group overwrite each other. Exact condition in C85_kept_exact; C85_last_wins shows that the loss is possible for every such set of calls; groups that existed lose nothing. |
| C86 | Once Lock has returned, a role does not change | refuted in part | REFUTED for calls under way when Lock returns (any permission can still appear); proved when none is. |
| C87 | A v2 Can beside changes of the assignments | proved | Roles, tenants and expiries stay fixed during the call; each range takes a whole slice header. |
| C88 | A v2 Authorize beside changes of the assignments | refuted in part | REFUTED in both directions for scoped requests: granted although denied at every moment, denied although allowed at every moment. Proved without a scope and for named tenants without children; C88_bounds says that hiding by scoped permissions is all that can go wrong. |
| C89 | AddData takes the row as it is | refuted in part | REFUTED: the trie keeps the pointer. C89_listing_exact says exactly what is listed, C89_left_alone_partial and C89_values prove the property (and the value rows of RootModel) for programs that leave added structs alone. |
| C90 | Answers of GetImplicitTenants and TenantChildren belong to the caller | refuted in part | REFUTED for the principal whose map is changed, and for managers of a tenant whose list is changed. Exact verdicts after a change; proved for all other principals. C90_children_edited is for principals with rows in that tenant only. |
| C91 | The audit log tells the verdict | proved | The nothing_held theorems need distinct tenant ids in the hierarchy (distinct_ids). |
| C92 | A logged grant says what was allowed | refuted in part | REFUTED: entries of Can look like entries of Authorize. C92_authorize_partial proves it for entries of Authorize, C92_can says what an entry of Can means, C92_request that the attributes determine the request, C92_default_unnamed that the default tenant is never named. |
| C93 | Answers of a v2 role graph belong to the caller | refuted in part | REFUTED: the map returned is the cache. Proved exactly: what a caller made of an answer is returned by all later resolutions of that role, of both kinds; nothing else changes. |
| C94 | A root decision made while rows are added | refuted in part | REFUTED in general: if a principal's rows in one tenant disagree on ManageDescendants, the call can give an answer that no moment of it could have given. Proved if the principal's tenants are remembered or do not depend on the order of the rows: the answer lies between before and after. Without that condition: no made-up grant, own tenants always count. What the first call misses can be missed for good. Only rows change beside the call; an insertion is one step. |
| C95 | Several goroutines asking the root manager at once | proved | Each call does what it could have done alone, only the caches change, no call waits and the number of its steps is bounded. Nothing but the caches changes beside the calls. |
| C96 | Answers given at the same time fit some order and are repeated | refuted in part | REFUTED in general: two calls with one request may give different answers and the answer given may change afterwards, if a principal's rows in one tenant disagree on ManageDescendants. Proved if the principals' tenants are remembered or do not depend on the order of the rows: the answers fit every order, and are repeated. Nothing but the caches changes beside the calls. |
| C97 | Setting a root tenant up has exactly the stated effect | proved | Exact effect of every set-up method on rows, tenant objects and everything else, and when it panics. What a panicking call has done before is not described. |
| C98 | The default namespace of a tenant is that of its descendants | refuted in part | REFUTED: a default set after AddDescendant reaches no descendant, one set before does not reach the descendants' descendants. Proved: SetDefaultNamespace never reaches another tenant; the default at the time of AddDescendant becomes the default of the tenants given, whatever theirs was. |
| C99 | Stored rows name registered things | refuted in part | REFUTED: AddNamespaces, AddScopesToNamespace, AddPrincipalInNamespace, AddRoles, AddScopes and AddData check nothing, and rows about an unregistered principal count once the principal is registered. Proved for histories of the other calls, and for rows with a ManageDescendants flag if AddData is not called. |
| C100 | The order of grants does not matter | refuted in part | REFUTED: rows of different kinds may share a place in the trie (C08), the last call wins. Proved: the calls return the same in any order; they leave the same rows, and the same decisions for principals whose tenants do not depend on the order of their rows, if the rows do not share places. |
| C101 | The order of v2 set-up calls does not matter | refuted in part | REFUTED: AddChildRole refuses a child whose descendants it has already listed, so a diamond is accepted from the top down and refused from the bottom up, and the refused call costs the principal their rights. True part: calls that do not contradict each other set up the same thing, and Authorize/Can decide the same, in any two orders in which no call is refused; every order returns if one does. C101_roles_exact: every order of some AddChildRole calls is accepted exactly when each would be accepted last. |
| C102 | v1: the order of grants does not matter | refuted in part | REFUTED twice: scopes given before the role are lost without an error (C102_too_early: always so), and even the order of two AssignScopesToPrincipal calls for a member changes a decision, because the second reads the rows with an empty role that the first wrote. True part: calls that name their roles lead to exactly the same manager in every order, and calls about different people or tenants may be interleaved in any way (names without underscores). |
| C103 | Keeping names of different kinds apart keeps grants | proved | Names are kept apart if some assignment of a kind to every name agrees with all calls. The answers after permuted grants are equal for principals whose tenants do not depend on the order of their rows (settled, as in C100). |
| C104 | The documented set-up grants what it announces | refuted in part | REFUTED without a naming convention: a principal named like the role who is given a scope named like the first principal overwrites the row of the role (the columns have no order in the trie). With names kept apart both parts are proved for all programs and requests; C104_ex is the program of examples/main.go with its six questions, all answered as announced there. |
| C105 | v2: decisions follow from the calls made | proved | The specification (V2CallsSpec) speaks of the list of calls and their results only; RemovePrincipalRole included (if it leaves a nil behind, the calls that still return are refused, as they should be, see C116). C105_ex: the program of examples/v2.go with its five requests, then a person whose assignment expires and one whose assignment is taken back. |
| C106 | v2: set-up and decisions from several goroutines do not race | refuted in part | REFUTED: Authorize, Can, RemovePrincipalRole and SetDefaultTenant take no lock. C106_collide_partial: every race has a party that goes without the lock; questions alone, and the locking set-up calls alone (but a tenant registered while it is given children), do not race. The C106_*_refuted of the second group hold for every state. C106_no_deadlock and C106_ends are the waiting part in full. Resolving a role is one step here; its own accesses are C76 and C82 to C84. |
| C107 | v2: asking at once is asking one after the other | refuted in part | REFUTED when Authorize and Can are mixed: they share what the role graph remembers. Holds when no role not yet remembered is needed by both kinds; then every answer is the one given alone. C107_sequential ties the step-by-step programs to the sequential model. |
| C108 | v2: no call crashes because others are running | refuted in part | REFUTED: IsExpired reads the pointer twice, ClearExpiry in between makes it nil; C108_cleared_refuted for every state. Without ClearExpiry and RemovePrincipalRole among the calls none panics. |
| C109 | v1: decisions follow from the calls made | refuted in part | The calls are read by a specification that knows nothing of the state (V1CallsSpec): what was granted is told from the list of calls and their results. C109_underscores_refuted: with underscores in ids it fails both ways (the cause is C44). Runs in which a set-up call panics end there. Searches that do not end (role cycles, endless patterns) give no answer and are outside C109_decisions. |
| C110 | Root: nothing is allowed that no call granted | proved | The calls are read by a specification that knows nothing of the state (RootCallsSpec). Non-trivial cases: C111_ex (examples/main.go, granted and denied requests). |
| C111 | Root: everything the calls granted is allowed | refuted in part | REFUTED in four ways, each with a program that meets the conditions of the other three. C111_decisions_partial: if tenants are registered and linked before anything is asked and the caller's rows are stored before the caller is asked about, names of different sorts differ, linked tenants are the registered ones and the caller's flags in one tenant agree, the answer is yes exactly when the calls grant it. The program of examples/main.go meets all of it. |
| C112 | Root: a set-up call fails only on a tenant that is not registered yet | proved | Told from the calls made (log of calls and results): returns, panics and hangs of every set-up call are characterised exactly. Hypotheses: groups, roles and tenants passed in were returned by constructors. Calls that ask are C113. |
| C113 | Root: every request gets an answer | refuted in part | REFUTED as stated: five causes, each with a witness in which all the other conditions hold. Without them the three questions are answered, whatever the calls and map orders (told from the calls), and with the conditions of C111 Authorize returns the right answer (total correctness). The condition on the roles is exact: with the other conditions a request is refused exactly if it is not granted and leads to no role in which the search goes on for ever, and goes on for ever exactly if it is not granted and does lead to one (C113_refused, C113_endless). For a request that is granted and leads to such a role, whether it is answered depends on the map order. The other conditions are sufficient; each is needed in the sense of its witness. |
| C114 | v1: a set-up call fails only on a tenant that is not registered yet | proved | Told from the calls made: returns, panics and hangs of every set-up call of v1 are characterised exactly, whatever the ids. Hypothesis: tenants, namespaces, roles and groups passed in were returned by the constructors. Authorize is C115. |
| C115 | v1: every request gets an answer | refuted in part | REFUTED as stated: three causes, each with a witness. Without them every request returns and the answer is the right one (total correctness of C109), whatever the calls and map orders; only the roles the request leads to are restricted. C115_refused says exactly (iff) which requests are refused, and C115_endless exactly which of the requests that are not granted go on for ever, both told from the calls made. A granted request may still be searched for ever before the match is reached; that depends on the order of maps. |
| C116 | v2: a call panics only after an assignment was taken back out of order | proved | Exact, told from the list of calls (V2RetSpec). The decision theorems assume that every tenant was made under an id of its own. |
| C117 | v2: every request gets an answer | refuted in part | REFUTED as stated: two causes, each with a witness. Without them every request returns and the answer is the right one (total correctness of C105); when a request is refused is told exactly. If something grants the request and a permission with a '*' is compared too, whether Authorize returns depends on the order of a map. |
| C118 | Asking a role looks at each role below it once | refuted in part | REFUTED for every size: Has passes the question to all roles below, and each of them again to all below it; in a line of n + 1 roles a refusal takes 2^n calls. Exact number of calls of a refusal in any hierarchy (C118_calls); one call for each way if no role in between counts and keeps something for the group. |
| C119 | v1: Authorize calls made at the same time do not mix their results | refuted in part | REFUTED: GetAllowedRoles puts the backing array of the slice it returns back into the pool before its caller reads it; another call of Authorize, only reading as well, may take and overwrite it. An activity is then granted because another principal may do it, a role below one's own counts although it is not allowed, or a right grant is refused. True instead: calls whose arrays nobody has taken anew when they read answer as if alone (in particular calls one after the other, and requests without group and activity); a wrong grant with a tenant still rests on a role assigned to the principal there; no array is handed out twice; no call panics that would not alone; all calls come to an end. |
| C120 | What a manager prints can be read back | refuted in part | REFUTED for names that are not UTF-8: C120_bytes_refuted shows two managers with different rows and the same text. Proved: read back exactly if every name is text (C120_rows_partial, C120_restored_partial); always readable, one line and UTF-8 (C120_readable, C120_one_line, C120_text); String gives the seven numbers (C120_counts, C120_counts_v1). |
| C121 | v1: assignments can be made while other goroutines ask or assign | refuted in part | REFUTED: the program can be ended by Go's runtime (C121_crash_refuted), a request granted at every moment is refused (C121_moment_refuted), a list is returned that was right at no moment (C121_snapshot_refuted). Proved: exactly when a question and an assignment can end the program (C121_crash); two assignments can exactly if one of them is new; only such pairs can; a call alone is the sequential one; calls that add nothing never disturb each other; no returned assignment is lost and nothing else is added; requests for a place are answered between start and end, lists for some rows between start and end; nobody waits. |
| C122 | v2: a Can during which time passes | proved | The clock is read anew for every assignment that has an expiry; answers are right at some instant of the call. |
| C123 | v2: an Authorize during which time passes | refuted in part | REFUTED in both directions for requests with a scope: the first assignment can be seen unexpired and the second, which outlasts it, expired. Holds for requests without a scope and for calls during which no assignment of the principal runs out; C123_bounds is what holds in general. |
| C124 | Rows that were put in or read out do not change the manager later | refuted in part | REFUTED: the trie keeps and hands out the pointers themselves, so a write to a row that was handed out moves an assignment to another principal and flips decisions; one variable used for two rows loses the first; a changed row is taken away by adding one that reads as it did before. True for every history: exactly what each search returns (C124_search), what one write changes (C124_write, C124_written), and that without writes after AddData the rows are those of the trie of values (C124_untouched_partial). |
| C125 | v2 decisions follow what the caller's objects say now | refuted in part | REFUTED: a changed tenant id lets principals of another tenant in, or locks everybody out; a changed role name makes Can answer true for a role nobody was given; changed permissions of a role that was resolved before are not seen. Proved: as long as tenant ids are not written to, decisions are exactly those the present contents call for (with the remembered permissions of resolved roles), decisions return, and no write makes holes in the list. |
| C126 | v1: the documented set-up grants what it announces | refuted in part | REFUTED for activities inherited from a role below (denied although AddDescendent succeeded) and for scopes assigned before the role. Proved for every program containing the calls in the order shown: the role's own activities, the namespace, the scopes and the scope within the namespace are granted. The exact condition, inheritance included, is C109_decisions. |
| C127 | v2: additions never take access away | refuted in part | REFUTED in four ways: an additional assignment for a scope (or an additional permission of a role held for that scope) hides the unscoped permissions in requests for the scope; a second namespace in a tenant without a default one makes requests without namespace fail; AddRole with a registered name drops the earlier role. Proved for all other additions (`addition` in V2GrowSpec, including longer expiries and activation of tenants): Can always, Authorize unless the principal asks for a scope they were given an assignment for while also holding unscoped ones. |
| C128 | v2: permissions that differ do not interfere | refuted in part | REFUTED: a role keeps resource and action joined by a space, so the category is lost (removing the permission of one category removes that of another) and spaces can move between resource and action. C128_collision_exact says exactly which permissions fall together; all others are proved independent, also in decisions (except for requests for a scope the principal has an assignment for, where the presence of any scoped permission matters, see C127 and C129). |
| C129 | v2: taking things back never gives access | refuted in part | REFUTED: permissions held for the scope asked for hide unscoped ones, so removing the scoped assignment or permission, or its running out, lets a request through that was denied. Proved: Can always; Authorize unless the principal asks for a scope they have an assignment for while also holding unscoped ones. |
| C130 | v2: what a request leaves out is filled in from the default tenant, the active tenants and the default namespace | refuted in part | REFUTED in three ways: a tenant that is not active still answers when named, but not when left out; with a default tenant the principal's other tenants are not looked at; naming a scope can lose access because scoped permissions hide unscoped ones. Proved: default tenant and default namespace are filled in exactly (the calls are equal, also when they fail); without default the answer is yes exactly if some active tenant says yes; a scope changes nothing for Can, nor for Authorize without an assignment for that scope. |
| C131 | Root: naming more in a request never allows more | refuted in part | REFUTED: with tenant, namespace and scope the namespace is ignored for rows of the principal, so the scope lets somebody in whom the namespace alone does not; activities are never allowed with the tenant alone (C16); rows without tenant (AddData) count only with a scope named. Proved: membership survives leaving out the namespace (scope named) or both; activities survive leaving out scope or namespace if all roles of the principal are given in tenants, and then naming a registered tenant or none makes no difference (so naming one does not restrict, see C14). |
| C132 | v1: naming more in a request never allows more | refuted in part | REFUTED: with tenant, namespace and scope the rows of anybody count, with less named only the principal's own; a row in a tenant never registered allows its namespace but not the tenant alone; naming a namespace that is not open empties the set of admitted roles, and then every descendant counts, so an activity refused with the tenant alone is allowed with the namespace. Proved: namespace and scope allowed without a tenant are allowed in some tenant, together and each alone; requests with a group survive leaving out namespace and scope if the principal's roles in the tenant have no descendants and the second call returns. |
