{"claims": [
{"property": "C01", "status": "proved", "theorems": ["C01_match_true", "C01_match_false", "C01_match_no_panic", "C01_match_is_the_loop"], "note": "exact characterisation of the pattern language"},
{"property": "C02", "status": "partial", "theorems": ["C02_terminates_refuted", "C02_hang_exact", "C02_star_resource_hangs", "C02_terminates_partial"], "note": "REFUTED as stated: exact set of hanging inputs proved; terminates when stars are only trailing"},
{"property": "C03", "status": "partial", "theorems": ["C03_action_enforced_refuted", "C03_action_ignored", "C03_action_enforced_partial", "C03_literal_permission_partial"], "note": "REFUTED as stated: a parameter in the last segment swallows the action"},
{"property": "C04", "status": "partial", "theorems": ["C04_one_segment_refuted", "C04_one_segment_partial"], "note": "REFUTED as stated: ':' consumes one arbitrary byte, even '/'"},
{"property": "C05", "status": "proved", "theorems": ["C05_literal_exact"], "note": ""},
{"property": "C06", "status": "proved", "theorems": ["C06_compact", "C06_contains", "C06_join", "C06_filter_by_fields", "C06_projections"], "note": ""},
{"property": "C07", "status": "proved", "theorems": ["C07_search_exact", "C07_survivors", "C07_survivors_once", "C07_data"], "note": ""},
{"property": "C08", "status": "partial", "theorems": ["C08_insert_keeps_rows_refuted", "C08_lost_rows_exact", "C08_insert_keeps_rows_partial"], "note": "REFUTED as stated: nil keys are skipped, so rows of different shape share a path; exact loss condition proved; holds when ids of different kinds never coincide"},
{"property": "C09", "status": "proved", "theorems": ["C09_first", "C09_first_agrees_with_search"], "note": ""},
{"property": "C10", "status": "proved", "theorems": ["C10_link_sequence", "C10_link_laws"], "note": "links are immutable values in the model (no exported mutator exists)"},
{"property": "C11", "status": "proved", "theorems": ["C11_registered", "C11_associated"], "note": ""},
{"property": "C12", "status": "proved", "theorems": ["C12_membership_exact", "C12_fresh", "C12_incomplete_denied"], "note": "the implicit tenant set is the one GetImplicitTenants reports; C12_fresh eliminates it when no cache is stale"},
{"property": "C13", "status": "proved", "theorems": ["C13_activity_exact", "C13_returns"], "note": ""},
{"property": "C14", "status": "partial", "theorems": ["C14_tenant_isolation_refuted", "C14_any_tenant", "C14_tenant_isolation_partial"], "note": "REFUTED as stated: a row in any tenant opens every registered tenant (C14_any_tenant); holds when the principal has no other implicit tenant"},
{"property": "C15", "status": "partial", "theorems": ["C15_principal_isolation_refuted", "C15_shared_namespace", "C15_shared_scope", "C15_own_roles_partial", "C15_own_or_shared"], "note": "REFUTED as stated: rows of other principals with the requested namespace or scope lend their role; holds for requests naming both"},
{"property": "C16", "status": "partial", "theorems": ["C16_tenant_activity_refuted", "C16_tenant_activity_never"], "note": "REFUTED: tenant-level activity requests are always denied"},
{"property": "C17", "status": "partial", "theorems": ["C17_grants_effective_refuted", "C17_lockout", "C17_descendants_refuted", "C17_grants_effective_partial"], "note": "REFUTED as stated: the per-principal cache is never invalidated (C17_lockout); holds for principals not asked about before"},
{"property": "C18", "status": "partial", "theorems": ["C18_read_only", "C18_repeatable_partial", "C18_repeatable_refuted"], "note": "read-only and equal verdicts proved for all calls that return; REFUTED only in that a repetition may not return (looping pattern met in one iteration order)"},
{"property": "C19", "status": "partial", "theorems": ["C19_implicit_exact_refuted", "C19_implicit_bounds", "C19_implicit_exact_partial", "C19_returns", "C19_cycle_hangs"], "note": "REFUTED as stated: order dependent; bounds hold always, exact when rows agree and no cache is stale"},
{"property": "C20", "status": "proved", "theorems": ["C20_has_exact", "C20_has_returns", "C20_fuel_irrelevant"], "note": ""},
{"property": "C21", "status": "partial", "theorems": ["C21_inherits_refuted", "C21_no_group_no_inheritance", "C21_inherits_partial"], "note": "REFUTED as stated: a role that does not itself own the group inherits nothing; holds when it owns the group"},
{"property": "C22", "status": "partial", "theorems": ["C22_terminates_refuted", "C22_descendants_exact", "C22_all_permissions_exact", "C22_has_cycle_hangs", "C22_descendants_correct", "C22_terminates_partial"], "note": "REFUTED as stated: AddDescendant accepts cycles; exact termination condition proved; holds for programs that close no cycle"},
{"property": "C23", "status": "partial", "theorems": ["C23_locked_refuses", "C23_locked_frozen_refuted", "C23_locked_object_frozen", "C23_locked_frozen_partial"], "note": "REFUTED as stated: group objects shared through AddPermissionResourceGroup can still be extended; the role object itself is frozen; permissions are frozen when groups are not shared"},
{"property": "C24", "status": "partial", "theorems": ["C24_error_changes_nothing", "C24_success_iff", "C24_effect_partial", "C24_nothing_else_refuted"], "note": "success condition, atomicity and effect exact; 'nothing else changes' REFUTED for roles sharing the group object, true otherwise"},
{"property": "C25", "status": "partial", "theorems": ["C25_roles", "C25_groups", "C25_tenants", "C25_attributes", "C25_sets", "C25_add_role", "C25_add_group", "C25_add_attribute", "C25_add_tenant_partial", "C25_add_tenant_refuted", "C25_totals"], "note": "proved for every registry of the root package, except that AddTenant gives the manager to the rejected object (REFUTED 'changes nothing')"},
{"property": "C26", "status": "partial", "theorems": ["C26_distinct_refuted", "C26_collision_exact", "C26_distinct_partial"], "note": "REFUTED as stated; exact collision condition; holds when resources (or actions) contain no space"},
{"property": "C27", "status": "proved", "theorems": ["C27_acyclic", "C27_rejected", "C27_accepted", "C27_cycle_rejected"], "note": "Every reachable role graph is acyclic (induction over histories); a rejected call changes nothing, an accepted one adds exactly the children given, a call that would close a cycle is rejected."},
{"property": "C28", "status": "partial", "theorems": ["C28_only_cycles_refuted", "C28_duplicate_refuted", "C28_exact"], "note": "REFUTED: AddChildRole(\"a\",[\"b\",\"c\"]) is rejected when b and c share a child, and so is [\"b\",\"b\"], though no cycle arises. C28_exact says exactly which calls are accepted and rejected in every reachable state."},
{"property": "C29", "status": "proved", "theorems": ["C29_permissions", "C29_names", "C29_returns", "C29_later"], "note": "First resolution = union over registered roles reachable through registered roles, for every graph (cyclic, dangling); always terminates; later resolutions return the same."},
{"property": "C30", "status": "partial", "theorems": ["C30_role_changes_refuted", "C30_frozen", "C30_role_changes_partial", "C30_can_partial", "C30_setup_partial", "C30_can_setup_partial"], "note": "REFUTED: after the first decision RemovePermission and AddPermission have no effect. C30_frozen: once resolved, a role stands for the same set in every later state. Proved: decisions reflect current roles whenever what is remembered is up to date, in particular when set-up precedes the first decision and only one kind of query is made."},
{"property": "C31", "status": "proved", "theorems": ["C31_exact", "C31_returns", "C31_effect"], "note": "Exact decision for every reachable state with distinct tenant ids, every request, instant and iteration order; C31_returns: it returns whenever the list has no nil and no stored pattern loops; C31_effect: a query changes nothing but fills in the memory of resolved roles."},
{"property": "C32", "status": "proved", "theorems": ["C32_exact", "C32_returns", "C32_sound"], "note": "Exact decision under distinct tenant ids; soundness without; always returns when the list has no nil."},
{"property": "C33", "status": "partial", "theorems": ["C33_independent_refuted", "C33_escalation_refuted", "C33_authorize_partial", "C33_can_partial", "C33_same_kind_authorize", "C33_same_kind_can"], "note": "REFUTED both ways (the resolved cache is shared by permissions and role names); a role called \"*\" lets Can escalate Authorize. Proved: independent once the roles of the principal have been resolved; queries of the same kind never influence each other."},
{"property": "C34", "status": "partial", "theorems": ["C34_scope_isolation_refuted", "C34_scopes_ignored"], "note": "REFUTED: Can ignores the scopes of assignments entirely (C34_scopes_ignored)."},
{"property": "C35", "status": "partial", "theorems": ["C35_expired_refuted", "C35_authorize_partial", "C35_can_partial"], "note": "REFUTED: an expired managing assignment still opens child tenants. Proved: expired assignments that do not manage child tenants have no influence on Authorize or Can."},
{"property": "C36", "status": "partial", "theorems": ["C36_removes_exactly_refuted", "C36_returns", "C36_error", "C36_removes_exactly_partial", "C36_cases"], "note": "REFUTED: removing an assignment that is not at the end loses others and leaves nil pointers. Exact: returns, error iff nothing matches and then nothing changes; right length; right content iff what goes was at the end."},
{"property": "C37", "status": "partial", "theorems": ["C37_inactive_refuted", "C37_named_ignored", "C37_named_can_ignored", "C37_nameless_partial", "C37_can_nameless_partial"], "note": "REFUTED: statuses make no difference to requests directed at a tenant (C37_named_ignored). Proved for requests directed at no tenant."},
{"property": "C38", "status": "partial", "theorems": ["C38_manage_refuted", "C38_not_downward", "C38_upward", "C38_manage_partial"], "note": "REFUTED both ways: nothing is granted downwards (C38_not_downward), roles of the child are granted in the parent (C38_upward). Proved: without a managing assignment in the tenant only assignments in the tenant itself grant."},
{"property": "C39", "status": "proved", "theorems": ["C39_isolation", "C39_can_isolation", "C39_principal", "C39_can_principal"], "note": "Under distinct tenant ids: two set-ups that differ only in assignments of other principals, or of this principal outside the tenant named and the tenants below it, give the same answers."},
{"property": "C40", "status": "partial", "theorems": ["C40_panic_refuted", "C40_no_panic_partial", "C40_no_removal_partial", "C40_panics_exactly"], "note": "REFUTED: after RemovePrincipalRole a decision can panic. Proved: no panic without a nil in the list, no nil without a removal; C40_panics_exactly says which requests panic."},
{"property": "C41", "status": "partial", "theorems": ["C41_granted_refuted", "C41_denied_refuted", "C41_exclusive", "C41_not_free", "C41_undisturbed", "C41_no_overlap", "C41_alone", "C41_mixed", "C41_jobs_exist"], "note": "REFUTED: the map read after Put can be refilled by another call (wrong grant and wrong denial exhibited). Proved for every schedule and number of goroutines: maps between Get and Put are exclusive; a call whose map nobody takes while it reads answers rightly; a wrong grant always rests on something held by the principal of a call under way. Assumes the authorizer and its role cache do not change meanwhile."},
{"property": "C42", "status": "partial", "theorems": ["C42_invalid_refuted", "C42_set_expiry", "C42_clear", "C42_duration_partial", "C42_duration_ignored"], "note": "REFUTED: unparsable durations are ignored without an error, other types expire at once. SetExpiry, ClearExpiry and valid durations proved."},
{"property": "C43", "status": "partial", "theorems": ["C43_index_refuted", "C43_index_partial", "C43_index_unread"], "note": "REFUTED after a removal that leaves nil pointers. Proved: index and list agree in every reachable state whose list has no nil; and no call reads the index, so that two authorizers that differ only in it answer every later history alike."},
{"property": "C44", "status": "partial", "theorems": ["C44_readers", "C44_roundtrip_refuted", "C44_injective_refuted", "C44_roundtrip_exact", "C44_roundtrip_partial", "C44_hole"], "note": "REFUTED: identifiers containing '_' are read back as other assignments (C44_roundtrip_refuted, C44_injective_refuted). C44_roundtrip_exact: an assignment is returned iff no identifier contains '_'. C44_hole: every assignment to a principal 'q_...' becomes one of q."},
{"property": "C45", "status": "proved", "theorems": ["C45_readers_return", "C45_parse_total"], "note": "all readers return on every reachable state; every stored string can be parsed"},
{"property": "C46", "status": "proved", "theorems": ["C46_unknown_principal", "C46_tenant", "C46_namespace", "C46_scope", "C46_tenant_namespace", "C46_tenant_scope", "C46_namespace_scope", "C46_tenant_namespace_scope"], "note": "seven iff theorems, one per combination, plus unknown principals. The stated shapes are the code's; C47 and C49 discuss those that a user would not expect."},
{"property": "C47", "status": "partial", "theorems": ["C47_tenant_membership_refuted", "C47_hole", "C47_tenant_membership_partial"], "note": "REFUTED: any known principal passes for any registered tenant (C47_hole). _partial: membership is required for the other combinations except tenant+namespace+scope (C49)."},
{"property": "C48", "status": "partial", "theorems": ["C48_restrictions_refuted", "C48_exact", "C48_hole", "C48_no_panic", "C48_returns"], "note": "REFUTED (both ways); C48_exact is the exact decision; C48_hole the universal hole."},
{"property": "C49", "status": "partial", "theorems": ["C49_isolation_refuted", "C49_isolation_partial"], "note": "REFUTED; exact decision in C46_tenant_namespace_scope; _partial under absence of other principals' assignments."},
{"property": "C50", "status": "partial", "theorems": ["C50_stable_refuted", "C50_same_work", "C50_fresh", "C50_stable_partial", "C50_hole"], "note": "REFUTED on the slice-pool machine, which does the work of GetAllowedRoles (C50_same_work); fresh results are right, and stay right while no later call takes the array; C50_hole: the next call can take it."},
{"property": "C51", "status": "proved", "theorems": ["C51_query_by_example"], "note": ""},
{"property": "C52", "status": "partial", "theorems": ["C52_all_permissions_partial", "C52_own_permissions", "C52_group_permissions", "C52_listed_granted", "C52_each_once_refuted", "C52_times", "C52_grows_refuted"], "note": "content exact as a set; 'each once' REFUTED: permissions of deeper descendants are repeated; exactly how often: 2^(k-1) times for each way of k >= 1 steps (C52_times), so 2^n times in a line of n + 1 roles (C52_grows_refuted)"},
{"property": "C53", "status": "partial", "theorems": ["C53_no_panic_partial", "C53_no_panic_refuted"], "note": "REFUTED as stated; holds when tenants and roles given to AddData and the options are strings or nil"},
{"property": "C54", "status": "partial", "theorems": ["C54_add_principal_exact", "C54_assign_scopes_exact", "C54_add_principal_stored", "C54_assign_scopes_stored", "C54_atomic_refuted"], "note": "exact effect proved; all-or-nothing REFUTED: the rows before the first error stay"},
{"property": "C55", "status": "partial", "theorems": ["C55_order_refuted", "C55_authorize_partial", "C55_can_partial"], "note": "REFUTED when two tenant objects share an id. Proved with distinct ids: the answer does not depend on the iteration order."},
{"property": "C56", "status": "proved", "theorems": ["C56_add_principal", "C56_add_principal_in_namespace", "C56_assign_scopes", "C56_assign_scopes_with_role", "C56_add_scopes_to_namespace", "C56_add_roles_to_namespace"], "note": "exact effect of each method, 'adds' says nothing else changes"},
{"property": "C57", "status": "partial", "theorems": ["C57_any_group_refuted", "C57_exact"], "note": "REFUTED: only the group \"\" is looked at; C57_exact"},
{"property": "C58", "status": "partial", "theorems": ["C58_no_panic_refuted", "C58_underscore_refuted", "C58_exact", "C58_returns", "C58_others"], "note": "REFUTED for activity-only requests; C58_exact says when; C58_others: all other requests never panic"},
{"property": "C59", "status": "partial", "theorems": ["C59_grants_stay", "C59_own_grants_stay", "C59_all_grants_stay_refuted"], "note": "REFUTED for grants through descendant roles; proved for requests without group and activity, and for what the assigned role itself offers"},
{"property": "C60", "status": "partial", "theorems": ["C60_own_roles_refuted", "C60_exact"], "note": "REFUTED; C60_exact"},
{"property": "C61", "status": "partial", "theorems": ["C61_no_duplicates_refuted", "C61_exact", "C61_neighbours"], "note": "REFUTED (only adjacent duplicates are removed); as a set the result is exact"},
{"property": "C62", "status": "partial", "theorems": ["C62_isolated_partial", "C62_shared_namespace_refuted", "C62_underscore_refuted"], "note": "REFUTED by shared namespace objects and by underscores; proved otherwise"},
{"property": "C63", "status": "proved", "theorems": ["C63_scopes", "C63_tenant_scopes", "C63_errors"], "note": "exact"},
{"property": "C64", "status": "proved", "theorems": ["C64_add_descendant", "C64_add_group", "C64_add_permission"], "note": "exact effect and frame; locked roles: C23"},
{"property": "C65", "status": "partial", "theorems": ["C65_has_stays", "C65_grants_stay_refuted", "C65_grants_stay_partial"], "note": "REFUTED for Authorize through destroyed rows (C08); proved as long as no stored row is lost; proved in full for Role.Has"},
{"property": "C66", "status": "proved", "theorems": ["C66_scopes_by_principal", "C66_namespaces_by_tenant", "C66_scopes_by_tenant", "C66_tenants", "C66_tenants_by_principal", "C66_namespaces_for_principal_by_tenant", "C66_scopes_for_principal_by_tenant", "C66_namespaces_by_principal", "C66_implicit_scopes_empty"], "note": "exact, with multiplicity"},
{"property": "C67", "status": "partial", "theorems": ["C67_tenant_namespace_refuted", "C67_tenant_scope_refuted", "C67_tenant_namespace_scope_refuted", "C67_scopes_by_namespace_refuted", "C67_tenant_namespace_exact", "C67_tenant_scope_exact", "C67_tenant_namespace_scope_exact", "C67_scopes_tenant_namespace_exact", "C67_scopes_namespace_exact", "C67_roles_by_tenant_empty", "C67_own_rows_partial"], "note": "REFUTED (rows of other principals and tenants are listed); exact characterisation of every listing, and the property when the rows naming the namespace or scope are the principal's own"},
{"property": "C68", "status": "partial", "theorems": ["C68_scopes_refuted", "C68_roles_refuted", "C68_tenant_refuted", "C68_exact", "C68_own_tenant_partial", "C68_panics"], "note": "REFUTED (other principals' scopes, nil roles, other tenants, order dependence); exact characterisation of the answer"},
{"property": "C69", "status": "partial", "theorems": ["C69_exact", "C69_returns", "C69_each_once_refuted"], "note": "exact as a set and for termination; 'once' is REFUTED"},
{"property": "C70", "status": "partial", "theorems": ["C70_struct_refuted", "C70_int_keys_refuted", "C70_union_twice_refuted", "C70_intersection_partial", "C70_union_partial", "C70_panics"], "note": "REFUTED: elements are compared by a text that is not injective (a bar in a value), a map with int keys is written in iteration order, and Union keeps repetitions. Proved: exact set operations, in order, if no value prints a bar and no string key a colon; panics exactly on elements that are not maps or structs with exported fields."},
{"property": "C71", "status": "partial", "theorems": ["C71_distinct_refuted", "C71_one_byte_partial", "C71_ending_partial", "C71_range"], "note": "REFUTED by two strings with number 0. Proved: strings that differ in one byte have different numbers; a common ending never makes or removes a collision."},
{"property": "C72", "status": "partial", "theorems": ["C72_roles", "C72_groups", "C72_tenants", "C72_namespaces", "C72_attributes", "C72_sets", "C72_add_role", "C72_add_group", "C72_add_namespace", "C72_add_attribute", "C72_add_tenant", "C72_rejected_tenant_refuted", "C72_totals"], "note": "REFUTED for AddTenant (C72_rejected_tenant_refuted): a refused tenant object is connected to the manager all the same. Everything else is proved for all histories; C72_add_tenant gives AddTenant's exact effect."},
{"property": "C73", "status": "proved", "theorems": ["C73_exact", "C73_effect", "C73_errors", "C73_returns"], "note": "exact success condition, exact effect, errors in order, always returns"},
{"property": "C74", "status": "partial", "theorems": ["C74_agrees_refuted", "C74_exact", "C74_listed_granted_partial", "C74_role_permissions"], "note": "REFUTED in both directions (C74_agrees_refuted); C74_exact says what is listed, C74_listed_granted_partial that it is granted for registered principals and tenants"},
{"property": "C75", "status": "proved", "theorems": ["C75_roles", "C75_tenants", "C75_default", "C75_add_tenants", "C75_add_tenant", "C75_add_roles", "C75_set_default", "C75_role_add", "C75_role_remove", "C75_new_tenant", "C75_add_namespace", "C75_add_scopes", "C75_add_children", "C75_add_assignments", "C75_status_string", "C75_status_panics"], "note": "histories for the lookups, exact effects for the set-up methods"},
{"property": "C76", "status": "partial", "theorems": ["C76_in_turn_refuted", "C76_in_turn_partial", "C76_two_answers", "C76_two_answers_children", "C76_no_order", "C76_half_seen"], "note": "REFUTED for arbitrary mixtures. Holds (with the order respecting real time) for calls that do not get in each other's way; every graph on which an edge matters has the two-answers outcome, and any part of a grant can be seen."},
{"property": "C77", "status": "partial", "theorems": ["C77_all_found_refuted", "C77_lost_row", "C77_all_found_partial", "C77_exact", "C77_only_added", "C77_old_stay", "C77_sequential"], "note": "REFUTED (C77_all_found_refuted): a row sharing new keys with a concurrently added one can be lost. C77_exact: nothing is lost iff the rows part ways in the old trie. C77_only_added and C77_old_stay hold in every interleaving"},
{"property": "C78", "status": "proved", "theorems": ["C78_add_descendent", "C78_add_namespace", "C78_add_role", "C78_set_default", "C78_add_scopes", "C78_namespace_add_roles", "C78_namespace_add_scopes", "C78_descendant_tenants"], "note": "exact effects; descendant walk returns exactly the reachable tenants or does not return on a cycle"},
{"property": "C79", "status": "partial", "theorems": ["C79_agreed_refuted", "C79_exact", "C79_hole", "C79_old_stay", "C79_entries", "C79_returns", "C79_ids", "C79_keyed", "C79_can_return", "C79_alone"], "note": "REFUTED (C79_agreed_refuted, C79_hole); C79_exact: agreement in every interleaving iff nobody offers a second object under a new id; the other theorems hold in every interleaving"},
{"property": "C80", "status": "partial", "theorems": ["C80_wait_free", "C80_can_finish", "C80_moves", "C80_quiet", "C80_never_half_refuted", "C80_half_running"], "note": "progress proved; REFUTED for searches running at the same time (C80_never_half_refuted), with the exact place in C80_half_running"},
{"property": "C81", "status": "partial", "theorems": ["C81_in_turn_refuted", "C81_in_turn_partial", "C81_adds", "C81_lost", "C81_undone", "C81_panics", "C81_no_deadlock"], "note": "REFUTED for mixtures of additions and removals; proved for additions only; every removal that matches can go wrong with every simultaneous addition"},
{"property": "C82", "status": "partial", "theorems": ["C82_race_free_refuted", "C82_get_role", "C82_permissions", "C82_races_partial", "C82_edges_cache", "C82_safe_mixture"], "note": "REFUTED; the two kinds of races always occur and there are no others."},
{"property": "C83", "status": "proved", "theorems": ["C83_acyclic", "C83_no_deadlock"], "note": "Pointers given are not nil. The preference of writers waiting for the lock is left out of the model."},
{"property": "C84", "status": "proved", "theorems": ["C84_between"], "note": "All resolutions of one kind (both kinds share one cache, see C33). Map accesses are taken as atomic; with AddPermission beside ResolvePermissions the Go runtime may abort instead (C82)."},
{"property": "C85", "status": "partial", "theorems": ["C85_all_kept_refuted", "C85_kept_exact", "C85_last_wins", "C85_old_group", "C85_nothing_else"], "note": "REFUTED: calls that create the same group overwrite each other. Exact condition in C85_kept_exact; C85_last_wins shows that the loss is possible for every such set of calls; groups that existed lose nothing."},
{"property": "C86", "status": "partial", "theorems": ["C86_lock_refuted", "C86_still_added", "C86_lock_partial"], "note": "REFUTED for calls under way when Lock returns (any permission can still appear); proved when none is."},
{"property": "C87", "status": "proved", "theorems": ["C87_some_moment", "C87_bounds", "C87_one_leaf", "C87_returns", "C87_alone"], "note": "Roles, tenants and expiries stay fixed during the call; each range takes a whole slice header."},
{"property": "C88", "status": "partial", "theorems": ["C88_granted_refuted", "C88_denied_refuted", "C88_unscoped_partial", "C88_one_leaf_partial", "C88_bounds", "C88_returns", "C88_alone"], "note": "REFUTED in both directions for scoped requests: granted although denied at every moment, denied although allowed at every moment. Proved without a scope and for named tenants without children; C88_bounds says that hiding by scoped permissions is all that can go wrong."},
{"property": "C89", "status": "partial", "theorems": ["C89_as_added_refuted", "C89_listing_exact", "C89_left_alone_partial", "C89_values", "C89_written", "C89_reuse", "C89_stored"], "note": "REFUTED: the trie keeps the pointer. C89_listing_exact says exactly what is listed, C89_left_alone_partial and C89_values prove the property (and the value rows of RootModel) for programs that leave added structs alone."},
{"property": "C90", "status": "partial", "theorems": ["C90_tenants_refuted", "C90_children_refuted", "C90_edited", "C90_for_good", "C90_cleared", "C90_others_partial", "C90_children_edited", "C90_children_asked"], "note": "REFUTED for the principal whose map is changed, and for managers of a tenant whose list is changed. Exact verdicts after a change; proved for all other principals. C90_children_edited is for principals with rows in that tenant only."},
{"property": "C91", "status": "proved", "theorems": ["C91_authorize", "C91_can", "C91_no_verdict", "C91_authorize_nothing_held", "C91_can_nothing_held", "C91_same_decision"], "note": "The nothing_held theorems need distinct tenant ids in the hierarchy (distinct_ids)."},
{"property": "C92", "status": "partial", "theorems": ["C92_granted_refuted", "C92_roles_refuted", "C92_authorize_partial", "C92_can", "C92_request", "C92_default_unnamed"], "note": "REFUTED: entries of Can look like entries of Authorize. C92_authorize_partial proves it for entries of Authorize, C92_can says what an entry of Can means, C92_request that the attributes determine the request, C92_default_unnamed that the default tenant is never named."},
{"property": "C93", "status": "partial", "theorems": ["C93_own_refuted", "C93_edited", "C93_others_partial"], "note": "REFUTED: the map returned is the cache. Proved exactly: what a caller made of an answer is returned by all later resolutions of that role, of both kinds; nothing else changes."},
{"property": "C94", "status": "partial", "theorems": ["C94_undisturbed", "C94_some_moment_refuted", "C94_between_partial", "C94_some_moment_partial", "C94_remembered", "C94_no_made_up_grant", "C94_own_tenants", "C94_missed_for_good"], "note": "REFUTED in general: if a principal's rows in one tenant disagree on ManageDescendants, the call can give an answer that no moment of it could have given. Proved if the principal's tenants are remembered or do not depend on the order of the rows: the answer lies between before and after. Without that condition: no made-up grant, own tenants always count. What the first call misses can be missed for good. Only rows change beside the call; an insertion is one step."},
{"property": "C95", "status": "proved", "theorems": ["C95_one_call", "C95_alone", "C95_leaves", "C95_moves", "C95_bounded"], "note": "Each call does what it could have done alone, only the caches change, no call waits and the number of its steps is bounded. Nothing but the caches changes beside the calls."},
{"property": "C96", "status": "partial", "theorems": ["C96_one_after_other_refuted", "C96_repeats_refuted", "C96_one_after_other_partial", "C96_repeats_partial"], "note": "REFUTED in general: two calls with one request may give different answers and the answer given may change afterwards, if a principal's rows in one tenant disagree on ManageDescendants. Proved if the principals' tenants are remembered or do not depend on the order of the rows: the answers fit every order, and are repeated. Nothing but the caches changes beside the calls."},
{"property": "C97", "status": "proved", "theorems": ["C97_add_namespaces", "C97_add_scopes_to_namespace", "C97_add_principal_in_namespace", "C97_add_roles", "C97_add_scopes", "C97_add_principal", "C97_assign_scopes", "C97_add_data", "C97_no_manager", "C97_new_tenant", "C97_set_default", "C97_add_descendant", "C97_add_descendant_panics"], "note": "Exact effect of every set-up method on rows, tenant objects and everything else, and when it panics. What a panicking call has done before is not described."},
{"property": "C98", "status": "partial", "theorems": ["C98_set_later_refuted", "C98_below_refuted", "C98_set_later", "C98_passed_partial"], "note": "REFUTED: a default set after AddDescendant reaches no descendant, one set before does not reach the descendants' descendants. Proved: SetDefaultNamespace never reaches another tenant; the default at the time of AddDescendant becomes the default of the tenants given, whatever theirs was."},
{"property": "C99", "status": "partial", "theorems": ["C99_named_refuted", "C99_later_refuted", "C99_checked_partial", "C99_flagged_partial", "C99_tenants"], "note": "REFUTED: AddNamespaces, AddScopesToNamespace, AddPrincipalInNamespace, AddRoles, AddScopes and AddData check nothing, and rows about an unregistered principal count once the principal is registered. Proved for histories of the other calls, and for rows with a ManageDescendants flag if AddData is not called."},
{"property": "C100", "status": "partial", "theorems": ["C100_order_refuted", "C100_clash", "C100_returns", "C100_rows_partial", "C100_answers_partial"], "note": "REFUTED: rows of different kinds may share a place in the trie (C08), the last call wins. Proved: the calls return the same in any order; they leave the same rows, and the same decisions for principals whose tenants do not depend on the order of their rows, if the rows do not share places."},
{"property": "C101", "status": "partial", "theorems": ["C101_order_refuted", "C101_same_partial", "C101_authorize_partial", "C101_can_partial", "C101_returns", "C101_roles_exact"], "note": "REFUTED: AddChildRole refuses a child whose descendants it has already listed, so a diamond is accepted from the top down and refused from the bottom up, and the refused call costs the principal their rights. True part: calls that do not contradict each other set up the same thing, and Authorize/Can decide the same, in any two orders in which no call is refused; every order returns if one does. C101_roles_exact: every order of some AddChildRole calls is accepted exactly when each would be accepted last."},
{"property": "C102", "status": "partial", "theorems": ["C102_order_refuted", "C102_scopes_refuted", "C102_too_early", "C102_too_early_with_role", "C102_plain_partial", "C102_apart_partial", "C102_returns"], "note": "REFUTED twice: scopes given before the role are lost without an error (C102_too_early: always so), and even the order of two AssignScopesToPrincipal calls for a member changes a decision, because the second reads the rows with an empty role that the first wrote. True part: calls that name their roles lead to exactly the same manager in every order, and calls about different people or tenants may be interleaved in any way (names without underscores)."},
{"property": "C103", "status": "proved", "theorems": ["C103_rows_stay", "C103_grants_stay", "C103_order"], "note": "Names are kept apart if some assignment of a kind to every name agrees with all calls. The answers after permuted grants are equal for principals whose tenants do not depend on the order of their rows (settled, as in C100)."},
{"property": "C104", "status": "partial", "theorems": ["C104_recipe_refuted", "C104_activity_partial", "C104_member_partial"], "note": "REFUTED without a naming convention: a principal named like the role who is given a scope named like the first principal overwrites the row of the role (the columns have no order in the trie). With names kept apart both parts are proved for all programs and requests; C104_ex is the program of examples/main.go with its six questions, all answered as announced there."},
{"property": "C105", "status": "proved", "theorems": ["C105_authorize", "C105_can"], "note": "The specification (V2CallsSpec) speaks of the list of calls and their results only; RemovePrincipalRole included (if it leaves a nil behind, the calls that still return are refused, as they should be, see C116). C105_ex: the program of examples/v2.go with its five requests, then a person whose assignment expires and one whose assignment is taken back."},
{"property": "C106", "status": "partial", "theorems": ["C106_race_free_refuted", "C106_collide_partial", "C106_questions_partial", "C106_setup_partial", "C106_register_refuted", "C106_assign_refuted", "C106_namespace_refuted", "C106_default_refuted", "C106_remove_refuted", "C106_no_deadlock", "C106_ends"], "note": "REFUTED: Authorize, Can, RemovePrincipalRole and SetDefaultTenant take no lock. C106_collide_partial: every race has a party that goes without the lock; questions alone, and the locking set-up calls alone (but a tenant registered while it is given children), do not race. The C106_*_refuted of the second group hold for every state. C106_no_deadlock and C106_ends are the waiting part in full. Resolving a role is one step here; its own accesses are C76 and C82 to C84."},
{"property": "C107", "status": "partial", "theorems": ["C107_at_once_refuted", "C107_alone_partial", "C107_at_once_partial", "C107_unchanged_partial", "C107_sequential"], "note": "REFUTED when Authorize and Can are mixed: they share what the role graph remembers. Holds when no role not yet remembered is needed by both kinds; then every answer is the one given alone. C107_sequential ties the step-by-step programs to the sequential model."},
{"property": "C108", "status": "partial", "theorems": ["C108_no_crash_refuted", "C108_cleared_refuted", "C108_no_crash_partial"], "note": "REFUTED: IsExpired reads the pointer twice, ClearExpiry in between makes it nil; C108_cleared_refuted for every state. Without ClearExpiry and RemovePrincipalRole among the calls none panics."},
{"property": "C109", "status": "proved", "theorems": ["C109_decisions", "C109_panics", "C109_underscores_refuted"], "note": "The calls are read by a specification that knows nothing of the state (V1CallsSpec): what was granted is told from the list of calls and their results. C109_underscores_refuted: with underscores in ids it fails both ways (the cause is C44). Runs in which a set-up call panics end there. Searches that do not end (role cycles, endless patterns) give no answer and are outside C109_decisions."},
{"property": "C110", "status": "proved", "theorems": ["C110_only_what_is_granted"], "note": "The calls are read by a specification that knows nothing of the state (RootCallsSpec). Non-trivial cases: C111_ex (examples/main.go, granted and denied requests)."},
{"property": "C111", "status": "partial", "theorems": ["C111_asked_early_refuted", "C111_names_refuted", "C111_links_refuted", "C111_flags_refuted", "C111_decisions_partial"], "note": "REFUTED in four ways, each with a program that meets the conditions of the other three. C111_decisions_partial: if tenants are registered and linked before anything is asked and the caller's rows are stored before the caller is asked about, names of different sorts differ, linked tenants are the registered ones and the caller's flags in one tenant agree, the answer is yes exactly when the calls grant it. The program of examples/main.go meets all of it."},
{"property": "C112", "status": "proved", "theorems": ["C112_set_up_calls"], "note": "Told from the calls made (log of calls and results): returns, panics and hangs of every set-up call are characterised exactly. Hypotheses: groups, roles and tenants passed in were returned by constructors. Calls that ask are C113."},
{"property": "C113", "status": "partial", "theorems": ["C113_rows_refuted", "C113_request_refuted", "C113_tenant_circle_refuted", "C113_role_circle_refuted", "C113_permission_refuted", "C113_answered_partial", "C113_tenants_partial", "C113_children_partial", "C113_decided_partial", "C113_roles_in_order", "C113_refused", "C113_endless"], "note": "REFUTED as stated: five causes, each with a witness in which all the other conditions hold. Without them the three questions are answered, whatever the calls and map orders (told from the calls), and with the conditions of C111 Authorize returns the right answer (total correctness). The condition on the roles is exact: with the other conditions a request is refused exactly if it is not granted and leads to no role in which the search goes on for ever, and goes on for ever exactly if it is not granted and does lead to one (C113_refused, C113_endless). For a request that is granted and leads to such a role, whether it is answered depends on the map order. The other conditions are sufficient; each is needed in the sense of its witness."},
{"property": "C114", "status": "proved", "theorems": ["C114_set_up_calls"], "note": "Told from the calls made: returns, panics and hangs of every set-up call of v1 are characterised exactly, whatever the ids. Hypothesis: tenants, namespaces, roles and groups passed in were returned by the constructors. Authorize is C115."},
{"property": "C115", "status": "partial", "theorems": ["C115_lost_refuted", "C115_role_circle_refuted", "C115_permission_refuted", "C115_decided_partial", "C115_refused", "C115_endless"], "note": "REFUTED as stated: three causes, each with a witness. Without them every request returns and the answer is the right one (total correctness of C109), whatever the calls and map orders; only the roles the request leads to are restricted. C115_refused says exactly (iff) which requests are refused, and C115_endless exactly which of the requests that are not granted go on for ever, both told from the calls made. A granted request may still be searched for ever before the match is reached; that depends on the order of maps."},
{"property": "C116", "status": "proved", "theorems": ["C116_set_up_calls", "C116_can", "C116_authorize"], "note": "Exact, told from the list of calls (V2RetSpec). The decision theorems assume that every tenant was made under an id of its own."},
{"property": "C117", "status": "partial", "theorems": ["C117_taken_back_refuted", "C117_permission_refuted", "C117_decided_partial", "C117_refused"], "note": "REFUTED as stated: two causes, each with a witness. Without them every request returns and the answer is the right one (total correctness of C105); when a request is refused is told exactly. If something grants the request and a permission with a '*' is compared too, whether Authorize returns depends on the order of a map."},
{"property": "C118", "status": "partial", "theorems": ["C118_same_answer", "C118_each_role_once_refuted", "C118_calls", "C118_long_way", "C118_each_way_once_partial"], "note": "REFUTED for every size: Has passes the question to all roles below, and each of them again to all below it; in a line of n + 1 roles a refusal takes 2^n calls. Exact number of calls of a refusal in any hierarchy (C118_calls); one call for each way if no role in between counts and keeps something for the group."},
{"property": "C119", "status": "partial", "theorems": ["C119_granted_refuted", "C119_below_refuted", "C119_denied_refuted", "C119_undisturbed_partial", "C119_in_turn", "C119_alone", "C119_places", "C119_own_roles", "C119_mixed", "C119_panics", "C119_exclusive", "C119_goes_on", "C119_ends"], "note": "REFUTED: GetAllowedRoles puts the backing array of the slice it returns back into the pool before its caller reads it; another call of Authorize, only reading as well, may take and overwrite it. An activity is then granted because another principal may do it, a role below one's own counts although it is not allowed, or a right grant is refused. True instead: calls whose arrays nobody has taken anew when they read answer as if alone (in particular calls one after the other, and requests without group and activity); a wrong grant with a tenant still rests on a role assigned to the principal there; no array is handed out twice; no call panics that would not alone; all calls come to an end."},
{"property": "C120", "status": "partial", "theorems": ["C120_bytes_refuted", "C120_rows_partial", "C120_restored_partial", "C120_readable", "C120_one_line", "C120_text", "C120_counts", "C120_counts_v1"], "note": "REFUTED for names that are not UTF-8: C120_bytes_refuted shows two managers with different rows and the same text. Proved: read back exactly if every name is text (C120_rows_partial, C120_restored_partial); always readable, one line and UTF-8 (C120_readable, C120_one_line, C120_text); String gives the seven numbers (C120_counts, C120_counts_v1)."},
{"property": "C121", "status": "partial", "theorems": ["C121_crash_refuted", "C121_crash", "C121_crash_writers", "C121_crash_only", "C121_moment_refuted", "C121_snapshot_refuted", "C121_alone", "C121_nothing_new", "C121_kept", "C121_nobody_else", "C121_place_partial", "C121_lists_partial", "C121_no_waiting"], "note": "REFUTED: the program can be ended by Go's runtime (C121_crash_refuted), a request granted at every moment is refused (C121_moment_refuted), a list is returned that was right at no moment (C121_snapshot_refuted). Proved: exactly when a question and an assignment can end the program (C121_crash); two assignments can exactly if one of them is new; only such pairs can; a call alone is the sequential one; calls that add nothing never disturb each other; no returned assignment is lost and nothing else is added; requests for a place are answered between start and end, lists for some rows between start and end; nobody waits."},
{"property": "C122", "status": "proved", "theorems": ["C122_some_instant", "C122_bounds", "C122_returns", "C122_still"], "note": "The clock is read anew for every assignment that has an expiry; answers are right at some instant of the call."},
{"property": "C123", "status": "partial", "theorems": ["C123_granted_refuted", "C123_denied_refuted", "C123_unscoped_partial", "C123_lasting_partial", "C123_bounds", "C123_returns", "C123_still"], "note": "REFUTED in both directions for requests with a scope: the first assignment can be seen unexpired and the second, which outlasts it, expired. Holds for requests without a scope and for calls during which no assignment of the principal runs out; C123_bounds is what holds in general."},
{"property": "C124", "status": "partial", "theorems": ["C124_copies_refuted", "C124_reuse_refuted", "C124_lost_refuted", "C124_decisions_refuted", "C124_search", "C124_write", "C124_written", "C124_untouched_partial"], "note": "REFUTED: the trie keeps and hands out the pointers themselves, so a write to a row that was handed out moves an assignment to another principal and flips decisions; one variable used for two rows loses the first; a changed row is taken away by adding one that reads as it did before. True for every history: exactly what each search returns (C124_search), what one write changes (C124_write, C124_written), and that without writes after AddData the rows are those of the trie of values (C124_untouched_partial)."},
{"property": "C125", "status": "partial", "theorems": ["C125_tenant_refuted", "C125_lost_refuted", "C125_role_refuted", "C125_stale_refuted", "C125_index_refuted", "C125_authorize_partial", "C125_can_partial", "C125_returns_partial", "C125_not_broken_partial", "C125_children"], "note": "REFUTED: a changed tenant id lets principals of another tenant in, or locks everybody out; a changed role name makes Can answer true for a role nobody was given; changed permissions of a role that was resolved before are not seen. Proved: as long as tenant ids are not written to, decisions are exactly those the present contents call for (with the remembered permissions of resolved roles), decisions return, and no write makes holes in the list."},
{"property": "C126", "status": "partial", "theorems": ["C126_inherited_refuted", "C126_order_refuted", "C126_activity_partial", "C126_namespace_partial", "C126_scope_partial", "C126_place_partial"], "note": "REFUTED for activities inherited from a role below (denied although AddDescendent succeeded) and for scopes assigned before the role. Proved for every program containing the calls in the order shown: the role's own activities, the namespace, the scopes and the scope within the namespace are granted. The exact condition, inheritance included, is C109_decisions."},
{"property": "C127", "status": "partial", "theorems": ["C127_scope_refuted", "C127_permission_refuted", "C127_namespace_refuted", "C127_role_refuted", "C127_authorize_partial", "C127_scoped_partial", "C127_can_partial"], "note": "REFUTED in four ways: an additional assignment for a scope (or an additional permission of a role held for that scope) hides the unscoped permissions in requests for the scope; a second namespace in a tenant without a default one makes requests without namespace fail; AddRole with a registered name drops the earlier role. Proved for all other additions (`addition` in V2GrowSpec, including longer expiries and activation of tenants): Can always, Authorize unless the principal asks for a scope they were given an assignment for while also holding unscoped ones."},
{"property": "C128", "status": "partial", "theorems": ["C128_category_refuted", "C128_space_refuted", "C128_collision_exact", "C128_add_partial", "C128_remove_partial", "C128_add_decision_partial", "C128_remove_decision_partial", "C128_add_is_call", "C128_remove_is_call"], "note": "REFUTED: a role keeps resource and action joined by a space, so the category is lost (removing the permission of one category removes that of another) and spaces can move between resource and action. C128_collision_exact says exactly which permissions fall together; all others are proved independent, also in decisions (except for requests for a scope the principal has an assignment for, where the presence of any scoped permission matters, see C127 and C129)."},
{"property": "C129", "status": "partial", "theorems": ["C129_assignment_refuted", "C129_permission_refuted", "C129_time_refuted", "C129_authorize_partial", "C129_scoped_partial", "C129_can_partial"], "note": "REFUTED: permissions held for the scope asked for hide unscoped ones, so removing the scoped assignment or permission, or its running out, lets a request through that was denied. Proved: Can always; Authorize unless the principal asks for a scope they have an assignment for while also holding unscoped ones."},
{"property": "C130", "status": "partial", "theorems": ["C130_inactive_refuted", "C130_default_refuted", "C130_scope_refuted", "C130_default", "C130_can_default", "C130_left_out_partial", "C130_some_tenant", "C130_can_left_out_partial", "C130_can_some_tenant", "C130_namespace", "C130_can_namespace", "C130_no_namespace", "C130_can_no_namespace", "C130_scope_partial", "C130_can_scope"], "note": "REFUTED in three ways: a tenant that is not active still answers when named, but not when left out; with a default tenant the principal's other tenants are not looked at; naming a scope can lose access because scoped permissions hide unscoped ones. Proved: default tenant and default namespace are filled in exactly (the calls are equal, also when they fail); without default the answer is yes exactly if some active tenant says yes; a scope changes nothing for Can, nor for Authorize without an assignment for that scope."},
{"property": "C131", "status": "partial", "theorems": ["C131_scope_refuted", "C131_activity_refuted", "C131_row_refuted", "C131_namespace_partial", "C131_tenant_partial", "C131_activity_partial", "C131_no_tenant"], "note": "REFUTED: with tenant, namespace and scope the namespace is ignored for rows of the principal, so the scope lets somebody in whom the namespace alone does not; activities are never allowed with the tenant alone (C16); rows without tenant (AddData) count only with a scope named. Proved: membership survives leaving out the namespace (scope named) or both; activities survive leaving out scope or namespace if all roles of the principal are given in tenants, and then naming a registered tenant or none makes no difference (so naming one does not restrict, see C14)."},
{"property": "C132", "status": "partial", "theorems": ["C132_row_refuted", "C132_tenant_refuted", "C132_activity_refuted", "C132_somewhere_partial", "C132_activity_partial", "C132_hole"], "note": "REFUTED: with tenant, namespace and scope the rows of anybody count, with less named only the principal's own; a row in a tenant never registered allows its namespace but not the tenant alone; naming a namespace that is not open empties the set of admitted roles, and then every descendant counts, so an activity refused with the tenant alone is allowed with the namespace. Proved: namespace and scope allowed without a tenant are allowed in some tenant, together and each alone; requests with a group survive leaving out namespace and scope if the principal's roles in the tenant have no descendants and the second call returns. C132_hole: this descendant case is the only way a request with a group is lost by naming less."}
]}
