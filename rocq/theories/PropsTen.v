(** Setting root tenants up. *)
From Verif Require Import RootEx TenProofs TenEx TenSpec.

(** C97.  The methods of a tenant that has been given to AddTenant store exactly the rows of their arguments, besides the rows that are there
    already (except those whose place is taken, C08), and change nothing else. *)
Theorem C97_add_namespaces (st : state) (t : nat) (c : tenant_obj) (ns : list string) : reachable st -> s_tenants st !! t = Some c -> t_managed c = true ->
  adds st (map (ns_row (t_id c)) ns) (tenant_add_namespaces st t ns).
Proof. exact (c97_namespaces st t c ns). Qed.
Print Assumptions C97_add_namespaces.
Theorem C97_add_scopes_to_namespace (st : state) (t : nat) (c : tenant_obj) (n s : string) : reachable st -> s_tenants st !! t = Some c -> t_managed c = true ->
  adds st [ns_scope_row (t_id c) n s] (tenant_add_scopes_to_namespace st t n s).
Proof. exact (c97_scopes_to_namespace st t c n s). Qed.
Print Assumptions C97_add_scopes_to_namespace.
Theorem C97_add_principal_in_namespace (st : state) (t : nat) (c : tenant_obj) (p n r : string) : reachable st -> s_tenants st !! t = Some c -> t_managed c = true ->
  adds st [member_row (t_id c) n p r] (tenant_add_principal_in_namespace st t p n r).
Proof. exact (c97_member st t c p n r). Qed.
Print Assumptions C97_add_principal_in_namespace.
Theorem C97_add_roles (st : state) (t : nat) (c : tenant_obj) (rs : list nat) (ids : list string) : reachable st -> s_tenants st !! t = Some c -> t_managed c = true ->
  Forall2 (fun r id => r_id <$> h_roles (s_heap st) !! r = Some id) rs ids -> adds st (map (tenant_role_row (t_id c)) ids) (tenant_add_roles st t rs).
Proof. exact (c97_roles st t c rs ids). Qed.
Print Assumptions C97_add_roles.
Theorem C97_add_scopes (st : state) (t : nat) (c : tenant_obj) (ss : list string) : reachable st -> s_tenants st !! t = Some c -> t_managed c = true ->
  adds st (map (scope_row (t_id c)) ss) (tenant_add_scopes st t ss).
Proof. exact (c97_scopes st t c ss). Qed.
Print Assumptions C97_add_scopes.
(** AddPrincipal and AssignScopesToPrincipal stop at the first unknown role (scope), and tell whether they did. *)
Theorem C97_add_principal (st : state) (t : nat) (c : tenant_obj) (p : string) (md : bool) (rs : list string) : reachable st -> s_tenants st !! t = Some c -> t_managed c = true ->
  let ok := fun r => p ∈ m_principals st /\ is_Some (m_roles st !! r) in
  exists done e, tenant_add_principal st t p md rs = Ok e /\ adds st (done ≫= role_rows c p md) (Ok e.1)
    /\ Forall ok done /\ (rs = done /\ e.2 = None \/ exists r rest, rs = done ++ r :: rest /\ ~ ok r /\ e.2 <> None).
Proof. exact (c97_add_principal st t c p md rs). Qed.
Print Assumptions C97_add_principal.
Theorem C97_assign_scopes (st : state) (t : nat) (c : tenant_obj) (p : string) (md : bool) (ss : list string) : reachable st -> s_tenants st !! t = Some c -> t_managed c = true ->
  let ok := fun s => p ∈ m_principals st /\ s ∈ m_scopes st in
  exists done e, tenant_assign_scopes st t p md ss = Ok e /\ adds st (done ≫= scope_rows c p md) (Ok e.1)
    /\ Forall ok done /\ (ss = done /\ e.2 = None \/ exists s rest, ss = done ++ s :: rest /\ ~ ok s /\ e.2 <> None).
Proof. exact (c97_assign_scopes st t c p md ss). Qed.
Print Assumptions C97_assign_scopes.
Theorem C97_add_data (st : state) (d : data) : reachable st -> adds st [d] (Ok (add_data st d)).
Proof. exact (c97_add_data st d). Qed.
Print Assumptions C97_add_data.
(** C97.  They panic if the tenant has not been given to AddTenant. *)
Theorem C97_no_manager (o : oracle) (st : state) (t : nat) (x : op) : ~ has_manager st t ->
  match x with
  | OTenantAddScopesToNamespace t' _ _ | OTenantSetDefault t' _ | OTenantAddPrincipalInNamespace t' _ _ _ => t' = t
  | OTenantAddNamespaces t' ns => t' = t /\ ns <> []
  | OTenantAddRoles t' rs => t' = t /\ rs <> []
  | OTenantAddScopes t' ss => t' = t /\ ss <> []
  | OTenantAddPrincipal t' _ _ rs => t' = t /\ rs <> []
  | OTenantAssignScopes t' _ _ ss => t' = t /\ ss <> []
  | _ => False
  end -> step o st x = Panic.
Proof. exact (c97_no_manager o st t x). Qed.
Print Assumptions C97_no_manager.
(** C97.  NewTenant creates a tenant without manager, default namespace and descendants.  SetDefaultNamespace sets the default of this tenant only, and only
    to a registered namespace. *)
Theorem C97_new_tenant (st : state) (id : string) : let (l, st') := new_tenant st id in
  s_tenants st !! l = None /\ st' = with_tenant_objs st (s_tenants st')
  /\ s_tenants st' !! l = Some (Tenant id ∅ None false) /\ forall l', l' <> l -> s_tenants st' !! l' = s_tenants st !! l'.
Proof. exact (c97_new_tenant st id). Qed.
Print Assumptions C97_new_tenant.
Theorem C97_set_default (st : state) (t : nat) (c : tenant_obj) (n : string) : s_tenants st !! t = Some c -> t_managed c = true ->
  exists st', tenant_set_default st t n = Ok st' /\ st' = with_tenant_objs st (s_tenants st')
    /\ (forall l, l <> t -> s_tenants st' !! l = s_tenants st !! l)
    /\ exists c', s_tenants st' !! t = Some c' /\ t_id c' = t_id c /\ t_desc c' = t_desc c /\ t_managed c' = true
         /\ (n ∈ m_namespaces st -> t_default c' = Some n) /\ (n ∉ m_namespaces st -> t_default c' = t_default c).
Proof. exact (c97_set_default st t c n). Qed.
Print Assumptions C97_set_default.
(** C97.  AddDescendant links the tenants given, the first of each id that is not linked yet, and passes the default namespace on to all of them … *)
Theorem C97_add_descendant (st : state) (t : nat) (c : tenant_obj) (ds : list nat) :
  reachable st -> s_tenants st !! t = Some c -> (forall d, d ∈ ds -> is_Some (s_tenants st !! d)) -> (t_default c <> None -> forall d, d ∈ ds -> has_manager st d) ->
  exists st', tenant_add_descendants st t ds = Ok st' /\ rows_only (with_tenant_objs st (s_tenants st')) st'
    /\ rows_added st (passed_rows st (t_default c) ds) st'
    /\ forall l, match s_tenants st !! l, s_tenants st' !! l with
                 | Some x, Some y => after_linking st t (t_default c) ds l x y
                 | None, None => True
                 | _, _ => False
                 end.
Proof. exact (c97_add_descendant st t c ds). Qed.
Print Assumptions C97_add_descendant.
(** … and panics if one of them is nil, or there is a default namespace and one of them has not been given to AddTenant. *)
Theorem C97_add_descendant_panics (st : state) (t : nat) (ds : list nat) : reachable st -> ds <> [] ->
  ~ ((exists c, s_tenants st !! t = Some c /\ (t_default c <> None -> forall d, d ∈ ds -> has_manager st d)) /\ forall d, d ∈ ds -> is_Some (s_tenants st !! d)) ->
  tenant_add_descendants st t ds = Panic.
Proof. exact (c97_add_descendant_panics st t ds). Qed.
Print Assumptions C97_add_descendant_panics.
Example C97_ex : reachable (ops_state w97_ops) /\ has_manager (ops_state w97_ops) 0 /\ ~ has_manager (ops_state w97_ops) 3
  /\ Forall (fun d => stored (w97_after (OTenantAddNamespaces 0 ["it"])) d) [ns_row "acme" "hr"; ns_row "acme" "it"]
  /\ default_at (w97_after (OTenantSetDefault 1 "it")) 1 = Some (Some "it") /\ default_at (w97_after (OTenantSetDefault 1 "none")) 1 = Some None
  /\ (let st := w97_after (OTenantAddDescendant 0 [2; 1]) in
      links_at st 0 = Some [("branch", 2)] /\ default_at st 1 = Some (Some "hr") /\ default_at st 2 = Some (Some "hr") /\ stored st (ns_row "branch" "hr"))
  /\ step id_oracle (ops_state w97_ops) (OTenantAddDescendant 0 [1; 3]) = Panic.
Proof. exact c97_ex. Qed.

(** C98.  A default namespace set after AddDescendant does not reach the descendants … *)
Theorem C98_set_later_refuted : exists st t d n st', reachable st /\ tenant_edge st t d /\ tenant_set_default st t n = Ok st'
  /\ default_at st' t = Some (Some n) /\ default_at st' d = Some None.
Proof. exact c98_refuted. Qed.
Print Assumptions C98_set_later_refuted.
(** … and one set before does not reach the descendants of the descendants. *)
Theorem C98_below_refuted : exists st t d e n st', reachable st /\ tenant_edge st d e /\ default_at st t = Some (Some n)
  /\ tenant_add_descendants st t [d] = Ok st' /\ tenant_edge st' t d /\ tenant_edge st' d e /\ default_at st' d = Some (Some n) /\ default_at st' e = Some None.
Proof. exact c98_below_refuted. Qed.
Print Assumptions C98_below_refuted.
(** C98.  SetDefaultNamespace never reaches another tenant. *)
Theorem C98_set_later (st : state) (t : nat) (n : string) (st' : state) (d : nat) (y : tenant_obj) :
  tenant_set_default st t n = Ok st' -> d <> t -> s_tenants st' !! d = Some y -> s_tenants st !! d = Some y.
Proof. exact (c98_set_later st t n st' d y). Qed.
Print Assumptions C98_set_later.
(** C98.  The default namespace a tenant has when AddDescendant is called becomes the default of the tenants given, whatever default they have had, and is stored as one of
    their namespaces. *)
Theorem C98_passed_partial (st : state) (t : nat) (c : tenant_obj) (m : string) (ds : list nat) (st' : state) (d : nat) (y : tenant_obj) :
  reachable st -> s_tenants st !! t = Some c -> t_default c = Some m -> tenant_add_descendants st t ds = Ok st' ->
  d ∈ ds -> s_tenants st' !! d = Some y -> t_default y = Some m /\ stored st' (ns_row (t_id y) m).
Proof. exact (c98_passed st t c m ds st' d y). Qed.
Print Assumptions C98_passed_partial.
Example C98_ex : reachable (ops_state w97_ops) /\ default_at (ops_state w97_ops) 0 = Some (Some "hr") /\ default_at (ops_state w97_ops) 2 = Some (Some "it")
  /\ exists st', tenant_add_descendants (ops_state w97_ops) 0 [2; 1] = Ok st' /\ default_at st' 2 = Some (Some "hr").
Proof. exact c98_ex. Qed.

(** C99.  Rows may name things nobody has registered … *)
Theorem C99_named_refuted : exists st d, reachable st /\ stored st d /\ ~ names_registered st d.
Proof. exact c99_refuted. Qed.
Print Assumptions C99_named_refuted.
(** … and they count as soon as somebody registers a thing of that name: eve, whom nobody has registered, is refused; registering eve is enough for a yes. *)
Theorem C99_later_refuted : exists st p q, reachable st /\ p ∉ m_principals st /\ (forall b, may_answer st p q b -> b = false)
  /\ may_answer (add_principal st p) p q true.
Proof. exact c99_later_refuted. Qed.
Print Assumptions C99_later_refuted.
(** C99.  It holds if only calls are made that look at the registers … *)
Theorem C99_checked_partial (o : oracle) (ops : list op) (st : state) (outs : list out) (d : data) :
  run o 0 init_state ops = Ok (st, outs) -> Forall (fun x => ~ unchecked x) ops -> stored st d -> names_registered st d.
Proof. exact (c99_checked o ops st outs d). Qed.
Print Assumptions C99_checked_partial.
(** … and for the rows with a ManageDescendants flag if AddData is not called. *)
Theorem C99_flagged_partial (o : oracle) (ops : list op) (st : state) (outs : list out) (d : data) :
  run o 0 init_state ops = Ok (st, outs) -> Forall (fun x => forall e, x <> OAddData e) ops -> stored st d -> manage d <> ANil -> names_registered st d.
Proof. exact (c99_flagged o ops st outs d). Qed.
Print Assumptions C99_flagged_partial.
(** C99.  A tenant with a manager is registered, or another one of its id is. *)
Theorem C99_tenants (st : state) : reachable st -> forall l c, s_tenants st !! l = Some c -> t_managed c = true -> registered_tenant st (t_id c).
Proof. exact (managed_registered st). Qed.
Print Assumptions C99_tenants.
Example C99_ex : exists st outs, run id_oracle 0 init_state w99b_ops = Ok (st, outs) /\ Forall (fun x => ~ unchecked x) w99b_ops
  /\ stored st (Data (AStr "acme") (AStr "hr") ANil (AStr "ann") (AStr "clerk") (ABool false)).
Proof. exact c99_ex. Qed.

(** C100.  The order of grants may matter: the same two calls, both told that all went well, leave ann without any right in one order and with rights in the other. *)
Theorem C100_order_refuted : exists st ops1 ops2 st1 outs1 st2 outs2 p q, reachable st /\ Forall only_stores ops1 /\ ops2 ≡ₚ ops1
  /\ run id_oracle 0 st ops1 = Ok (st1, outs1) /\ run id_oracle 0 st ops2 = Ok (st2, outs2) /\ outs1 = [RErr None; RErr None] /\ outs2 = [RErr None; RErr None]
  /\ (forall b, may_answer st1 p q b -> b = false) /\ may_answer st2 p q true.
Proof. exact c100_refuted. Qed.
Print Assumptions C100_order_refuted.
(** It matters for every two different rows that share a place. *)
Theorem C100_clash (st : state) (d d' : data) : reachable st -> clash d d' -> d <> d' ->
  stored (with_rows st [d; d']) d' /\ ~ stored (with_rows st [d; d']) d.
Proof. exact (c100_clash st d d'). Qed.
Print Assumptions C100_clash.
(** C100.  In whatever order the calls are made, they return the same and differ in nothing but the rows … *)
Theorem C100_returns (o : oracle) (i : nat) (st : state) (ops1 ops2 : list op) (st1 : state) (outs1 : list out) (o' : oracle) (i' : nat) :
  Forall only_stores ops1 -> run o i st ops1 = Ok (st1, outs1) -> ops2 ≡ₚ ops1 ->
  exists st2 outs2, run o' i' st ops2 = Ok (st2, outs2) /\ rows_only st1 st2 /\ zip ops2 outs2 ≡ₚ zip ops1 outs1.
Proof. exact (c100_runs o i st ops1 ops2 st1 outs1 o' i'). Qed.
Print Assumptions C100_returns.
(** … they leave the same rows if the rows they store do not share places … *)
Theorem C100_rows_partial (o : oracle) (i : nat) (st : state) (ops1 ops2 : list op) (st1 : state) (outs1 : list out) (o' : oracle) (i' : nat) (st2 : state) (outs2 : list out) (d : data) :
  reachable st -> Forall only_stores ops1 -> apart st ops1 ->
  run o i st ops1 = Ok (st1, outs1) -> ops2 ≡ₚ ops1 -> run o' i' st ops2 = Ok (st2, outs2) -> stored st1 d <-> stored st2 d.
Proof. exact (c100_rows o i st ops1 ops2 st1 outs1 o' i' st2 outs2 d). Qed.
Print Assumptions C100_rows_partial.
(** … and then decisions about a principal whose tenants do not depend on the order in which the rows are met are the same. *)
Theorem C100_answers_partial (o : oracle) (i : nat) (st : state) (ops1 ops2 : list op) (st1 : state) (outs1 : list out) (o' : oracle) (i' : nat) (st2 : state) (outs2 : list out)
    (p : string) (q : opts) (b1 b2 : bool) :
  reachable st -> Forall only_stores ops1 -> apart st ops1 ->
  run o i st ops1 = Ok (st1, outs1) -> ops2 ≡ₚ ops1 -> run o' i' st ops2 = Ok (st2, outs2) -> settled st1 [] p ->
  may_answer st1 p q b1 -> may_answer st2 p q b2 -> b1 = b2.
Proof. exact (c100_answers o i st ops1 ops2 st1 outs1 o' i' st2 outs2 p q b1 b2). Qed.
Print Assumptions C100_answers_partial.
Example C100_ex : reachable (ops_state e100_ops) /\ Forall only_stores e100_ops1 /\ e100_ops2 ≡ₚ e100_ops1 /\ apart (ops_state e100_ops) e100_ops1
  /\ (exists outs1, run id_oracle 0 (ops_state e100_ops) e100_ops1 = Ok (then_state (ops_state e100_ops) e100_ops1, outs1))
  /\ settled (then_state (ops_state e100_ops) e100_ops1) [] "ann"
  /\ may_answer (then_state (ops_state e100_ops) e100_ops1) "ann" (Opts (AStr "acme") ANil (AStr "s") ANil ANil) true
  /\ may_answer (then_state (ops_state e100_ops) e100_ops2) "ann" (Opts (AStr "acme") ANil (AStr "s") ANil ANil) true.
Proof. exact c100_ex. Qed.
