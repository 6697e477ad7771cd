(** Properties of package v1. *)
From Verif Require Import V1Model V1Spec V1IsoSpec V1Slice.
From Verif Require Import V1Inv V1Ex.

(** ** C44: assignments are stored as strings joined with underscores *)

(** What the readers return: all and only the stored assignments, as read back from their strings. *)
Theorem C44_readers (o : oracle) (st : ustate) (t p : string) : ureachable st ->
  gives (get_principal_roles o st t p) (member st p t)
  /\ gives (get_tenant_roles o st t) (fun a => assigned st a /\ tp_tenant a = t)
  /\ gives (get_tenants_for_principal o st p) (fun x => exists a, member st p x a).
Proof. exact (c44_reads o st t p). Qed.
Print Assumptions C44_readers.
(** The property fails: an assignment of "x_y" is not returned for "x_y"; and giving some principal a reader role
    makes another one a writer. *)
Theorem C44_roundtrip_refuted :
  (exists st st' x, ureachable st /\ row_for st "x_y" "reader" 0 None None [] x
     /\ ustep id_oracle st (UAddPrincipalRole "x_y" "reader" 0 None None []) = Ok (st', YUnit)
     /\ forall o rows, get_principal_roles o st' (tp_tenant x) "x_y" = Ok rows -> x ∉ rows)
  /\ (exists st st', ureachable st /\ u_authorize id_oracle st "ann" (q_put ANil ANil) = Ok false
     /\ ustep id_oracle st (UAddPrincipalRole w44 "reader" 0 None None []) = Ok (st', YUnit)
     /\ u_authorize id_oracle st' "ann" (q_put ANil ANil) = Ok true).
Proof. exact c44_refuted. Qed.
Print Assumptions C44_roundtrip_refuted.
(** Different assignments may be stored as one. *)
Theorem C44_injective_refuted : exists a b, a <> b /\ row_string a = row_string b.
Proof. exact c44_collision. Qed.
Print Assumptions C44_injective_refuted.
(** An assignment is returned exactly when none of its identifiers contains an underscore. *)
Theorem C44_roundtrip_exact (o o' : oracle) (st : ustate) (p r : string) (t : nat) (ns : option nat) (s : option string)
    (m : list bool) (st' : ustate) (y : uout) (x : trow) :
  ureachable st -> row_for st p r t ns s m x ->
  ustep o st (UAddPrincipalRole p r t ns s m) = Ok (st', y) ->
  exists rows, get_principal_roles o' st' (tp_tenant x) p = Ok rows /\ (x ∈ rows <-> clean_row x).
Proof. exact (c44_exact o o' st p r t ns s m st' y x). Qed.
Print Assumptions C44_roundtrip_exact.
(** Without underscores the store behaves as a set of assignments. *)
Theorem C44_roundtrip_partial (o o' : oracle) (st : ustate) (p r : string) (t : nat) (ns : option nat) (s : option string)
    (m : list bool) (st' : ustate) (y : uout) (x : trow) (t' p' : string) :
  ureachable st -> row_for st p r t ns s m x -> clean_row x ->
  ustep o st (UAddPrincipalRole p r t ns s m) = Ok (st', y) ->
  gives (get_principal_roles o' st' t' p') (fun a => member st p' t' a \/ (a = x /\ p' = p /\ t' = tp_tenant x)).
Proof. exact (c44_clean o o' st p r t ns s m st' y x t' p'). Qed.
Print Assumptions C44_roundtrip_partial.
(** Every assignment to a principal "q_..." is read as one of the principal q. *)
Theorem C44_hole (o o' : oracle) (st : ustate) (p r : string) (t : nat) (ns : option nat) (s : option string)
    (m : list bool) (st' : ustate) (y : uout) (q rest : string) :
  ureachable st -> clean q -> p = under q rest ->
  ustep o st (UAddPrincipalRole p r t ns s m) = Ok (st', y) ->
  exists b rows, tp_principal b = q /\ get_principal_roles o' st' (tp_tenant b) q = Ok rows /\ b ∈ rows.
Proof. exact (c44_hole o o' st p r t ns s m st' y q rest). Qed.
Print Assumptions C44_hole.
Example C44_ex : exists st st' x, ureachable st /\ row_for st "cat" "reader" 0 None (Some "s1") [false] x /\ clean_row x
  /\ ustep id_oracle st (UAddPrincipalRole "cat" "reader" 0 None (Some "s1") [false]) = Ok (st', YUnit)
  /\ get_principal_roles id_oracle st' "acme" "cat" = Ok [x].
Proof. exact c44_ex. Qed.

(** ** C45: readers do not crash on what was stored *)
Theorem C45_readers_return (o : oracle) (st : ustate) (t p : string) : ureachable st ->
  (exists l, get_principal_roles o st t p = Ok l) /\ (exists l, get_tenant_roles o st t = Ok l)
  /\ (exists l, get_tenants_for_principal o st p = Ok l) /\ (exists l, get_implicit_principal_roles o st t p = Ok l)
  /\ (exists l, get_scopes_for_principal o st p = Ok l) /\ (exists l, get_tenant_scopes_for_principal o st t p = Ok l).
Proof. exact (c45_readers o st t p). Qed.
Print Assumptions C45_readers_return.
(** Any string AddPrincipalRole stores can be read, whatever the identifiers. *)
Theorem C45_parse_total (a : trow) : exists b, row_parse (row_string a) = Ok b.
Proof. exact (c45_total a). Qed.
Print Assumptions C45_parse_total.

(** ** C46: decisions without group and activity, exactly *)
Theorem C46_unknown_principal (o : oracle) (st : ustate) (p : string) (q : uopts) :
  ~ known st p -> u_authorize o st p q = Ok false.
Proof. exact (unknown_denied o st p q). Qed.
Print Assumptions C46_unknown_principal.
Theorem C46_tenant (o : oracle) (st : ustate) (p : string) (t : any) (H : ureachable st) (Hp : known st p) (Ht : t <> ANil) :
  exists b, u_authorize o st p (UOpts t ANil ANil ANil ANil) = Ok b
    /\ (b = true <-> exists c, utenant_is st (to_string t) c).
Proof. exact (only_tenant o st p t Hp Ht (ureachable_wf st H)). Qed.
Print Assumptions C46_tenant.
Theorem C46_namespace (o : oracle) (st : ustate) (p : string) (n : any) (H : ureachable st) (Hp : known st p) (Hn : n <> ANil) :
  exists b, u_authorize o st p (UOpts ANil n ANil ANil ANil) = Ok b
    /\ (b = true <-> exists t c m a, member st p t a /\ utenant_is st t c /\ has_namespace st c (to_string n) m).
Proof. exact (only_namespace o st p n Hp Hn (ureachable_wf st H)). Qed.
Print Assumptions C46_namespace.
Theorem C46_scope (o : oracle) (st : ustate) (p : string) (s : any) (H : ureachable st) (Hp : known st p) (Hs : s <> ANil) :
  exists b, u_authorize o st p (UOpts ANil ANil s ANil ANil) = Ok b
    /\ (b = true <-> exists t c a, member st p t a /\ tp_scope a = to_string s
                        /\ utenant_is st t c /\ to_string s ∈ ut_scopes c).
Proof. exact (only_scope o st p s Hp Hs (ureachable_wf st H)). Qed.
Print Assumptions C46_scope.
Theorem C46_tenant_namespace (o : oracle) (st : ustate) (p : string) (t n : any) (H : ureachable st) (Hp : known st p)
    (Ht : t <> ANil) (Hn : n <> ANil) :
  exists b, u_authorize o st p (UOpts t n ANil ANil ANil) = Ok b
    /\ (b = true <-> exists a, member st p (to_string t) a /\ tp_ns a = to_string n).
Proof. exact (tenant_namespace o st p t n Hp Ht Hn (ureachable_wf st H)). Qed.
Print Assumptions C46_tenant_namespace.
Theorem C46_tenant_scope (o : oracle) (st : ustate) (p : string) (t s : any) (H : ureachable st) (Hp : known st p)
    (Ht : t <> ANil) (Hs : s <> ANil) :
  exists b, u_authorize o st p (UOpts t ANil s ANil ANil) = Ok b
    /\ (b = true <-> exists a, member st p (to_string t) a /\ tp_scope a = to_string s).
Proof. exact (tenant_scope o st p t s Hp Ht Hs (ureachable_wf st H)). Qed.
Print Assumptions C46_tenant_scope.
Theorem C46_namespace_scope (o : oracle) (st : ustate) (p : string) (n s : any) (H : ureachable st) (Hp : known st p)
    (Hn : n <> ANil) (Hs : s <> ANil) :
  exists b, u_authorize o st p (UOpts ANil n s ANil ANil) = Ok b
    /\ (b = true <-> exists a, assigned st a /\ tp_principal a = p /\ tp_ns a = to_string n /\ tp_scope a = to_string s).
Proof. exact (namespace_scope o st p n s Hp Hn Hs (ureachable_wf st H)). Qed.
Print Assumptions C46_namespace_scope.
(** Note: no condition on the principal. *)
Theorem C46_tenant_namespace_scope (o : oracle) (st : ustate) (p : string) (t n s : any) (H : ureachable st) (Hp : known st p)
    (Ht : t <> ANil) (Hn : n <> ANil) (Hs : s <> ANil) :
  exists b, u_authorize o st p (UOpts t n s ANil ANil) = Ok b
    /\ (b = true <-> exists a, assigned st a /\ tp_tenant a = to_string t /\ tp_ns a = to_string n /\ tp_scope a = to_string s).
Proof. exact (tenant_namespace_scope o st p t n s Hp Ht Hn Hs (ureachable_wf st H)). Qed.
Print Assumptions C46_tenant_namespace_scope.
Example C46_ex : exists st, ureachable st /\ known st "ann"
  /\ u_authorize id_oracle st "ann" (q_place ANil (AStr "eng") ANil) = Ok true
  /\ u_authorize id_oracle st "bob" (q_place ANil (AStr "eng") ANil) = Ok false
  /\ u_authorize id_oracle st "ann" (q_place ANil ANil (AStr "s1")) = Ok true
  /\ u_authorize id_oracle st "ann" (q_place ANil ANil (AStr "s2")) = Ok false
  /\ u_authorize id_oracle st "ann" (q_place (AStr "acme") (AStr "eng") ANil) = Ok true
  /\ u_authorize id_oracle st "ann" (q_place (AStr "acme") (AStr "ops") ANil) = Ok false
  /\ u_authorize id_oracle st "ann" (q_place (AStr "acme") ANil (AStr "s1")) = Ok true
  /\ u_authorize id_oracle st "ann" (q_place (AStr "acme") ANil (AStr "s2")) = Ok false
  /\ u_authorize id_oracle st "ann" (q_place ANil (AStr "eng") (AStr "s1")) = Ok true
  /\ u_authorize id_oracle st "bob" (q_place ANil (AStr "eng") (AStr "s1")) = Ok false
  /\ u_authorize id_oracle st "ann" (q_place (AStr "acme") (AStr "eng") (AStr "s1")) = Ok true
  /\ u_authorize id_oracle st "ann" (q_place (AStr "acme") (AStr "eng") (AStr "s2")) = Ok false
  /\ u_authorize id_oracle st "ann" (q_place (AStr "nope") ANil ANil) = Ok false.
Proof. exact c46_ex. Qed.

(** ** C47: with only a tenant no assignment is needed *)
Theorem C47_tenant_membership_refuted : exists st, ureachable st /\ known st "bob" /\ (forall a, ~ member st "bob" "acme" a)
  /\ u_authorize id_oracle st "bob" (UOpts (AStr "acme") ANil ANil ANil ANil) = Ok true.
Proof. exact c47_refuted. Qed.
Print Assumptions C47_tenant_membership_refuted.
(** Every known principal is authorized for every registered tenant. *)
Theorem C47_hole (o : oracle) (st : ustate) (p : string) (t : any) :
  ureachable st -> known st p -> t <> ANil -> (exists c, utenant_is st (to_string t) c) ->
  u_authorize o st p (UOpts t ANil ANil ANil ANil) = Ok true.
Proof. exact (c47_hole o st p t). Qed.
Print Assumptions C47_hole.
(** Membership is needed as soon as the request also names a group or an activity, or one of namespace and scope (but
    not both, see C49). *)
Theorem C47_tenant_membership_partial (o : oracle) (st : ustate) (p : string) (q : uopts) :
  ureachable st -> known st p -> uo_tenant q <> ANil ->
  (uo_namespace q = ANil -> uo_scope q = ANil -> uo_group q = ANil -> uo_activity q <> ANil) ->
  (uo_namespace q <> ANil -> uo_scope q <> ANil -> uo_group q = ANil -> uo_activity q <> ANil) ->
  u_authorize o st p q = Ok true -> exists a, member st p (to_string (uo_tenant q)) a.
Proof. exact (c47_member o st p q). Qed.
Print Assumptions C47_tenant_membership_partial.

(** ** C48: namespaces and scopes do not restrict a role's own permissions *)

(** No role is allowed in the namespace and scope, and ann is granted access; only writers are allowed in the
    namespace, and ann is granted access because she is a reader. *)
Theorem C48_restrictions_refuted :
  (exists st, ureachable st /\ known st "ann" /\ (exists c, utenant_is st "acme" c)
     /\ (forall c r, utenant_is st "acme" c -> ~ allowed_role st c "ann" "acme" "eng" "s2" r)
     /\ u_authorize id_oracle st "ann" (q_get (AStr "eng") (AStr "s2")) = Ok true)
  /\ (exists st, ureachable st /\ known st "ann" /\ (exists c, utenant_is st "acme" c)
     /\ (forall c r, utenant_is st "acme" c -> (allowed_role st c "ann" "acme" "eng" "s1" r <-> r = "writer"))
     /\ u_authorize id_oracle st "ann" (q_get (AStr "eng") (AStr "s1")) = Ok true
     /\ u_authorize id_oracle st "ann" (q_put (AStr "eng") (AStr "s1")) = Ok false).
Proof. exact c48_refuted. Qed.
Print Assumptions C48_restrictions_refuted.
(** What is decided, exactly: the namespace and scope must be the tenant's; the allowed roles only select which
    descendants of the assigned roles count, and if none is allowed all descendants count. *)
Theorem C48_exact (o : oracle) (st : ustate) (p : string) (q : uopts) (b : bool) (H : ureachable st) (Hp : known st p)
    (Hq : complex_request q) :
  u_authorize o st p q = Ok b ->
  (b = true <-> complex_grants st p (to_string (uo_tenant q)) (to_string (uo_namespace q)) (to_string (uo_scope q))
                  (to_string (uo_group q)) (to_string (uo_activity q))).
Proof. exact (complex_exact o st p q b (ureachable_wf st H) Hp Hq). Qed.
Print Assumptions C48_exact.
(** A role's own permissions are granted in every namespace and scope of the tenant. *)
Theorem C48_hole (o : oracle) (st : ustate) (p : string) (t n s grp act : any) (c : utenant) (a : trow) (l : nat)
    (g : group) (b : bool) :
  ureachable st -> known st p -> grp <> ANil ->
  utenant_is st (to_string t) c -> place_exists st c (to_string n) (to_string s) ->
  member st p (to_string t) a -> u_roles st !! tp_role a = Some l -> owns (u_heap st) l (to_string grp) g ->
  offers g (to_string act) ->
  u_authorize o st p (UOpts t n s grp act) = Ok b -> b = true.
Proof. exact (c48_hole o st p t n s grp act c a l g b). Qed.
Print Assumptions C48_hole.
(** Such calls never panic, and return unless a role's descendants form a cycle or a pattern makes matching loop. *)
Theorem C48_no_panic (o : oracle) (st : ustate) (p : string) (q : uopts) (H : ureachable st) (Hp : known st p)
    (Hq : complex_request q) : u_authorize o st p q <> Panic.
Proof. exact (complex_no_panic o st p q (ureachable_wf st H) Hp Hq). Qed.
Print Assumptions C48_no_panic.
Theorem C48_returns (o : oracle) (st : ustate) (p : string) (q : uopts) (H : ureachable st) (Hp : known st p)
    (Hq : complex_request q) :
  (forall a, member st p (to_string (uo_tenant q)) a ->
     terminating st (tp_role a) (to_string (uo_group q)) (to_string (uo_activity q))) ->
  exists b, u_authorize o st p q = Ok b.
Proof. exact (complex_returns o st p q (ureachable_wf st H) Hp Hq). Qed.
Print Assumptions C48_returns.

(** ** C49: with tenant, namespace and scope anybody's assignment counts *)
Theorem C49_isolation_refuted : exists st, ureachable st /\ known st "bob"
  /\ (forall a p, member st p "acme" a -> p = "bob" \/ p = "" -> False)
  /\ u_authorize id_oracle st "bob" (UOpts (AStr "acme") (AStr "eng") (AStr "s1") ANil ANil) = Ok true.
Proof. exact c49_refuted. Qed.
Print Assumptions C49_isolation_refuted.
(** True if no third principal has an assignment there (what is decided in general: C46_tenant_namespace_scope). *)
Theorem C49_isolation_partial (o : oracle) (st : ustate) (p : string) (t n s : any) :
  ureachable st -> known st p -> t <> ANil -> n <> ANil -> s <> ANil ->
  (forall a, assigned st a -> tp_tenant a = to_string t -> tp_ns a = to_string n -> tp_scope a = to_string s ->
     tp_principal a = p \/ tp_principal a = "") ->
  u_authorize o st p (UOpts t n s ANil ANil) = Ok true ->
  exists a, assigned st a /\ (tp_principal a = p \/ tp_principal a = "") /\ tp_tenant a = to_string t
    /\ tp_ns a = to_string n /\ tp_scope a = to_string s.
Proof. exact (c49_partial o st p t n s). Qed.
Print Assumptions C49_isolation_partial.

(** ** C50: results of GetAllowedRoles are overwritten by later calls *)
Theorem C50_stable_refuted : exists ust rows1 rows2 w1 w2 st1 st2 r1 r2 picks1 picks2, ureachable ust
  /\ get_principal_roles id_oracle ust "acme" "ann" = Ok rows1 /\ slice_work id_oracle ust rows1 "" "" = Ok w1
  /\ get_principal_roles id_oracle ust "acme" "bob" = Ok rows2 /\ slice_work id_oracle ust rows2 "" "" = Ok w2
  /\ sl_call sl_init picks1 w1 = (st1, r1) /\ sl_read st1 r1 = Some ["reader"]
  /\ sl_call st1 picks2 w2 = (st2, r2) /\ sl_read st2 r1 = Some ["writer"].
Proof. exact c50_refuted. Qed.
Print Assumptions C50_stable_refuted.
(** The calls do the work of GetAllowedRoles. *)
Theorem C50_same_work (o : oracle) (ust : ustate) (rows : list trow) (n s : string) :
  get_allowed_roles o ust (Some rows) n s
  = let! w := slice_work o ust rows n s in Ok (if sw_returns w then Some (compact_adjacent (sw_allowed w)) else None).
Proof. exact (slice_work_ok o ust rows n s). Qed.
Print Assumptions C50_same_work.
(** Right after the call the result is right. *)
Theorem C50_fresh (st : slstate) (picks : option nat * option nat * option nat * option nat) (w : slwork) (st' : slstate)
    (r : option (nat * nat)) :
  sl_reachable st -> sl_call st picks w = (st', r) ->
  sl_read st' r = (if sw_returns w then Some (compact_adjacent (sw_allowed w)) else None).
Proof. exact (c50_fresh st picks w st' r). Qed.
Print Assumptions C50_fresh.
(** It stays so as long as no later call takes its array from the pool. *)
Theorem C50_stable_partial (st : slstate) (cs : list slcmd) (st' : slstate) (rs : list (option (nat * nat))) (l k : nat) :
  sl_reachable st -> l < length (sl_arrays st) -> never_taken st cs l ->
  sl_run st cs = (st', rs) -> sl_read st' (Some (l, k)) = sl_read st (Some (l, k)).
Proof. exact (c50_stays st cs st' rs l k). Qed.
Print Assumptions C50_stable_partial.
(** But the very next call may take it, and then the first role of a non-empty result becomes that of the next one. *)
Theorem C50_hole (st : slstate) (picks : option nat * option nat * option nat * option nat) (w : slwork) (st1 : slstate)
    (l k : nat) (w' : slwork) (v : string) (vs : list string) (x : string) (xs : list string) :
  sl_reachable st -> sl_call st picks w = (st1, Some (l, k)) ->
  sl_read st1 (Some (l, k)) = Some (v :: vs) -> sw_allowed w' = x :: xs ->
  exists picks', forall st2 r, sl_call st1 picks' w' = (st2, r) -> exists ys, sl_read st2 (Some (l, k)) = Some (x :: ys).
Proof. exact (c50_next_call st picks w st1 l k w' v vs x xs). Qed.
Print Assumptions C50_hole.
Example C50_ex : exists st1 st2 r1 r2, sl_call sl_init new4 ann_work = (st1, r1) /\ sl_call st1 new4 bob_work = (st2, r2)
  /\ sl_read st2 r1 = Some ["reader"] /\ sl_read st2 r2 = Some ["writer"].
Proof. exact c50_ex. Qed.

(** ** C56: what the tenant methods write *)
Theorem C56_add_principal (o : oracle) (st : ustate) (t : nat) (c : utenant) (p : string) (rs : list string) (st' : ustate) (y : uout) :
  ureachable st -> u_tenants st !! t = Some c -> ustep o st (UTAddPrincipal t p rs) = Ok (st', y) ->
  adds st (fun a => exists r, r ∈ rs /\ r ∈ ut_roles c /\ exists n, in_default st c n /\ a = TRow p r (ut_id c) n "" true) st'.
Proof. exact (c56_add_principal o st t c p rs st' y). Qed.
Print Assumptions C56_add_principal.
Theorem C56_add_principal_in_namespace (o : oracle) (st : ustate) (t : nat) (c : utenant) (p ns : string) (l : nat)
    (m : unamespace) (rs : list string) (st' : ustate) (y : uout) :
  ureachable st -> u_tenants st !! t = Some c -> ut_namespaces c !! ns = Some l -> u_nss st !! l = Some m ->
  ustep o st (UTAddPrincipalInNamespace t p ns rs) = Ok (st', y) ->
  adds st (fun a => exists r, a = TRow p r (ut_id c) (un_id m) "" true /\
      match rs with
      | [] => r = "" \/ exists b, member st p (ut_id c) b /\ tp_ns b <> "" /\ tp_ns b <> ns /\ tp_role b = r
      | _ => r ∈ rs /\ r ∈ ut_roles c
      end) st'.
Proof. exact (c56_add_principal_in_namespace o st t c p ns l m rs st' y). Qed.
Print Assumptions C56_add_principal_in_namespace.
Theorem C56_assign_scopes (o : oracle) (st : ustate) (t : nat) (c : utenant) (p : string) (ss : list string) (st' : ustate) (y : uout) :
  ureachable st -> u_tenants st !! t = Some c -> ustep o st (UTAssignScopes t p ss) = Ok (st', y) ->
  adds st (fun a => exists b, member st p (ut_id c) b /\ exists s, s ∈ ss /\ s ∈ ut_scopes c /\
      (a = TRow p "" (ut_id c) "" s true
       \/ exists n, in_default st c n /\ a = TRow p (tp_role b) (ut_id c) n s true)) st'.
Proof. exact (c56_assign_scopes o st t c p ss st' y). Qed.
Print Assumptions C56_assign_scopes.
Theorem C56_assign_scopes_with_role (o : oracle) (st : ustate) (t : nat) (c : utenant) (p r : string) (ss : list string)
    (st' : ustate) (y : uout) :
  ureachable st -> u_tenants st !! t = Some c -> ustep o st (UTAssignScopesWithRole t p r ss) = Ok (st', y) ->
  adds st (fun a => (exists b, member st p (ut_id c) b) /\ r ∈ ut_roles c /\ exists s, s ∈ ss /\ s ∈ ut_scopes c /\
      exists n, in_default st c n /\ a = TRow p r (ut_id c) n s true) st'.
Proof. exact (c56_assign_scopes_with_role o st t c p r ss st' y). Qed.
Print Assumptions C56_assign_scopes_with_role.
(** The methods on namespaces stop at the first scope (role) the tenant does not have. *)
Theorem C56_add_scopes_to_namespace (o : oracle) (st : ustate) (t : nat) (c : utenant) (ns : string) (l : nat)
    (m : unamespace) (ss : list string) (st' : ustate) (y : uout) :
  u_tenants st !! t = Some c -> ut_namespaces c !! ns = Some l -> u_nss st !! l = Some m ->
  ustep o st (UTAddScopesToNamespace t ns ss) = Ok (st', y) ->
  exists pre, accepted (ut_scopes c) ss pre
    /\ ns_changed st l (UNamespace (un_id m) (un_roles m) (list_to_set pre ∪ un_scopes m))
         (fun a => exists s, s ∈ pre /\ a = TRow "" "" (ut_id c) (un_id m) s true) st'.
Proof. exact (c56_add_scopes_to_namespace o st t c ns l m ss st' y). Qed.
Print Assumptions C56_add_scopes_to_namespace.
Theorem C56_add_roles_to_namespace (o : oracle) (st : ustate) (t : nat) (c : utenant) (ns : string) (l : nat)
    (m : unamespace) (rs : list string) (st' : ustate) (y : uout) :
  u_tenants st !! t = Some c -> ut_namespaces c !! ns = Some l -> u_nss st !! l = Some m ->
  ustep o st (UTAddRolesToNamespace t ns rs) = Ok (st', y) ->
  exists pre, accepted (ut_roles c) rs pre
    /\ st' = u_set_ns st l (UNamespace (un_id m) (list_to_set pre ∪ un_roles m) (un_scopes m)).
Proof. exact (c56_add_roles_to_namespace o st t c ns l m rs st' y). Qed.
Print Assumptions C56_add_roles_to_namespace.
Example C56_ex : exists st st1 st2 st3,
  ureachable st
  /\ ustep id_oracle st (UTAddPrincipal 0 "bob" ["writer"; "nope"]) = Ok (st1, YUnit)
  /\ ustep id_oracle st1 (UTAssignScopes 0 "bob" ["s1"; "s9"]) = Ok (st2, YUnit)
  /\ ustep id_oracle st2 (UTAddScopesToNamespace 0 "eng" ["s2"; "s9"; "s1"]) = Ok (st3, YUnit)
  /\ (exists rows, get_principal_roles id_oracle st1 "acme" "bob" = Ok rows /\ length rows = 2)
  /\ (exists rows, get_principal_roles id_oracle st2 "acme" "bob" = Ok rows /\ length rows = 5)
  /\ (exists rows, get_principal_roles id_oracle st3 "acme" "" = Ok rows /\ length rows = 1).
Proof. exact c56_ex. Qed.

(** ** C57: a request with only an activity *)
Theorem C57_any_group_refuted : exists st, ureachable st /\ known st "ann"
  /\ u_authorize id_oracle st "ann" (q_get ANil ANil) = Ok true
  /\ u_authorize id_oracle st "ann" (UOpts ANil ANil ANil ANil (AStr "/d GET")) = Ok false.
Proof. exact c57_refuted. Qed.
Print Assumptions C57_any_group_refuted.
Theorem C57_exact (o : oracle) (st : ustate) (p : string) (act : any) (b : bool) (H : ureachable st) (Hp : known st p)
    (Ha : act <> ANil) :
  u_authorize o st p (UOpts ANil ANil ANil ANil act) = Ok b ->
  (b = true <-> exists r, somewhere_allowed st p r /\ role_grants st r "" (to_string act) (somewhere_allowed st p)).
Proof. exact (activity_exact o st p act b (ureachable_wf st H) Hp Ha). Qed.
Print Assumptions C57_exact.
Example C57_ex : exists st, ureachable st /\ known st "ann"
  /\ u_authorize id_oracle st "ann" (UOpts ANil ANil ANil ANil (AStr "/d GET")) = Ok true.
Proof. exact c57_ex. Qed.

(** ** C58: such a request may panic *)
Theorem C58_no_panic_refuted : exists st, ureachable st /\ known st "ann"
  /\ u_authorize id_oracle st "ann" (UOpts ANil ANil ANil ANil (AStr "/d GET")) = Panic.
Proof. exact c58_refuted. Qed.
Print Assumptions C58_no_panic_refuted.
(** ... even if all tenants are registered, when another principal's id starts with this one's and an underscore. *)
Theorem C58_underscore_refuted : exists st, ureachable st /\ known st "cat"
  /\ u_authorize id_oracle st "cat" (UOpts ANil ANil ANil ANil (AStr "/d GET")) = Panic.
Proof. exact c58_underscore. Qed.
Print Assumptions C58_underscore_refuted.
(** It panics exactly when some assignment of the principal is in a tenant that is not registered. *)
Theorem C58_exact (o : oracle) (st : ustate) (p : string) (act : any) (H : ureachable st) (Hp : known st p) (Ha : act <> ANil) :
  u_authorize o st p (UOpts ANil ANil ANil ANil act) = Panic <-> exists a, stray st p a.
Proof. exact (activity_panics o st p act (ureachable_wf st H) Hp Ha). Qed.
Print Assumptions C58_exact.
Theorem C58_returns (o : oracle) (st : ustate) (p : string) (act : any) (H : ureachable st) (Hp : known st p) (Ha : act <> ANil) :
  (forall a, ~ stray st p a) -> (forall r, somewhere_allowed st p r -> terminating st r "" (to_string act)) ->
  exists b, u_authorize o st p (UOpts ANil ANil ANil ANil act) = Ok b.
Proof. exact (activity_returns o st p act (ureachable_wf st H) Hp Ha). Qed.
Print Assumptions C58_returns.
(** All other requests never panic. *)
Theorem C58_others (o : oracle) (st : ustate) (p : string) (q : uopts) : ureachable st ->
  (uo_activity q = ANil \/ uo_tenant q <> ANil \/ uo_namespace q <> ANil \/ uo_scope q <> ANil \/ uo_group q <> ANil) ->
  u_authorize o st p q <> Panic.
Proof. exact (c58_others o st p q). Qed.
Print Assumptions C58_others.

(** ** C59: v1 has no way to take anything away *)
Theorem C59_grants_stay (o : oracle) (i : nat) (st : ustate) (ops : list uop) (st' : ustate) (outs : list uout)
    (o1 o2 : oracle) (p : string) (q : uopts) :
  ureachable st -> urun o i st ops = Ok (st', outs) ->
  uo_group q = ANil -> uo_activity q = ANil -> (uo_tenant q <> ANil \/ uo_namespace q <> ANil \/ uo_scope q <> ANil) ->
  u_authorize o1 st p q = Ok true -> u_authorize o2 st' p q = Ok true.
Proof. exact (c59_stays o i st ops st' outs o1 o2 p q). Qed.
Print Assumptions C59_grants_stay.
(** With group and activity this holds for what the assigned role itself offers ... *)
Theorem C59_own_grants_stay (o : oracle) (i : nat) (st : ustate) (ops : list uop) (st' : ustate) (outs : list uout)
    (o2 : oracle) (p : string) (q : uopts) (c : utenant) (a : trow) (l : nat) (g : group) (b : bool) :
  ureachable st -> urun o i st ops = Ok (st', outs) -> known st p -> complex_request q ->
  utenant_is st (to_string (uo_tenant q)) c -> place_exists st c (to_string (uo_namespace q)) (to_string (uo_scope q)) ->
  member st p (to_string (uo_tenant q)) a -> u_roles st !! tp_role a = Some l ->
  owns (u_heap st) l (to_string (uo_group q)) g -> offers g (to_string (uo_activity q)) ->
  u_authorize o2 st' p q = Ok b -> b = true.
Proof. exact (c59_own o i st ops st' outs o2 p q c a l g b). Qed.
Print Assumptions C59_own_grants_stay.
(** ... but not for what its descendants offer: adding the assigned role to the tenant takes access away. *)
Theorem C59_all_grants_stay_refuted : exists st st', ureachable st /\ known st "ann"
  /\ u_authorize id_oracle st "ann" (q_get ANil ANil) = Ok true
  /\ ustep id_oracle st (UTAddRole 0 [1]) = Ok (st', YUnit)
  /\ u_authorize id_oracle st' "ann" (q_get ANil ANil) = Ok false.
Proof. exact c59_refuted. Qed.
Print Assumptions C59_all_grants_stay_refuted.

(** ** C60: GetImplicitPrincipalRoles *)
Theorem C60_own_roles_refuted : exists st rows a, ureachable st
  /\ get_implicit_principal_roles id_oracle st "acme" "ann" = Ok rows /\ a ∈ rows /\ tp_principal a = "bob".
Proof. exact c60_refuted. Qed.
Print Assumptions C60_own_roles_refuted.
(** It returns the principal's assignments in the tenant and everybody's in its direct descendants. *)
Theorem C60_exact (o : oracle) (st : ustate) (t p : string) : ureachable st ->
  gives (get_implicit_principal_roles o st t p)
    (fun a => member st p t a \/ exists c, utenant_is st t c /\ assigned st a /\ is_Some (ut_desc c !! tp_tenant a)).
Proof. exact (implicit_ok o st t p). Qed.
Print Assumptions C60_exact.

(** ** C61: GetTenantsForPrincipal *)
Theorem C61_no_duplicates_refuted : exists st ts, ureachable st /\ get_tenants_for_principal id_oracle st "p" = Ok ts /\ ~ NoDup ts.
Proof. exact c61_refuted. Qed.
Print Assumptions C61_no_duplicates_refuted.
Theorem C61_exact (o : oracle) (st : ustate) (p : string) : ureachable st ->
  gives (get_tenants_for_principal o st p) (fun t => exists a, assigned st a /\ tp_principal a = p /\ tp_tenant a = t).
Proof. exact (c61_exact o st p). Qed.
Print Assumptions C61_exact.
(** Only neighbours differ. *)
Theorem C61_neighbours (o : oracle) (st : ustate) (p : string) (ts : list string) (i : nat) (x y : string) :
  get_tenants_for_principal o st p = Ok ts -> ts !! i = Some x -> ts !! (S i) = Some y -> x <> y.
Proof. exact (c61_neighbours o st p ts i x y). Qed.
Print Assumptions C61_neighbours.

(** ** C62: isolation between tenants *)
(** A method of the tenant with id A does not change decisions about the tenant B, if they share no namespace object
    and the names involved contain no underscore. *)
Theorem C62_isolated_partial (o o1 o2 : oracle) (st : ustate) (x : uop) (st' : ustate) (y : uout) (t : nat) (c : utenant)
    (p : string) (q : uopts) (b b' : bool) :
  ureachable st -> tenant_op x t -> clean_names x ->
  u_tenants st !! t = Some c -> clean (ut_id c) -> uo_tenant q <> ANil -> to_string (uo_tenant q) <> ut_id c ->
  (forall d n l, utenant_is st (to_string (uo_tenant q)) d -> ut_namespaces d !! n = Some l -> ~ uses_ns c l) ->
  ustep o st x = Ok (st', y) ->
  u_authorize o1 st p q = Ok b -> u_authorize o2 st' p q = Ok b' -> b = b'.
Proof. exact (c62_isolated o o1 o2 st x st' y t c p q b b'). Qed.
Print Assumptions C62_isolated_partial.
(** Both conditions are needed. *)
Theorem C62_shared_namespace_refuted : exists st st', ureachable st /\ known st "ann"
  /\ u_authorize id_oracle st "ann" q_eng = Ok false
  /\ ustep id_oracle st (UTAddRolesToNamespace 1 "eng" ["reader"]) = Ok (st', YUnit)
  /\ u_authorize id_oracle st' "ann" q_eng = Ok true.
Proof. exact c62_refuted. Qed.
Print Assumptions C62_shared_namespace_refuted.
Theorem C62_underscore_refuted : exists st st', ureachable st /\ known st "bob"
  /\ u_authorize id_oracle st "bob" (q_get ANil ANil) = Ok false
  /\ ustep id_oracle st (UTAddPrincipal 1 "bob_reader_acme__" ["reader"]) = Ok (st', YUnit)
  /\ u_authorize id_oracle st' "bob" (q_get ANil ANil) = Ok true.
Proof. exact c62_underscore_refuted. Qed.
Print Assumptions C62_underscore_refuted.
Example C62_ex : exists st st' c, ureachable st /\ u_tenants st !! 1 = Some c /\ ut_id c = "beta" /\ clean "beta"
  /\ clean_names (UTAddPrincipal 1 "bob" ["reader"])
  /\ (forall n l, ut_namespaces c !! n <> Some l)
  /\ ustep id_oracle st (UTAddPrincipal 1 "bob" ["reader"]) = Ok (st', YUnit)
  /\ u_authorize id_oracle st "bob" q_beta = Ok false /\ u_authorize id_oracle st' "bob" q_beta = Ok true
  /\ u_authorize id_oracle st "bob" (q_get ANil ANil) = Ok false /\ u_authorize id_oracle st' "bob" (q_get ANil ANil) = Ok false.
Proof. exact c62_ex. Qed.

(** ** C63: scope listings *)
Theorem C63_scopes (o : oracle) (st : ustate) (p : string) : ureachable st -> known st p ->
  exists l, get_scopes_for_principal o st p = Ok (Some l)
    /\ forall s, s ∈ l <-> s <> "" /\ exists a, assigned st a /\ tp_principal a = p /\ tp_scope a = s.
Proof. exact (scopes_ok o st p). Qed.
Print Assumptions C63_scopes.
Theorem C63_tenant_scopes (o : oracle) (st : ustate) (t p : string) : ureachable st -> known st p -> (exists c, utenant_is st t c) ->
  exists l, get_tenant_scopes_for_principal o st t p = Ok (Some l)
    /\ forall s, s ∈ l <-> s <> "" /\ exists a, member st p t a /\ tp_scope a = s.
Proof. exact (tenant_scopes_ok o st t p). Qed.
Print Assumptions C63_tenant_scopes.
Theorem C63_errors (o : oracle) (st : ustate) (t p : string) :
  (~ known st p -> get_scopes_for_principal o st p = Ok None /\ get_tenant_scopes_for_principal o st t p = Ok None)
  /\ (u_reg st !! t = None -> get_tenant_scopes_for_principal o st t p = Ok None).
Proof. exact (scopes_unknown o st t p). Qed.
Print Assumptions C63_errors.
