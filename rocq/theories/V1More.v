(** Further consequences used by the properties of package v1. *)
From Verif Require Import UtilsProofs V1Code V1Inv V1Auth V1Slice V1SliceProofs V1Setup.
From Verif Require Export V1Cor.

Lemma c45_readers o st t p : ureachable st ->
  (exists l, get_principal_roles o st t p = Ok l) /\ (exists l, get_tenant_roles o st t = Ok l)
  /\ (exists l, get_tenants_for_principal o st p = Ok l) /\ (exists l, get_implicit_principal_roles o st t p = Ok l)
  /\ (exists l, get_scopes_for_principal o st p = Ok l) /\ (exists l, get_tenant_scopes_for_principal o st t p = Ok l).
Proof.
  intros H. pose proof (c44_reads o st t p H) as ((l1 & -> & _) & (l2 & -> & _) & (l3 & -> & _)).
  pose proof (implicit_ok o st t p H) as (l4 & -> & _). split_and!; try by eexists.
  - unfold get_scopes_for_principal. case_bool_decide; [|by eexists].
    destruct (read_rows_ok o st (ureachable_wf _ H)) as (rs & -> & _). by eexists.
  - unfold get_tenant_scopes_for_principal. case_bool_decide; [|by eexists]. destruct (u_reg st !! t); [|by eexists].
    destruct (read_rows_ok o st (ureachable_wf _ H)) as (rs & -> & _). by eexists.
Qed.
Lemma c45_total a : exists b, row_parse (row_string a) = Ok b.
Proof. apply row_parse_total. Qed.
Lemma c50_stays st cs st' rs l k : sl_reachable st -> l < length (sl_arrays st) -> never_taken st cs l ->
  sl_run st cs = (st', rs) -> sl_read st' (Some (l, k)) = sl_read st (Some (l, k)).
Proof. intros W%sl_reachable_wf. by apply c50_undisturbed. Qed.

Lemma c56_add_principal o st t c p rs st' y : ureachable st -> u_tenants st !! t = Some c ->
  ustep o st (UTAddPrincipal t p rs) = Ok (st', y) ->
  adds st (fun a => exists r, r ∈ rs /\ r ∈ ut_roles c /\ exists n, in_default st c n /\ a = TRow p r (ut_id c) n "" true) st'.
Proof.
  intros W%ureachable_wf Hc. cbn [ustep]. unfold uret. rewrite rbind_ok. intros (s & H & [= <- _]). by eapply add_principal_adds.
Qed.
Lemma c56_add_principal_in_namespace o st t c p ns l m rs st' y : ureachable st -> u_tenants st !! t = Some c ->
  ut_namespaces c !! ns = Some l -> u_nss st !! l = Some m -> ustep o st (UTAddPrincipalInNamespace t p ns rs) = Ok (st', y) ->
  adds st (fun a => exists r, a = TRow p r (ut_id c) (un_id m) "" true /\
      match rs with
      | [] => r = "" \/ exists b, member st p (ut_id c) b /\ tp_ns b <> "" /\ tp_ns b <> ns /\ tp_role b = r
      | _ => r ∈ rs /\ r ∈ ut_roles c
      end) st'.
Proof.
  intros W%ureachable_wf Hc Hl Hm. cbn [ustep]. unfold uret. rewrite rbind_ok. intros (s & H & [= <- _]).
  by eapply add_principal_in_namespace_adds.
Qed.
Lemma c56_assign_scopes o st t c p ss st' y : ureachable st -> u_tenants st !! t = Some c ->
  ustep o st (UTAssignScopes t p ss) = Ok (st', y) ->
  adds st (fun a => exists b, member st p (ut_id c) b /\ exists s, s ∈ ss /\ s ∈ ut_scopes c /\
      (a = TRow p "" (ut_id c) "" s true
       \/ exists n, in_default st c n /\ a = TRow p (tp_role b) (ut_id c) n s true)) st'.
Proof.
  intros W%ureachable_wf Hc. cbn [ustep]. unfold uret. rewrite rbind_ok. intros (s & H & [= <- _]). by eapply assign_scopes_adds.
Qed.
Lemma c56_assign_scopes_with_role o st t c p r ss st' y : ureachable st -> u_tenants st !! t = Some c ->
  ustep o st (UTAssignScopesWithRole t p r ss) = Ok (st', y) ->
  adds st (fun a => (exists b, member st p (ut_id c) b) /\ r ∈ ut_roles c /\ exists s, s ∈ ss /\ s ∈ ut_scopes c /\
      exists n, in_default st c n /\ a = TRow p r (ut_id c) n s true) st'.
Proof.
  intros W%ureachable_wf Hc. cbn [ustep]. unfold uret. rewrite rbind_ok. intros (s & H & [= <- _]). by eapply assign_scopes_with_role_adds.
Qed.
Lemma c56_add_scopes_to_namespace o st t c ns l m ss st' y : u_tenants st !! t = Some c -> ut_namespaces c !! ns = Some l ->
  u_nss st !! l = Some m -> ustep o st (UTAddScopesToNamespace t ns ss) = Ok (st', y) ->
  exists pre, accepted (ut_scopes c) ss pre
    /\ ns_changed st l (UNamespace (un_id m) (un_roles m) (list_to_set pre ∪ un_scopes m))
         (fun a => exists s, s ∈ pre /\ a = TRow "" "" (ut_id c) (un_id m) s true) st'.
Proof.
  intros Hc Hl Hm. cbn [ustep]. unfold uret. rewrite rbind_ok. intros (s & H & [= <- _]). by eapply add_scopes_to_namespace_ok.
Qed.
Lemma c56_add_roles_to_namespace o st t c ns l m rs st' y : u_tenants st !! t = Some c -> ut_namespaces c !! ns = Some l ->
  u_nss st !! l = Some m -> ustep o st (UTAddRolesToNamespace t ns rs) = Ok (st', y) ->
  exists pre, accepted (ut_roles c) rs pre
    /\ st' = u_set_ns st l (UNamespace (un_id m) (list_to_set pre ∪ un_roles m) (un_scopes m)).
Proof.
  intros Hc Hl Hm. cbn [ustep]. unfold uret. rewrite rbind_ok. intros (s & H & [= <- _]). by eapply add_roles_to_namespace_ok.
Qed.

Lemma c58_others o st p q : ureachable st ->
  (uo_activity q = ANil \/ uo_tenant q <> ANil \/ uo_namespace q <> ANil \/ uo_scope q <> ANil \/ uo_group q <> ANil) ->
  u_authorize o st p q <> Panic.
Proof.
  intros W%ureachable_wf Hq. destruct (decide (p ∈ u_principals st)) as [Hp|Hp]; [|by rewrite unknown_denied].
  destruct q as [t n s g a]; cbn [uo_tenant uo_namespace uo_scope uo_group uo_activity] in *.
  destruct (decide (g = ANil)) as [->|Hg]; [|apply complex_no_panic; [done|done|by left]].
  destruct (decide (a = ANil)) as [->|Ha].
  - destruct (decide (t = ANil)) as [->|Ht], (decide (n = ANil)) as [->|Hn], (decide (s = ANil)) as [->|Hs].
    + apply complex_no_panic; [done|done|]. right; right. done.
    + destruct (only_scope o st p s Hp Hs W) as (b & -> & _). done.
    + destruct (only_namespace o st p n Hp Hn W) as (b & -> & _). done.
    + destruct (namespace_scope o st p n s Hp Hn Hs W) as (b & -> & _). done.
    + destruct (only_tenant o st p t Hp Ht W) as (b & -> & _). done.
    + destruct (tenant_scope o st p t s Hp Ht Hs W) as (b & -> & _). done.
    + destruct (tenant_namespace o st p t n Hp Ht Hn W) as (b & -> & _). done.
    + destruct (tenant_namespace_scope o st p t n s Hp Ht Hn Hs W) as (b & -> & _). done.
  - apply complex_no_panic; [done|done|]. right; left. split; [done|]. cbn [uo_tenant uo_namespace uo_scope].
    destruct Hq as [?|[?|[?|[?|?]]]]; [done|by left|by right; left|by right; right|done].
Qed.
Lemma c61_exact o st p : ureachable st ->
  gives (get_tenants_for_principal o st p) (fun t => exists a, assigned st a /\ tp_principal a = p /\ tp_tenant a = t).
Proof. intros H. by apply (c44_reads o st "" p H). Qed.
Lemma compact_neighbours {A} `{EqDecision A} (l : list A) i x y : compact_adjacent l !! i = Some x ->
  compact_adjacent l !! (S i) = Some y -> x <> y.
Proof.
  revert i x y. induction l as [|a l IH]; intros i x y; [done|]. destruct l as [|b l]; [by destruct i|].
  cbn [compact_adjacent]. case_decide as E; [apply IH|]. destruct i as [|i].
  - intros [= <-] Hy. cbn [lookup list_lookup] in Hy. intros <-. apply E. clear -Hy.
    assert (H : forall b (l : list A), head (compact_adjacent (b :: l)) = Some b).
    { intros b0 l0. revert b0. induction l0 as [|c l0 IH]; intros b0; [done|]. cbn [compact_adjacent]. case_decide; [subst; apply IH|done]. }
    specialize (H b l). change (compact_adjacent (b :: l) !! 0 = Some a) in Hy. rewrite <- head_lookup, H in Hy. congruence.
  - apply (IH i).
Qed.
Lemma c61_neighbours o st p ts i x y : get_tenants_for_principal o st p = Ok ts -> ts !! i = Some x -> ts !! (S i) = Some y -> x <> y.
Proof. unfold get_tenants_for_principal. rewrite rbind_ok. intros (rs & _ & [= <-]). apply compact_neighbours. Qed.
