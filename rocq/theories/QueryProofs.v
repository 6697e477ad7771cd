(** Proofs about the listing queries. *)
From Verif Require Export QuerySpec RootRows RoleCor.

Local Ltac filter_unfold :=
  repeat first [rewrite andb_true_iff | rewrite orb_true_iff];
  rewrite ?match_tenant_spec, ?match_namespace_spec, ?match_scope_spec,
    ?match_principal_spec, ?match_role_spec, ?negb_true_iff, ?is_nil_spec, ?is_nil_false; simpl.

(** ** Plain listings *)
Lemma search_rows o st f ff (P : data -> Prop) : reachable st ->
  (forall d, ff f d = true <-> P d) -> lists_rows st (search o st f ff) P.
Proof.
  intros (log & Hlog)%reachable_logged HP. split.
  - unfold search. rewrite Hlog. rewrite trie_search_spec. apply NoDup_filter.
    eapply NoDup_fmap_1, survivors_nodup.
  - intros d. by rewrite stored_search, HP.
Qed.

Lemma scopes_by_principal_rows o st p : reachable st ->
  lists_rows st (get_scopes_by_principal o st p)
    (fun d => principal d = p /\ principal d <> ANil /\ scope d <> ANil /\ tenant d <> ANil).
Proof.
  intros H. apply search_rows; [done|]. clear H. intros d. unfold filter_scope_by_principal. filter_unfold. tauto.
Qed.
Lemma namespaces_by_tenant_rows o st t : reachable st ->
  lists_rows st (get_namespaces_by_tenant o st t)
    (fun d => tenant d = t /\ tenant d <> ANil /\ namespace d <> ANil).
Proof.
  intros H. apply search_rows; [done|]. clear H. intros d. unfold filter_namespace_by_tenant. filter_unfold. tauto.
Qed.
Lemma scopes_by_tenant_rows o st t : reachable st ->
  lists_rows st (get_scopes_by_tenant o st t)
    (fun d => tenant d = t /\ tenant d <> ANil /\ scope d <> ANil).
Proof.
  intros H. apply search_rows; [done|]. clear H. intros d. unfold filter_scope_by_tenant. filter_unfold. tauto.
Qed.
Lemma tenants_rows o st p : reachable st ->
  lists_rows st (get_tenants o st p)
    (fun d => principal d = p /\ principal d <> ANil /\ tenant d <> ANil).
Proof. intros H. apply search_rows; [done|]. clear H. intros d. apply filter_tenants_spec. Qed.
Lemma tenants_by_principal_list o st p :
  NoDup (get_tenants_by_principal o st p)
  /\ forall t, t ∈ get_tenants_by_principal o st p <-> has_row st p t.
Proof.
  split; [apply compact_spec|]. intros t. unfold get_tenants_by_principal, search_wrapper, has_row.
  rewrite elem_of_compact, elem_of_list_fmap. setoid_rewrite stored_search. setoid_rewrite filter_tenants_spec.
  naive_solver.
Qed.
Lemma namespaces_for_principal_rows o st p t : reachable st ->
  lists_rows st (get_namespace_for_principal_by_tenant o st p t)
    (fun d => tenant d = t /\ tenant d <> ANil /\ namespace d <> ANil /\ unset_or (principal d) p).
Proof.
  intros H. apply search_rows; [done|]. clear H. intros d. unfold filter_namespace_for_principal_by_tenant, unset_or.
  cbn [tenant principal row_filter].
  destruct (is_nil (namespace d)) eqn:E; [apply is_nil_spec in E|apply is_nil_false in E].
  { rewrite orb_true_r. naive_solver. }
  rewrite orb_false_r. destruct (is_nil t) eqn:Et; [apply is_nil_spec in Et|].
  - destruct (is_nil p) eqn:Ep; cbn [andb]; filter_unfold; naive_solver.
  - cbn [andb]. filter_unfold. destruct (principal d); naive_solver.
Qed.
Lemma scopes_for_principal_rows o st p t : reachable st ->
  lists_rows st (get_scopes_for_principal_by_tenant o st p t)
    (fun d => tenant d = t /\ tenant d <> ANil /\ scope d <> ANil /\ unset_or (principal d) p).
Proof.
  intros H. apply search_rows; [done|]. clear H. intros d. unfold filter_scope_for_principal_by_tenant, unset_or.
  cbn [tenant principal row_filter].
  destruct (is_nil (scope d)) eqn:E; [apply is_nil_spec in E|apply is_nil_false in E].
  { rewrite orb_true_r. naive_solver. }
  rewrite orb_false_r. destruct (is_nil t) eqn:Et; [apply is_nil_spec in Et|].
  - destruct (is_nil p) eqn:Ep; cbn [andb]; filter_unfold; naive_solver.
  - cbn [andb]. filter_unfold. destruct (principal d); naive_solver.
Qed.
Lemma scopes_tn_rows o st p t n : reachable st ->
  lists_rows st (get_scopes_for_principal_by_tenant_and_namespace o st p t n) (tn_scope_row p t n).
Proof.
  intros H. apply search_rows; [done|]. clear H. intros d.
  unfold filter_scope_for_principal_by_tenant_and_namespace, tn_scope_row, unset_or.
  cbn [tenant principal namespace row_filter].
  destruct (is_nil (scope d)) eqn:E; [apply is_nil_spec in E|apply is_nil_false in E].
  { rewrite orb_true_r. naive_solver. }
  rewrite orb_false_r. destruct (is_nil t) eqn:Et; [apply is_nil_spec in Et|].
  - destruct (is_nil p && is_nil n) eqn:Ep; rewrite <-andb_assoc, Ep; cbn [andb]; filter_unfold; naive_solver.
  - cbn [andb]. filter_unfold. destruct (namespace d) eqn:?; naive_solver.
Qed.
Lemma concat_imap_rows (st : state) (f : nat -> any -> list data) (ts : list any) (P : any -> data -> Prop) :
  NoDup ts ->
  (forall i t, t ∈ ts -> lists_rows st (f i t) (fun d => tenant d = t /\ P t d)) ->
  lists_rows st (concat (imap f ts)) (fun d => tenant d ∈ ts /\ P (tenant d) d).
Proof.
  revert f. induction ts as [|t ts IH]; intros f Hnd Hf.
  - split; [constructor|]. intros d. simpl. split; [by intros ?%elem_of_nil|].
    by intros (_ & ?%elem_of_nil & _).
  - apply NoDup_cons in Hnd as [Hni Hnd]. cbn [imap concat].
    destruct (Hf 0 t) as [N1 E1]; [left|].
    destruct (IH (f ∘ S)) as [N2 E2]; [done|intros i t' Ht'; apply Hf; by right|].
    change (imap (f ∘ S) ts) with (imap (fun n => f (S n)) ts) in *. split.
    + apply NoDup_app. split_and!; [done| |done].
      intros d [_ [Ht _]]%E1 [_ [Hin _]]%E2. congruence.
    + intros d. rewrite elem_of_app, E1, E2, elem_of_cons. clear. split.
      * intros [(? & <- & ?)|(? & ? & ?)]; auto.
      * intros (? & [<-|?] & ?); auto.
Qed.
Lemma namespaces_by_principal_rows o st p : reachable st ->
  lists_rows st (get_namespaces_by_principal o st p)
    (fun d => has_row st p (tenant d) /\ namespace d <> ANil /\ unset_or (principal d) p).
Proof.
  intros H. unfold get_namespaces_by_principal.
  destruct (tenants_by_principal_list (sub o 0) st p) as [N1 E1].
  destruct (concat_imap_rows st (fun i t => get_namespace_for_principal_by_tenant (sub o (S i)) st p t) _
    (fun t d => namespace d <> ANil /\ unset_or (principal d) p) N1) as [N2 E2].
  { intros i t Ht. destruct (namespaces_for_principal_rows (sub o (S i)) st p t H) as [N3 E3]. split; [done|].
    intros d. rewrite E3. apply E1 in Ht as (d' & _ & _ & _ & Ht & Hn). split; [tauto|].
    intros (? & Hx & ? & ?). split_and!; try done. congruence. }
  split; [done|]. intros d. rewrite E2, E1. clear. tauto.
Qed.
Lemma scopes_by_namespace_rows o st p n : reachable st ->
  lists_rows st (get_scope_for_principal_by_namespace o st p n)
    (fun d => has_row st p (tenant d) /\ tn_scope_row p (tenant d) n d).
Proof.
  intros H. unfold get_scope_for_principal_by_namespace.
  destruct (tenants_by_principal_list (sub o 0) st p) as [N1 E1].
  destruct (concat_imap_rows st (fun i t => get_scopes_for_principal_by_tenant_and_namespace (sub o (S i)) st p t n) _
    (fun t d => tn_scope_row p t n d) N1) as [N2 E2].
  { intros i t Ht. destruct (scopes_tn_rows (sub o (S i)) st p t n H) as [N3 E3]. split; [done|].
    intros d. rewrite E3. unfold tn_scope_row. clear. tauto. }
  split; [done|]. intros d. rewrite E2, E1. clear. tauto.
Qed.
Lemma implicit_scopes_nothing o st p st' l :
  get_implicit_scopes_by_principal o st (AStr p) = Ok (st', l) ->
  l = [] /\ exists U, get_implicit_tenants o st p = Ok (st', U).
Proof. simpl. rewrite rbind_ok. intros ([st1 U] & H & [= <- <-]). split; [done|by exists U]. Qed.

(** ** Role listings *)
Lemma roles_by_tenant_rows o st t : get_roles_by_tenant o st t = [].
Proof. apply get_roles_by_tenant_nil. Qed.
Lemma roles_tn_rows o st p t n : reachable st ->
  lists_rows st (get_roles_tn o st p t n)
    (fun d => role d <> ANil /\ (tenant d = t /\ tenant d <> ANil /\ principal d = p /\ principal d <> ANil
                                 \/ namespace d = n /\ namespace d <> ANil)).
Proof.
  intros H. apply search_rows; [done|]. clear H. intros d. unfold filter_role_for_principal_by_tenant_and_namespace.
  cbn [tenant principal namespace row_filter].
  destruct (is_nil (role d)) eqn:E; [apply is_nil_spec in E|apply is_nil_false in E].
  { rewrite orb_true_r. naive_solver. }
  rewrite orb_false_r. destruct (is_nil t && is_nil p && is_nil n) eqn:Et.
  - rewrite !andb_true_iff, !is_nil_spec in Et. naive_solver.
  - filter_unfold. naive_solver.
Qed.
Lemma roles_ts_rows o st p t s : reachable st ->
  lists_rows st (get_roles_ts o st p t s)
    (fun d => role d <> ANil /\ (tenant d = t /\ tenant d <> ANil /\ principal d = p /\ principal d <> ANil
                                 \/ scope d = s /\ scope d <> ANil)).
Proof.
  intros H. apply search_rows; [done|]. clear H. intros d. unfold filter_role_for_principal_by_tenant_and_scope.
  cbn [tenant principal scope row_filter].
  destruct (is_nil (role d)) eqn:E; [apply is_nil_spec in E|apply is_nil_false in E].
  { rewrite orb_true_r. naive_solver. }
  rewrite orb_false_r. destruct (is_nil t && is_nil p && is_nil s) eqn:Et.
  - rewrite !andb_true_iff, !is_nil_spec in Et. naive_solver.
  - filter_unfold. naive_solver.
Qed.
Lemma roles_tns_rows o st p t n s : reachable st ->
  lists_rows st (get_roles_tns o st p t n s)
    (fun d => role d <> ANil /\ principal d = p /\ principal d <> ANil
              /\ (tenant d = t /\ tenant d <> ANil \/ namespace d = n /\ namespace d <> ANil
                  \/ scope d = s /\ scope d <> ANil)).
Proof.
  intros H. apply search_rows; [done|]. clear H. intros d. unfold filter_role_for_principal_by_tenant_namespace_and_scope.
  cbn [tenant principal namespace scope row_filter].
  destruct (is_nil (role d)) eqn:E; [apply is_nil_spec in E|apply is_nil_false in E].
  { rewrite orb_true_r. naive_solver. }
  rewrite orb_false_r. destruct (is_nil t && is_nil p && is_nil n && is_nil s) eqn:Et.
  - rewrite !andb_true_iff, !is_nil_spec in Et. naive_solver.
  - filter_unfold. naive_solver.
Qed.
