(** The state of a v1 manager, told from the calls made. *)
From Verif Require Import V1Code V1Inv V1Setup.
From Verif Require Export V1Write CallsProofs V1CallsSpec.

(** ** Logs that grow *)
Lemma called_cons h x y z : called ((x, y) :: h) z <-> z = x \/ called h z.
Proof. unfold called. cbn [fmap list_fmap fst]. apply elem_of_cons. Qed.
Lemma called_skip h x y z : z <> x -> called ((x, y) :: h) z <-> called h z.
Proof. intros N. rewrite called_cons. tauto. Qed.
(** ** Which parts a call changes *)
Definition on_heap (x : uop) : bool :=
  match x with UNewRole _ | UNewGroup _ | UGroupAdd _ _ | ULock _ | UUnlock _ | URoleAddDescendent _ _ | URoleAddPermission _ _ _ | URoleAddGroup _ _ | UAddPermissionsToRole _ _ _ => true | _ => false end.
Definition on_tenants (x : uop) : bool :=
  match x with UNewTenant _ | UAddTenant _ | UTAddDescendent _ _ | UTSetDefault _ _ | UTAddNamespace _ _ | UTAddRole _ _ | UTAddScopes _ _ => true | _ => false end.
Definition on_nss (x : uop) : bool :=
  match x with UNewNamespace _ | UTAddScopes _ _ | UTAddScopesToNamespace _ _ _ | UTAddRolesToNamespace _ _ _ | UNAddRoles _ _ | UNAddScopes _ _ => true | _ => false end.
Definition on_reg (x : uop) : bool := match x with UAddTenant _ => true | _ => false end.
Definition on_roles (x : uop) : bool := match x with UAddRole _ => true | _ => false end.
Definition on_principals (x : uop) : bool := match x with UAddPrincipal _ => true | _ => false end.
Definition on_rows (x : uop) : bool :=
  match x with UAddPrincipalRole _ _ _ _ _ _ | UTAddPrincipal _ _ _ | UTAddPrincipalInNamespace _ _ _ _ | UTAssignScopes _ _ _ | UTAssignScopesWithRole _ _ _ _ | UTAddScopesToNamespace _ _ _ => true | _ => false end.
Record apart (a b c d e f g : bool) (st st' : ustate) : Prop := {
  ap_heap : a = false -> u_heap st' = u_heap st;
  ap_tenants : b = false -> u_tenants st' = u_tenants st;
  ap_nss : c = false -> u_nss st' = u_nss st;
  ap_reg : d = false -> u_reg st' = u_reg st;
  ap_roles : e = false -> u_roles st' = u_roles st;
  ap_principals : f = false -> u_principals st' = u_principals st;
  ap_rows : g = false -> u_rows st' = u_rows st
}.
Lemma apart_refl a b c d e f g st : apart a b c d e f g st st.
Proof. split; reflexivity. Qed.
Lemma apart_trans a b c d e f g st st1 st2 : apart a b c d e f g st st1 -> apart a b c d e f g st1 st2 -> apart a b c d e f g st st2.
Proof. intros A B. split; intros E; [rewrite (ap_heap _ _ _ _ _ _ _ _ _ B E)|rewrite (ap_tenants _ _ _ _ _ _ _ _ _ B E)|rewrite (ap_nss _ _ _ _ _ _ _ _ _ B E)|rewrite (ap_reg _ _ _ _ _ _ _ _ _ B E)|rewrite (ap_roles _ _ _ _ _ _ _ _ _ B E)|rewrite (ap_principals _ _ _ _ _ _ _ _ _ B E)|rewrite (ap_rows _ _ _ _ _ _ _ _ _ B E)]; apply A; exact E. Qed.
Lemma apart_each {A} (f : ustate -> A -> res ustate) k1 k2 k3 k4 k5 k6 k7 st xs st' :
  (forall st x st', f st x = Ok st' -> apart k1 k2 k3 k4 k5 k6 k7 st st') -> u_each f st xs = Ok st' -> apart k1 k2 k3 k4 k5 k6 k7 st st'.
Proof.
  intros Hf. revert st. induction xs as [|x xs IH]; intros st; cbn; [intros [= <-]; apply apart_refl|].
  rewrite rbind_ok. intros (st1 & H1 & H). eapply apart_trans; eauto.
Qed.
Lemma apart_while {A} (f : ustate -> A -> res (option ustate)) k1 k2 k3 k4 k5 k6 k7 st xs st' :
  (forall st x st', f st x = Ok (Some st') -> apart k1 k2 k3 k4 k5 k6 k7 st st') -> u_while f st xs = Ok st' -> apart k1 k2 k3 k4 k5 k6 k7 st st'.
Proof.
  intros Hf. revert st. induction xs as [|x xs IH]; intros st; cbn; [intros [= <-]; apply apart_refl|].
  rewrite rbind_ok. intros ([st1|] & H1 & H); [eapply apart_trans; eauto|]. injection H as <-. apply apart_refl.
Qed.
Lemma apart_tenants a c d e f g st ts : apart a true c d e f g st (uw_tenants st ts).
Proof. split; try reflexivity. discriminate. Qed.
Lemma apart_nss a b d e f g st ns : apart a b true d e f g st (uw_nss st ns).
Proof. split; try reflexivity. discriminate. Qed.
Lemma apart_pr a b c d e f st p r t ns s m st' : u_add_principal_role st p r t ns s m = Ok st' -> apart a b c d e f true st st'.
Proof.
  unfold u_add_principal_role. destruct (u_tenants st !! t); [|discriminate]. rewrite rbind_ok. intros (? & _ & [= <-]). split; try reflexivity. discriminate.
Qed.
Lemma apart_tpr a b c d e f st k p r t ns s m st' : ut_add_principal_role st k p r t ns s m = Ok st' -> apart a b c d e f true st st'.
Proof. unfold ut_add_principal_role. destruct (ut_managed k); [apply apart_pr|discriminate]. Qed.
Lemma apart_adds a b c d e f st X st' : adds st X st' -> apart a b c d e f true st st'.
Proof. intros [-> _]. split; try reflexivity. discriminate. Qed.
Lemma apart_heap b c d e f g st h : apart true b c d e f g st (uw_heap st h).
Proof. split; try reflexivity. discriminate. Qed.
Lemma ns_scope_apart a b d e f g st l s st' : un_add_scope st l s = Ok st' -> apart a b true d e f g st st'.
Proof. unfold un_add_scope. destruct (u_nss st !! l); [|discriminate]. intros [= <-]. apply apart_nss. Qed.
Lemma ns_role_apart a b d e f g st l s st' : un_add_role st l s = Ok st' -> apart a b true d e f g st st'.
Proof. unfold un_add_role. destruct (u_nss st !! l); [|discriminate]. intros [= <-]. apply apart_nss. Qed.
Lemma step_apart o st x st' y : ustep o st x = Ok (st', y) ->
  apart (on_heap x) (on_tenants x) (on_nss x) (on_reg x) (on_roles x) (on_principals x) (on_rows x) st st'.
Proof.
  destruct x; cbn [ustep on_heap on_tenants on_nss on_reg on_roles on_principals on_rows]; unfold uret, uret_loc, uret_heap; try rewrite rbind_ok.
  - intros [= <- _]. apply apart_tenants.
  - intros [= <- _]. apply apart_nss.
  - intros [= <- _]. apply apart_heap.
  - intros [= <- _]. apply apart_heap.
  - intros (h & _ & [= <- _]). apply apart_heap.
  - intros (h & _ & [= <- _]). apply apart_heap.
  - intros (h & _ & [= <- _]). apply apart_heap.
  - intros (h & _ & [= <- _]). apply apart_heap.
  - intros (h & _ & [= <- _]). apply apart_heap.
  - intros (h & _ & [= <- _]). apply apart_heap.
  - intros ([s1 l] & H & [= <- _]). unfold u_add_tenant in H. destruct (u_tenants st !! t); [|discriminate].
    cbn [uw_tenants u_reg] in H. destruct (u_reg st !! _); injection H as <- _; split; try reflexivity; discriminate.
  - intros ([s1 l] & H & [= <- _]). unfold u_add_namespace in H. destruct (u_nss st !! n); [|discriminate].
    destruct (u_regns st !! _); injection H as <- _; split; reflexivity.
  - intros [= <- _]. split; reflexivity.
  - intros [= <- _]. split; try reflexivity. discriminate.
  - intros ([s1 l] & H & [= <- _]). unfold u_add_role in H. destruct (h_roles _ !! r); [|discriminate].
    destruct (u_roles st !! _); injection H as <- _; split; try reflexivity; discriminate.
  - intros ([s1 l] & H & [= <- _]). unfold u_add_group in H. destruct (h_groups _ !! g); [|discriminate].
    destruct (u_groups st !! _); injection H as <- _; split; reflexivity.
  - unfold u_add_attribute. destruct (u_attrs st !! _); intros [= <- _]; split; reflexivity.
  - intros ([s1 e] & H & [= <- _]). unfold u_add_permissions_to_role in H.
    destruct (u_roles st !! r); [|injection H as <- _; apply apart_refl].
    destruct (u_groups st !! g) as [gl|]; [|injection H as <- _; apply apart_refl]. destruct (h_groups _ !! gl); [|discriminate].
    destruct (u_check_attrs _ _ _); [injection H as <- _; apply apart_refl|]. rewrite rbind_ok in H. destruct H as (? & _ & [= <- _]). apply apart_heap.
  - intros (s1 & H & [= <- _]). exact (apart_pr _ _ _ _ _ _ _ _ _ _ _ _ _ _ H).
  - intros (s1 & H & [= <- _]). refine (apart_each _ _ _ _ _ _ _ _ _ _ _ _ H). intros s x s'. destruct (u_tenants s !! t); [|discriminate].
    destruct (u_tenants s !! x); [|discriminate]. destruct (ut_desc _ !! _); intros [= <-]; [apply apart_refl|apply apart_tenants].
  - intros (s1 & H & [= <- _]). unfold ut_set_default in H. destruct (u_tenants st !! t); [|discriminate].
    destruct (ut_namespaces _ !! _); injection H as <-; [apply apart_tenants|apply apart_refl].
  - intros (s1 & H & [= <- _]). refine (apart_each _ _ _ _ _ _ _ _ _ _ _ _ H). intros s x s'. destruct (u_tenants s !! t); [|discriminate].
    destruct (u_nss s !! x); [|discriminate]. destruct (ut_namespaces _ !! _); intros [= <-]; [apply apart_refl|apply apart_tenants].
  - intros (s1 & H & [= <- _]). refine (apart_each _ _ _ _ _ _ _ _ _ _ _ _ H). intros s x s'. destruct (u_tenants s !! t); [|discriminate].
    destruct (h_roles _ !! x); [|discriminate]. intros [= <-]. apply apart_tenants.
  - intros (s1 & H & [= <- _]). refine (apart_each _ _ _ _ _ _ _ _ _ _ _ _ H). intros s x s'. destruct (u_tenants s !! t) as [c|]; [|discriminate].
    destruct (ut_default c); [|intros [= <-]; apply apart_tenants]. intros E. eapply apart_trans; [apply apart_tenants|exact (ns_scope_apart _ _ _ _ _ _ _ _ _ _ E)].
  - intros (s1 & H & [= <- _]). refine (apart_while _ _ _ _ _ _ _ _ _ _ _ _ H). intros s x s'. destruct (u_tenants s !! t) as [c|]; [|discriminate].
    case_bool_decide; [|discriminate]. destruct (ut_namespaces c !! ns); [|intros [= <-]; apply apart_refl].
    rewrite rbind_ok. intros (s2 & E1 & E2). rewrite rbind_ok in E2. destruct E2 as (s3 & E2 & [= <-]).
    eapply apart_trans; [exact (ns_scope_apart _ _ _ _ _ _ _ _ _ _ E1)|exact (apart_tpr _ _ _ _ _ _ _ _ _ _ _ _ _ _ _ E2)].
  - intros (s1 & H & [= <- _]). refine (apart_while _ _ _ _ _ _ _ _ _ _ _ _ H). intros s x s'. destruct (u_tenants s !! t) as [c|]; [|discriminate].
    case_bool_decide; [|discriminate]. destruct (ut_namespaces c !! ns); [|discriminate].
    rewrite rbind_ok. intros (s2 & E1 & [= <-]). exact (ns_role_apart _ _ _ _ _ _ _ _ _ _ E1).
  - intros (s1 & H & [= <- _]). refine (apart_each _ _ _ _ _ _ _ _ _ _ _ _ H). intros s x s'. destruct (u_tenants s !! t) as [c|]; [|discriminate].
    case_bool_decide; [|intros [= <-]; apply apart_refl]. rewrite rbind_ok. intros (s2 & E1 & E2).
    destruct (ut_default c); [|injection E2 as <-; exact (apart_tpr _ _ _ _ _ _ _ _ _ _ _ _ _ _ _ E1)].
    eapply apart_trans; [exact (apart_tpr _ _ _ _ _ _ _ _ _ _ _ _ _ _ _ E1)|exact (apart_tpr _ _ _ _ _ _ _ _ _ _ _ _ _ _ _ E2)].
  - intros (s1 & H & [= <- _]). unfold ut_add_principal_in_namespace in H. destruct (u_tenants st !! t) as [c|]; [|discriminate].
    destruct (ut_namespaces c !! ns); [|injection H as <-; apply apart_refl]. destruct rs as [|r rs].
    + destruct (ut_managed c); [|discriminate]. rewrite rbind_ok in H. destruct H as (urs & _ & H). rewrite rbind_ok in H. destruct H as (s2 & E1 & E2).
      eapply apart_trans; [|exact (apart_tpr _ _ _ _ _ _ _ _ _ _ _ _ _ _ _ E2)]. refine (apart_each _ _ _ _ _ _ _ _ _ _ _ _ E1).
      intros. exact (apart_tpr _ _ _ _ _ _ _ _ _ _ _ _ _ _ _ H).
    + refine (apart_each _ _ _ _ _ _ _ _ _ _ _ _ H). intros s x s'. case_bool_decide; [apply apart_tpr|intros [= <-]; apply apart_refl].
  - intros (s1 & H & [= <- _]). unfold ut_assign_scopes in H. destruct (u_tenants st !! t) as [c|]; [|discriminate]. destruct (ut_managed c); [|discriminate].
    rewrite rbind_ok in H. destruct H as (prs & _ & H). destruct prs as [|b prs]; [injection H as <-; apply apart_refl|].
    refine (apart_each _ _ _ _ _ _ _ _ _ _ _ _ H). intros s x s'. case_bool_decide; [|intros [= <-]; apply apart_refl].
    rewrite rbind_ok. intros (s2 & E1 & E2). eapply apart_trans; [|exact (apart_tpr _ _ _ _ _ _ _ _ _ _ _ _ _ _ _ E2)].
    refine (apart_each _ _ _ _ _ _ _ _ _ _ _ _ E1). intros sa a sb. rewrite rbind_ok. intros (sc & E3 & E4).
    destruct (ut_default c); [|injection E4 as <-; exact (apart_tpr _ _ _ _ _ _ _ _ _ _ _ _ _ _ _ E3)].
    eapply apart_trans; [exact (apart_tpr _ _ _ _ _ _ _ _ _ _ _ _ _ _ _ E3)|exact (apart_tpr _ _ _ _ _ _ _ _ _ _ _ _ _ _ _ E4)].
  - intros (s1 & H & [= <- _]). unfold ut_assign_scopes_with_role in H. destruct ss as [|s0 ss]; [injection H as <-; apply apart_refl|].
    destruct (u_tenants st !! t) as [c|]; [|discriminate]. destruct (ut_managed c); [|discriminate].
    rewrite rbind_ok in H. destruct H as (prs & _ & H). destruct prs as [|b prs]; [injection H as <-; apply apart_refl|].
    case_bool_decide; [|injection H as <-; apply apart_refl].
    refine (apart_each _ _ _ _ _ _ _ _ _ _ _ _ H). intros s x s'. case_bool_decide; [|intros [= <-]; apply apart_refl].
    rewrite rbind_ok. intros (sc & E3 & E4).
    destruct (ut_default c); [|injection E4 as <-; exact (apart_tpr _ _ _ _ _ _ _ _ _ _ _ _ _ _ _ E3)].
    eapply apart_trans; [exact (apart_tpr _ _ _ _ _ _ _ _ _ _ _ _ _ _ _ E3)|exact (apart_tpr _ _ _ _ _ _ _ _ _ _ _ _ _ _ _ E4)].
  - intros (s1 & H & [= <- _]). refine (apart_each _ _ _ _ _ _ _ _ _ _ _ _ H). intros s x s'. destruct (h_roles _ !! x); [|discriminate]. apply ns_role_apart.
  - intros (s1 & H & [= <- _]). refine (apart_each _ _ _ _ _ _ _ _ _ _ _ _ H). intros s x s'. apply ns_scope_apart.
  - intros (b & _ & [= <- _]). apply apart_refl.
Qed.
