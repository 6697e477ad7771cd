(** The v1 registries hold the first object offered under each id; effects of the set-up methods. *)
From Verif Require Import RegProofs RoleEff RoleHas RoleOps.
From Verif Require Import V1Code V1Write.
From Verif Require Export V1RegSpec V1Inv.

Definition uregs (st : ustate) :=
  (u_reg st, u_regns st, u_regscopes st, u_principals st, (u_roles st, u_attrs st, u_groups st)).
Definition uregs_after (st : ustate) (x : uop) :=
  ( match x with UAddTenant l => reg_one (u_reg st) (utenant_id st l) l | _ => u_reg st end,
    match x with UAddNamespace l => reg_one (u_regns st) (uns_id st l) l | _ => u_regns st end,
    match x with UAddScope id => {[id]} ∪ u_regscopes st | _ => u_regscopes st end,
    match x with UAddPrincipal id => {[id]} ∪ u_principals st | _ => u_principals st end,
    ( match x with UAddRole l => reg_one (u_roles st) (urole_id st l) l | _ => u_roles st end,
      match x with UAddAttribute a => reg_one (u_attrs st) (Some (attr_string a)) a | _ => u_attrs st end,
      match x with UAddGroup l => reg_one (u_groups st) (ugroup_id st l) l | _ => u_groups st end)).

Definition keeps (st st' : ustate) : Prop := uregs st' = uregs st.
Lemma keeps_refl st : keeps st st.
Proof. done. Qed.
Lemma keeps_trans st1 st2 st3 : keeps st1 st2 -> keeps st2 st3 -> keeps st1 st3.
Proof. unfold keeps. congruence. Qed.
Lemma keeps_each {A} (f : ustate -> A -> res ustate) st xs st' :
  (forall st x st', f st x = Ok st' -> keeps st st') -> u_each f st xs = Ok st' -> keeps st st'.
Proof.
  intros Hf. revert st. induction xs as [|x xs IH]; intros st; simpl; [by intros [= <-]|].
  rewrite rbind_ok. intros (st1 & H1 & H). eapply keeps_trans; eauto.
Qed.
Lemma keeps_while {A} (f : ustate -> A -> res (option ustate)) st xs st' :
  (forall st x st', f st x = Ok (Some st') -> keeps st st') -> u_while f st xs = Ok st' -> keeps st st'.
Proof.
  intros Hf. revert st. induction xs as [|x xs IH]; intros st; simpl; [by intros [= <-]|].
  rewrite rbind_ok. intros ([st1|] & H1 & H); [eapply keeps_trans; eauto|]. by injection H as <-.
Qed.
Lemma keeps_ns_scope st l s st' : un_add_scope st l s = Ok st' -> keeps st st'.
Proof. unfold un_add_scope. destruct (u_nss st !! l) as [n|] eqn:E; [|done]. by intros [= <-]. Qed.
Lemma keeps_ns_role st l s st' : un_add_role st l s = Ok st' -> keeps st st'.
Proof. unfold un_add_role. destruct (u_nss st !! l) as [n|] eqn:E; [|done]. by intros [= <-]. Qed.
Lemma keeps_principal_role st p r t n s m st' : u_add_principal_role st p r t n s m = Ok st' -> keeps st st'.
Proof.
  unfold u_add_principal_role. destruct (u_tenants st !! t) as [c|]; [|done].
  rewrite rbind_ok. by intros (x & _ & [= <-]).
Qed.
Lemma keeps_t_principal_role st c p r t n s m st' : ut_add_principal_role st c p r t n s m = Ok st' -> keeps st st'.
Proof. unfold ut_add_principal_role. destruct (ut_managed c); [apply keeps_principal_role|done]. Qed.

Lemma ustep_regs o st x st' r : ustep o st x = Ok (st', r) -> uregs st' = uregs_after st x.
Proof.
  destruct x; simpl; unfold uret, uret_loc, uret_heap; try rewrite rbind_ok.
  all: try (by intros [= <- _]).
  all: try (by intros (h & H & [= <- _])).
  - intros ([s l] & H & [= <- _]). unfold u_add_tenant in H. unfold uregs, uregs_after, utenant_id; simpl.
    destruct (u_tenants st !! t) as [c|]; [|done]. simpl in H |- *.
    by destruct (u_reg st !! ut_id c); injection H as <- <-.
  - intros ([s l] & H & [= <- _]). unfold u_add_namespace in H. unfold uregs, uregs_after, uns_id; simpl.
    destruct (u_nss st !! n) as [c|]; [|done]. simpl in H |- *.
    by destruct (u_regns st !! un_id c); injection H as <- <-.
  - intros ([s l] & H & [= <- _]). unfold u_add_role in H. unfold uregs, uregs_after, urole_id; simpl.
    destruct (h_roles (u_heap st) !! r0) as [c|]; [|done]. simpl in H |- *.
    by destruct (u_roles st !! r_id c); injection H as <- <-.
  - intros ([s l] & H & [= <- _]). unfold u_add_group in H. unfold uregs, uregs_after, ugroup_id; simpl.
    destruct (h_groups (u_heap st) !! g) as [c|]; [|done]. simpl in H |- *.
    by destruct (u_groups st !! g_id c); injection H as <- <-.
  - intros [= <- _]. unfold u_add_attribute, uregs, uregs_after; simpl. by destruct (u_attrs st !! attr_string a).
  - intros ([s e] & H & [= <- _]). unfold u_add_permissions_to_role in H. change (keeps st s).
    destruct (u_roles st !! r0) as [l|]; [|by injection H as <- _].
    destruct (u_groups st !! g) as [gl|]; [|by injection H as <- _].
    destruct (h_groups (u_heap st) !! gl) as [gr|]; [|done].
    destruct (u_check_attrs gr g attrs); [by injection H as <- _|].
    by apply rbind_ok in H as ([h e'] & H & [= <- _]).
  - intros (s & H & [= <- _]). by apply keeps_principal_role in H.
  - intros (s & H & [= <- _]). eapply keeps_each; [|exact H]. clear. intros st d st' H. simpl in H.
    destruct (u_tenants st !! t) as [c|] eqn:Ht; [|done]. destruct (u_tenants st !! d) as [dc|] eqn:Hd; [|done].
    by destruct (ut_desc c !! ut_id dc) eqn:E; injection H as <-.
  - intros (s & H & [= <- _]). unfold ut_set_default in H. change (keeps st s).
    destruct (u_tenants st !! t) as [c|] eqn:Ht; [|done].
    by destruct (ut_namespaces c !! ns) as [l|] eqn:E; injection H as <-.
  - intros (s & H & [= <- _]). eapply keeps_each; [|exact H]. clear. intros st d st' H. simpl in H.
    destruct (u_tenants st !! t) as [c|] eqn:Ht; [|done]. destruct (u_nss st !! d) as [dc|] eqn:Hd; [|done].
    by destruct (ut_namespaces c !! un_id dc) eqn:E; injection H as <-.
  - intros (s & H & [= <- _]). eapply keeps_each; [|exact H]. clear. intros st d st' H. simpl in H.
    destruct (u_tenants st !! t) as [c|] eqn:Ht; [|done]. destruct (h_roles (u_heap st) !! d) as [dc|] eqn:Hd; [|done].
    by injection H as <-.
  - intros (s & H & [= <- _]). eapply keeps_each; [|exact H]. clear. intros st d st' H. simpl in H.
    destruct (u_tenants st !! t) as [c|] eqn:Ht; [|done].
    set (st1 := u_set_tenant st t _) in H. assert (G : keeps st st1) by done.
    eapply keeps_trans; [exact G|]. destruct (ut_default c); [by eapply keeps_ns_scope|]. by injection H as <-.
  - intros (s & H & [= <- _]). eapply keeps_while; [|exact H]. clear. intros st d st' H. simpl in H.
    destruct (u_tenants st !! t) as [c|] eqn:Ht; [|done]. case_bool_decide; [|done].
    destruct (ut_namespaces c !! ns) as [l|]; [|by injection H as <-].
    apply rbind_ok in H as (st1 & H1 & H). apply rbind_ok in H as (st2 & H2 & [= <-]).
    eapply keeps_trans; [by eapply keeps_ns_scope|by eapply keeps_t_principal_role].
  - intros (s & H & [= <- _]). eapply keeps_while; [|exact H]. clear. intros st d st' H. simpl in H.
    destruct (u_tenants st !! t) as [c|] eqn:Ht; [|done]. case_bool_decide; [|done].
    destruct (ut_namespaces c !! ns) as [l|]; [|done].
    apply rbind_ok in H as (st1 & H1 & [= <-]). by eapply keeps_ns_role.
  - intros (s & H & [= <- _]). eapply keeps_each; [|exact H]. clear. intros st d st' H. simpl in H.
    destruct (u_tenants st !! t) as [c|] eqn:Ht; [|done]. case_bool_decide; [|by injection H as <-].
    apply rbind_ok in H as (st1 & H1 & H). eapply keeps_trans; [by eapply keeps_t_principal_role|].
    destruct (ut_default c); [by eapply keeps_t_principal_role|]. by injection H as <-.
  - intros (s & H & [= <- _]). unfold ut_add_principal_in_namespace in H. change (keeps st s).
    destruct (u_tenants st !! t) as [c|] eqn:Ht; [|done].
    destruct (ut_namespaces c !! ns) as [l|]; [|by injection H as <-].
    destruct rs as [|r0 rs].
    + destruct (ut_managed c); [|done]. apply rbind_ok in H as (urs & _ & H). apply rbind_ok in H as (st1 & H1 & H).
      eapply keeps_trans; [|by eapply keeps_t_principal_role]. eapply keeps_each; [|exact H1].
      cbv beta. intros ? ? ? Hx. by eapply keeps_t_principal_role.
    + eapply keeps_each; [|exact H]. intros st1 r1 st1' Hx. simpl in Hx.
      case_bool_decide; [by eapply keeps_t_principal_role|]. by injection Hx as <-.
  - intros (s & H & [= <- _]). unfold ut_assign_scopes in H. change (keeps st s).
    destruct (u_tenants st !! t) as [c|] eqn:Ht; [|done]. destruct (ut_managed c); [|done].
    apply rbind_ok in H as (prs & _ & H). destruct prs as [|a prs]; [by injection H as <-|].
    eapply keeps_each; [|exact H]. clear. intros st s st' H. cbv beta in H.
    case_bool_decide; [|by injection H as <-].
    apply rbind_ok in H as (st1 & H1 & H). eapply keeps_trans; [|by eapply keeps_t_principal_role].
    eapply keeps_each; [|exact H1]. clear. intros st x st' H. cbv beta in H.
    apply rbind_ok in H as (st1 & H1 & H). eapply keeps_trans; [by eapply keeps_t_principal_role|].
    destruct (ut_default c); [by eapply keeps_t_principal_role|]. by injection H as <-.
  - intros (s & H & [= <- _]). unfold ut_assign_scopes_with_role in H. change (keeps st s).
    destruct ss as [|s0 ss]; [by injection H as <-|].
    destruct (u_tenants st !! t) as [c|] eqn:Ht; [|done]. destruct (ut_managed c); [|done].
    apply rbind_ok in H as (prs & _ & H). destruct prs as [|a prs]; [by injection H as <-|].
    case_bool_decide; [|by injection H as <-].
    eapply keeps_each; [|exact H]. clear. intros st s st' H. cbv beta in H.
    case_bool_decide; [|by injection H as <-].
    apply rbind_ok in H as (st1 & H1 & H). eapply keeps_trans; [by eapply keeps_t_principal_role|].
    destruct (ut_default c); [by eapply keeps_t_principal_role|]. by injection H as <-.
  - intros (s & H & [= <- _]). eapply keeps_each; [|exact H]. clear. intros st d st' H. simpl in H.
    destruct (h_roles (u_heap st) !! d); [|done]. by eapply keeps_ns_role.
  - intros (s & H & [= <- _]). eapply keeps_each; [|exact H]. clear. intros st d st' H. simpl in H.
    by eapply keeps_ns_scope.
Qed.

(** ** Histories *)
Section registry.
  Context {A : Type} (get : ustate -> gmap string A) (adds : uop -> option A) (key : ustate -> A -> option string).
  Hypothesis Hstep : forall o st x st' r, ustep o st x = Ok (st', r) ->
    get st' = match adds x with Some a => reg_one (get st) (key st a) a | None => get st end.
  Hypothesis Hok : forall o st x st' r a, ustep o st x = Ok (st', r) -> adds x = Some a -> is_Some (key st a).
  Hypothesis Hkey : forall st st' a k, u_le st st' -> key st a = Some k -> key st' a = Some k.
  Lemma ureg_run o i st ops st' outs k : u_wf st -> urun o i st ops = Ok (st', outs) ->
    get st' !! k = match get st !! k with
                   | Some a => Some a
                   | None => first (fun a => bool_decide (key st' a = Some k)) (omap adds ops)
                   end.
  Proof.
    revert i st outs. induction ops as [|x ops IH]; intros i st outs W H.
    - simpl in H. injection H as <- <-. simpl. by destruct (get st !! k).
    - pose proof H as H0. simpl in H. apply rbind_ok in H as ([st1 r1] & H1 & H). cbn [fst snd] in H.
      apply rbind_ok in H as ([st2 r2] & H2 & [= <- <-]). cbn [fst] in *.
      rewrite (IH _ _ _ (proj1 (step_good _ _ _ _ _ H1 W)) H2), (Hstep _ _ _ _ _ H1).
      simpl. destruct (adds x) as [a|] eqn:Hx; [|done].
      destruct (Hok _ _ _ _ _ _ H1 Hx) as [k' Hk']. unfold reg_one. rewrite Hk'.
      pose proof (Hkey _ _ _ _ (proj2 (urun_good _ _ _ _ _ _ H0 W)) Hk') as Hk2. simpl. unfold first; simpl.
      destruct (get st !! k') as [a'|] eqn:E.
      + case_bool_decide as Hb; [|done]. assert (k = k') as -> by congruence. by rewrite E.
      + case_bool_decide as Hb.
        * assert (k = k') as -> by congruence. by rewrite E, lookup_insert.
        * by rewrite lookup_insert_ne by congruence.
  Qed.
  Lemma ureg_history o ops st outs k : get u_init = ∅ -> urun o 0 u_init ops = Ok (st, outs) ->
    get st !! k = first (fun a => bool_decide (key st a = Some k)) (omap adds ops).
  Proof. intros H0 H. rewrite (ureg_run _ _ _ _ _ _ _ u_wf_init H), H0. by rewrite lookup_empty. Qed.
End registry.

Lemma uregs_get o st x st' r : ustep o st x = Ok (st', r) ->
  u_reg st' = (uregs_after st x).1.1.1.1 /\ u_regns st' = (uregs_after st x).1.1.1.2
  /\ u_regscopes st' = (uregs_after st x).1.1.2 /\ u_principals st' = (uregs_after st x).1.2
  /\ u_roles st' = (uregs_after st x).2.1.1 /\ u_attrs st' = (uregs_after st x).2.1.2
  /\ u_groups st' = (uregs_after st x).2.2.
Proof. intros H. apply ustep_regs in H. rewrite <-H. done. Qed.

Lemma uroles_history o ops st outs id : urun o 0 u_init ops = Ok (st, outs) ->
  uget_role st id = first (named (urole_id st) id) (omap uadds_role ops).
Proof.
  apply (ureg_history u_roles uadds_role urole_id); [| | |done].
  - intros o' s x s' r H. destruct (uregs_get _ _ _ _ _ H) as (_ & _ & _ & _ & -> & _). by destruct x.
  - intros o' s x s' r a H Ha. destruct x; try done. injection Ha as ->. simpl in H. unfold uret_loc in H.
    apply rbind_ok in H as ([st1 l] & H & _). unfold u_add_role in H. unfold urole_id.
    destruct (h_roles (u_heap s) !! a); [|done]. by eexists.
  - intros s s' a k L Hk. destruct (le_heap _ _ L) as [L' _].
    apply fmap_Some in Hk as (ro & Hr & ->). destruct (L' a (r_id ro)) as (ro' & Hr' & E); [by exists ro|].
    unfold urole_id. rewrite Hr'. simpl. by rewrite E.
Qed.
Lemma ugroups_history o ops st outs id : urun o 0 u_init ops = Ok (st, outs) ->
  uget_group st id = first (named (ugroup_id st) id) (omap uadds_group ops).
Proof.
  apply (ureg_history u_groups uadds_group ugroup_id); [| | |done].
  - intros o' s x s' r H. destruct (uregs_get _ _ _ _ _ H) as (_ & _ & _ & _ & _ & _ & ->). by destruct x.
  - intros o' s x s' r a H Ha. destruct x; try done. injection Ha as ->. simpl in H. unfold uret_loc in H.
    apply rbind_ok in H as ([st1 l] & H & _). unfold u_add_group in H. unfold ugroup_id.
    destruct (h_groups (u_heap s) !! a); [|done]. by eexists.
  - intros s s' a k L Hk. destruct (le_heap _ _ L) as [_ L'].
    apply fmap_Some in Hk as (ro & Hr & ->). destruct (L' a ro) as (ro' & Hr' & E); [done|].
    unfold ugroup_id. rewrite Hr'. simpl. by rewrite E.
Qed.
Lemma utenants_history o ops st outs id : urun o 0 u_init ops = Ok (st, outs) ->
  uget_tenant st id = first (named (utenant_id st) id) (omap uadds_tenant ops).
Proof.
  apply (ureg_history u_reg uadds_tenant utenant_id); [| | |done].
  - intros o' s x s' r H. destruct (uregs_get _ _ _ _ _ H) as (-> & _). by destruct x.
  - intros o' s x s' r a H Ha. destruct x; try done. injection Ha as ->. simpl in H. unfold uret_loc in H.
    apply rbind_ok in H as ([st1 l] & H & _). unfold u_add_tenant in H. unfold utenant_id.
    destruct (u_tenants s !! a); [|done]. by eexists.
  - intros s s' a k L Hk. apply fmap_Some in Hk as (c & Hc & ->).
    destruct (le_tenants _ _ L _ _ Hc) as (c' & Hc' & E & _).
    unfold utenant_id. rewrite Hc'. simpl. by rewrite E.
Qed.
Lemma unamespaces_history o ops st outs id : urun o 0 u_init ops = Ok (st, outs) ->
  uget_namespace st id = first (named (uns_id st) id) (omap uadds_namespace ops).
Proof.
  apply (ureg_history u_regns uadds_namespace uns_id); [| | |done].
  - intros o' s x s' r H. destruct (uregs_get _ _ _ _ _ H) as (_ & -> & _). by destruct x.
  - intros o' s x s' r a H Ha. destruct x; try done. injection Ha as ->. simpl in H. unfold uret_loc in H.
    apply rbind_ok in H as ([st1 l] & H & _). unfold u_add_namespace in H. unfold uns_id.
    destruct (u_nss s !! a); [|done]. by eexists.
  - intros s s' a k L Hk. apply fmap_Some in Hk as (c & Hc & ->).
    destruct (le_nss _ _ L _ _ Hc) as (c' & Hc' & E & _).
    unfold uns_id. rewrite Hc'. simpl. by rewrite E.
Qed.
Lemma uattributes_history o ops st outs key : urun o 0 u_init ops = Ok (st, outs) ->
  uget_attribute st key = first (fun a => bool_decide (attr_string a = key)) (omap uadds_attribute ops).
Proof.
  intros H. etrans; [eapply (ureg_history u_attrs uadds_attribute (fun _ a => Some (attr_string a))); [| | |done|exact H]|].
  - intros o' s x s' r Hs. destruct (uregs_get _ _ _ _ _ Hs) as (_ & _ & _ & _ & _ & -> & _). by destruct x.
  - intros. by eexists.
  - done.
  - unfold first. induction (omap uadds_attribute ops) as [|a l IH]; simpl; [done|].
    rewrite IH. do 2 case_bool_decide; (congruence || done).
Qed.
Lemma usets_run o i st ops st' outs : urun o i st ops = Ok (st', outs) -> forall id,
  (id ∈ u_regscopes st' <-> id ∈ u_regscopes st \/ UAddScope id ∈ ops)
  /\ (id ∈ u_principals st' <-> id ∈ u_principals st \/ UAddPrincipal id ∈ ops).
Proof.
  intros H id. revert i st outs H. induction ops as [|x ops IH]; intros i st outs; simpl.
  { intros [= <- <-]. rewrite !elem_of_nil. tauto. }
  rewrite rbind_ok. intros ([st1 r1] & H1 & H). apply rbind_ok in H as ([st2 r2] & H2 & [= <- <-]). cbn [fst] in *.
  destruct (IH _ _ _ H2) as (-> & ->). destruct (uregs_get _ _ _ _ _ H1) as (_ & _ & -> & -> & _).
  rewrite !elem_of_cons. clear. destruct x; simpl; rewrite ?elem_of_union, ?elem_of_singleton.
  all: split; naive_solver.
Qed.
Lemma usets_history o ops st outs id : urun o 0 u_init ops = Ok (st, outs) ->
  (uget_scope st id = true <-> UAddScope id ∈ ops)
  /\ (uget_principal st id = true <-> UAddPrincipal id ∈ ops).
Proof.
  intros H. destruct (usets_run _ _ _ _ _ _ H id) as (H1 & H2).
  unfold uget_scope, uget_principal. rewrite !bool_decide_eq_true, H1, H2.
  simpl. rewrite !elem_of_empty. tauto.
Qed.
