(** Every v1 operation is a sequence of small growing updates; hence the invariant [u_wf] and
    the monotonicity relation [u_le]. *)
From Verif Require Import RootInv V1Code.
From Verif Require Export V1Spec RoleProofs HeapGrow.

Definition tenant_le (c c' : utenant) : Prop :=
  ut_id c' = ut_id c /\ ut_namespaces c ⊆ ut_namespaces c' /\ ut_roles c ⊆ ut_roles c'
  /\ ut_scopes c ⊆ ut_scopes c' /\ ut_desc c ⊆ ut_desc c' /\ (ut_managed c = true -> ut_managed c' = true).
Definition ns_le (n n' : unamespace) : Prop :=
  un_id n' = un_id n /\ un_roles n ⊆ un_roles n' /\ un_scopes n ⊆ un_scopes n'.
Record u_le (st st' : ustate) : Prop := {
  le_heap : heap_le (u_heap st) (u_heap st');
  le_grows : heap_grows (u_heap st) (u_heap st');
  le_tenants : forall l c, u_tenants st !! l = Some c -> exists c', u_tenants st' !! l = Some c' /\ tenant_le c c';
  le_nss : forall l n, u_nss st !! l = Some n -> exists n', u_nss st' !! l = Some n' /\ ns_le n n';
  le_reg : u_reg st ⊆ u_reg st';
  le_regns : u_regns st ⊆ u_regns st';
  le_regscopes : u_regscopes st ⊆ u_regscopes st';
  le_principals : u_principals st ⊆ u_principals st';
  le_roles : u_roles st ⊆ u_roles st';
  le_attrs : u_attrs st ⊆ u_attrs st';
  le_groups : u_groups st ⊆ u_groups st';
  le_rows : u_rows st ⊆ u_rows st'
}.

Lemma tenant_le_refl c : tenant_le c c.
Proof. by split_and!. Qed.
Lemma ns_le_refl n : ns_le n n.
Proof. by split_and!. Qed.
Lemma heap_le_trans h1 h2 h3 : heap_le h1 h2 -> heap_le h2 h3 -> heap_le h1 h3.
Proof.
  intros [A1 A2] [B1 B2]. split; [auto|]. intros gl g H. destruct (A2 _ _ H) as (g' & H' & E).
  destruct (B2 _ _ H') as (g'' & H'' & E'). exists g''. split; [done|congruence].
Qed.
Lemma u_le_refl st : u_le st st.
Proof.
  split; try done.
  - apply heap_le_refl.
  - apply grows_refl.
  - intros l c H. exists c. split; [done|apply tenant_le_refl].
  - intros l n H. exists n. split; [done|apply ns_le_refl].
Qed.
Lemma u_le_trans st1 st2 st3 : u_le st1 st2 -> u_le st2 st3 -> u_le st1 st3.
Proof.
  intros A B. split.
  - eapply heap_le_trans; [apply A|apply B].
  - eapply grows_trans; [apply A|apply B].
  - intros l c H. destruct (le_tenants _ _ A _ _ H) as (c' & H' & E1).
    destruct (le_tenants _ _ B _ _ H') as (c'' & H'' & E2). exists c''. split; [done|].
    destruct E1 as (?&?&?&?&?&?), E2 as (?&?&?&?&?&?).
    split_and!; [congruence|by etrans|by etrans|by etrans|by etrans|auto].
  - intros l c H. destruct (le_nss _ _ A _ _ H) as (c' & H' & E1).
    destruct (le_nss _ _ B _ _ H') as (c'' & H'' & E2). exists c''. split; [done|].
    destruct E1 as (?&?&?), E2 as (?&?&?). split_and!; [congruence|by etrans|by etrans].
  - etrans; [apply A|apply B].
  - etrans; [apply A|apply B].
  - etrans; [apply A|apply B].
  - etrans; [apply A|apply B].
  - etrans; [apply A|apply B].
  - etrans; [apply A|apply B].
  - etrans; [apply A|apply B].
  - etrans; [apply A|apply B].
Qed.

(** A good update: keeps the invariant and only grows. *)
Definition good (st st' : ustate) : Prop := u_wf st -> u_wf st' /\ u_le st st'.
Lemma good_refl st : good st st.
Proof. intros W. split; [done|apply u_le_refl]. Qed.
Lemma good_trans st1 st2 st3 : good st1 st2 -> good st2 st3 -> good st1 st3.
Proof. intros A B W. destruct (A W) as [W2 L1]. destruct (B W2) as [W3 L2]. split; [done|by eapply u_le_trans]. Qed.

Lemma good_heap st h : heap_grows (u_heap st) h -> (wf_heap (u_heap st) -> wf_heap h /\ heap_le (u_heap st) h) -> good st (uw_heap st h).
Proof.
  intros Hgr H W. destruct (H (uwf_heap _ W)) as [Hw Hle]. pose proof W as [W1 W2 W3 W4 W5 W6 W7 W8 W9]. split.
  - split; simpl; try done.
    + intros k l Hk. apply Hle. eauto.
    + intros k l Hk. apply W3 in Hk as (g & Hg & <-). apply Hle in Hg as (g' & ? & ?). eauto.
  - destruct (u_le_refl st). split; simpl; done.
Qed.
Lemma good_new_tenant st id : good st (u_new_tenant st id).1.
Proof.
  intros W. pose proof W as [W1 W2 W3 W4 W5 W6 W7 W8 W9].
  assert (Hup : forall l c, u_tenants st !! l = Some c -> u_tenants (u_new_tenant st id).1 !! l = Some c).
  { intros l c H. simpl. by apply lookup_app_l_Some. }
  split.
  - split; simpl in *; try done.
    + intros k l H. apply W4 in H as (c & H & <-). eauto.
    + intros t c k l H Hk. apply lookup_app_Some in H as [H|[_ H]]; [eauto|].
      apply list_lookup_singleton_Some in H as [_ <-]. done.
    + intros t c l H Hk. apply lookup_app_Some in H as [H|[_ H]]; [eauto|].
      apply list_lookup_singleton_Some in H as [_ <-]. done.
    + intros t c k l H Hk. apply lookup_app_Some in H as [H|[_ H]].
      * destruct (W8 _ _ _ _ H Hk) as (d & Hd & <-). eauto.
      * apply list_lookup_singleton_Some in H as [_ <-]. done.
  - destruct (u_le_refl st) as [L1 L2 L3 L4 L5 L6 L7 L8 L9 L10 L11]. split; try done.
    intros l c H. exists c. split; [by apply Hup|apply tenant_le_refl].
Qed.
Lemma good_new_ns st id : good st (u_new_namespace st id).1.
Proof.
  intros W. pose proof W as [W1 W2 W3 W4 W5 W6 W7 W8 W9].
  assert (Hup : forall l c, u_nss st !! l = Some c -> u_nss (u_new_namespace st id).1 !! l = Some c).
  { intros l c H. simpl. by apply lookup_app_l_Some. }
  split.
  - split; simpl in *; try done.
    + intros k l H. apply W5 in H as (c & H & <-). eauto.
    + intros t c k l H Hk. destruct (W6 _ _ _ _ H Hk) as (n & Hn & <-). eauto.
    + intros t c l H Hk. destruct (W7 _ _ _ H Hk) as (n & Hn). eauto.
  - destruct (u_le_refl st) as [L1 L2 L3 L4 L5 L6 L7 L8 L9 L10 L11]. split; try done.
    intros l c H. exists c. split; [by apply Hup|apply ns_le_refl].
Qed.
Lemma list_insert_cases {A} (l : list A) i x y j z : l !! i = Some y -> <[i := x]> l !! j = Some z ->
  (j = i /\ z = x) \/ (j <> i /\ l !! j = Some z).
Proof.
  intros Hi H. apply list_lookup_insert_Some in H as [(-> & -> & _)|[? ?]]; [by left|right; split; [congruence|done]].
Qed.
Lemma list_insert_get {A} (l : list A) i x y j z : l !! i = Some y -> l !! j = Some z ->
  <[i := x]> l !! j = Some (if decide (j = i) then x else z).
Proof.
  intros Hi Hj. case_decide as E; [subst; apply list_lookup_insert; by eapply lookup_lt_Some|].
  by rewrite list_lookup_insert_ne by congruence.
Qed.
Lemma good_set_tenant st t c c' : u_tenants st !! t = Some c -> tenant_le c c' ->
  (forall k l, ut_namespaces c' !! k = Some l -> ut_namespaces c !! k = Some l \/ exists n, u_nss st !! l = Some n /\ un_id n = k) ->
  (forall k l, ut_desc c' !! k = Some l -> ut_desc c !! k = Some l \/ exists d, u_tenants st !! l = Some d /\ ut_id d = k) ->
  (forall l, ut_default c' = Some l -> ut_default c = Some l \/ is_Some (u_nss st !! l)) ->
  good st (u_set_tenant st t c').
Proof.
  intros Ht Hle Hns Hd Hdef W. pose proof W as [W1 W2 W3 W4 W5 W6 W7 W8 W9].
  assert (Hup : forall l d, u_tenants st !! l = Some d -> exists d', <[t := c']> (u_tenants st) !! l = Some d' /\ tenant_le d d').
  { intros l d H. eexists. split; [by eapply list_insert_get|]. case_decide; [subst; by simplify_eq|apply tenant_le_refl]. }
  split.
  - split; simpl in *; try done.
    + intros k l H. apply W4 in H as (d & H & <-). apply Hup in H as (d' & ? & E). exists d'. split; [done|apply E].
    + intros t' d k l H Hk. destruct (list_insert_cases _ _ _ _ _ _ Ht H) as [[-> ->]|[_ H']]; [|eauto].
      destruct (Hns _ _ Hk); eauto.
    + intros t' d l H Hk. destruct (list_insert_cases _ _ _ _ _ _ Ht H) as [[-> ->]|[_ H']]; [|eauto].
      destruct (Hdef _ Hk); eauto.
    + intros t' d k l H Hk. assert (exists d, u_tenants st !! l = Some d /\ ut_id d = k) as (e & He & <-).
      { destruct (list_insert_cases _ _ _ _ _ _ Ht H) as [[-> ->]|[_ H']]; [|eauto]. destruct (Hd _ _ Hk); eauto. }
      apply Hup in He as (e' & ? & E). exists e'. split; [done|apply E].
  - destruct (u_le_refl st) as [L1 L2 L3 L4 L5 L6 L7 L8 L9 L10 L11]. split; try done.
Qed.
Lemma good_set_ns st l n n' : u_nss st !! l = Some n -> ns_le n n' -> good st (u_set_ns st l n').
Proof.
  intros Hl Hle W. pose proof W as [W1 W2 W3 W4 W5 W6 W7 W8 W9].
  assert (Hup : forall l' d, u_nss st !! l' = Some d -> exists d', <[l := n']> (u_nss st) !! l' = Some d' /\ ns_le d d').
  { intros l' d H. eexists. split; [by eapply list_insert_get|]. case_decide; [subst; by simplify_eq|apply ns_le_refl]. }
  split.
  - split; simpl in *; try done.
    + intros k l' H. apply W5 in H as (d & H & <-). apply Hup in H as (d' & ? & E). exists d'. split; [done|apply E].
    + intros t c k l' H Hk. destruct (W6 _ _ _ _ H Hk) as (d & Hd & <-). apply Hup in Hd as (d' & ? & E).
      exists d'. split; [done|apply E].
    + intros t c l' H Hk. destruct (W7 _ _ _ H Hk) as (d & Hd). apply Hup in Hd as (d' & ? & E). by eexists.
  - destruct (u_le_refl st) as [L1 L2 L3 L4 L5 L6 L7 L8 L9 L10 L11]. split; try done.
Qed.
Lemma good_row st a : good st (uw_rows st ({[row_string a]} ∪ u_rows st)).
Proof.
  intros W. pose proof W as [W1 W2 W3 W4 W5 W6 W7 W8 W9]. split.
  - split; simpl; try done. intros s Hs. apply elem_of_union in Hs as [Hs|Hs]; [|eauto].
    apply elem_of_singleton in Hs as ->. by exists a.
  - destruct (u_le_refl st). split; simpl; try done. set_solver.
Qed.
Lemma good_principals st p : good st (uw_principals st ({[p]} ∪ u_principals st)).
Proof.
  intros W. pose proof W as [W1 W2 W3 W4 W5 W6 W7 W8 W9]. split; [by split|].
  destruct (u_le_refl st). split; simpl; try done. set_solver.
Qed.
Lemma good_scopes st p : good st (uw_regscopes st ({[p]} ∪ u_regscopes st)).
Proof.
  intros W. pose proof W as [W1 W2 W3 W4 W5 W6 W7 W8 W9]. split; [by split|].
  destruct (u_le_refl st). split; simpl; try done. set_solver.
Qed.
Lemma good_attribute st a : good st (u_add_attribute st a).1.
Proof.
  unfold u_add_attribute. destruct (u_attrs st !! attr_string a) eqn:E; [apply good_refl|].
  intros W. pose proof W as [W1 W2 W3 W4 W5 W6 W7 W8 W9]. split; [by split|].
  destruct (u_le_refl st). split; simpl; try done. by apply insert_subseteq.
Qed.
Lemma good_add_tenant st t st' l : u_add_tenant st t = Ok (st', l) -> good st st'.
Proof.
  unfold u_add_tenant. destruct (u_tenants st !! t) as [c|] eqn:Ht; [|done]. intros H.
  set (st1 := uw_tenants st _) in H.
  assert (G : good st st1).
  { eapply good_set_tenant; simpl; eauto. by split_and!. }
  eapply good_trans; [exact G|]. clear G.
  destruct (u_reg st1 !! ut_id c) as [t'|] eqn:E; [injection H as <- _; apply good_refl|]. injection H as <- _.
  intros W. pose proof W as [W1 W2 W3 W4 W5 W6 W7 W8 W9]. split.
  - split; try done. intros k l0 H. simpl in H. apply lookup_insert_Some in H as [[<- <-]|[_ H]]; [|eauto].
    eexists. split; [eapply list_lookup_insert; by eapply lookup_lt_Some|done].
  - destruct (u_le_refl st1). split; try done. by apply insert_subseteq.
Qed.
Lemma good_add_ns st n st' l : u_add_namespace st n = Ok (st', l) -> good st st'.
Proof.
  unfold u_add_namespace. destruct (u_nss st !! n) as [c|] eqn:Ht; [|done].
  destruct (u_regns st !! un_id c) as [t'|] eqn:E; intros [= <- _]; [apply good_refl|].
  intros W. pose proof W as [W1 W2 W3 W4 W5 W6 W7 W8 W9]. split.
  - split; try done. intros k l' H. simpl in H. apply lookup_insert_Some in H as [[<- <-]|[_ H]]; [|eauto].
    by exists c.
  - destruct (u_le_refl st). split; try done. by apply insert_subseteq.
Qed.
Lemma good_add_role st n st' l : u_add_role st n = Ok (st', l) -> good st st'.
Proof.
  unfold u_add_role. destruct (h_roles (u_heap st) !! n) as [c|] eqn:Ht; [|done].
  destruct (u_roles st !! r_id c) as [t'|] eqn:E; intros [= <- _]; [apply good_refl|].
  intros W. pose proof W as [W1 W2 W3 W4 W5 W6 W7 W8 W9]. split.
  - split; try done. intros k l' H. simpl in H. apply lookup_insert_Some in H as [[<- <-]|[_ H]]; [|eauto].
    by exists c.
  - destruct (u_le_refl st). split; try done. by apply insert_subseteq.
Qed.
Lemma good_add_group st n st' l : u_add_group st n = Ok (st', l) -> good st st'.
Proof.
  unfold u_add_group. destruct (h_groups (u_heap st) !! n) as [c|] eqn:Ht; [|done].
  destruct (u_groups st !! g_id c) as [t'|] eqn:E; intros [= <- _]; [apply good_refl|].
  intros W. pose proof W as [W1 W2 W3 W4 W5 W6 W7 W8 W9]. split.
  - split; try done. intros k l' H. simpl in H. apply lookup_insert_Some in H as [[<- <-]|[_ H]]; [|eauto].
    by exists c.
  - destruct (u_le_refl st). split; try done. by apply insert_subseteq.
Qed.
Lemma good_permissions st r g attrs st' e : u_add_permissions_to_role st r g attrs = Ok (st', e) -> good st st'.
Proof.
  unfold u_add_permissions_to_role. destruct (u_roles st !! r) as [l|]; [|intros [= <- _]; apply good_refl].
  destruct (u_groups st !! g) as [gl|]; [|intros [= <- _]; apply good_refl].
  destruct (h_groups (u_heap st) !! gl) as [gr|]; [|done].
  destruct (u_check_attrs gr g attrs); [intros [= <- _]; apply good_refl|].
  rewrite rbind_ok. intros ([h e'] & H & [= <- _]). apply good_heap; [by eapply grows_add_permission|]. intros Hw. by eapply wf_add_permission.
Qed.

(** ** Assignments *)
Lemma good_principal_role st p r t n s m st' : u_add_principal_role st p r t n s m = Ok st' -> good st st'.
Proof.
  unfold u_add_principal_role. destruct (u_tenants st !! t) as [c|]; [|done].
  rewrite rbind_ok. intros (x & _ & [= <-]). apply good_row.
Qed.
Lemma good_t_principal_role st c p r t n s m st' : ut_add_principal_role st c p r t n s m = Ok st' -> good st st'.
Proof. unfold ut_add_principal_role. destruct (ut_managed c); [apply good_principal_role|done]. Qed.

Lemma good_each {A} (f : ustate -> A -> res ustate) st xs st' :
  (forall st x st', f st x = Ok st' -> good st st') -> u_each f st xs = Ok st' -> good st st'.
Proof.
  intros Hf. revert st. induction xs as [|x xs IH]; intros st; simpl; [intros [= <-]; apply good_refl|].
  rewrite rbind_ok. intros (st1 & H1 & H). eapply good_trans; eauto.
Qed.
Lemma good_while {A} (f : ustate -> A -> res (option ustate)) st xs st' :
  (forall st x st', f st x = Ok (Some st') -> good st st') -> u_while f st xs = Ok st' -> good st st'.
Proof.
  intros Hf. revert st. induction xs as [|x xs IH]; intros st; simpl; [intros [= <-]; apply good_refl|].
  rewrite rbind_ok. intros ([st1|] & H1 & H); [eapply good_trans; eauto|]. injection H as <-. apply good_refl.
Qed.
Lemma good_ns_scope st l s st' : un_add_scope st l s = Ok st' -> good st st'.
Proof.
  unfold un_add_scope. destruct (u_nss st !! l) as [n|] eqn:E; [|done]. intros [= <-].
  eapply good_set_ns; [done|]. split_and!; simpl; set_solver.
Qed.
Lemma good_ns_role st l s st' : un_add_role st l s = Ok st' -> good st st'.
Proof.
  unfold un_add_role. destruct (u_nss st !! l) as [n|] eqn:E; [|done]. intros [= <-].
  eapply good_set_ns; [done|]. split_and!; simpl; set_solver.
Qed.

Lemma step_good o st x st' r : ustep o st x = Ok (st', r) -> good st st'.
Proof.
  destruct x; simpl; unfold uret, uret_loc, uret_heap; try rewrite rbind_ok.
  - intros [= <- _]. apply good_new_tenant.
  - intros [= <- _]. apply good_new_ns.
  - intros [= <- _]. apply good_heap; [apply grows_new_role|]. intros Hw. by apply wf_new_role.
  - intros [= <- _]. apply good_heap; [apply grows_new_group|]. intros Hw. by apply wf_new_group.
  - intros (h & H & [= <- _]). apply good_heap; [by eapply grows_add_attributes|]. intros Hw. by eapply wf_add_attributes.
  - intros (h & H & [= <- _]). apply good_heap; [by eapply grows_set_lock|]. intros Hw. by eapply wf_set_lock.
  - intros (h & H & [= <- _]). apply good_heap; [by eapply grows_set_lock|]. intros Hw. by eapply wf_set_lock.
  - intros ([h e] & H & [= <- _]). apply good_heap; [by eapply grows_add_descendant|]. intros Hw. by eapply wf_add_descendant.
  - intros ([h e] & H & [= <- _]). apply good_heap; [by eapply grows_add_permission|]. intros Hw. by eapply wf_add_permission.
  - intros ([h e] & H & [= <- _]). apply good_heap; [by eapply grows_add_group|]. intros Hw. by eapply wf_role_add_group.
  - intros ([s l] & H & [= <- _]). by eapply good_add_tenant.
  - intros ([s l] & H & [= <- _]). by eapply good_add_ns.
  - intros [= <- _]. apply good_scopes.
  - intros [= <- _]. apply good_principals.
  - intros ([s l] & H & [= <- _]). by eapply good_add_role.
  - intros ([s l] & H & [= <- _]). by eapply good_add_group.
  - intros [= <- _]. apply good_attribute.
  - intros ([s l] & H & [= <- _]). by eapply good_permissions.
  - intros (s & H & [= <- _]). by eapply good_principal_role.
  - intros (s & H & [= <- _]). eapply good_each; [|exact H]. clear. intros st d st' H. simpl in H.
    destruct (u_tenants st !! t) as [c|] eqn:Ht; [|done]. destruct (u_tenants st !! d) as [dc|] eqn:Hd; [|done].
    destruct (ut_desc c !! ut_id dc) eqn:E; injection H as <-; [apply good_refl|].
    eapply good_set_tenant; [done| | | |]; simpl; eauto.
    + split_and!; simpl; try done. by apply insert_subseteq.
    + intros k l H. apply lookup_insert_Some in H as [[<- <-]|[_ H]]; [right|by left]. by exists dc.
  - intros (s & H & [= <- _]). unfold ut_set_default in H.
    destruct (u_tenants st !! t) as [c|] eqn:Ht; [|done].
    destruct (ut_namespaces c !! ns) as [l|] eqn:E; injection H as <-; [|apply good_refl].
    intros W. eapply good_set_tenant; [done| | | | |done]; simpl; eauto.
    + by split_and!.
    + intros l' [= <-]. right. destruct (uwf_ns _ W _ _ _ _ Ht E) as (n & Hn & _). by eexists.
  - intros (s & H & [= <- _]). eapply good_each; [|exact H]. clear. intros st d st' H. simpl in H.
    destruct (u_tenants st !! t) as [c|] eqn:Ht; [|done]. destruct (u_nss st !! d) as [dc|] eqn:Hd; [|done].
    destruct (ut_namespaces c !! un_id dc) eqn:E; injection H as <-; [apply good_refl|].
    eapply good_set_tenant; [done| | | |]; simpl; eauto.
    + split_and!; simpl; try done. by apply insert_subseteq.
    + intros k l H. apply lookup_insert_Some in H as [[<- <-]|[_ H]]; [right|by left]. by exists dc.
  - intros (s & H & [= <- _]). eapply good_each; [|exact H]. clear. intros st d st' H. simpl in H.
    destruct (u_tenants st !! t) as [c|] eqn:Ht; [|done]. destruct (h_roles (u_heap st) !! d) as [dc|] eqn:Hd; [|done].
    injection H as <-. eapply good_set_tenant; [done| | | |]; simpl; eauto. split_and!; simpl; try done. set_solver.
  - intros (s & H & [= <- _]). eapply good_each; [|exact H]. clear. intros st d st' H. simpl in H.
    destruct (u_tenants st !! t) as [c|] eqn:Ht; [|done].
    set (st1 := u_set_tenant st t _) in H. assert (G : good st st1).
    { eapply good_set_tenant; [done| | | |]; simpl; eauto. split_and!; simpl; try done. set_solver. }
    eapply good_trans; [exact G|]. destruct (ut_default c); [by eapply good_ns_scope|]. injection H as <-. apply good_refl.
  - intros (s & H & [= <- _]). eapply good_while; [|exact H]. clear. intros st d st' H. simpl in H.
    destruct (u_tenants st !! t) as [c|] eqn:Ht; [|done]. case_bool_decide; [|done].
    destruct (ut_namespaces c !! ns) as [l|]; [|injection H as <-; apply good_refl].
    apply rbind_ok in H as (st1 & H1 & H). apply rbind_ok in H as (st2 & H2 & [= <-]).
    eapply good_trans; [by eapply good_ns_scope|by eapply good_t_principal_role].
  - intros (s & H & [= <- _]). eapply good_while; [|exact H]. clear. intros st d st' H. simpl in H.
    destruct (u_tenants st !! t) as [c|] eqn:Ht; [|done]. case_bool_decide; [|done].
    destruct (ut_namespaces c !! ns) as [l|]; [|done].
    apply rbind_ok in H as (st1 & H1 & [= <-]). by eapply good_ns_role.
  - intros (s & H & [= <- _]). eapply good_each; [|exact H]. clear. intros st d st' H. simpl in H.
    destruct (u_tenants st !! t) as [c|] eqn:Ht; [|done]. case_bool_decide; [|injection H as <-; apply good_refl].
    apply rbind_ok in H as (st1 & H1 & H). eapply good_trans; [by eapply good_t_principal_role|].
    destruct (ut_default c); [by eapply good_t_principal_role|]. injection H as <-. apply good_refl.
  - intros (s & H & [= <- _]). unfold ut_add_principal_in_namespace in H.
    destruct (u_tenants st !! t) as [c|] eqn:Ht; [|done].
    destruct (ut_namespaces c !! ns) as [l|]; [|injection H as <-; apply good_refl].
    destruct rs as [|r0 rs].
    + destruct (ut_managed c); [|done]. apply rbind_ok in H as (urs & _ & H). apply rbind_ok in H as (st1 & H1 & H).
      eapply good_trans; [|by eapply good_t_principal_role]. eapply good_each; [|exact H1].
      cbv beta. intros ? ? ? Hx. by eapply good_t_principal_role.
    + eapply good_each; [|exact H]. intros st1 r1 st1' Hx. simpl in Hx.
      case_bool_decide; [by eapply good_t_principal_role|]. injection Hx as <-. apply good_refl.
  - intros (s & H & [= <- _]). unfold ut_assign_scopes in H.
    destruct (u_tenants st !! t) as [c|] eqn:Ht; [|done]. destruct (ut_managed c); [|done].
    apply rbind_ok in H as (prs & _ & H). destruct prs as [|a prs]; [injection H as <-; apply good_refl|].
    eapply good_each; [|exact H]. clear. intros st s st' H. cbv beta in H.
    case_bool_decide; [|injection H as <-; apply good_refl].
    apply rbind_ok in H as (st1 & H1 & H). eapply good_trans; [|by eapply good_t_principal_role].
    eapply good_each; [|exact H1]. clear. intros st x st' H. cbv beta in H.
    apply rbind_ok in H as (st1 & H1 & H). eapply good_trans; [by eapply good_t_principal_role|].
    destruct (ut_default c); [by eapply good_t_principal_role|]. injection H as <-. apply good_refl.
  - intros (s & H & [= <- _]). unfold ut_assign_scopes_with_role in H.
    destruct ss as [|s0 ss]; [injection H as <-; apply good_refl|].
    destruct (u_tenants st !! t) as [c|] eqn:Ht; [|done]. destruct (ut_managed c); [|done].
    apply rbind_ok in H as (prs & _ & H). destruct prs as [|a prs]; [injection H as <-; apply good_refl|].
    case_bool_decide; [|injection H as <-; apply good_refl].
    eapply good_each; [|exact H]. clear. intros st s st' H. cbv beta in H.
    case_bool_decide; [|injection H as <-; apply good_refl].
    apply rbind_ok in H as (st1 & H1 & H). eapply good_trans; [by eapply good_t_principal_role|].
    destruct (ut_default c); [by eapply good_t_principal_role|]. injection H as <-. apply good_refl.
  - intros (s & H & [= <- _]). eapply good_each; [|exact H]. clear. intros st d st' H. simpl in H.
    destruct (h_roles (u_heap st) !! d); [|done]. by eapply good_ns_role.
  - intros (s & H & [= <- _]). eapply good_each; [|exact H]. clear. intros st d st' H. simpl in H.
    by eapply good_ns_scope.
  - intros (b & _ & [= <- _]). apply good_refl.
Qed.
Lemma u_wf_init : u_wf u_init.
Proof.
  split; try done.
Qed.
Lemma urun_good o i st ops st' outs : urun o i st ops = Ok (st', outs) -> good st st'.
Proof.
  revert i st st' outs. induction ops as [|x ops IH]; intros i st st' outs; simpl; [intros [= <- _]; apply good_refl|].
  rewrite rbind_ok. intros ([st1 r1] & H1 & H). apply rbind_ok in H as ([st2 r2] & H2 & [= <- _]).
  eapply good_trans; [by eapply step_good|by eapply IH].
Qed.
Lemma ureachable_wf st : ureachable st -> u_wf st.
Proof. intros (o & ops & outs & H). apply (urun_good _ _ _ _ _ _ H), u_wf_init. Qed.
Lemma ustep_le o st x st' r : u_wf st -> ustep o st x = Ok (st', r) -> u_le st st'.
Proof. intros W H. by apply (step_good _ _ _ _ _ H). Qed.
