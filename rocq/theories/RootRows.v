(** The rows stored by a history: every state's trie is the trie of a log of insertions. *)
From Verif Require Export RootInv DataProofs AuthProofs.

(** [st'] stores the rows of [st], then those of [new]. *)
Definition wrote (st st' : state) (new : list data) : Prop :=
  m_trie st' = foldl (trie_insert data_keys) (m_trie st) new.
Definition logged (st : state) (log : list data) : Prop := m_trie st = trie_of data_keys log.

Lemma wrote_nil st st' : m_trie st' = m_trie st -> wrote st st' [].
Proof. done. Qed.
Lemma wrote_refl st : wrote st st [].
Proof. done. Qed.
Lemma wrote_trans st1 st2 st3 l1 l2 : wrote st1 st2 l1 -> wrote st2 st3 l2 -> wrote st1 st3 (l1 ++ l2).
Proof. unfold wrote. rewrite foldl_app. by intros <- ->. Qed.
Lemma wrote_add_data st d : wrote st (add_data st d) [d].
Proof. done. Qed.
Lemma wrote_logged st st' log new : logged st log -> wrote st st' new -> logged st' (log ++ new).
Proof. unfold logged, wrote, trie_of. intros H1 H2. by rewrite foldl_app, H2, H1. Qed.
Lemma logged_stored st log d : logged st log -> stored st d <-> d ∈ rows log.
Proof. unfold logged, stored, rows. intros ->. by rewrite trie_data_spec. Qed.

(** Writing several rows with one property. *)
Definition writes (P : data -> Prop) (st st' : state) : Prop := exists new, wrote st st' new /\ Forall P new.
Lemma writes_refl P st : writes P st st.
Proof. by exists []. Qed.
Lemma writes_trans P st1 st2 st3 : writes P st1 st2 -> writes P st2 st3 -> writes P st1 st3.
Proof.
  intros (l1 & H1 & F1) (l2 & H2 & F2). exists (l1 ++ l2). split; [by eapply wrote_trans|by apply Forall_app].
Qed.
Lemma writes_mono (P Q : data -> Prop) st st' : (forall d, P d -> Q d) -> writes P st st' -> writes Q st st'.
Proof. intros H (l & Hw & F). exists l. split; [done|]. by eapply Forall_impl. Qed.
Lemma writes_one (P : data -> Prop) st d : P d -> writes P st (add_data st d).
Proof. intros H. exists [d]. split; [done|]. by apply Forall_singleton. Qed.
Lemma writes_same P st st' : m_trie st' = m_trie st -> writes P st st'.
Proof. intros H. by exists []. Qed.

Lemma repeat_writes {A} P (f : state -> A -> res state) st xs st' :
  (forall st x st', f st x = Ok st' -> writes P st st') -> repeat_op f st xs = Ok st' -> writes P st st'.
Proof.
  intros Hf H. apply (repeat_op_pres (fun s => writes P st s) f st xs st'); [|by apply writes_refl|done].
  intros s x s' Hs H'. eapply writes_trans; [exact Hs|by eapply Hf].
Qed.
Lemma until_writes {A} P (f : state -> A -> res (state * goerr)) st xs st' e :
  (forall st x st' e, f st x = Ok (st', e) -> writes P st st') -> until_error f st xs = Ok (st', e) -> writes P st st'.
Proof.
  intros Hf H. apply (until_error_pres (fun s => writes P st s) f st xs st' e); [|by apply writes_refl|done].
  intros s x s' e' Hs H'. eapply writes_trans; [exact Hs|by eapply Hf].
Qed.

Definition on_behalf (x : op) (d : data) : Prop :=
  (forall p, principal d = AStr p -> names_principal p x)
  /\ (x = OAddData d \/ stringy (tenant d) /\ stringy (role d)).
Ltac solve_stringy := first [by left | right; by eexists].
Ltac solve_row := split; [simpl; (congruence || done)|right; split; simpl; solve_stringy].
Lemma set_default_trie st t n st' : tenant_set_default st t n = Ok st' -> m_trie st' = m_trie st.
Proof. unfold tenant_set_default. rewrite rbind_ok. intros (c & _ & [= <-]). by case_bool_decide. Qed.
Lemma add_descendants_writes (P : data -> Prop) st t ds st' :
  (forall t n, P (Data (AStr t) (AStr n) ANil ANil ANil ANil)) ->
  tenant_add_descendants st t ds = Ok st' -> writes P st st'.
Proof.
  intros HP. revert st. induction ds as [|d ds IH]; intros st; simpl; [intros [= <-]; apply writes_refl|].
  destruct (s_tenants st !! t) as [c|] eqn:Hc; [|done].
  destruct (s_tenants st !! d) as [dc|] eqn:Hd; [|done]. rewrite rbind_ok. intros (st2 & H2 & H).
  eapply writes_trans; [|by eapply IH].
  set (st1 := match t_desc c !! t_id dc with Some _ => st | None => _ end) in H2.
  assert (E : m_trie st1 = m_trie st) by (unfold st1; by destruct (t_desc c !! t_id dc)).
  destruct (t_default c) as [n|]; [|injection H2 as <-; by apply writes_same].
  unfold pass_default in H2. apply rbind_ok in H2 as (st3 & H3 & H4). apply set_default_trie in H4.
  unfold tenant_add_namespace in H3. apply rbind_ok in H3 as (c3 & _ & [= <-]).
  eexists [_]. split; [|apply Forall_singleton; apply HP]. unfold wrote. rewrite H4. simpl. by rewrite E.
Qed.

Lemma step_writes o st x st' r : step o st x = Ok (st', r) -> writes (on_behalf x) st st'.
Proof.
  destruct x; simpl; intros H.
  all: try (injection H as <- <-; by apply writes_same).
  all: try (apply rbind_ok in H as (h & _ & [= <- <-]); by apply writes_same).
  - apply rbind_ok in H as ([st1 l] & H & [= <- <-]). unfold add_role in H. apply writes_same.
    destruct (h_roles (s_heap st) !! r0) as [ro|]; [|done]. by destruct (m_roles st !! r_id ro); injection H as <- <-.
  - apply rbind_ok in H as ([st1 l] & H & [= <- <-]). unfold add_attribute_group in H. apply writes_same.
    destruct (h_groups (s_heap st) !! g) as [ro|]; [|done]. by destruct (m_groups st !! g_id ro); injection H as <- <-.
  - apply rbind_ok in H as ([st1 l] & H & [= <- <-]). unfold add_tenant in H. apply writes_same.
    destruct (s_tenants st !! t) as [c|] eqn:Hc; [|done].
    by destruct (m_tenants (set_tenant st t _) !! t_id c); injection H as <- <-.
  - injection H as <- <-. apply writes_same. unfold add_namespace. by case_bool_decide.
  - injection H as <- <-. apply writes_same. unfold add_scope. by case_bool_decide.
  - injection H as <- <-. apply writes_same. unfold add_principal. by case_bool_decide.
  - injection H as <- <-. apply writes_same. unfold add_attribute. by destruct (m_attributes st !! attr_string a).
  - injection H as <- <-. apply writes_one. split; [by simpl|by left].
  - apply rbind_ok in H as ([st1 e] & H & [= <- <-]). unfold add_permissions_to_role in H. apply writes_same.
    destruct (m_roles st !! r0) as [rl|]; [|by injection H as <- <-].
    destruct (m_groups st !! g) as [gl|]; [|by injection H as <- <-].
    destruct (h_groups (s_heap st) !! gl) as [go|]; [|done].
    destruct (check_attrs go g attrs); [by injection H as <- <-|].
    by apply rbind_ok in H as ([h e'] & Hh & [= <- <-]).
  - apply rbind_ok in H as (st1 & H & [= <- <-]). eapply repeat_writes; [|exact H].
    intros st0 x st2 H2. unfold tenant_add_namespace in H2. apply rbind_ok in H2 as (c & _ & [= <-]).
    apply writes_one. solve_row.
  - apply rbind_ok in H as (st1 & H & [= <- <-]). eapply (add_descendants_writes (on_behalf _)); [|exact H]. intros t0 n. solve_row.
  - apply rbind_ok in H as (st1 & H & [= <- <-]). unfold tenant_add_scopes_to_namespace in H.
    apply rbind_ok in H as (c & _ & [= <-]). apply writes_one. solve_row.
  - apply rbind_ok in H as (st1 & H & [= <- <-]). apply writes_same. by eapply set_default_trie.
  - apply rbind_ok in H as (st1 & H & [= <- <-]). unfold tenant_add_principal_in_namespace in H.
    apply rbind_ok in H as (c & _ & [= <-]). apply writes_one. solve_row.
  - apply rbind_ok in H as (st1 & H & [= <- <-]). eapply repeat_writes; [|exact H].
    intros st0 x st2 H2. unfold tenant_add_role in H2. apply rbind_ok in H2 as (c & _ & H2).
    destruct (h_roles (s_heap st0) !! x); [|done]. injection H2 as <-. apply writes_one. solve_row.
  - apply rbind_ok in H as (st1 & H & [= <- <-]). eapply repeat_writes; [|exact H].
    intros st0 x st2 H2. unfold tenant_add_scope in H2. apply rbind_ok in H2 as (c & _ & [= <-]).
    apply writes_one. solve_row.
  - apply rbind_ok in H as ([st1 e] & H & [= <- <-]). eapply until_writes; [|exact H].
    intros st0 x st2 e2 H2. unfold tenant_add_principal_with_role in H2. apply rbind_ok in H2 as (c & _ & H2).
    destruct (negb _); [injection H2 as <- <-; apply writes_refl|].
    destruct (m_roles st0 !! x); [|injection H2 as <- <-; apply writes_refl]. injection H2 as <- <-.
    destruct (t_default c); [eapply writes_trans|]; apply writes_one; solve_row.
  - apply rbind_ok in H as ([st1 e] & H & [= <- <-]). eapply until_writes; [|exact H].
    intros st0 x st2 e2 H2. unfold tenant_add_scope_to_principal in H2. apply rbind_ok in H2 as (c & _ & H2).
    destruct (negb _); [injection H2 as <- <-; apply writes_refl|].
    destruct (negb _); [injection H2 as <- <-; apply writes_refl|]. injection H2 as <- <-.
    destruct (t_default c); [eapply writes_trans|]; apply writes_one; solve_row.
  - apply rbind_ok in H as ([st1 ds] & H & [= <- <-]). apply tenant_children_same in H as (hi & ca & ->). by apply writes_same.
  - apply rbind_ok in H as ([st1 ds] & H & [= <- <-]). apply implicit_same in H as (hi & ca & ->). by apply writes_same.
  - apply rbind_ok in H as ([st1 b] & H & [= <- <-]). apply authorize_same in H as (hi & ca & ->). by apply writes_same.
Qed.

(** Every reachable state's rows are those of a log. *)
Lemma step_logged o st x st' r : (exists log, logged st log) -> step o st x = Ok (st', r) -> exists log, logged st' log.
Proof. intros [log Hl] (new & Hw & _)%step_writes. exists (log ++ new). by eapply wrote_logged. Qed.
Lemma reachable_logged st : reachable st -> exists log, logged st log.
Proof. apply (reachable_inv (fun st => exists log, logged st log)); [by exists []|]. exact step_logged. Qed.

(** What a sequence of writes leaves. *)
Lemma wrote_stored st st' log new d : logged st log -> wrote st st' new ->
  stored st' d <-> d ∈ rows (log ++ new).
Proof. intros Hl Hw. apply logged_stored. by eapply wrote_logged. Qed.
Lemma wrote_origin st st' log new d : logged st log -> wrote st st' new -> stored st' d -> stored st d \/ d ∈ new.
Proof.
  intros Hl Hw Hd. apply (wrote_stored _ _ _ _ _ Hl Hw) in Hd. unfold rows in Hd.
  apply elem_of_survivors in Hd as (l1 & l2 & E & F).
  apply app_eq_inv in E as [(l & -> & E)|(l & -> & E)].
  - destruct l as [|d' l]; simpl in E; [right; rewrite <-E; left|]. injection E as <- ->. left.
    apply (logged_stored _ _ _ Hl). unfold rows. apply elem_of_survivors. exists l1, l. split; [done|].
    by apply Forall_app in F as [? _].
  - right. rewrite E. set_solver.
Qed.
Lemma wrote_keeps st st' log new d : logged st log -> wrote st st' new -> stored st d ->
  Forall (fun d' => row_path data_keys d' <> row_path data_keys d) new -> stored st' d.
Proof.
  intros Hl Hw Hd F. apply (wrote_stored _ _ _ _ _ Hl Hw). apply (logged_stored _ _ _ Hl) in Hd.
  unfold rows in *. apply elem_of_survivors in Hd as (l1 & l2 & -> & F'). apply elem_of_survivors.
  exists l1, (l2 ++ new). split; [by rewrite <-app_assoc|]. by apply Forall_app.
Qed.
Lemma wrote_has st st' log l1 d l2 : logged st log -> wrote st st' (l1 ++ d :: l2) ->
  Forall (fun d' => row_path data_keys d' <> row_path data_keys d) l2 -> stored st' d.
Proof.
  intros Hl Hw F. apply (wrote_stored _ _ _ _ _ Hl Hw). unfold rows. apply elem_of_survivors.
  exists (log ++ l1), l2. split; [by rewrite <-app_assoc|done].
Qed.

(** ** Principals nobody has named *)
Definition untouched (p : string) (st : state) : Prop :=
  (exists log, logged st log)
  /\ (forall d, stored st d -> principal d <> AStr p)
  /\ (forall U, m_cache st !! p = Some U -> U = ∅).
Lemma implicit_untouched o st p st' U : untouched p st -> get_implicit_tenants o st p = Ok (st', U) -> U = ∅.
Proof.
  intros (_ & H1 & H2). unfold get_implicit_tenants. destruct (m_cache st !! p) as [U0|] eqn:E.
  - intros [= <- <-]. by apply H2.
  - destruct (search _ _ _ _) as [|d l] eqn:Es; [by intros [= <- <-]|]. exfalso.
    assert (Hd : d ∈ search (sub o 0) st (row_filter ANil ANil ANil (AStr p)) filter_tenants_by_principal) by (rewrite Es; left).
    apply stored_search in Hd as [Hd Hf]. apply (H1 _ Hd). apply filter_tenants_spec in Hf. tauto.
Qed.
