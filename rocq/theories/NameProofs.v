(** Proofs about programs that keep the names of different kinds of things apart. *)
From Verif Require Export RegProofs RoleEff RoleCor RootGrow TenProofs NameSpec.

Section names.
Variable sort_of : string -> sort.
Local Notation wn := (well_named sort_of).

(** ** Rows of well-named columns never share a place *)
Definition code_of (v : any) : nat :=
  match v with
  | AStr s => match sort_of s with ATenant => 0 | ANamespace => 1 | AScope => 2 | APrincipal => 3 | ARole => 4 end
  | _ => 5
  end.
Lemma of_sort_code k v : of_sort sort_of k v -> v <> ANil -> code_of v = match k with ATenant => 0 | ANamespace => 1 | AScope => 2 | APrincipal => 3 | ARole => 4 end.
Proof. intros [->|(s & -> & <-)] H; [contradiction|reflexivity]. Qed.
Lemma well_named_kinds log : Forall wn log -> kinds_separate log.
Proof.
  intros F. exists code_of. intros d Hd. rewrite Forall_forall in F. destruct (F d Hd) as (A & B & C & D & E & M).
  split_and!; try (intros H; match goal with |- code_of ?v = _ => match goal with X : of_sort _ ?k v |- _ => exact (of_sort_code k v X H) end end).
  intros H. destruct M as [M|[b ->]]; [contradiction|reflexivity].
Qed.
Lemma well_named_apart d d' : wn d -> wn d' -> clash d d' -> d = d'.
Proof.
  intros H H'. apply (row_path_inj_kinds [d; d']); [apply well_named_kinds; apply Forall_cons_2; [exact H|apply Forall_singleton; exact H']|left|right; left].
Qed.

(** ** What such programs keep *)
Definition tidy_ids (st : state) : Prop :=
  (forall l c, s_tenants st !! l = Some c -> sort_of (t_id c) = ATenant /\ forall n, t_default c = Some n -> sort_of n = ANamespace)
  /\ (forall l r, h_roles (s_heap st) !! l = Some r -> sort_of (r_id r) = ARole).
(** The rows in [base] have been written, and all rows written are well named. *)
Variable base : list data.
Definition tidy_state (st : state) : Prop := tidy_ids st /\ exists log, logged st log /\ Forall wn log /\ forall d, d ∈ base -> d ∈ log.
Lemma tidy_data st d : tidy_state st -> wn d -> tidy_state (add_data st d).
Proof.
  intros [I (log & Hl & F & B)] Hd. split; [exact I|]. exists (log ++ [d]). split; [exact (wrote_logged _ _ _ _ Hl (wrote_add_data st d))|]. split.
  - apply Forall_app. split; [exact F|]. apply Forall_singleton. exact Hd.
  - intros d' H. apply elem_of_app. left. exact (B d' H).
Qed.
Lemma tidy_set st t c : tidy_state st -> sort_of (t_id c) = ATenant -> (forall n, t_default c = Some n -> sort_of n = ANamespace) -> tidy_state (set_tenant st t c).
Proof.
  intros [[I J] (log & Hl & F)] A B. split; [|exists log; split; [exact Hl|exact F]]. split; [|exact J].
  intros l c' H. cbn in H. apply list_lookup_insert_Some in H as [(<- & <- & _)|[_ H]]; [split; [exact A|exact B]|exact (I l c' H)].
Qed.
Lemma tidy_same st st' : s_tenants st' = s_tenants st -> m_trie st' = m_trie st ->
  (forall l r', h_roles (s_heap st') !! l = Some r' -> exists r, h_roles (s_heap st) !! l = Some r /\ r_id r' = r_id r) -> tidy_state st -> tidy_state st'.
Proof.
  intros E T R [[I J] (log & Hl & F)]. split; [split|].
  - rewrite E. exact I.
  - intros l r' H. destruct (R l r' H) as (r & Hr & ->). exact (J l r Hr).
  - exists log. split; [unfold logged; rewrite T; exact Hl|exact F].
Qed.
Lemma same_roles (st st' : state) : s_heap st' = s_heap st ->
  forall l r', h_roles (s_heap st') !! l = Some r' -> exists r, h_roles (s_heap st) !! l = Some r /\ r_id r' = r_id r.
Proof. intros -> l r' H. exists r'. split; [exact H|reflexivity]. Qed.
Lemma managed_is st t c : managed_tenant st t = Ok c -> s_tenants st !! t = Some c.
Proof. intros H. apply managed_ok in H as [H _]. exact H. Qed.
Lemma str_of_sort k s : sort_of s = k -> of_sort sort_of k (AStr s).
Proof. intros H. right. exists s. split; [reflexivity|exact H]. Qed.
Lemma nil_of_sort k : of_sort sort_of k ANil.
Proof. left. reflexivity. Qed.
Ltac row := split_and!; cbn; solve [apply nil_of_sort | apply str_of_sort; assumption | left; reflexivity | right; eexists; reflexivity].
Lemma tidy_namespace st t n st' : tidy_state st -> sort_of n = ANamespace -> tenant_add_namespace st t n = Ok st' -> tidy_state st'.
Proof.
  intros T Hn H. unfold tenant_add_namespace in H. apply rbind_ok in H as (c & Hc & [= <-]). apply managed_is in Hc.
  destruct (proj1 (proj1 T) t c Hc) as [Ht _]. apply tidy_data; [exact T|]. row.
Qed.
Lemma tidy_default st t n st' : tidy_state st -> sort_of n = ANamespace -> tenant_set_default st t n = Ok st' -> tidy_state st'.
Proof.
  intros T Hn H. unfold tenant_set_default in H. apply rbind_ok in H as (c & Hc & [= <-]). apply managed_is in Hc.
  destruct (proj1 (proj1 T) t c Hc) as [Ht _]. case_bool_decide; [|exact T]. apply tidy_set; [exact T|exact Ht|]. cbn. intros m [= <-]. exact Hn.
Qed.
Lemma tidy_descendants st t ds st' : tidy_state st -> tenant_add_descendants st t ds = Ok st' -> tidy_state st'.
Proof.
  revert st. induction ds as [|d ds IH]; intros st T H; cbn in H; [injection H as <-; exact T|].
  destruct (s_tenants st !! t) as [c|] eqn:Hc; [|discriminate]. destruct (s_tenants st !! d) as [dc|] eqn:Hd; [|discriminate].
  apply rbind_ok in H as (st2 & H2 & H). apply (IH st2); [|exact H]. clear IH H.
  destruct (proj1 (proj1 T) t c Hc) as [Ht Hn].
  set (st1 := match t_desc c !! t_id dc with Some _ => st | None => _ end) in H2.
  assert (T1 : tidy_state st1) by (unfold st1; destruct (t_desc c !! t_id dc); [exact T|apply tidy_set; [exact T|exact Ht|exact Hn]]).
  destruct (t_default c) as [n|] eqn:En; [|injection H2 as <-; exact T1]. specialize (Hn n eq_refl).
  unfold pass_default in H2. apply rbind_ok in H2 as (st3 & H3 & H4).
  exact (tidy_default _ _ _ _ (tidy_namespace _ _ _ _ T1 Hn H3) Hn H4).
Qed.
Lemma tidy_repeat {A} (f : state -> A -> res state) (P : A -> Prop) st xs st' : (forall st x st', tidy_state st -> P x -> f st x = Ok st' -> tidy_state st') ->
  tidy_state st -> Forall P xs -> repeat_op f st xs = Ok st' -> tidy_state st'.
Proof.
  intros Hf. revert st. induction xs as [|x xs IH]; intros st T F H; cbn in H; [injection H as <-; exact T|].
  apply rbind_ok in H as (st1 & H1 & H). apply Forall_cons in F as [F1 F]. exact (IH st1 (Hf st x st1 T F1 H1) F H).
Qed.
Lemma tidy_until {A} (f : state -> A -> res (state * goerr)) (P : A -> Prop) st xs st' e : (forall st x st' e, tidy_state st -> P x -> f st x = Ok (st', e) -> tidy_state st') ->
  tidy_state st -> Forall P xs -> until_error f st xs = Ok (st', e) -> tidy_state st'.
Proof.
  intros Hf. revert st. induction xs as [|x xs IH]; intros st T F H; cbn in H; [injection H as <- <-; exact T|].
  apply rbind_ok in H as ([st1 [e1|]] & H1 & H); apply Forall_cons in F as [F1 F].
  - injection H as <- <-. exact (Hf st x st1 _ T F1 H1).
  - exact (IH st1 (Hf st x st1 _ T F1 H1) F H).
Qed.
Lemma insert_id (l : list role_obj) k r0 r1 : l !! k = Some r0 -> r_id r1 = r_id r0 ->
  forall i r', <[k := r1]> l !! i = Some r' -> exists r, l !! i = Some r /\ r_id r' = r_id r.
Proof.
  intros H E i r' Hi. apply list_lookup_insert_Some in Hi as [(<- & <- & _)|[_ Hi]]; [exists r0; split; [exact H|exact E]|exists r'; split; [exact Hi|reflexivity]].
Qed.
Lemma lock_ids h l b h' : role_set_lock h l b = Ok h' -> forall i r', h_roles h' !! i = Some r' -> exists r, h_roles h !! i = Some r /\ r_id r' = r_id r.
Proof. unfold role_set_lock. destruct (h_roles h !! l) as [r|] eqn:E; [|discriminate]. intros [= <-]. apply (insert_id _ _ r); [exact E|reflexivity]. Qed.
Lemma perm_ids h l g attrs h' e : role_add_permission h l g attrs = Ok (h', e) -> forall i r', h_roles h' !! i = Some r' -> exists r, h_roles h !! i = Some r /\ r_id r' = r_id r.
Proof.
  unfold role_add_permission. destruct (h_roles h !! l) as [r|] eqn:E; [|discriminate]. destruct (r_lock r); [intros [= <- <-] i r' H; exists r'; split; [exact H|reflexivity]|].
  destruct (r_perms r !! g) as [gl|].
  - destruct (h_groups h !! gl); [|discriminate]. intros [= <- <-] i r' H. exists r'. split; [exact H|reflexivity].
  - intros [= <- <-]. apply (insert_id _ _ r); [exact E|reflexivity].
Qed.
Lemma step_tidy o st x st' r : tidy_state st -> names_kept sort_of x -> step o st x = Ok (st', r) -> tidy_state st'.
Proof.
  intros T N H. destruct x; cbn [step names_kept] in H, N.
  - injection H as <- <-. destruct T as [[I J] L]. split; [|exact L]. split; [exact I|]. intros l r0 Hl. cbn in Hl.
    apply lookup_app_Some in Hl as [Hl|[_ Hl]]; [exact (J l r0 Hl)|]. apply list_lookup_singleton_Some in Hl as [_ <-]. exact N.
  - injection H as <- <-. apply (tidy_same st); [reflexivity|reflexivity| |exact T]. cbn. intros l r' Hl. exists r'. split; [exact Hl|reflexivity].
  - injection H as <- <-. destruct T as [[I J] L]. split; [|exact L]. split; [|exact J]. intros l c Hl. cbn in Hl.
    apply lookup_app_Some in Hl as [Hl|[_ Hl]]; [exact (I l c Hl)|]. apply list_lookup_singleton_Some in Hl as [_ <-]. split; [exact N|discriminate].
  - apply rbind_ok in H as (h & Hh & [= <- <-]). apply (tidy_same st); [reflexivity|reflexivity| |exact T]. unfold add_attributes in Hh.
    destruct (h_groups (s_heap st) !! g); [|discriminate]. injection Hh as <-. cbn. intros l r' Hl. exists r'. split; [exact Hl|reflexivity].
  - apply rbind_ok in H as (h & Hh & [= <- <-]). apply (tidy_same st); [reflexivity|reflexivity|exact (lock_ids _ _ _ _ Hh)|exact T].
  - apply rbind_ok in H as (h & Hh & [= <- <-]). apply (tidy_same st); [reflexivity|reflexivity|exact (lock_ids _ _ _ _ Hh)|exact T].
  - apply rbind_ok in H as ([h e] & Hh & [= <- <-]). apply (tidy_same st); [reflexivity|reflexivity| |exact T]. unfold role_add_descendant in Hh.
    destruct (h_roles (s_heap st) !! r0) as [ro|] eqn:E; [|discriminate]. destruct (r_lock ro).
    + injection Hh as <- <-. cbn. intros l r' Hl. exists r'. split; [exact Hl|reflexivity].
    + apply rbind_ok in Hh as (desc & _ & [= <- <-]). cbn. apply (insert_id _ _ ro); [exact E|reflexivity].
  - apply rbind_ok in H as ([h e] & Hh & [= <- <-]). apply (tidy_same st); [reflexivity|reflexivity|exact (perm_ids _ _ _ _ _ _ Hh)|exact T].
  - apply rbind_ok in H as ([h e] & Hh & [= <- <-]). apply (tidy_same st); [reflexivity|reflexivity| |exact T]. unfold role_add_group in Hh.
    destruct (h_roles (s_heap st) !! r0) as [ro|] eqn:E; [|discriminate]. destruct (r_lock ro); [injection Hh as <- <-; cbn; intros l r' Hl; exists r'; split; [exact Hl|reflexivity]|].
    destruct (h_groups (s_heap st) !! g) as [go|]; [|discriminate]. destruct (r_perms ro !! g_id go); injection Hh as <- <-; cbn.
    + intros l r' Hl. exists r'. split; [exact Hl|reflexivity].
    + apply (insert_id _ _ ro); [exact E|reflexivity].
  - apply rbind_ok in H as ([st1 l] & H & [= <- <-]). unfold add_role in H. destruct (h_roles (s_heap st) !! r0) as [ro|]; [|discriminate].
    destruct (m_roles st !! r_id ro); injection H as <- <-; (apply (tidy_same st); [reflexivity|reflexivity|apply same_roles; reflexivity|exact T]).
  - apply rbind_ok in H as ([st1 l] & H & [= <- <-]). unfold add_attribute_group in H. destruct (h_groups (s_heap st) !! g) as [ro|]; [|discriminate].
    destruct (m_groups st !! g_id ro); injection H as <- <-; (apply (tidy_same st); [reflexivity|reflexivity|apply same_roles; reflexivity|exact T]).
  - apply rbind_ok in H as ([st1 l] & H & [= <- <-]). unfold add_tenant in H. destruct (s_tenants st !! t) as [c|] eqn:Hc; [|discriminate].
    destruct (proj1 (proj1 T) t c Hc) as [Ht Hn].
    assert (T1 : tidy_state (set_tenant st t (Tenant (t_id c) (t_desc c) (t_default c) true))) by (apply tidy_set; [exact T|exact Ht|exact Hn]).
    destruct (m_tenants _ !! t_id c); injection H as <- <-; [exact T1|]. apply (tidy_same (set_tenant st t (Tenant (t_id c) (t_desc c) (t_default c) true))); [reflexivity|reflexivity|apply same_roles; reflexivity|exact T1].
  - injection H as <- <-. unfold add_namespace. case_bool_decide; [exact T|]. apply (tidy_same st); [reflexivity|reflexivity|apply same_roles; reflexivity|exact T].
  - injection H as <- <-. unfold add_scope. case_bool_decide; [exact T|]. apply (tidy_same st); [reflexivity|reflexivity|apply same_roles; reflexivity|exact T].
  - injection H as <- <-. unfold add_principal. case_bool_decide; [exact T|]. apply (tidy_same st); [reflexivity|reflexivity|apply same_roles; reflexivity|exact T].
  - injection H as <- <-. unfold add_attribute. destruct (m_attributes st !! attr_string a); [exact T|]. apply (tidy_same st); [reflexivity|reflexivity|apply same_roles; reflexivity|exact T].
  - injection H as <- <-. exact (tidy_data st d T N).
  - apply rbind_ok in H as ([st1 e] & H & [= <- <-]). unfold add_permissions_to_role in H.
    destruct (m_roles st !! r0) as [rl|]; [|injection H as <- <-; exact T]. destruct (m_groups st !! g) as [gl|]; [|injection H as <- <-; exact T].
    destruct (h_groups (s_heap st) !! gl) as [go|]; [|discriminate]. destruct (check_attrs go g attrs); [injection H as <- <-; exact T|].
    apply rbind_ok in H as ([h e'] & Hh & [= <- <-]). apply (tidy_same st); [reflexivity|reflexivity|exact (perm_ids _ _ _ _ _ _ Hh)|exact T].
  - apply rbind_ok in H as (st1 & H & [= <- <-]). refine (tidy_repeat _ _ _ _ _ _ T N H). intros s n s' Ts Hn Hs. exact (tidy_namespace _ _ _ _ Ts Hn Hs).
  - apply rbind_ok in H as (st1 & H & [= <- <-]). exact (tidy_descendants _ _ _ _ T H).
  - apply rbind_ok in H as (st1 & H & [= <- <-]). destruct N as [N1 N2]. unfold tenant_add_scopes_to_namespace in H. apply rbind_ok in H as (c & Hc & [= <-]).
    destruct (proj1 (proj1 T) t c (managed_is _ _ _ Hc)) as [Ht _]. apply tidy_data; [exact T|]. row.
  - apply rbind_ok in H as (st1 & H & [= <- <-]). exact (tidy_default _ _ _ _ T N H).
  - apply rbind_ok in H as (st1 & H & [= <- <-]). destruct N as (N1 & N2 & N3). unfold tenant_add_principal_in_namespace in H. apply rbind_ok in H as (c & Hc & [= <-]).
    destruct (proj1 (proj1 T) t c (managed_is _ _ _ Hc)) as [Ht _]. apply tidy_data; [exact T|]. row.
  - apply rbind_ok in H as (st1 & H & [= <- <-]). refine (tidy_repeat _ (fun _ => True) _ _ _ _ T _ H); [|apply Forall_true; intros; exact I].
    intros s n s' Ts _ Hs. unfold tenant_add_role in Hs. apply rbind_ok in Hs as (c & Hc & Hs). destruct (h_roles (s_heap s) !! n) as [ro|] eqn:E; [|discriminate]. injection Hs as <-.
    destruct (proj1 (proj1 Ts) t c (managed_is _ _ _ Hc)) as [Ht _]. pose proof (proj2 (proj1 Ts) n ro E) as Hr. apply tidy_data; [exact Ts|]. row.
  - apply rbind_ok in H as (st1 & H & [= <- <-]). refine (tidy_repeat _ _ _ _ _ _ T N H). intros s n s' Ts Hn Hs. unfold tenant_add_scope in Hs.
    apply rbind_ok in Hs as (c & Hc & [= <-]). destruct (proj1 (proj1 Ts) t c (managed_is _ _ _ Hc)) as [Ht _]. apply tidy_data; [exact Ts|]. row.
  - apply rbind_ok in H as ([st1 e] & H & [= <- <-]). destruct N as [Np N]. refine (tidy_until _ _ _ _ _ _ _ T N H). intros s n s' e' Ts Hn Hs.
    unfold tenant_add_principal_with_role in Hs. apply rbind_ok in Hs as (c & Hc & Hs). destruct (negb _); [injection Hs as <- <-; exact Ts|].
    destruct (m_roles s !! n); [|injection Hs as <- <-; exact Ts]. injection Hs as <- <-. destruct (proj1 (proj1 Ts) t c (managed_is _ _ _ Hc)) as [Ht Hd].
    destruct (t_default c) as [m|]; [specialize (Hd m eq_refl); apply tidy_data; [|row]|]; (apply tidy_data; [exact Ts|row]).
  - apply rbind_ok in H as ([st1 e] & H & [= <- <-]). destruct N as [Np N]. refine (tidy_until _ _ _ _ _ _ _ T N H). intros s n s' e' Ts Hn Hs.
    unfold tenant_add_scope_to_principal in Hs. apply rbind_ok in Hs as (c & Hc & Hs). destruct (negb _); [injection Hs as <- <-; exact Ts|].
    destruct (negb _); [injection Hs as <- <-; exact Ts|]. injection Hs as <- <-. destruct (proj1 (proj1 Ts) t c (managed_is _ _ _ Hc)) as [Ht Hd].
    destruct (t_default c) as [m|]; [specialize (Hd m eq_refl); apply tidy_data; [|row]|]; (apply tidy_data; [exact Ts|row]).
  - apply rbind_ok in H as ([st1 ds] & H & [= <- <-]). apply tenant_children_same in H as (hi & ca & ->). apply (tidy_same st); [reflexivity|reflexivity|apply same_roles; reflexivity|exact T].
  - apply rbind_ok in H as ([st1 ds] & H & [= <- <-]). apply implicit_same in H as (hi & ca & ->). apply (tidy_same st); [reflexivity|reflexivity|apply same_roles; reflexivity|exact T].
  - apply rbind_ok in H as ([st1 b] & H & [= <- <-]). apply authorize_same in H as (hi & ca & ->). apply (tidy_same st); [reflexivity|reflexivity|apply same_roles; reflexivity|exact T].
Qed.
Lemma run_tidy o i st ops st' outs : tidy_state st -> Forall (names_kept sort_of) ops -> run o i st ops = Ok (st', outs) -> tidy_state st'.
Proof.
  revert i st outs. induction ops as [|x ops IH]; intros i st outs T F H; cbn in H; [injection H as <- <-; exact T|].
  apply rbind_ok in H as ([st1 r1] & H1 & H). apply rbind_ok in H as ([st2 r2] & H2 & [= <- <-]). apply Forall_cons in F as [F1 F].
  exact (IH _ _ _ (step_tidy _ _ _ _ _ T F1 H1) F H2).
Qed.

End names.

(** ** Rows stay *)
Lemma tidy_init sort_of : tidy_state sort_of [] init_state.
Proof. split; [split; intros l c H; destruct l; discriminate|]. exists []. split; [reflexivity|]. split; [constructor|]. intros d H. exact H. Qed.
Lemma tidy_stored sort_of base st d : tidy_state sort_of base st -> stored st d -> well_named sort_of d.
Proof.
  intros [_ (log & Hl & F & _)] H. apply (logged_stored _ _ _ Hl) in H. apply (rows_kinds log d (well_named_kinds sort_of log F)) in H.
  rewrite Forall_forall in F. exact (F d H).
Qed.
Lemma tidy_base sort_of base st d : tidy_state sort_of base st -> d ∈ base -> stored st d.
Proof. intros [_ (log & Hl & F & B)] H. apply (logged_stored _ _ _ Hl). apply (rows_kinds log d (well_named_kinds sort_of log F)). exact (B d H). Qed.
Lemma tidy_rebase sort_of base st : tidy_state sort_of base st -> exists log, tidy_state sort_of log st /\ forall d, stored st d -> d ∈ log.
Proof.
  intros [I (log & Hl & F & _)]. exists log. split.
  - split; [exact I|]. exists log. split; [exact Hl|]. split; [exact F|]. intros d H. exact H.
  - intros d H. apply (logged_stored _ _ _ Hl) in H. apply (rows_kinds log d (well_named_kinds sort_of log F)). exact H.
Qed.
Lemma tidy_stays sort_of base o i st ops st' outs d : tidy_state sort_of base st -> Forall (names_kept sort_of) ops -> run o i st ops = Ok (st', outs) ->
  stored st d -> stored st' d.
Proof. intros (log & T & S)%tidy_rebase F H Hd. exact (tidy_base _ _ _ _ (run_tidy _ _ _ _ _ _ _ _ T F H) (S d Hd)). Qed.
Lemma rows_stay o ops st outs o' i ops' st' outs' d : run o 0 init_state ops = Ok (st, outs) -> run o' i st ops' = Ok (st', outs') ->
  keeps_names_apart (ops ++ ops') -> stored st d -> stored st' d.
Proof.
  intros H H' (sort_of & F). apply Forall_app in F as [F F']. pose proof (run_tidy _ _ _ _ _ _ _ _ (tidy_init sort_of) F H) as T.
  exact (tidy_stays _ _ _ _ _ _ _ _ d T F' H').
Qed.
Lemma grants_stay o ops st outs o1 p q st1 o2 i ops' st2 outs' o3 st3 b : run o 0 init_state ops = Ok (st, outs) -> authorize o1 st p q = Ok (st1, true) ->
  run o2 i st1 ops' = Ok (st2, outs') -> keeps_names_apart (ops ++ ops') -> authorize o3 st2 p q = Ok (st3, b) -> b = true.
Proof.
  intros H H1 H2 (sort_of & F) H3. apply Forall_app in F as [F F']. pose proof (run_tidy _ _ _ _ _ _ _ _ (tidy_init sort_of) F H) as T.
  apply (authorize_stays o1 st p q st1 o2 i ops' st2 outs' o3 st3 b); [exists o, ops, outs; exact H|exact H1|exact H2| |exact H3].
  intros d. assert (T1 : tidy_state sort_of [] st1).
  { apply (step_tidy sort_of [] o1 st (OAuthorize p q) st1 (RBool true) T); [exact I|]. cbn. rewrite H1. reflexivity. }
  exact (tidy_stays _ _ _ _ _ _ _ _ d T1 F' H2).
Qed.
(** ** The order of grants *)
Lemma may_store_named sort_of base st x d : tidy_state sort_of base st -> names_kept sort_of x -> may_store st x d -> well_named sort_of d.
Proof.
  intros [[I J] _] N M.
  assert (R : forall p md c r l, s_tenants st !! l = Some c -> sort_of p = APrincipal -> sort_of r = ARole -> d ∈ role_rows c p md r -> well_named sort_of d).
  { intros p md c r l Hc Hp Hr Hd. destruct (I l c Hc) as [Ht Hn]. unfold role_rows in Hd. apply elem_of_cons in Hd as [->|Hd].
    - split_and!; cbn; solve [apply nil_of_sort | apply str_of_sort; assumption | left; reflexivity | right; eexists; reflexivity].
    - destruct (t_default c) as [n|]; [|apply elem_of_nil in Hd; contradiction]. specialize (Hn n eq_refl). apply elem_of_list_singleton in Hd as ->.
      split_and!; cbn; solve [apply nil_of_sort | apply str_of_sort; assumption | left; reflexivity | right; eexists; reflexivity]. }
  assert (S : forall p md c s l, s_tenants st !! l = Some c -> sort_of p = APrincipal -> sort_of s = AScope -> d ∈ scope_rows c p md s -> well_named sort_of d).
  { intros p md c s l Hc Hp Hs Hd. destruct (I l c Hc) as [Ht Hn]. unfold scope_rows in Hd. apply elem_of_cons in Hd as [->|Hd].
    - split_and!; cbn; solve [apply nil_of_sort | apply str_of_sort; assumption | left; reflexivity | right; eexists; reflexivity].
    - destruct (t_default c) as [n|]; [|apply elem_of_nil in Hd; contradiction]. specialize (Hn n eq_refl). apply elem_of_list_singleton in Hd as ->.
      split_and!; cbn; solve [apply nil_of_sort | apply str_of_sort; assumption | left; reflexivity | right; eexists; reflexivity]. }
  destruct x; cbn [may_store names_kept] in M, N; try contradiction.
  - subst d0. exact N.
  - destruct M as (c & n & Hc & Hn & ->). destruct (I _ _ Hc) as [Ht _]. rewrite Forall_forall in N. specialize (N n Hn).
    split_and!; cbn; solve [apply nil_of_sort | apply str_of_sort; assumption | left; reflexivity].
  - destruct M as (c & Hc & ->). destruct N as [N1 N2]. destruct (I _ _ Hc) as [Ht _].
    split_and!; cbn; solve [apply nil_of_sort | apply str_of_sort; assumption | left; reflexivity].
  - destruct M as (c & Hc & ->). destruct N as (N1 & N2 & N3). destruct (I _ _ Hc) as [Ht _].
    split_and!; cbn; solve [apply nil_of_sort | apply str_of_sort; assumption | left; reflexivity].
  - destruct M as (c & r & ro & Hc & _ & Hr & ->). destruct (I _ _ Hc) as [Ht _]. pose proof (J _ _ Hr) as Hr'.
    split_and!; cbn; solve [apply nil_of_sort | apply str_of_sort; assumption | left; reflexivity].
  - destruct M as (c & n & Hc & Hn & ->). destruct (I _ _ Hc) as [Ht _]. rewrite Forall_forall in N. specialize (N n Hn).
    split_and!; cbn; solve [apply nil_of_sort | apply str_of_sort; assumption | left; reflexivity].
  - destruct M as (c & r & Hc & Hr & Hd). destruct N as [N1 N2]. rewrite Forall_forall in N2. exact (R _ _ _ _ _ Hc N1 (N2 r Hr) Hd).
  - destruct M as (c & r & Hc & Hr & Hd). destruct N as [N1 N2]. rewrite Forall_forall in N2. exact (S _ _ _ _ _ Hc N1 (N2 r Hr) Hd).
Qed.
Lemma tidy_apart sort_of base st ops : tidy_state sort_of base st -> Forall (names_kept sort_of) ops -> apart st ops.
Proof.
  intros T F x x' d d' Hx Hx' M M'. rewrite Forall_forall in F.
  exact (well_named_apart sort_of d d' (may_store_named _ _ _ _ _ T (F x Hx) M) (may_store_named _ _ _ _ _ T (F x' Hx') M')).
Qed.
Lemma order_free o ops st outs ops1 ops2 o1 i1 st1 outs1 o2 i2 st2 outs2 : run o 0 init_state ops = Ok (st, outs) -> keeps_names_apart (ops ++ ops1) ->
  Forall only_stores ops1 -> ops2 ≡ₚ ops1 -> run o1 i1 st ops1 = Ok (st1, outs1) -> run o2 i2 st ops2 = Ok (st2, outs2) ->
  (forall d, stored st1 d <-> stored st2 d) /\ forall p q b1 b2, settled st1 [] p -> may_answer st1 p q b1 -> may_answer st2 p q b2 -> b1 = b2.
Proof.
  intros H (sort_of & F) S P H1 H2. apply Forall_app in F as [F F1]. pose proof (run_tidy _ _ _ _ _ _ _ _ (tidy_init sort_of) F H) as T.
  assert (R : reachable st) by (exists o, ops, outs; exact H). pose proof (tidy_apart _ _ _ _ T F1) as A. split.
  - intros d. exact (c100_rows o1 i1 st ops1 ops2 st1 outs1 o2 i2 st2 outs2 d R S A H1 P H2).
  - intros p q b1 b2. exact (c100_answers o1 i1 st ops1 ops2 st1 outs1 o2 i2 st2 outs2 p q b1 b2 R S A H1 P H2).
Qed.

(** ** The documented set-up *)
Lemma made_splits o i st ops st' outs x r : run o i st ops = Ok (st', outs) -> made ops outs x r ->
  exists ops1 ops2 outs1 outs2 st1 st2 o' j, ops = ops1 ++ x :: ops2 /\ run o i st ops1 = Ok (st1, outs1) /\ step o' st1 x = Ok (st2, r) /\ run o j st2 ops2 = Ok (st', outs2).
Proof.
  unfold made. revert i st outs. induction ops as [|y ops IH]; intros i st outs H M; cbn in H.
  { cbn in M. apply elem_of_nil in M. contradiction. }
  apply rbind_ok in H as ([s1 r1] & H1 & H). apply rbind_ok in H as ([s2 rs] & H2 & [= <- <-]). cbn in H2, M. apply elem_of_cons in M as [[= -> ->]|M].
  - exists [], ops, [], rs, st, s1, (sub o i), (S i). split; [reflexivity|]. split; [reflexivity|]. split; [exact H1|exact H2].
  - destruct (IH (S i) s1 rs H2 M) as (ops1 & ops2 & outs1 & outs2 & st1 & st2 & o' & j & -> & A & B & C).
    exists (y :: ops1), ops2, (r1 :: outs1), outs2, st1, st2, o', j. split; [reflexivity|]. split; [|split; [exact B|exact C]].
    cbn. rewrite H1. cbn. rewrite A. reflexivity.
Qed.
Lemma in_made o i st ops st' outs x : run o i st ops = Ok (st', outs) -> x ∈ ops -> exists r, made ops outs x r.
Proof.
  unfold made. revert i st outs. induction ops as [|y ops IH]; intros i st outs H M; cbn in H; [apply elem_of_nil in M; contradiction|].
  apply rbind_ok in H as ([s1 r1] & H1 & H). apply rbind_ok in H as ([s2 rs] & H2 & [= <- <-]). cbn in H2. apply elem_of_cons in M as [<-|M].
  - exists r1. left.
  - destruct (IH (S i) s1 rs H2 M) as [r Hr]. exists r. right. exact Hr.
Qed.
(** The same history with a view of one of its calls: before it, after it, and names kept apart all the time *)
Lemma view o ops st outs x r sort_of : run o 0 init_state ops = Ok (st, outs) -> Forall (names_kept sort_of) ops -> made ops outs x r ->
  exists st1 st2 o', reachable st1 /\ step o' st1 x = Ok (st2, r) /\ grows st2 st /\ heap_grows (s_heap st2) (s_heap st) /\ heap_le (s_heap st2) (s_heap st)
    /\ (forall d, stored st2 d -> stored st d) /\ grows st1 st.
Proof.
  intros H F M. destruct (made_splits _ _ _ _ _ _ _ _ H M) as (ops1 & ops2 & outs1 & outs2 & st1 & st2 & o' & j & -> & A & B & C).
  apply Forall_app in F as [F1 F2]. apply Forall_cons in F2 as [Fx F2]. pose proof (run_tidy _ _ _ _ _ _ _ _ (tidy_init sort_of) F1 A) as T1.
  pose proof (step_tidy _ _ _ _ _ _ _ T1 Fx B) as T2. assert (R : reachable st1) by (exists o, ops1, outs1; exact A).
  exists st1, st2, o'. split; [exact R|]. split; [exact B|]. pose proof (run_grows _ _ _ _ _ _ C) as G. split; [exact G|]. split; [exact (run_heap_grows _ _ _ _ _ _ C)|].
  split; [exact (run_heap_le _ _ _ _ _ _ (step_wf _ _ _ _ _ (reachable_wf _ R) B) C)|].
  split; [intros d; exact (tidy_stays _ _ _ _ _ _ _ _ d T2 F2 C)|exact (grows_trans _ _ _ (step_grows _ _ _ _ _ B) G)].
Qed.
Lemma called_back st st' t id : grows st st' -> called st' t id -> is_Some (s_tenants st !! t) -> exists c, s_tenants st !! t = Some c /\ t_id c = id.
Proof.
  intros G C [c Hc]. exists c. split; [exact Hc|]. destruct (gr_tenants _ _ G t c Hc) as (c' & Hc' & E & _). unfold called in C. rewrite Hc' in C. cbn in C. congruence.
Qed.
Section recipe.
Variables (o : oracle) (ops : list op) (st : state) (outs : list out).
Hypothesis Hrun : run o 0 init_state ops = Ok (st, outs).
Hypothesis Hapart : keeps_names_apart ops.
Lemma history : reachable st.
Proof. exists o, ops, outs. exact Hrun. Qed.
Lemma recipe_role p r id : given_role ops outs st p r id ->
  p ∈ m_principals st /\ registered_tenant st id /\ exists md, stored st (Data (AStr id) ANil ANil (AStr p) (AStr r) (ABool md)).
Proof.
  destruct Hapart as [sort_of F]. intros (t & md & rs & C & M & Hr). destruct (view _ _ _ _ _ _ _ Hrun F M) as (st1 & st2 & o' & R & S & G & _ & _ & K & G1).
  cbn in S. apply rbind_ok in S as ([st3 e] & S & [= -> ->]).
  assert (N : rs <> []) by (intros ->; apply elem_of_nil in Hr; contradiction).
  assert (Hc : exists c, s_tenants st1 !! t = Some c /\ t_managed c = true).
  { destruct rs as [|r0 rs']; [contradiction|]. unfold tenant_add_principal, until_error, tenant_add_principal_with_role in S.
    destruct (managed_tenant st1 t) as [c| |] eqn:E; [|discriminate|discriminate]. apply managed_ok in E. exists c. exact E. }
  destruct Hc as (c & Hc & Hm). destruct (called_back _ _ _ _ G1 C (ex_intro _ c Hc)) as (c' & Hc' & <-). rewrite Hc in Hc'. injection Hc' as <-.
  destruct (add_principal_stored st1 t c p md rs st2 R Hc S N) as [Hp Hs]. split; [exact (gr_m_principals _ _ G1 p Hp)|]. split.
  - destruct (managed_registered st1 R t c Hc Hm) as [l Hl]. exists l. exact (gr_m_tenants _ _ G1 _ l Hl).
  - exists md. apply K. apply (Hs r); [exact Hr|]. unfold role_rows. left.
Qed.
Lemma recipe_permission r g act : given_permission ops outs r g act -> exists l, m_roles st !! r = Some l /\ permits (s_heap st) l g act [].
Proof.
  destruct Hapart as [sort_of F]. intros (attrs & a & M & Ha & Hm). destruct (view _ _ _ _ _ _ _ Hrun F M) as (st1 & st2 & o' & R & S & G & HG & HL & K & G1).
  cbn in S. apply rbind_ok in S as ([st3 e] & S & [= -> ->]).
  destruct (proj1 (add_permissions_to_role_iff st1 r g attrs st2 None (reachable_wf st1 R) S) eq_refl) as (l & ro & gl & gr & Hl & _).
  destruct (c24_effect st1 r g attrs st2 l (reachable_wf st1 R) S Hl) as (E & _).
  destruct (proj2 (E (attr_string a))) as (a' & gg & Ho & Hk); [right; exists a; split; [exact Ha|reflexivity]|].
  exists l. split; [exact (gr_m_roles _ _ G1 r l Hl)|]. apply (grows_permits (s_heap st2)); [exact HG|exact HL|]. exists gg. split; [exact Ho|]. left.
  exists (attr_string a), a'. split; [exact Hk|exact Hm].
Qed.
Lemma recipe_tenant id : added_tenant ops st id -> registered_tenant st id.
Proof.
  destruct Hapart as [sort_of F]. intros (t & C & M). destruct (in_made _ _ _ _ _ _ _ Hrun M) as [r Hr].
  destruct (view _ _ _ _ _ _ _ Hrun F Hr) as (st1 & st2 & o' & R & S & G & _ & _ & _ & G1). cbn in S. apply rbind_ok in S as ([st3 l] & S & [= -> <-]).
  unfold add_tenant in S. destruct (s_tenants st1 !! t) as [c|] eqn:Hc; [|discriminate].
  destruct (called_back _ _ _ _ G1 C (ex_intro _ c Hc)) as (c' & Hc' & <-). rewrite Hc in Hc'. injection Hc' as <-.
  destruct (m_tenants _ !! t_id c) as [l'|] eqn:E; injection S as <- <-.
  - exists l'. apply (gr_m_tenants _ _ G). exact E.
  - exists t. apply (gr_m_tenants _ _ G). cbn. apply lookup_insert.
Qed.
Lemma recipe_namespace n : OAddNamespace n ∈ ops -> n ∈ m_namespaces st.
Proof.
  destruct Hapart as [sort_of F]. intros M. destruct (in_made _ _ _ _ _ _ _ Hrun M) as [r Hr].
  destruct (view _ _ _ _ _ _ _ Hrun F Hr) as (st1 & st2 & o' & R & S & G & _). injection S as <- <-. apply (gr_m_namespaces _ _ G). unfold add_namespace.
  case_bool_decide as E; [exact E|]. cbn. set_solver.
Qed.
Lemma recipe_scope n : OAddScope n ∈ ops -> n ∈ m_scopes st.
Proof.
  destruct Hapart as [sort_of F]. intros M. destruct (in_made _ _ _ _ _ _ _ Hrun M) as [r Hr].
  destruct (view _ _ _ _ _ _ _ Hrun F Hr) as (st1 & st2 & o' & R & S & G & _). injection S as <- <-. apply (gr_m_scopes _ _ G). unfold add_scope.
  case_bool_decide as E; [exact E|]. cbn. set_solver.
Qed.
Lemma recipe_ns_row id n : given_namespace ops st id n -> stored st (ns_row id n).
Proof.
  destruct Hapart as [sort_of F]. intros (t & ns & C & M & Hn). destruct (in_made _ _ _ _ _ _ _ Hrun M) as [r Hr].
  destruct (view _ _ _ _ _ _ _ Hrun F Hr) as (st1 & st2 & o' & R & S & G & _ & _ & K & G1).
  destruct (managed_dec st1 t) as [(c & Hc & Hm)|Hno].
  - cbn in S. apply rbind_ok in S as (st3 & S & [= -> <-]).
    destruct (called_back _ _ _ _ G1 C (ex_intro _ c Hc)) as (c' & Hc' & <-). rewrite Hc in Hc'. injection Hc' as <-.
    destruct (c97_namespaces st1 t c ns R Hc Hm) as (st4 & E & _ & A). rewrite E in S. injection S as ->.
    apply K. apply A. left. apply elem_of_list_In, in_map, elem_of_list_In. exact Hn.
  - rewrite (c97_no_manager o' st1 t (OTenantAddNamespaces t ns) Hno) in S; [discriminate|]. split; [reflexivity|].
    intros ->. apply elem_of_nil in Hn. contradiction.
Qed.
Lemma recipe_scope_row id n s : given_scope ops st id n s -> exists d, stored st d /\ tenant d = AStr id /\ scope d = AStr s /\ principal d = ANil /\ unset_or (namespace d) (AStr n).
Proof.
  destruct Hapart as [sort_of F]. intros (t & C & [M|(ss & M & Hs)]); destruct (in_made _ _ _ _ _ _ _ Hrun M) as [r Hr];
    destruct (view _ _ _ _ _ _ _ Hrun F Hr) as (st1 & st2 & o' & R & S & G & _ & _ & K & G1); destruct (managed_dec st1 t) as [(c & Hc & Hm)|Hno].
  - cbn in S. apply rbind_ok in S as (st3 & S & [= -> <-]).
    destruct (called_back _ _ _ _ G1 C (ex_intro _ c Hc)) as (c' & Hc' & <-). rewrite Hc in Hc'. injection Hc' as <-.
    destruct (c97_scopes_to_namespace st1 t c n s R Hc Hm) as (st4 & E & _ & A). rewrite E in S. injection S as ->.
    exists (ns_scope_row (t_id c) n s). split; [apply K; apply A; left; left|]. split_and!; try reflexivity. right. reflexivity.
  - rewrite (c97_no_manager o' st1 t (OTenantAddScopesToNamespace t n s) Hno) in S; [discriminate|reflexivity].
  - cbn in S. apply rbind_ok in S as (st3 & S & [= -> <-]).
    destruct (called_back _ _ _ _ G1 C (ex_intro _ c Hc)) as (c' & Hc' & <-). rewrite Hc in Hc'. injection Hc' as <-.
    destruct (c97_scopes st1 t c ss R Hc Hm) as (st4 & E & _ & A). rewrite E in S. injection S as ->.
    exists (scope_row (t_id c) s). split; [apply K; apply A; left; apply elem_of_list_In, in_map, elem_of_list_In; exact Hs|]. split_and!; try reflexivity. left. reflexivity.
  - rewrite (c97_no_manager o' st1 t (OTenantAddScopes t ss) Hno) in S; [discriminate|]. split; [reflexivity|].
    intros ->. apply elem_of_nil in Hs. contradiction.
Qed.

(** The verdict, for a principal nobody has asked about *)
Lemma recipe_verdict p r id q o' st' b : (forall x, x ∈ ops -> ~ asks_about p x) -> given_role ops outs st p r id -> valid_request st q ->
  grants st p (set_o_tenant q (AStr id)) (shape_of q) -> authorize o' st p q = Ok (st', b) -> b = true.
Proof.
  intros Hno Hg Hv Hgr H. destruct (recipe_role _ _ _ Hg) as (Hp & Ht & md & Hs).
  destruct (reachable_hierarchy st history) as [W HS].
  assert (Hc : m_cache st !! p = None) by (refine (not_asked_cache _ _ _ _ _ _ p Hrun Hno _); cbn; apply lookup_empty).
  apply authorize_ok in H as [(_ & Hn & _)|(_ & U & (o2 & H2) & Hb)]; [contradiction|]. apply Hb.
  destruct (implicit_bounds _ _ _ _ _ W HS Hc H2) as [B1 _].
  assert (HU : id ∈ U) by (apply B1; eexists; split; [exact Hs|split; reflexivity]).
  split; [exact Hp|]. split; [set_solver|]. split; [exact Hv|]. right. exists id. split; [exact HU|exact Hgr].
Qed.
Lemma known_valid q : known_things ops st q -> valid_request st q.
Proof.
  intros (A & B & C). split_and!.
  - destruct A as [A|(t & A & Ht)]; [left; exact A|right]. destruct (recipe_tenant t Ht) as [l Hl]. exists t, l. split; [exact A|exact Hl].
  - destruct B as [B|(n & B & Hn)]; [left; exact B|right]. exists n. split; [exact B|exact (recipe_namespace n Hn)].
  - destruct C as [C|(n & C & Hn)]; [left; exact C|right]. exists n. split; [exact C|exact (recipe_scope n Hn)].
Qed.
Lemma recipe_activity p r id g act q o' st' b : (forall x, x ∈ ops -> ~ asks_about p x) -> given_role ops outs st p r id -> given_permission ops outs r g act ->
  known_things ops st q -> shape_of q <> FT -> shape_of q <> FNone -> o_group q = AStr g -> o_activity q = AStr act -> authorize o' st p q = Ok (st', b) -> b = true.
Proof.
  intros Hno Hg Hp Hk N1 N2 Eg Ea. apply (recipe_verdict p r id); [exact Hno|exact Hg|exact (known_valid q Hk)|].
  destruct (recipe_role _ _ _ Hg) as (_ & _ & md & Hs). destruct (recipe_permission _ _ _ Hp) as (l & Hl & Hpm).
  left. split; [split; cbn; [rewrite Eg|rewrite Ea]; discriminate|].
  exists g, act, (AStr id), (Data (AStr id) ANil ANil (AStr p) (AStr r) (ABool md)), r, l.
  split; [exact Eg|]. split; [exact Ea|]. split; [|split; [exact Hs|split; [|split; [reflexivity|split; [exact Hl|exact Hpm]]]]].
  - destruct (shape_of q); cbn; try reflexivity. eexists. split; [exact Hs|]. split; [reflexivity|]. split; [discriminate|reflexivity].
  - split; [discriminate|]. destruct (shape_of q); try contradiction.
    + split; [left; split; [reflexivity|split; [discriminate|reflexivity]]|left; reflexivity].
    + split; [left; split; [reflexivity|split; [discriminate|reflexivity]]|left; reflexivity].
    + split; [reflexivity|]. split; [left; split; [reflexivity|discriminate]|]. split; left; reflexivity.
    + split; [reflexivity|]. split; [left; split; [reflexivity|discriminate]|]. split; left; reflexivity.
Qed.
Lemma recipe_member p r id q o' st' b : (forall x, x ∈ ops -> ~ asks_about p x) -> given_role ops outs st p r id -> known_things ops st q ->
  ~ asks_activity q ->
  part_of ops st id q -> authorize o' st p q = Ok (st', b) -> b = true.
Proof.
  intros Hno Hg Hk Na Hq. apply (recipe_verdict p r id); [exact Hno|exact Hg|exact (known_valid q Hk)|].
  destruct (recipe_role _ _ _ Hg) as (_ & _ & md & Hs). right. split; [exact Na|]. unfold part_of in Hq. destruct (shape_of q); cbn [grants_membership set_o_tenant o_tenant o_namespace o_scope].
  - eexists. split; [exact Hs|]. cbn. split_and!; [reflexivity|reflexivity|discriminate].
  - destruct Hq as (n & E & Hn). exists (ns_row id n). rewrite E. split; [exact (recipe_ns_row id n Hn)|]. cbn. split_and!; try reflexivity; try discriminate. left. reflexivity.
  - destruct Hq as (n & s & E & Hn). destruct (recipe_scope_row id n s Hn) as (d & Hd & A & B & C & D). exists d. rewrite E, A, B. split_and!; try reflexivity; try discriminate; [exact Hd|]. left. exact C.
  - destruct Hq as (n & s & E & E' & Hn). destruct (recipe_scope_row id n s Hn) as (d & Hd & A & B & C & D). exists d. rewrite E, E', A, B.
    split; [exact Hd|]. split_and!; try reflexivity; try discriminate. right. split; [exact C|exact D].
  - destruct Hq as (n & s & E & E' & Hn). destruct (recipe_scope_row id n s Hn) as (d & Hd & A & B & C & D).
    exists (Data (AStr id) ANil ANil (AStr p) (AStr r) (ABool md)), d. cbn [tenant principal]. rewrite E, E', A, B.
    split; [exact Hs|]. split; [reflexivity|]. split; [discriminate|]. split; [exact Hd|]. split_and!; try reflexivity; try discriminate. right. split; [exact C|exact D].
  - contradiction.
Qed.
End recipe.
