(** What every v1 call does to the tenants, the namespaces and the names. *)
From Verif Require Import V1Code V1Inv V1Setup.
From Verif Require Export V1CallsProofs.

(** ** Parts of a state *)
Definition t_ids (st : ustate) : list string := ut_id <$> u_tenants st.
Definition n_ids (st : ustate) : list string := un_id <$> u_nss st.
Definition f_ns (st : ustate) (t : nat) (n : string) : option nat := c ← u_tenants st !! t; ut_namespaces c !! n.
Definition f_def (st : ustate) (t : nat) : option nat := c ← u_tenants st !! t; ut_default c.
Definition f_roles (st : ustate) (t : nat) : gset string := default ∅ (ut_roles <$> u_tenants st !! t).
Definition f_scopes (st : ustate) (t : nat) : gset string := default ∅ (ut_scopes <$> u_tenants st !! t).
Definition n_scopes (st : ustate) (l : nat) : gset string := default ∅ (un_scopes <$> u_nss st !! l).
Definition n_roles (st : ustate) (l : nat) : gset string := default ∅ (un_roles <$> u_nss st !! l).

Lemma ids_insert {A} (f : A -> string) (l : list A) i a b : l !! i = Some a -> f b = f a -> f <$> <[i := b]> l = f <$> l.
Proof. intros H E. rewrite list_fmap_insert, E. apply list_insert_id. rewrite list_lookup_fmap, H. reflexivity. Qed.
Lemma set_tenant_at st t c c' t' : u_tenants st !! t = Some c -> u_tenants (u_set_tenant st t c') !! t' = if decide (t' = t) then Some c' else u_tenants st !! t'.
Proof.
  intros H. cbn. destruct (decide (t' = t)) as [->|N]; [apply list_lookup_insert, (lookup_lt_Some _ _ _ H)|apply list_lookup_insert_ne; congruence].
Qed.
Lemma set_ns_at st l c c' l' : u_nss st !! l = Some c -> u_nss (u_set_ns st l c') !! l' = if decide (l' = l) then Some c' else u_nss st !! l'.
Proof.
  intros H. cbn. destruct (decide (l' = l)) as [->|N]; [apply list_lookup_insert, (lookup_lt_Some _ _ _ H)|apply list_lookup_insert_ne; congruence].
Qed.

(** ** Loops *)
Lemma each_add {A B} (f : ustate -> A -> res ustate) (Inv : ustate -> Prop) (P : ustate -> B -> Prop) (Q : A -> B -> Prop) st xs st' :
  (forall st x st', Inv st -> f st x = Ok st' -> Inv st' /\ forall b, P st' b <-> P st b \/ Q x b) ->
  Inv st -> u_each f st xs = Ok st' -> forall b, P st' b <-> P st b \/ exists x, x ∈ xs /\ Q x b.
Proof.
  intros Hf. revert st. induction xs as [|x xs IH]; intros st I0; cbn.
  - intros [= <-] b. split; [intros H; left; exact H|intros [H|(x & Hx & _)]; [exact H|destruct (not_elem_of_nil _ Hx)]].
  - rewrite rbind_ok. intros (s1 & H1 & H). destruct (Hf _ _ _ I0 H1) as [I1 E1]. intros b. rewrite (IH _ I1 H b), E1. split.
    + intros [[H0|H0]|(z & Hz & H0)]; [left; exact H0|right; exists x; split; [left|exact H0]|right; exists z; split; [right; exact Hz|exact H0]].
    + intros [H0|(z & Hz & H0)]; [left; left; exact H0|]. apply elem_of_cons in Hz as [->|Hz]; [left; right; exact H0|right; exists z; split; assumption].
Qed.
Lemma each_added {A B} (f : ustate -> A -> res ustate) (Inv : ustate -> Prop) (P : ustate -> B -> Prop) (Q : A -> B -> Prop) st xs st' :
  u_each f st xs = Ok st' -> Inv st -> (forall st x st', Inv st -> f st x = Ok st' -> Inv st' /\ forall b, P st' b <-> P st b \/ Q x b) ->
  forall b, P st' b <-> P st b \/ exists x, x ∈ xs /\ Q x b.
Proof. intros H I0 Hf. exact (each_add f Inv P Q st xs st' Hf I0 H). Qed.
Lemma each_same {A B} (f : ustate -> A -> res ustate) (P : ustate -> B) st xs st' :
  (forall st x st', f st x = Ok st' -> P st' = P st) -> u_each f st xs = Ok st' -> P st' = P st.
Proof.
  intros Hf. revert st. induction xs as [|x xs IH]; intros st; cbn; [intros [= <-]; reflexivity|].
  rewrite rbind_ok. intros (s1 & H1 & H). rewrite (IH _ H). exact (Hf _ _ _ H1).
Qed.
Lemma while_same {A B} (f : ustate -> A -> res (option ustate)) (P : ustate -> B) st xs st' :
  (forall st x st', f st x = Ok (Some st') -> P st' = P st) -> u_while f st xs = Ok st' -> P st' = P st.
Proof.
  intros Hf. revert st. induction xs as [|x xs IH]; intros st; cbn; [intros [= <-]; reflexivity|].
  rewrite rbind_ok. intros ([s1|] & H1 & H); [|injection H as <-; reflexivity]. rewrite (IH _ H). exact (Hf _ _ _ H1).
Qed.

(** ** Ids *)
Lemma t_ids_set st t c c' : u_tenants st !! t = Some c -> ut_id c' = ut_id c -> t_ids (u_set_tenant st t c') = t_ids st.
Proof. intros H E. exact (ids_insert _ _ _ _ _ H E). Qed.
Lemma n_ids_set st l c c' : u_nss st !! l = Some c -> un_id c' = un_id c -> n_ids (u_set_ns st l c') = n_ids st.
Proof. intros H E. exact (ids_insert _ _ _ _ _ H E). Qed.
Lemma t_ids_scope st l s st' : un_add_scope st l s = Ok st' -> t_ids st' = t_ids st.
Proof. unfold un_add_scope. destruct (u_nss st !! l); [|discriminate]. intros [= <-]. reflexivity. Qed.
Lemma n_ids_scope st l s st' : un_add_scope st l s = Ok st' -> n_ids st' = n_ids st.
Proof. unfold un_add_scope. destruct (u_nss st !! l) eqn:E; [|discriminate]. intros [= <-]. (apply (n_ids_set _ _ _ _ E); reflexivity). Qed.
Lemma n_ids_role st l s st' : un_add_role st l s = Ok st' -> n_ids st' = n_ids st.
Proof. unfold un_add_role. destruct (u_nss st !! l) eqn:E; [|discriminate]. intros [= <-]. (apply (n_ids_set _ _ _ _ E); reflexivity). Qed.
Lemma n_ids_tpr st k p r t ns s m st' : ut_add_principal_role st k p r t ns s m = Ok st' -> n_ids st' = n_ids st.
Proof. intros H. unfold n_ids. rewrite (ap_nss _ _ _ _ _ _ _ _ _ (apart_tpr false false false false false false _ _ _ _ _ _ _ _ _ H) eq_refl). reflexivity. Qed.
Definition new_tenant_id (x : uop) : list string := match x with UNewTenant id => [id] | _ => [] end.
Definition new_ns_id (x : uop) : list string := match x with UNewNamespace id => [id] | _ => [] end.
Lemma step_t_ids o st x st' y : ustep o st x = Ok (st', y) -> t_ids st' = t_ids st ++ new_tenant_id x.
Proof.
  intros H. pose proof (step_apart _ _ _ _ _ H) as F. destruct x;
    try (unfold t_ids; rewrite (ap_tenants _ _ _ _ _ _ _ _ _ F eq_refl); cbn; rewrite app_nil_r; reflexivity);
    cbn [ustep new_tenant_id] in *; unfold uret, uret_loc in H; rewrite ?rbind_ok in H; rewrite ?app_nil_r; clear F.
  - injection H as <- _. unfold t_ids. cbn. rewrite fmap_app. reflexivity.
  - destruct H as ([s1 l] & H & [= <- _]). unfold u_add_tenant in H. destruct (u_tenants st !! t) as [c|] eqn:E; [|discriminate].
    cbn [uw_tenants u_reg] in H. destruct (u_reg st !! _); injection H as <- _; (apply (ids_insert _ _ _ _ _ E); reflexivity).
  - destruct H as (s1 & H & [= <- _]). refine (each_same _ _ _ _ _ _ H). intros s x s'. destruct (u_tenants s !! t) as [c|] eqn:E; [|discriminate].
    destruct (u_tenants s !! x); [|discriminate]. destruct (ut_desc _ !! _); intros [= <-]; [reflexivity|(apply (t_ids_set _ _ _ _ E); reflexivity)].
  - destruct H as (s1 & H & [= <- _]). unfold ut_set_default in H. destruct (u_tenants st !! t) as [c|] eqn:E; [|discriminate].
    destruct (ut_namespaces _ !! _); injection H as <-; [(apply (t_ids_set _ _ _ _ E); reflexivity)|reflexivity].
  - destruct H as (s1 & H & [= <- _]). refine (each_same _ _ _ _ _ _ H). intros s x s'. destruct (u_tenants s !! t) as [c|] eqn:E; [|discriminate].
    destruct (u_nss s !! x); [|discriminate]. destruct (ut_namespaces _ !! _); intros [= <-]; [reflexivity|(apply (t_ids_set _ _ _ _ E); reflexivity)].
  - destruct H as (s1 & H & [= <- _]). refine (each_same _ _ _ _ _ _ H). intros s x s'. destruct (u_tenants s !! t) as [c|] eqn:E; [|discriminate].
    destruct (h_roles _ !! x); [|discriminate]. intros [= <-]. (apply (t_ids_set _ _ _ _ E); reflexivity).
  - destruct H as (s1 & H & [= <- _]). refine (each_same _ _ _ _ _ _ H). intros s x s'. destruct (u_tenants s !! t) as [c|] eqn:E; [|discriminate].
    destruct (ut_default c); [|intros [= <-]; (apply (t_ids_set _ _ _ _ E); reflexivity)]. intros E1. rewrite (t_ids_scope _ _ _ _ E1). (apply (t_ids_set _ _ _ _ E); reflexivity).
Qed.
Lemma step_n_ids o st x st' y : ustep o st x = Ok (st', y) -> n_ids st' = n_ids st ++ new_ns_id x.
Proof.
  intros H. pose proof (step_apart _ _ _ _ _ H) as F. destruct x;
    try (unfold n_ids; rewrite (ap_nss _ _ _ _ _ _ _ _ _ F eq_refl); cbn; rewrite app_nil_r; reflexivity);
    cbn [ustep new_ns_id] in *; unfold uret, uret_loc in H; rewrite ?rbind_ok in H; rewrite ?app_nil_r; clear F.
  - injection H as <- _. unfold n_ids. cbn. rewrite fmap_app. reflexivity.
  - destruct H as (s1 & H & [= <- _]). refine (each_same _ _ _ _ _ _ H). intros s x s'. destruct (u_tenants s !! t) as [c|] eqn:E; [|discriminate].
    destruct (ut_default c); [|intros [= <-]; reflexivity]. intros E1. rewrite (n_ids_scope _ _ _ _ E1). reflexivity.
  - destruct H as (s1 & H & [= <- _]). refine (while_same _ _ _ _ _ _ H). intros s x s'. destruct (u_tenants s !! t) as [c|] eqn:E; [|discriminate].
    case_bool_decide; [|discriminate]. destruct (ut_namespaces c !! ns); [|intros [= <-]; reflexivity].
    rewrite rbind_ok. intros (s2 & E1 & E2). rewrite rbind_ok in E2. destruct E2 as (s3 & E2 & [= <-]).
    rewrite (n_ids_tpr _ _ _ _ _ _ _ _ _ E2). exact (n_ids_scope _ _ _ _ E1).
  - destruct H as (s1 & H & [= <- _]). refine (while_same _ _ _ _ _ _ H). intros s x s'. destruct (u_tenants s !! t) as [c|] eqn:E; [|discriminate].
    case_bool_decide; [|discriminate]. destruct (ut_namespaces c !! ns); [|discriminate].
    rewrite rbind_ok. intros (s2 & E1 & [= <-]). exact (n_ids_role _ _ _ _ E1).
  - destruct H as (s1 & H & [= <- _]). refine (each_same _ _ _ _ _ _ H). intros s x s'. destruct (h_roles _ !! x); [|discriminate]. apply n_ids_role.
  - destruct H as (s1 & H & [= <- _]). refine (each_same _ _ _ _ _ _ H). intros s x s'. apply n_ids_scope.
Qed.

(** ** Fields of tenants *)
(** Setting a tenant that keeps a field keeps the field. *)
Section keep.
  Context (st : ustate) (t : nat) (c c' : utenant) (H : u_tenants st !! t = Some c).
  Lemma keep_ns t' n : ut_namespaces c' = ut_namespaces c -> f_ns (u_set_tenant st t c') t' n = f_ns st t' n.
  Proof. intros E. unfold f_ns. rewrite (set_tenant_at _ _ _ _ _ H). case_decide as D; [subst t'; rewrite H; cbn; rewrite E|]; reflexivity. Qed.
  Lemma keep_def t' : ut_default c' = ut_default c -> f_def (u_set_tenant st t c') t' = f_def st t'.
  Proof. intros E. unfold f_def. rewrite (set_tenant_at _ _ _ _ _ H). case_decide as D; [subst t'; rewrite H; cbn; rewrite E|]; reflexivity. Qed.
  Lemma keep_roles t' : ut_roles c' = ut_roles c -> f_roles (u_set_tenant st t c') t' = f_roles st t'.
  Proof. intros E. unfold f_roles. rewrite (set_tenant_at _ _ _ _ _ H). case_decide as D; [subst t'; rewrite H; cbn; rewrite E|]; reflexivity. Qed.
  Lemma keep_scopes t' : ut_scopes c' = ut_scopes c -> f_scopes (u_set_tenant st t c') t' = f_scopes st t'.
  Proof. intros E. unfold f_scopes. rewrite (set_tenant_at _ _ _ _ _ H). case_decide as D; [subst t'; rewrite H; cbn; rewrite E|]; reflexivity. Qed.
End keep.
Lemma first_in_nil {A} (P : A -> Prop) a : ~ first_in P [] a.
Proof. intros (l1 & l2 & E & _). destruct l1; discriminate. Qed.
Lemma first_in_cons {A} (P : A -> Prop) a l b : first_in P (a :: l) b <-> P a /\ b = a \/ ~ P a /\ first_in P l b.
Proof.
  split.
  - intros (l1 & l2 & E & Hb & F). destruct l1 as [|a' l1]; injection E as -> E; [left; split; [exact Hb|reflexivity]|].
    inversion F as [|? ? N F']; subst. right. split; [exact N|]. exists l1, l2. split; [reflexivity|split; assumption].
  - intros [[Ha ->]|[N (l1 & l2 & -> & Hb & F)]]; [exists [], l; split; [reflexivity|split; [exact Ha|constructor]]|].
    exists (a :: l1), l2. split; [reflexivity|]. split; [exact Hb|]. constructor; assumption.
Qed.
Lemma reached_nil {A} (P : A -> Prop) a : ~ reached P [] a.
Proof. intros (l1 & l2 & E & _). destruct l1; discriminate. Qed.
Lemma reached_cons {A} (P : A -> Prop) a l b : reached P (a :: l) b <-> P a /\ (b = a \/ reached P l b).
Proof.
  split.
  - intros (l1 & l2 & E & F & Hb). destruct l1 as [|a' l1]; injection E as -> E; [split; [exact Hb|left; reflexivity]|].
    inversion F as [|? ? N F']; subst. split; [exact N|]. right. exists l1, l2. split; [reflexivity|split; assumption].
  - intros [Ha [->|(l1 & l2 & -> & F & Hb)]]; [exists [], l; split; [reflexivity|split; [constructor|exact Ha]]|].
    exists (a :: l1), l2. split; [reflexivity|]. split; [constructor; assumption|exact Hb].
Qed.
Lemma accepted_reached (X : gset string) xs pre s : accepted X xs pre -> s ∈ pre <-> reached (fun x => x ∈ X) xs s.
Proof.
  intros (post & -> & Hp & Hh). split.
  - intros Hs. destruct (elem_of_list_split _ _ Hs) as (l1 & l2 & ->). exists l1, (l2 ++ post). rewrite <- app_assoc. split; [reflexivity|].
    split; [apply Forall_forall; intros x Hx; apply Hp, elem_of_app; left; exact Hx|apply Hp; exact Hs].
  - revert Hp. induction pre as [|a pre IH]; intros Hp.
    + cbn. destruct post as [|b post]; intros Hr; [destruct (reached_nil _ _ Hr)|]. apply reached_cons in Hr as [Hb _]. destruct (Hh b eq_refl Hb).
    + cbn. intros Hr. apply reached_cons in Hr as [_ [->|Hr]]; [left|right]. apply IH; [|exact Hr]. intros x Hx. apply Hp. right. exact Hx.
Qed.

(** Namespaces of tenants *)
Lemma add_ns_loop st t0 ls st' : ut_add_namespace st t0 ls = Ok st' -> forall t n l,
  f_ns st' t n = Some l <-> f_ns st t n = Some l \/ f_ns st t n = None /\ t = t0 /\ first_in (fun l' => n_ids st !! l' = Some n) ls l.
Proof.
  unfold ut_add_namespace. revert st. induction ls as [|a ls IH]; intros st; cbn [u_each].
  - intros [= <-] t n l. split; [left; assumption|]. intros [H|(_ & _ & H)]; [exact H|destruct (first_in_nil _ _ H)].
  - rewrite rbind_ok. intros (s1 & H1 & H) t n l. rewrite (IH _ H). clear IH H.
    destruct (u_tenants st !! t0) as [c|] eqn:E; [|discriminate]. destruct (u_nss st !! a) as [m|] eqn:Em; [|discriminate].
    assert (Hm : forall n', n_ids st !! a = Some n' <-> un_id m = n').
    { intros n'. unfold n_ids. rewrite list_lookup_fmap, Em. cbn. split; [intros [= ->]; reflexivity|intros ->; reflexivity]. }
    rewrite first_in_cons, Hm. destruct (ut_namespaces c !! un_id m) as [l0|] eqn:En; injection H1 as <-.
    + split; [intros [H|(H & -> & F)]; [left; exact H|]|intros [H|(H & -> & F)]; [left; exact H|]].
      * right. split; [exact H|]. split; [reflexivity|]. right. split; [|exact F]. intros D. subst n. unfold f_ns in H. rewrite E in H. cbn in H. congruence.
      * right. split; [exact H|]. split; [reflexivity|]. destruct F as [[D ->]|[_ F]]; [|exact F]. subst n. unfold f_ns in H. rewrite E in H. cbn in H. congruence.
    + unfold f_ns. rewrite (set_tenant_at _ _ _ _ _ E). case_decide as D.
      * subst t. rewrite E. cbn [mbind option_bind ut_namespaces]. destruct (decide (un_id m = n)) as [D|N]; [subst n|].
        -- rewrite lookup_insert, En. split; [intros [[= ->]|[? _]]; [|discriminate]|intros [?|(_ & _ & [[_ ->]|[N _]])]; [discriminate|left; reflexivity|destruct (N eq_refl)]].
           right. split; [reflexivity|]. split; [reflexivity|]. left. split; reflexivity.
        -- rewrite lookup_insert_ne by exact N. split; [intros [H|(H & _ & F)]; [left; exact H|right; split; [exact H|split; [reflexivity|right; split; assumption]]]|].
           intros [H|(H & _ & [[? _]|[_ F]])]; [left; exact H|contradiction|right; split; [exact H|split; [reflexivity|exact F]]].
      * split; (intros [H|(_ & ? & _)]; [left; exact H|congruence]).
Qed.
Lemma step_ns o st x st' y t n l : ustep o st x = Ok (st', y) ->
  f_ns st' t n = Some l <-> f_ns st t n = Some l \/ f_ns st t n = None /\ exists ls, x = UTAddNamespace t ls /\ first_in (fun l' => n_ids st !! l' = Some n) ls l.
Proof.
  intros H. pose proof (step_apart _ _ _ _ _ H) as F.
  assert (G : match x with UTAddNamespace _ _ => True | _ => f_ns st' t n = f_ns st t n end).
  { destruct x; try exact I; try (unfold f_ns; rewrite (ap_tenants _ _ _ _ _ _ _ _ _ F eq_refl); reflexivity);
    cbn [ustep] in *; unfold uret, uret_loc in H; rewrite ?rbind_ok in H; clear F.
    - injection H as <- _. unfold f_ns. cbn. destruct (u_tenants st !! t) as [c|] eqn:E; [rewrite (lookup_app_l_Some _ _ _ _ E); reflexivity|].
      rewrite lookup_app_r by (apply lookup_ge_None; exact E). destruct (t - length (u_tenants st)) as [|k]; [reflexivity|]. cbn. destruct k; reflexivity.
    - destruct H as ([s1 k] & H & [= <- _]). unfold u_add_tenant in H. destruct (u_tenants st !! t0) as [c|] eqn:E; [|discriminate].
      cbn [uw_tenants u_reg] in H. destruct (u_reg st !! _); injection H as <- _; (apply (keep_ns st t0 c _ E t n); reflexivity).
    - destruct H as (s1 & H & [= <- _]). refine (each_same _ (fun st => f_ns st t n) _ _ _ _ H). intros s x s'. destruct (u_tenants s !! t0) as [c|] eqn:E; [|discriminate].
      destruct (u_tenants s !! x); [|discriminate]. destruct (ut_desc _ !! _); intros [= <-]; [reflexivity|(apply (keep_ns _ _ c _ E t n); reflexivity)].
    - destruct H as (s1 & H & [= <- _]). unfold ut_set_default in H. destruct (u_tenants st !! t0) as [c|] eqn:E; [|discriminate].
      destruct (ut_namespaces _ !! _); injection H as <-; [(apply (keep_ns _ _ c _ E t n); reflexivity)|reflexivity].
    - destruct H as (s1 & H & [= <- _]). refine (each_same _ (fun st => f_ns st t n) _ _ _ _ H). intros s x s'. destruct (u_tenants s !! t0) as [c|] eqn:E; [|discriminate].
      destruct (h_roles _ !! x); [|discriminate]. intros [= <-]. (apply (keep_ns _ _ c _ E t n); reflexivity).
    - destruct H as (s1 & H & [= <- _]). refine (each_same _ (fun st => f_ns st t n) _ _ _ _ H). intros s x s'. destruct (u_tenants s !! t0) as [c|] eqn:E; [|discriminate].
      destruct (ut_default c); [|intros [= <-]; (apply (keep_ns _ _ c _ E t n); reflexivity)]. intros E1.
      cbv zeta in E1. pose proof (ap_tenants _ _ _ _ _ _ _ _ _ (ns_scope_apart false false false false false false _ _ _ _ E1) eq_refl) as Et.
      unfold f_ns. rewrite Et. apply (keep_ns s t0 c _ E t n). reflexivity. }
  destruct x; try (rewrite G; split; [left; assumption|intros [?|(_ & ls & ? & _)]; [assumption|discriminate]]).
  cbn [ustep] in H. unfold uret in H. rewrite rbind_ok in H. destruct H as (s1 & H & [= <- _]). rewrite (add_ns_loop _ _ _ _ H).
  split; (intros [H0|(H0 & H1)]; [left; exact H0|right; split; [exact H0|]]).
  - destruct H1 as [-> H1]. exists ns. split; [reflexivity|exact H1].
  - destruct H1 as (ls & [= -> ->] & H1). split; [reflexivity|exact H1].
Qed.
(** Default namespaces *)
Lemma step_def o st x st' y t : ustep o st x = Ok (st', y) ->
  f_def st' t = match x with
                | UTSetDefault t0 n => if decide (t0 = t) then match f_ns st t n with Some l => Some l | None => f_def st t end else f_def st t
                | _ => f_def st t
                end.
Proof.
  intros H. pose proof (step_apart _ _ _ _ _ H) as F.
  destruct x; try (unfold f_def; rewrite (ap_tenants _ _ _ _ _ _ _ _ _ F eq_refl); reflexivity);
    cbn [ustep] in *; unfold uret, uret_loc in H; rewrite ?rbind_ok in H; clear F.
  - injection H as <- _. unfold f_def. cbn. destruct (u_tenants st !! t) as [c|] eqn:E; [rewrite (lookup_app_l_Some _ _ _ _ E); reflexivity|].
    rewrite lookup_app_r by (apply lookup_ge_None; exact E). destruct (t - length (u_tenants st)) as [|k]; [reflexivity|]. cbn. destruct k; reflexivity.
  - destruct H as ([s1 k] & H & [= <- _]). unfold u_add_tenant in H. destruct (u_tenants st !! t0) as [c|] eqn:E; [|discriminate].
    cbn [uw_tenants u_reg] in H. destruct (u_reg st !! _); injection H as <- _; (apply (keep_def st t0 c _ E t); reflexivity).
  - destruct H as (s1 & H & [= <- _]). refine (each_same _ (fun st => f_def st t) _ _ _ _ H). intros s x s'. destruct (u_tenants s !! t0) as [c|] eqn:E; [|discriminate].
    destruct (u_tenants s !! x); [|discriminate]. destruct (ut_desc _ !! _); intros [= <-]; [reflexivity|(apply (keep_def _ _ c _ E t); reflexivity)].
  - destruct H as (s1 & H & [= <- _]). unfold ut_set_default in H. unfold f_ns. destruct (u_tenants st !! t0) as [c|] eqn:E; [|discriminate].
    case_decide as D.
    + subst t0. rewrite E. cbn [mbind option_bind]. destruct (ut_namespaces c !! ns) as [l|]; injection H as <-; [|reflexivity].
      unfold f_def. rewrite (set_tenant_at _ _ _ _ _ E), decide_True by reflexivity. reflexivity.
    + destruct (ut_namespaces c !! ns) as [l|]; injection H as <-; [|reflexivity].
      unfold f_def. rewrite (set_tenant_at _ _ _ _ _ E), decide_False by congruence. reflexivity.
  - destruct H as (s1 & H & [= <- _]). refine (each_same _ (fun st => f_def st t) _ _ _ _ H). intros s x s'. destruct (u_tenants s !! t0) as [c|] eqn:E; [|discriminate].
    destruct (u_nss s !! x); [|discriminate]. destruct (ut_namespaces _ !! _); intros [= <-]; [reflexivity|(apply (keep_def _ _ c _ E t); reflexivity)].
  - destruct H as (s1 & H & [= <- _]). refine (each_same _ (fun st => f_def st t) _ _ _ _ H). intros s x s'. destruct (u_tenants s !! t0) as [c|] eqn:E; [|discriminate].
    destruct (h_roles _ !! x); [|discriminate]. intros [= <-]. (apply (keep_def _ _ c _ E t); reflexivity).
  - destruct H as (s1 & H & [= <- _]). refine (each_same _ (fun st => f_def st t) _ _ _ _ H). intros s x s'. destruct (u_tenants s !! t0) as [c|] eqn:E; [|discriminate].
    destruct (ut_default c) eqn:Ed; [|intros [= <-]; apply (keep_def _ _ c _ E t); symmetry; exact Ed]. intros E1.
    cbv zeta in E1. pose proof (ap_tenants _ _ _ _ _ _ _ _ _ (ns_scope_apart false false false false false false _ _ _ _ E1) eq_refl) as Et.
    unfold f_def. rewrite Et. apply (keep_def s t0 c _ E t). symmetry. exact Ed.
Qed.
Lemma app_new {A B} (g : A -> B) (l : list A) (a : A) (b : B) i : g a = b -> default b (g <$> (l ++ [a]) !! i) = default b (g <$> l !! i).
Proof.
  intros E. destruct (l !! i) as [c|] eqn:F; [rewrite (lookup_app_l_Some _ _ _ _ F); reflexivity|].
  rewrite lookup_app_r by (apply lookup_ge_None; exact F). destruct (i - length l) as [|k]; [exact E|]. cbn. destruct k; reflexivity.
Qed.
(** Roles of tenants *)
Lemma step_troles o st x st' y t r : ustep o st x = Ok (st', y) ->
  r ∈ f_roles st' t <-> r ∈ f_roles st t \/ exists ls l, x = UTAddRole t ls /\ l ∈ ls /\ has_id (u_heap st) l r.
Proof.
  intros H. pose proof (step_apart _ _ _ _ _ H) as F.
  assert (G : match x with UTAddRole _ _ => True | _ => f_roles st' t = f_roles st t end).
  { destruct x; try exact I; try (unfold f_roles; rewrite (ap_tenants _ _ _ _ _ _ _ _ _ F eq_refl); reflexivity);
    cbn [ustep] in *; unfold uret, uret_loc in H; rewrite ?rbind_ok in H; clear F.
    - injection H as <- _. unfold f_roles. cbn. apply app_new. reflexivity.
    - destruct H as ([s1 k] & H & [= <- _]). unfold u_add_tenant in H. destruct (u_tenants st !! t0) as [c|] eqn:E; [|discriminate].
      cbn [uw_tenants u_reg] in H. destruct (u_reg st !! _); injection H as <- _; (apply (keep_roles st t0 c _ E t); reflexivity).
    - destruct H as (s1 & H & [= <- _]). refine (each_same _ (fun st => f_roles st t) _ _ _ _ H). intros s x s'. destruct (u_tenants s !! t0) as [c|] eqn:E; [|discriminate].
      destruct (u_tenants s !! x); [|discriminate]. destruct (ut_desc _ !! _); intros [= <-]; [reflexivity|apply (keep_roles _ _ c _ E t); reflexivity].
    - destruct H as (s1 & H & [= <- _]). unfold ut_set_default in H. destruct (u_tenants st !! t0) as [c|] eqn:E; [|discriminate].
      destruct (ut_namespaces _ !! _); injection H as <-; [apply (keep_roles _ _ c _ E t); reflexivity|reflexivity].
    - destruct H as (s1 & H & [= <- _]). refine (each_same _ (fun st => f_roles st t) _ _ _ _ H). intros s x s'. destruct (u_tenants s !! t0) as [c|] eqn:E; [|discriminate].
      destruct (u_nss s !! x); [|discriminate]. destruct (ut_namespaces _ !! _); intros [= <-]; [reflexivity|apply (keep_roles _ _ c _ E t); reflexivity].
    - destruct H as (s1 & H & [= <- _]). refine (each_same _ (fun st => f_roles st t) _ _ _ _ H). intros s x s'. destruct (u_tenants s !! t0) as [c|] eqn:E; [|discriminate].
      destruct (ut_default c); [|intros [= <-]; apply (keep_roles _ _ c _ E t); reflexivity]. intros E1.
      cbv zeta in E1. pose proof (ap_tenants _ _ _ _ _ _ _ _ _ (ns_scope_apart false false false false false false _ _ _ _ E1) eq_refl) as Et.
      unfold f_roles. rewrite Et. apply (keep_roles s t0 c _ E t). reflexivity. }
  destruct x; try (rewrite G; split; [left; assumption|intros [?|(ls & l & ? & _)]; [assumption|discriminate]]).
  cbn [ustep] in H. unfold uret in H. rewrite rbind_ok in H. destruct H as (s1 & H & [= <- _]). unfold ut_add_role in H.
  pose proof (each_added _ (fun s => u_heap s = u_heap st) (fun s r => r ∈ f_roles s t) (fun l r => t0 = t /\ has_id (u_heap st) l r) _ _ _ H eq_refl) as EA. cbn beta in EA. rewrite EA with (b := r); clear EA H.
  - split; (intros [H0|H0]; [left; exact H0|right]).
    + destruct H0 as (l & Hl & -> & Hi). exists rs, l. split; [reflexivity|split; assumption].
    + destruct H0 as (ls & l & [= -> ->] & Hl & Hi). exists l. split; [exact Hl|split; [reflexivity|exact Hi]].
  - intros s l s' Hh. destruct (u_tenants s !! t0) as [c|] eqn:E; [|discriminate]. rewrite Hh. destruct (h_roles (u_heap st) !! l) as [ro|] eqn:Er; [|discriminate].
    intros [= <-]. split; [exact Hh|]. intros r'. unfold f_roles. rewrite (set_tenant_at _ _ _ _ _ E). case_decide as D.
    + subst t0. rewrite E. cbn [fmap option_fmap option_map from_option id ut_roles]. rewrite elem_of_union, elem_of_singleton. split.
      * intros [->|H0]; [right; split; [reflexivity|exists ro; split; [exact Er|reflexivity]]|left; exact H0].
      * intros [H0|(_ & ro' & Hr & <-)]; [right; exact H0|left]. congruence.
    + split; [left; assumption|]. intros [H0|(-> & _)]; [exact H0|destruct (D eq_refl)].
Qed.
(** Scopes of tenants *)
Lemma step_tscopes o st x st' y t r : ustep o st x = Ok (st', y) ->
  r ∈ f_scopes st' t <-> r ∈ f_scopes st t \/ exists ss, x = UTAddScopes t ss /\ r ∈ ss.
Proof.
  intros H. pose proof (step_apart _ _ _ _ _ H) as F.
  assert (G : match x with UTAddScopes _ _ => True | _ => f_scopes st' t = f_scopes st t end).
  { destruct x; try exact I; try (unfold f_scopes; rewrite (ap_tenants _ _ _ _ _ _ _ _ _ F eq_refl); reflexivity);
    cbn [ustep] in *; unfold uret, uret_loc in H; rewrite ?rbind_ok in H; clear F.
    - injection H as <- _. unfold f_scopes. cbn. apply app_new. reflexivity.
    - destruct H as ([s1 k] & H & [= <- _]). unfold u_add_tenant in H. destruct (u_tenants st !! t0) as [c|] eqn:E; [|discriminate].
      cbn [uw_tenants u_reg] in H. destruct (u_reg st !! _); injection H as <- _; (apply (keep_scopes st t0 c _ E t); reflexivity).
    - destruct H as (s1 & H & [= <- _]). refine (each_same _ (fun st => f_scopes st t) _ _ _ _ H). intros s x s'. destruct (u_tenants s !! t0) as [c|] eqn:E; [|discriminate].
      destruct (u_tenants s !! x); [|discriminate]. destruct (ut_desc _ !! _); intros [= <-]; [reflexivity|apply (keep_scopes _ _ c _ E t); reflexivity].
    - destruct H as (s1 & H & [= <- _]). unfold ut_set_default in H. destruct (u_tenants st !! t0) as [c|] eqn:E; [|discriminate].
      destruct (ut_namespaces _ !! _); injection H as <-; [apply (keep_scopes _ _ c _ E t); reflexivity|reflexivity].
    - destruct H as (s1 & H & [= <- _]). refine (each_same _ (fun st => f_scopes st t) _ _ _ _ H). intros s x s'. destruct (u_tenants s !! t0) as [c|] eqn:E; [|discriminate].
      destruct (u_nss s !! x); [|discriminate]. destruct (ut_namespaces _ !! _); intros [= <-]; [reflexivity|apply (keep_scopes _ _ c _ E t); reflexivity].
    - destruct H as (s1 & H & [= <- _]). refine (each_same _ (fun st => f_scopes st t) _ _ _ _ H). intros s x s'. destruct (u_tenants s !! t0) as [c|] eqn:E; [|discriminate].
      destruct (h_roles _ !! x); [|discriminate]. intros [= <-]. apply (keep_scopes _ _ c _ E t). reflexivity. }
  destruct x; try (rewrite G; split; [left; assumption|intros [?|(ls & ? & _)]; [assumption|discriminate]]).
  cbn [ustep] in H. unfold uret in H. rewrite rbind_ok in H. destruct H as (s1 & H & [= <- _]). unfold ut_add_scopes in H.
  pose proof (each_added _ (fun _ => True) (fun s r => r ∈ f_scopes s t) (fun s' r => t0 = t /\ r = s') _ _ _ H I) as EA. cbn beta in EA. rewrite EA with (b := r); clear EA H.
  - split; (intros [H0|H0]; [left; exact H0|right]).
    + destruct H0 as (l & Hl & -> & ->). exists ss. split; [reflexivity|assumption].
    + destruct H0 as (ls & [= -> ->] & Hl). exists r. split; [exact Hl|split; reflexivity].
  - intros s l s' _ H. split; [exact I|]. intros r'. destruct (u_tenants s !! t0) as [c|] eqn:E; [|discriminate].
    assert (Et : u_tenants s' !! t = if decide (t = t0) then Some (UTenant (ut_id c) (ut_namespaces c) (ut_roles c) ({[l]} ∪ ut_scopes c) (ut_desc c) (ut_default c) (ut_managed c)) else u_tenants s !! t).
    { cbv zeta in H. destruct (ut_default c) eqn:Ed; [|injection H as <-; apply (set_tenant_at _ _ _ _ _ E)].
      rewrite (ap_tenants _ _ _ _ _ _ _ _ _ (ns_scope_apart false false false false false false _ _ _ _ H) eq_refl). apply (set_tenant_at _ _ _ _ _ E). }
    unfold f_scopes. rewrite Et. case_decide as D.
    + subst t0. rewrite E. cbn [fmap option_fmap option_map from_option id ut_scopes]. rewrite elem_of_union, elem_of_singleton. tauto.
    + split; [left; assumption|]. intros [H0|(-> & _)]; [exact H0|destruct (D eq_refl)].
Qed.

(** ** Scopes and roles of namespaces *)
Lemma scope_added st l s st' l' x : un_add_scope st l s = Ok st' -> x ∈ n_scopes st' l' <-> x ∈ n_scopes st l' \/ l = l' /\ x = s.
Proof.
  unfold un_add_scope. destruct (u_nss st !! l) as [n|] eqn:E; [|discriminate]. intros [= <-]. unfold n_scopes. rewrite (set_ns_at _ _ _ _ _ E). case_decide as D.
  - subst l'. rewrite E. cbn [fmap option_fmap option_map from_option id un_scopes]. rewrite elem_of_union, elem_of_singleton. tauto.
  - split; [left; assumption|]. intros [H0|(-> & _)]; [exact H0|destruct (D eq_refl)].
Qed.
Lemma scope_roles st l s st' l' : un_add_scope st l s = Ok st' -> n_roles st' l' = n_roles st l'.
Proof.
  unfold un_add_scope. destruct (u_nss st !! l) as [n|] eqn:E; [|discriminate]. intros [= <-]. unfold n_roles. rewrite (set_ns_at _ _ _ _ _ E). case_decide as D; [subst l'; rewrite E|]; reflexivity.
Qed.
Lemma role_added st l s st' l' x : un_add_role st l s = Ok st' -> x ∈ n_roles st' l' <-> x ∈ n_roles st l' \/ l = l' /\ x = s.
Proof.
  unfold un_add_role. destruct (u_nss st !! l) as [n|] eqn:E; [|discriminate]. intros [= <-]. unfold n_roles. rewrite (set_ns_at _ _ _ _ _ E). case_decide as D.
  - subst l'. rewrite E. cbn [fmap option_fmap option_map from_option id un_roles]. rewrite elem_of_union, elem_of_singleton. tauto.
  - split; [left; assumption|]. intros [H0|(-> & _)]; [exact H0|destruct (D eq_refl)].
Qed.
Lemma role_scopes st l s st' l' : un_add_role st l s = Ok st' -> n_scopes st' l' = n_scopes st l'.
Proof.
  unfold un_add_role. destruct (u_nss st !! l) as [n|] eqn:E; [|discriminate]. intros [= <-]. unfold n_scopes. rewrite (set_ns_at _ _ _ _ _ E). case_decide as D; [subst l'; rewrite E|]; reflexivity.
Qed.
Lemma f_scopes_at st t c : u_tenants st !! t = Some c -> f_scopes st t = ut_scopes c.
Proof. intros E. unfold f_scopes. rewrite E. reflexivity. Qed.
Lemma f_roles_at st t c : u_tenants st !! t = Some c -> f_roles st t = ut_roles c.
Proof. intros E. unfold f_roles. rewrite E. reflexivity. Qed.
Lemma f_ns_at st t c n : u_tenants st !! t = Some c -> f_ns st t n = ut_namespaces c !! n.
Proof. intros E. unfold f_ns. rewrite E. reflexivity. Qed.
Lemma reached_ext {A} (P Q : A -> Prop) l a : (forall x, P x <-> Q x) -> reached P l a <-> reached Q l a.
Proof.
  intros E. split; intros (l1 & l2 & -> & F & Ha); exists l1, l2; (split; [reflexivity|]); (split; [|apply E; exact Ha]); (eapply Forall_impl; [exact F|]); intros b Hb; apply E, Hb.
Qed.
Lemma step_nscopes o st x st' y l s : u_wf st -> ustep o st x = Ok (st', y) ->
  s ∈ n_scopes st' l <-> s ∈ n_scopes st l \/
    match x with
    | UNAddScopes l' ss => l' = l /\ s ∈ ss
    | UTAddScopes t ss => f_def st t = Some l /\ s ∈ ss
    | UTAddScopesToNamespace t n ss => f_ns st t n = Some l /\ reached (fun z => z ∈ f_scopes st t) ss s
    | _ => False
    end.
Proof.
  intros W H. pose proof (step_apart _ _ _ _ _ H) as F.
  destruct x; try (unfold n_scopes; rewrite (ap_nss _ _ _ _ _ _ _ _ _ F eq_refl); tauto);
    cbn [ustep] in *; unfold uret, uret_loc in H; rewrite ?rbind_ok in H; clear F.
  - injection H as <- _. unfold n_scopes. cbn [u_new_namespace uw_nss fst u_nss]. rewrite app_new by reflexivity. tauto.
  - destruct H as (s1 & H & [= <- _]). unfold ut_add_scopes in H.
    pose proof (each_added _ (fun s => f_def s t = f_def st t) (fun s z => z ∈ n_scopes s l) (fun s' z => f_def st t = Some l /\ z = s') _ _ _ H eq_refl) as EA. cbn beta in EA. rewrite EA with (b := s); clear EA H.
    + split; (intros [H0|H0]; [left; exact H0|right]).
      * destruct H0 as (z & Hz & E & ->). split; assumption.
      * destruct H0 as [E H0]. exists s. split; [exact H0|split; [exact E|reflexivity]].
    + intros sa z sb Hd H. destruct (u_tenants sa !! t) as [c|] eqn:E; [|discriminate]. cbv zeta in H.
      assert (Hc : ut_default c = f_def st t) by (rewrite <- Hd; unfold f_def; rewrite E; reflexivity).
      destruct (ut_default c) as [l0|] eqn:Ed.
      * pose proof (ap_tenants _ _ _ _ _ _ _ _ _ (ns_scope_apart false false false false false false _ _ _ _ H) eq_refl) as Et. split.
        -- rewrite <- Hc. unfold f_def. rewrite Et, (set_tenant_at _ _ _ _ _ E), decide_True by reflexivity. reflexivity.
        -- intros b. rewrite (scope_added _ _ _ _ _ _ H), <- Hc. split; (intros [H0|[H0 H1]]; [left; exact H0|right; split; [congruence|exact H1]]).
      * injection H as <-. split.
        -- rewrite <- Hc. unfold f_def. rewrite (set_tenant_at _ _ _ _ _ E), decide_True by reflexivity. reflexivity.
        -- intros b. rewrite <- Hc. split; [left; assumption|]. intros [H0|[? _]]; [exact H0|discriminate].
  - destruct H as (s1 & H & [= <- _]). destruct ss as [|s0 ss].
    { cbn in H. injection H as <-. split; [left; assumption|]. intros [H|[_ H]]; [exact H|destruct (reached_nil _ _ H)]. }
    destruct (u_tenants st !! t) as [c|] eqn:E; [|unfold ut_add_scopes_to_namespace in H; cbn [u_while] in H; rewrite E in H; discriminate].
    rewrite (f_ns_at _ _ _ _ E), (f_scopes_at _ _ _ E). destruct (ut_namespaces c !! ns) as [l0|] eqn:En.
    + destruct (uwf_ns _ W _ _ _ _ E En) as (m & Hm & _). destruct (add_scopes_to_namespace_ok _ _ _ _ _ _ _ _ E En Hm H) as (pre & Ha & [E1 _]).
      unfold n_scopes. rewrite E1. cbn [uw_rows u_nss]. rewrite (set_ns_at _ _ _ _ _ Hm). case_decide as D.
      * subst l0. rewrite Hm. cbn [fmap option_fmap option_map from_option id un_scopes]. rewrite elem_of_union, elem_of_list_to_set, (accepted_reached _ _ _ _ Ha). tauto.
      * split; [left; assumption|]. intros [H0|[[= ->] _]]; [exact H0|destruct (D eq_refl)].
    + destruct (unknown_namespace_ok _ _ _ _ (s0 :: ss) E En) as [E1 _]. rewrite E1 in H. injection H as <-. split; [left; assumption|]. intros [H0|[? _]]; [exact H0|discriminate].
  - destruct H as (s1 & H & [= <- _]).
    enough (E : n_scopes s1 l = n_scopes st l) by (rewrite E; tauto). refine (while_same _ (fun st => n_scopes st l) _ _ _ _ H).
    intros sa z sb. destruct (u_tenants sa !! t) as [c|]; [|discriminate]. case_bool_decide; [|discriminate]. destruct (ut_namespaces c !! ns); [|discriminate].
    rewrite rbind_ok. intros (s2 & E1 & [= <-]). exact (role_scopes _ _ _ _ _ E1).
  - destruct H as (s1 & H & [= <- _]).
    enough (E : n_scopes s1 l = n_scopes st l) by (rewrite E; tauto). refine (each_same _ (fun st => n_scopes st l) _ _ _ _ H).
    intros sa z sb. destruct (h_roles _ !! z); [|discriminate]. apply role_scopes.
  - destruct H as (s1 & H & [= <- _]).
    pose proof (each_added _ (fun _ => True) (fun s z => z ∈ n_scopes s l) (fun s' z => n = l /\ z = s') _ _ _ H I) as EA. cbn beta in EA. rewrite EA with (b := s); clear EA H.
    + split; (intros [H0|H0]; [left; exact H0|right]).
      * destruct H0 as (z & Hz & E & ->). split; assumption.
      * destruct H0 as [E H0]. exists s. split; [exact H0|split; [exact E|reflexivity]].
    + intros sa z sb _ H0. split; [exact I|]. intros b. apply (scope_added _ _ _ _ _ _ H0).
Qed.
Lemma step_nroles o st x st' y l r : u_wf st -> ustep o st x = Ok (st', y) ->
  r ∈ n_roles st' l <-> r ∈ n_roles st l \/
    match x with
    | UNAddRoles l' ls => l' = l /\ exists z, z ∈ ls /\ has_id (u_heap st) z r
    | UTAddRolesToNamespace t n rs => f_ns st t n = Some l /\ reached (fun z => z ∈ f_roles st t) rs r
    | _ => False
    end.
Proof.
  intros W H. pose proof (step_apart _ _ _ _ _ H) as F.
  destruct x; try (unfold n_roles; rewrite (ap_nss _ _ _ _ _ _ _ _ _ F eq_refl); tauto);
    cbn [ustep] in *; unfold uret, uret_loc in H; rewrite ?rbind_ok in H; clear F.
  - injection H as <- _. unfold n_roles. cbn [u_new_namespace uw_nss fst u_nss]. rewrite app_new by reflexivity. tauto.
  - destruct H as (s1 & H & [= <- _]). enough (E : n_roles s1 l = n_roles st l) by (rewrite E; tauto). refine (each_same _ (fun st => n_roles st l) _ _ _ _ H).
    intros sa z sb. destruct (u_tenants sa !! t) as [c|]; [|discriminate]. destruct (ut_default c); [|intros [= <-]; reflexivity].
    intros E. rewrite (scope_roles _ _ _ _ _ E). reflexivity.
  - destruct H as (s1 & H & [= <- _]). enough (E : n_roles s1 l = n_roles st l) by (rewrite E; tauto). refine (while_same _ (fun st => n_roles st l) _ _ _ _ H).
    intros sa z sb. destruct (u_tenants sa !! t) as [c|]; [|discriminate]. case_bool_decide; [|discriminate]. destruct (ut_namespaces c !! ns); [|intros [= <-]; reflexivity].
    rewrite rbind_ok. intros (s2 & E1 & E2). rewrite rbind_ok in E2. destruct E2 as (s3 & E2 & [= <-]). rewrite <- (scope_roles _ _ _ _ l E1).
    unfold n_roles. rewrite (ap_nss _ _ _ _ _ _ _ _ _ (apart_tpr false false false false false false _ _ _ _ _ _ _ _ _ E2) eq_refl). reflexivity.
  - destruct H as (s1 & H & [= <- _]). destruct rs as [|s0 ss].
    { cbn in H. injection H as <-. split; [left; assumption|]. intros [H|[_ H]]; [exact H|destruct (reached_nil _ _ H)]. }
    destruct (u_tenants st !! t) as [c|] eqn:E; [|unfold ut_add_roles_to_namespace in H; cbn [u_while] in H; rewrite E in H; discriminate].
    rewrite (f_ns_at _ _ _ _ E), (f_roles_at _ _ _ E). destruct (ut_namespaces c !! ns) as [l0|] eqn:En.
    + destruct (uwf_ns _ W _ _ _ _ E En) as (m & Hm & _). destruct (add_roles_to_namespace_ok _ _ _ _ _ _ _ _ E En Hm H) as (pre & Ha & E1).
      unfold n_roles. rewrite E1. rewrite (set_ns_at _ _ _ _ _ Hm). case_decide as D.
      * subst l0. rewrite Hm. cbn [fmap option_fmap option_map from_option id un_roles]. rewrite elem_of_union, elem_of_list_to_set, (accepted_reached _ _ _ _ Ha). tauto.
      * split; [left; assumption|]. intros [H0|[[= ->] _]]; [exact H0|destruct (D eq_refl)].
    + destruct (unknown_namespace_ok _ _ _ _ (s0 :: ss) E En) as [_ E1]. rewrite E1 in H. injection H as <-. split; [left; assumption|]. intros [H0|[? _]]; [exact H0|discriminate].
  - destruct H as (s1 & H & [= <- _]).
    pose proof (each_added _ (fun s => u_heap s = u_heap st) (fun s z => z ∈ n_roles s l) (fun z' z => n = l /\ has_id (u_heap st) z' z) _ _ _ H eq_refl) as EA. cbn beta in EA. rewrite EA with (b := r); clear EA H.
    + split; (intros [H0|H0]; [left; exact H0|right]).
      * destruct H0 as (z & Hz & E & Hi). split; [exact E|exists z; split; assumption].
      * destruct H0 as (E & z & Hz & Hi). exists z. split; [exact Hz|split; assumption].
    + intros sa z sb Hh H. rewrite Hh in H. destruct (h_roles (u_heap st) !! z) as [ro|] eqn:Er; [|discriminate]. split.
      * rewrite <- Hh. exact (ap_heap _ _ _ _ _ _ _ _ _ (ns_role_apart false false false false false false _ _ _ _ H) eq_refl).
      * intros b. rewrite (role_added _ _ _ _ _ _ H). split; (intros [H0|[H0 H1]]; [left; exact H0|right; split; [exact H0|]]).
        -- exists ro. split; [exact Er|symmetry; exact H1].
        -- destruct H1 as (ro' & Hr & <-). congruence.
  - destruct H as (s1 & H & [= <- _]). enough (E : n_roles s1 l = n_roles st l) by (rewrite E; tauto). refine (each_same _ (fun st => n_roles st l) _ _ _ _ H).
    intros sa z sb. apply scope_roles.
Qed.
