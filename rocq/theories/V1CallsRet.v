(** When calls to v1 return, told from the calls made. *)
From Verif Require Import V1Code V1Inv V1Setup V1Dec V1OrdProofs.
From Verif Require Export V1CallsDec.
From Verif Require Import V1CallsSpec V1RetSpec.

(** ** Tenants with a manager *)
Definition f_managed (st : ustate) (t : nat) : option bool := ut_managed <$> u_tenants st !! t.
Lemma managed_set st t c c' t' : u_tenants st !! t = Some c -> ut_managed c' = ut_managed c -> f_managed (u_set_tenant st t c') t' = f_managed st t'.
Proof. intros H E. unfold f_managed. rewrite (set_tenant_at _ _ _ _ _ H). case_decide as D; [subst t'; rewrite H; cbn; rewrite E; reflexivity|reflexivity]. Qed.
Lemma tenants_scope st l s st' : un_add_scope st l s = Ok st' -> u_tenants st' = u_tenants st.
Proof. unfold un_add_scope. destruct (u_nss st !! l) as [n|]; [|discriminate]. intros [= <-]. reflexivity. Qed.
Lemma step_managed o st x st' y t : ustep o st x = Ok (st', y) -> f_managed st' t = Some true <-> x = UAddTenant t \/ f_managed st t = Some true.
Proof.
  intros H. pose proof (step_apart _ _ _ _ _ H) as F.
  assert (Q : x <> UAddTenant t -> f_managed st' t = f_managed st t -> f_managed st' t = Some true <-> x = UAddTenant t \/ f_managed st t = Some true).
  { intros N ->. split; [intros E; right; exact E|intros [E|E]; [destruct (N E)|exact E]]. }
  destruct x; try (apply Q; [discriminate|]; unfold f_managed; rewrite (ap_tenants _ _ _ _ _ _ _ _ _ F eq_refl); reflexivity); clear F;
    cbn [ustep] in H; unfold uret in H.
  - injection H as <- <-. clear Q. unfold u_new_tenant, f_managed. cbn [fst snd uw_tenants u_tenants]. destruct (decide (t = length (u_tenants st))) as [D|D].
    + subst t. rewrite lookup_app_r, Nat.sub_diag by lia. rewrite (lookup_ge_None_2 (u_tenants st)) by lia. cbn. split; [discriminate|intros [?|?]; discriminate].
    + destruct (decide (t < length (u_tenants st))) as [L|L].
      * rewrite lookup_app_l by exact L. split; [intros E; right; exact E|intros [?|E]; [discriminate|exact E]].
      * rewrite !lookup_ge_None_2 by (rewrite ?app_length; cbn; lia). split; [discriminate|intros [?|?]; discriminate].
  - unfold uret_loc in H. apply rbind_ok in H as ([s1 l] & H & [= <- <-]). clear Q. unfold u_add_tenant in H. destruct (u_tenants st !! t0) as [c|] eqn:Hc; [|discriminate H].
    assert (E : u_tenants s1 = <[t0 := UTenant (ut_id c) (ut_namespaces c) (ut_roles c) (ut_scopes c) (ut_desc c) (ut_default c) true]> (u_tenants st)).
    { cbn [u_reg uw_tenants] in H. destruct (u_reg st !! ut_id c); injection H as <- _; reflexivity. }
    clear H. unfold f_managed. cbn [fst]. rewrite E. destruct (decide (t = t0)) as [D|D].
    + subst t0. rewrite list_lookup_insert by (apply lookup_lt_is_Some; exists c; exact Hc). cbn. split; [intros _; left; reflexivity|reflexivity].
    + rewrite list_lookup_insert_ne by (intros E0; exact (D (eq_sym E0))). split; [intros M; right; exact M|intros [[= E0]|M]; [destruct (D (eq_sym E0))|exact M]].
  - apply rbind_ok in H as (s1 & H & [= <- _]). apply Q; [discriminate|]. refine (each_same _ (fun st => f_managed st t) _ _ _ _ H). intros s x s'. destruct (u_tenants s !! t0) as [c|] eqn:E; [|discriminate].
    destruct (u_tenants s !! x); [|discriminate]. destruct (ut_desc _ !! _); intros [= <-]; [reflexivity|(apply (managed_set _ _ _ _ _ E); reflexivity)].
  - apply rbind_ok in H as (s1 & H & [= <- _]). apply Q; [discriminate|]. unfold ut_set_default in H. destruct (u_tenants st !! t0) as [c|] eqn:E; [|discriminate].
    destruct (ut_namespaces _ !! _); injection H as <-; [(apply (managed_set _ _ _ _ _ E); reflexivity)|reflexivity].
  - apply rbind_ok in H as (s1 & H & [= <- _]). apply Q; [discriminate|]. refine (each_same _ (fun st => f_managed st t) _ _ _ _ H). intros s x s'. destruct (u_tenants s !! t0) as [c|] eqn:E; [|discriminate].
    destruct (u_nss s !! x); [|discriminate]. destruct (ut_namespaces _ !! _); intros [= <-]; [reflexivity|(apply (managed_set _ _ _ _ _ E); reflexivity)].
  - apply rbind_ok in H as (s1 & H & [= <- _]). apply Q; [discriminate|]. refine (each_same _ (fun st => f_managed st t) _ _ _ _ H). intros s x s'. destruct (u_tenants s !! t0) as [c|] eqn:E; [|discriminate].
    destruct (h_roles _ !! x); [|discriminate]. intros [= <-]. (apply (managed_set _ _ _ _ _ E); reflexivity).
  - apply rbind_ok in H as (s1 & H & [= <- _]). apply Q; [discriminate|]. refine (each_same _ (fun st => f_managed st t) _ _ _ _ H). intros s x s'. destruct (u_tenants s !! t0) as [c|] eqn:E; [|discriminate].
    destruct (ut_default c); [|intros [= <-]; (apply (managed_set _ _ _ _ _ E); reflexivity)]. intros E1. unfold f_managed. rewrite (tenants_scope _ _ _ _ E1). apply (managed_set s t0 c _ t E). reflexivity.
Qed.

(** ** What the calls tell, whatever the ids *)
Record knows (h : log) (st : ustate) : Prop := {
  kn_wf : u_wf st;
  kn_roles : tells_roles h (u_heap st);
  kn_groups : forall gl id, group_named h gl id -> is_Some (h_groups (u_heap st) !! gl);
  kn_tname : forall t id, tenant_named h t id <-> t_ids st !! t = Some id;
  kn_nname : forall l id, namespace_named h l id <-> n_ids st !! l = Some id;
  kn_ns : forall t n l, ns_in h t n l <-> f_ns st t n = Some l;
  kn_trole : forall t r, role_in h t r <-> r ∈ f_roles st t;
  kn_tscope : forall t s, scope_in h t s <-> s ∈ f_scopes st t;
  kn_managed : forall t, called h (UAddTenant t) <-> f_managed st t = Some true
}.
Lemma knows_start : knows [] u_init.
Proof.
  split.
  - exact u_wf_init.
  - exact roles_start.
  - intros gl id N. destruct (not_elem_of_nil _ N).
  - intros t id. split; [intros N; destruct (not_elem_of_nil _ N)|discriminate].
  - intros t id. split; [intros N; destruct (not_elem_of_nil _ N)|discriminate].
  - intros t n l. split; [intros []|discriminate].
  - intros t r. split; [intros []|]. intros N. destruct (not_elem_of_empty _ N).
  - intros t r. split; [intros (ss & N & _); destruct (not_elem_of_nil _ N)|]. intros N. destruct (not_elem_of_empty _ N).
  - intros t. split; [intros N; destruct (not_elem_of_nil _ N)|discriminate].
Qed.
Lemma knows_step o h st x st' y : knows h st -> ustep o st x = Ok (st', y) -> knows ((x, y) :: h) st'.
Proof.
  intros K H. destruct (step_good _ _ _ _ _ H (kn_wf _ _ K)) as [W' L].
  assert (SR : forall l id, role_named h l id <-> has_id (u_heap st) l id) by apply (kn_roles _ _ K).
  split.
  - exact W'.
  - exact (step_roles _ _ _ _ _ _ H (kn_roles _ _ K)).
  - intros gl id Hn. apply cons_iff in Hn as [E|Hn].
    + injection E as <- <-. cbn [ustep] in H. injection H as <- Ey. rewrite <- Ey. cbn. rewrite lookup_app_r, Nat.sub_diag by lia. eexists. reflexivity.
    + apply (kn_groups _ _ K) in Hn as [g Hg]. destruct (proj2 (le_grows _ _ L) _ _ Hg) as (g' & Hg' & _). exists g'. exact Hg'.
  - intros t id. rewrite (step_tname _ _ _ _ _ t id H), <- (kn_tname _ _ K). apply cons_iff.
  - intros t id. rewrite (step_nname _ _ _ _ _ t id H), <- (kn_nname _ _ K). apply cons_iff.
  - intros t n. apply (first_entry _ _ _ (f_ns st t n) _ (fun l => exists ls, x = UTAddNamespace t ls /\ first_in (fun l' => n_ids st !! l' = Some n) ls l)).
    + intros l. apply (kn_ns _ _ K).
    + intros l. cbn [fst]. split; intros (ls & E & l1 & l2 & E1 & Ha & Hb); exists ls; (split; [exact E|]); exists l1, l2; (split; [exact E1|]);
        (split; [apply (kn_nname _ _ K); exact Ha|]); (eapply Forall_impl; [exact Hb|]); intros b N Hn; apply N, (kn_nname _ _ K), Hn.
    + intros l. exact (step_ns _ _ _ _ _ t n l H).
  - intros t r. rewrite (step_troles _ _ _ _ _ t r H), <- (kn_trole _ _ K). unfold role_in at 1. cbn [ever fst]. fold (role_in h t r). split.
    + intros [(ls & l & E & Hl & Hr)|Hi]; [right; exists ls, l; split; [exact E|split; [exact Hl|apply SR; exact Hr]]|left; exact Hi].
    + intros [Hi|(ls & l & E & Hl & Hr)]; [right; exact Hi|left; exists ls, l; split; [exact E|split; [exact Hl|apply SR; exact Hr]]].
  - intros t s. rewrite (step_tscopes _ _ _ _ _ t s H), <- (kn_tscope _ _ K). unfold scope_in. split.
    + intros (ss & Hc & Hs). apply called_cons in Hc as [E|Hc]; [right; exists ss; split; [exact (eq_sym E)|exact Hs]|left; exists ss; split; assumption].
    + intros [(ss & Hc & Hs)|(ss & E & Hs)]; exists ss; (split; [apply called_cons|exact Hs]); [right; exact Hc|left; exact (eq_sym E)].
  - intros t. rewrite called_cons, (step_managed _ _ _ _ _ t H), (kn_managed _ _ K). split; (intros [E|E]; [left; exact (eq_sym E)|right; exact E]).
Qed.
Lemma knows_run o i st h ops st' outs : urun o i st ops = Ok (st', outs) -> knows h st -> knows (log_of ops outs ++ h) st'.
Proof.
  revert i st h outs. induction ops as [|x ops IH]; intros i st h outs H T; cbn [urun] in H.
  - injection H as <- <-. exact T.
  - rewrite rbind_ok in H. destruct H as ([s1 y] & H1 & H). rewrite rbind_ok in H. destruct H as ([s2 ys] & H2 & [= <- <-]). cbn [fst snd] in *.
    assert (E : log_of (x :: ops) (y :: ys) ++ h = log_of ops ys ++ (x, y) :: h).
    { unfold log_of. cbn [zip zip_with]. rewrite reverse_cons, <- app_assoc. reflexivity. }
    rewrite E. apply (IH _ _ _ _ H2). exact (knows_step _ _ _ _ _ _ T H1).
Qed.
Lemma knows_all o ops st outs : urun o 0 u_init ops = Ok (st, outs) -> knows (log_of ops outs) st.
Proof. intros H. pose proof (knows_run o 0 u_init [] ops st outs H knows_start) as L. rewrite app_nil_r in L. exact L. Qed.

(** ** The calls that ask nothing *)
Lemma desc_loop_returns h m ds : (forall d, d ∈ ds -> is_Some (h_roles h !! d)) -> exists m', add_descendants_loop h m ds = Ok m'.
Proof.
  revert m. induction ds as [|d ds IH]; intros m H; cbn; [eexists; reflexivity|]. destruct (H d) as [r Hr]; [left|]. rewrite Hr.
  apply IH. intros d' Hd'. apply H. right. exact Hd'.
Qed.
Lemma permission_returns h l grp attrs : wf_heap h -> is_Some (h_roles h !! l) -> exists r, role_add_permission h l grp attrs = Ok r.
Proof.
  intros (_ & W & _) [r Hr]. unfold role_add_permission. rewrite Hr. destruct (r_lock r); [eexists; reflexivity|]. destruct (r_perms r !! grp) as [gl|] eqn:E; [|eexists; reflexivity].
  destruct (W _ _ _ _ Hr E) as (g & Hg & _). rewrite Hg. eexists. reflexivity.
Qed.
(** A loop whose body always returns *)
Lemma each_ok {A} (f : ustate -> A -> res ustate) (P : ustate -> Prop) st xs : P st ->
  (forall s x, P s -> x ∈ xs -> exists s', f s x = Ok s' /\ P s') -> exists s', u_each f st xs = Ok s'.
Proof.
  revert st. induction xs as [|x xs IH]; intros st Hs Hf; cbn [u_each]; [eexists; reflexivity|].
  destruct (Hf st x Hs) as (s1 & -> & Hs1); [left|]. cbn [rbind]. apply IH; [exact Hs1|]. intros s y Hy Hin. apply Hf; [exact Hy|right; exact Hin].
Qed.
Lemma while_ok {A} (f : ustate -> A -> res (option ustate)) (P : ustate -> Prop) st xs : P st ->
  (forall s x, P s -> exists r, f s x = Ok r /\ forall s', r = Some s' -> P s') -> exists s', u_while f st xs = Ok s'.
Proof.
  intros Hs Hf. revert st Hs. induction xs as [|x xs IH]; intros st Hs; cbn [u_while]; [eexists; reflexivity|].
  destruct (Hf st x Hs) as ([s1|] & -> & Hs1); cbn [rbind]; [|eexists; reflexivity]. exact (IH _ (Hs1 _ eq_refl)).
Qed.
Lemma each_panics {A} (f : ustate -> A -> res ustate) st xs x : (forall y, f st y = Ok st \/ f st y = Panic) -> x ∈ xs -> f st x = Panic -> u_each f st xs = Panic.
Proof.
  intros D Hx Hp. induction xs as [|y xs IH]; [destruct (not_elem_of_nil _ Hx)|]. cbn [u_each]. destruct (D y) as [E|E]; rewrite E; cbn [rbind]; [|reflexivity].
  apply elem_of_cons in Hx as [->|Hx]; [rewrite E in Hp; discriminate Hp|exact (IH Hx)].
Qed.
Lemma list_cases {A} (l : list A) : l = [] \/ l <> [].
Proof. destruct l; [left; reflexivity|right; discriminate]. Qed.
Lemma some_or_none (X : gset string) (rs : list string) : (exists r, r ∈ rs /\ r ∈ X) \/ forall r, r ∈ rs -> r ∉ X.
Proof.
  induction rs as [|r rs IH]; [right; intros r N; destruct (not_elem_of_nil _ N)|]. destruct (decide (r ∈ X)) as [D|D]; [left; exists r; split; [left|exact D]|].
  destruct IH as [(r' & Hr & Hx)|IH]; [left; exists r'; split; [right; exact Hr|exact Hx]|right]. intros r' [->|Hr]%elem_of_cons; [exact D|exact (IH _ Hr)].
Qed.

Section returns.
  Context (h : log) (st : ustate) (T : knows h st).
  Let W : u_wf st := kn_wf _ _ T.
  Lemma named_role l id : role_named h l id -> is_Some (h_roles (u_heap st) !! l).
  Proof. intros H. apply (th_role _ _ (kn_roles _ _ T)) in H as (r & Hr & _). exists r. exact Hr. Qed.
  Lemma named_tenant t id : tenant_named h t id -> is_Some (u_tenants st !! t).
  Proof. intros H. apply (kn_tname _ _ T) in H. unfold t_ids in H. rewrite list_lookup_fmap in H. destruct (u_tenants st !! t) as [c|]; [exists c; reflexivity|discriminate]. Qed.
  Lemma named_ns t id : namespace_named h t id -> is_Some (u_nss st !! t).
  Proof. intros H. apply (kn_nname _ _ T) in H. unfold n_ids in H. rewrite list_lookup_fmap in H. destruct (u_nss st !! t) as [c|]; [exists c; reflexivity|discriminate]. Qed.
  Lemma known_managed t c : u_tenants st !! t = Some c -> called h (UAddTenant t) <-> ut_managed c = true.
  Proof. intros H. rewrite (kn_managed _ _ T). unfold f_managed. rewrite H. cbn. split; [intros [= E]; exact E|intros ->; reflexivity]. Qed.
  Lemma known_role t c r : u_tenants st !! t = Some c -> role_in h t r <-> r ∈ ut_roles c.
  Proof. intros H. rewrite (kn_trole _ _ T), (f_roles_at _ _ _ H). reflexivity. Qed.
  Lemma known_scope t c r : u_tenants st !! t = Some c -> scope_in h t r <-> r ∈ ut_scopes c.
  Proof. intros H. rewrite (kn_tscope _ _ T), (f_scopes_at _ _ _ H). reflexivity. Qed.
  Lemma known_ns t c n l : u_tenants st !! t = Some c -> ns_in h t n l <-> ut_namespaces c !! n = Some l.
  Proof. intros H. rewrite (kn_ns _ _ T), (f_ns_at _ _ _ _ H). reflexivity. Qed.
  Lemma managed_cases t c : u_tenants st !! t = Some c -> ut_managed c = true /\ called h (UAddTenant t) \/ ut_managed c = false /\ ~ called h (UAddTenant t).
  Proof.
    intros H. rewrite (known_managed _ _ H). destruct (ut_managed c); [left; split; reflexivity|right; split; [reflexivity|discriminate]].
  Qed.
  Definition fine (r : res (ustate * uout)) (E : Prop) : Prop := (exists s, r = Ok s) /\ ~ E \/ r = Panic /\ E.
  Lemma fine_ok r (E : Prop) : (exists s, r = Ok s) -> ~ E -> fine r E.
  Proof. intros H N. left. split; assumption. Qed.
  Lemma ret_ok {A} (r : res A) (f : A -> ustate * uout) : (exists a, r = Ok a) -> exists s, (let! a := r in Ok (f a)) = Ok s.
  Proof. intros [a ->]. eexists. reflexivity. Qed.
  Lemma granted_ok o x : may_grant st x -> exists s, ustep o st x = Ok s.
  Proof. intros M. destruct (grant_returns o st x W M) as (s & E). exists (s, YUnit). exact E. Qed.
  (** The heaps of tenants, namespaces and roles are as large as before. *)
  Definition as_large (s : ustate) : Prop :=
    (forall t, is_Some (u_tenants st !! t) -> is_Some (u_tenants s !! t)) /\ (forall l, is_Some (u_nss st !! l) -> is_Some (u_nss s !! l))
    /\ u_heap s = u_heap st /\ (forall t c l, u_tenants s !! t = Some c -> ut_default c = Some l -> is_Some (u_nss s !! l)).
  Lemma large_start : as_large st.
  Proof. split; [intros t H; exact H|]. split; [intros t H; exact H|]. split; [reflexivity|]. intros t c l Hc Hd. exact (uwf_default _ W _ _ _ Hc Hd). Qed.
  Lemma large_tenant s t c c' : as_large s -> u_tenants s !! t = Some c -> ut_default c' = ut_default c -> as_large (u_set_tenant s t c').
  Proof.
    intros (A & B & C & D) H E. split; [|split; [exact B|split; [exact C|]]].
    - intros t' Ht. rewrite (set_tenant_at _ _ _ _ _ H). case_decide; [eexists; reflexivity|exact (A _ Ht)].
    - intros t' k l. rewrite (set_tenant_at _ _ _ _ _ H). case_decide; [|intros Hk Hd; exact (D t' k l Hk Hd)]. intros [= <-]. rewrite E. intros Hd. exact (D _ _ _ H Hd).
  Qed.
  Lemma large_ns s l c c' : as_large s -> u_nss s !! l = Some c -> as_large (u_set_ns s l c').
  Proof.
    intros (A & B & C & D) H. assert (G : forall l', is_Some (u_nss s !! l') -> is_Some (u_nss (u_set_ns s l c') !! l')).
    { intros l' Hl. rewrite (set_ns_at _ _ _ _ _ H). case_decide; [eexists; reflexivity|exact Hl]. }
    split; [exact A|]. split; [intros l' Hl; apply G, B, Hl|]. split; [exact C|]. intros t k l' Hk Hd. apply G. exact (D t k l' Hk Hd).
  Qed.
  Lemma scope_large s l x : as_large s -> is_Some (u_nss s !! l) -> exists s', un_add_scope s l x = Ok s' /\ as_large s'.
  Proof. intros L [n Hn]. unfold un_add_scope. rewrite Hn. eexists. split; [reflexivity|]. exact (large_ns _ _ _ _ L Hn). Qed.
  Lemma role_large s l x : as_large s -> is_Some (u_nss s !! l) -> exists s', un_add_role s l x = Ok s' /\ as_large s'.
  Proof. intros L [n Hn]. unfold un_add_role. rewrite Hn. eexists. split; [reflexivity|]. exact (large_ns _ _ _ _ L Hn). Qed.

  Lemma step_fine o x : pointers_made h x -> set_up x -> fine (ustep o st x) (too_early h x).
  Proof.
    intros P SU. pose proof (uwf_heap _ W) as WH.
    destruct x; cbn [pointers_made] in P; cbn [set_up] in SU; try (exact (False_ind _ SU)); clear SU; try (apply fine_ok; [eexists; reflexivity|intros []]); cbn [too_early].
    - apply fine_ok; [|intros []]. destruct P as (id & P). apply (kn_groups _ _ T) in P as [g' Hg]. apply ret_ok. unfold add_attributes. rewrite Hg. eexists. reflexivity.
    - apply fine_ok; [|intros []]. destruct P as (id & P). apply named_role in P as [r' Hr]. apply ret_ok. unfold role_set_lock. rewrite Hr. eexists. reflexivity.
    - apply fine_ok; [|intros []]. destruct P as (id & P). apply named_role in P as [r' Hr]. apply ret_ok. unfold role_set_lock. rewrite Hr. eexists. reflexivity.
    - apply fine_ok; [|intros []]. destruct P as ((id & P) & D). apply named_role in P as [r' Hr]. apply ret_ok. unfold role_add_descendant. rewrite Hr.
      destruct (r_lock r'); [eexists; reflexivity|]. destruct (desc_loop_returns (u_heap st) (r_desc r') ds) as [m Hm].
      { intros d Hd. destruct (D d Hd) as (i & Hi). exact (named_role _ _ Hi). }
      rewrite Hm. eexists. reflexivity.
    - apply fine_ok; [|intros []]. destruct P as (id & P). apply ret_ok. apply permission_returns; [exact WH|exact (named_role _ _ P)].
    - apply fine_ok; [|intros []]. destruct P as ((id & P) & (gid & G)). apply named_role in P as [r' Hr]. apply (kn_groups _ _ T) in G as [g' Hg]. apply ret_ok. unfold role_add_group. rewrite Hr.
      destruct (r_lock r'); [eexists; reflexivity|]. rewrite Hg. destruct (r_perms r' !! g_id g'); eexists; reflexivity.
    - apply fine_ok; [|intros []]. destruct P as (id & P). apply named_tenant in P as [c Hc]. apply ret_ok. unfold u_add_tenant. rewrite Hc. cbv zeta. destruct (_ !! ut_id c); eexists; reflexivity.
    - apply fine_ok; [|intros []]. destruct P as (id & P). apply named_ns in P as [c Hc]. apply ret_ok. unfold u_add_namespace. rewrite Hc. destruct (_ !! un_id c); eexists; reflexivity.
    - apply fine_ok; [|intros []]. destruct P as (id & P). apply named_role in P as [r' Hr]. apply ret_ok. unfold u_add_role. rewrite Hr. destruct (u_roles st !! r_id r'); eexists; reflexivity.
    - apply fine_ok; [|intros []]. destruct P as (id & P). apply (kn_groups _ _ T) in P as [r' Hr]. apply ret_ok. unfold u_add_group. rewrite Hr. destruct (u_groups st !! g_id r'); eexists; reflexivity.
    - apply fine_ok; [|intros []]. apply ret_ok. unfold u_add_permissions_to_role. destruct (u_roles st !! r) as [l|] eqn:El; [|eexists; reflexivity]. destruct (u_groups st !! g) as [gl|] eqn:Eg; [|eexists; reflexivity].
      destruct (uwf_groups _ W _ _ Eg) as (g' & Hg & _). rewrite Hg. destruct (u_check_attrs g' g attrs); [eexists; reflexivity|].
      destruct (uwf_roles _ W _ _ El) as (r' & Hr & _). destruct (permission_returns (u_heap st) l g attrs WH (ex_intro _ r' Hr)) as [hr ->]. eexists. reflexivity.
    - apply fine_ok; [|intros []]. destruct P as [(id & P) N]. apply granted_ok. split; [exact (named_tenant _ _ P)|]. destruct ns as [l|]; [|exact I]. destruct (N l eq_refl) as (i & Hi). exact (named_ns _ _ Hi).
    - apply fine_ok; [|intros []]. destruct P as [(id & P) D]. apply named_tenant in P. apply ret_ok. apply (each_ok _ as_large); [exact large_start|].
      intros s d L Hd. destruct (proj1 L _ P) as [c Hc]. destruct (D d Hd) as (i & Hi). destruct (proj1 L _ (named_tenant _ _ Hi)) as [dc Hdc]. rewrite Hc, Hdc.
      destruct (ut_desc c !! ut_id dc); eexists; (split; [reflexivity|]); [exact L|]. apply (large_tenant s t c); [exact L|exact Hc|reflexivity].
    - apply fine_ok; [|intros []]. destruct P as (id & P). apply named_tenant in P as [c Hc]. apply ret_ok. unfold ut_set_default. rewrite Hc. destruct (ut_namespaces c !! ns); eexists; reflexivity.
    - apply fine_ok; [|intros []]. destruct P as [(id & P) D]. apply named_tenant in P. apply ret_ok. apply (each_ok _ as_large); [exact large_start|].
      intros s d L Hd. destruct (proj1 L _ P) as [c Hc]. destruct (D d Hd) as (i & Hi). destruct (proj1 (proj2 L) _ (named_ns _ _ Hi)) as [dc Hdc]. rewrite Hc, Hdc.
      destruct (ut_namespaces c !! un_id dc); eexists; (split; [reflexivity|]); [exact L|]. apply (large_tenant s t c); [exact L|exact Hc|reflexivity].
    - apply fine_ok; [|intros []]. destruct P as [(id & P) D]. apply named_tenant in P. apply ret_ok. apply (each_ok _ as_large); [exact large_start|].
      intros s d L Hd. destruct (proj1 L _ P) as [c Hc]. destruct (D d Hd) as (i & Hi). destruct (named_role _ _ Hi) as [dc Hdc]. rewrite <- (proj1 (proj2 (proj2 L))) in Hdc. rewrite Hc, Hdc.
      eexists. split; [reflexivity|]. apply (large_tenant s t c); [exact L|exact Hc|reflexivity].
    - apply fine_ok; [|intros []]. destruct P as (id & P). apply named_tenant in P. apply ret_ok. apply (each_ok _ as_large); [exact large_start|].
      intros s d L Hd. destruct (proj1 L _ P) as [c Hc]. rewrite Hc. cbv zeta.
      pose proof (large_tenant s t c (UTenant (ut_id c) (ut_namespaces c) (ut_roles c) ({[d]} ∪ ut_scopes c) (ut_desc c) (ut_default c) (ut_managed c)) L Hc eq_refl) as L'.
      destruct (ut_default c) as [l|] eqn:Ed; [|eexists; split; [reflexivity|exact L']]. apply scope_large; [exact L'|].
      apply (proj2 (proj2 (proj2 L)) t c l Hc Ed).
    - destruct P as (id & P). apply named_tenant in P as [c Hc]. cbn [ustep]. unfold uret.
      assert (V : forall l, ut_namespaces c !! ns = Some l -> is_Some (u_nss st !! l)) by (intros l Hl; destruct (uwf_ns _ W _ _ _ _ Hc Hl) as (n & Hn & _); exists n; exact Hn).
      destruct (managed_cases _ _ Hc) as [[M C]|[M C]].
      + apply fine_ok; [|intros [N _]; exact (N C)]. apply ret_ok. apply (while_ok _ (fun s => u_tenants s !! t = Some c /\ as_large s)); [split; [exact Hc|exact large_start]|].
        intros s x [Et L]. rewrite Et. case_bool_decide; [|eexists; split; [reflexivity|discriminate]]. destruct (ut_namespaces c !! ns) as [l|] eqn:El; [|eexists; split; [reflexivity|intros s' [= <-]; split; assumption]].
        destruct (scope_large s l x L (proj1 (proj2 L) _ (V l eq_refl))) as (s1 & E1 & L1). rewrite E1. cbn [rbind]. unfold ut_add_principal_role, u_add_principal_role. rewrite M.
        rewrite (tenants_scope _ _ _ _ E1), Et. destruct (proj1 (proj2 L1) _ (V l eq_refl)) as [n Hn]. rewrite Hn. cbn [rbind]. eexists. split; [reflexivity|]. intros s' [= <-]. cbn. rewrite (tenants_scope _ _ _ _ E1).
        split; [exact Et|exact L1].
      + destruct (ut_namespaces c !! ns) as [l|] eqn:El.
        2: { apply fine_ok; [|intros (_ & s & l & _ & Hl); apply (known_ns _ _ _ _ Hc) in Hl; rewrite El in Hl; discriminate Hl]. apply ret_ok.
             apply (while_ok _ (fun s => u_tenants s !! t = Some c)); [exact Hc|]. intros s x Et. rewrite Et. case_bool_decide; [|eexists; split; [reflexivity|discriminate]]. rewrite El.
             eexists. split; [reflexivity|]. intros s' [= <-]. exact Et. }
        destruct ss as [|s ss]; [apply fine_ok; [eexists; reflexivity|intros (_ & s & l' & Hs & _); exact (reached_nil _ _ Hs)]|].
        unfold ut_add_scopes_to_namespace. cbn [u_while]. rewrite Hc. case_bool_decide as D.
        * right. split; [|split; [exact C|]]; [|exists s, l; split; [apply reached_cons; split; [apply (known_scope _ _ _ Hc); exact D|left; reflexivity]|apply (known_ns _ _ _ _ Hc); exact El]].
          rewrite El. destruct (scope_large st l s large_start (V l eq_refl)) as (s1 & -> & _). cbn [rbind]. unfold ut_add_principal_role. rewrite M. reflexivity.
        * apply fine_ok; [eexists; reflexivity|]. intros (_ & s' & l' & Hs & _). apply reached_cons in Hs as [Hs _]. apply D. apply (known_scope _ _ _ Hc). exact Hs.
    - destruct P as (id & P). apply named_tenant in P as [c Hc]. apply fine_ok; [|intros []]. apply ret_ok.
      assert (V : forall l, ut_namespaces c !! ns = Some l -> is_Some (u_nss st !! l)) by (intros l Hl; destruct (uwf_ns _ W _ _ _ _ Hc Hl) as (n & Hn & _); exists n; exact Hn).
      apply (while_ok _ (fun s => u_tenants s !! t = Some c /\ as_large s)); [split; [exact Hc|exact large_start]|].
      intros s x [Et L]. rewrite Et. case_bool_decide; [|eexists; split; [reflexivity|discriminate]]. destruct (ut_namespaces c !! ns) as [l|] eqn:El; [|eexists; split; [reflexivity|discriminate]].
      destruct (role_large s l x L (proj1 (proj2 L) _ (V l eq_refl))) as (s1 & E1 & L1). rewrite E1. cbn [rbind]. eexists. split; [reflexivity|]. intros s' [= <-]. split; [|exact L1].
      unfold un_add_role in E1. destruct (u_nss s !! l); [|discriminate E1]. injection E1 as <-. exact Et.
    - destruct P as (id & P). apply named_tenant in P as [c Hc]. destruct (managed_cases _ _ Hc) as [[M C]|[M C]].
      + apply fine_ok; [|intros [N _]; exact (N C)]. apply granted_ok. right. exists c. split; [exact Hc|left; exact M].
      + destruct (some_or_none (ut_roles c) rs) as [(r & Hr & Hx)|N].
        * right. split; [|split; [exact C|exists r; split; [exact Hr|apply (known_role _ _ _ Hc); exact Hx]]]. cbn [ustep]. unfold uret, ut_add_principal.
          rewrite (each_panics _ st rs r); [reflexivity| |exact Hr|].
          -- intros y. rewrite Hc. case_bool_decide; [right|left; reflexivity]. unfold ut_add_principal_role. rewrite M. reflexivity.
          -- rewrite Hc, bool_decide_true by exact Hx. unfold ut_add_principal_role. rewrite M. reflexivity.
        * apply fine_ok; [|intros (_ & r & Hr & Hx); apply (known_role _ _ _ Hc) in Hx; exact (N r Hr Hx)]. apply granted_ok. right. exists c. split; [exact Hc|right; exact N].
    - destruct P as (id & P). apply named_tenant in P as [c Hc]. destruct (managed_cases _ _ Hc) as [[M C]|[M C]].
      + apply fine_ok; [|intros [N _]; exact (N C)]. apply granted_ok. exists c. split; [exact Hc|right; left; exact M].
      + destruct (ut_namespaces c !! ns) as [l|] eqn:El.
        2: { apply fine_ok; [|intros (_ & (l & Hl) & _); apply (known_ns _ _ _ _ Hc) in Hl; rewrite El in Hl; discriminate Hl]. apply granted_ok. exists c. split; [exact Hc|left; exact El]. }
        assert (Hl : exists l, ns_in h t ns l) by (exists l; apply (known_ns _ _ _ _ Hc); exact El).
        destruct (list_cases rs) as [->|NE].
        { right. split; [|split; [exact C|split; [exact Hl|left; reflexivity]]]. cbn [ustep]. unfold uret, ut_add_principal_in_namespace. rewrite Hc, El, M. reflexivity. }
        destruct (some_or_none (ut_roles c) rs) as [(r & Hr & Hx)|N].
        * right. split; [|split; [exact C|split; [exact Hl|right; exists r; split; [exact Hr|apply (known_role _ _ _ Hc); exact Hx]]]]. cbn [ustep]. unfold uret, ut_add_principal_in_namespace. rewrite Hc, El.
          destruct rs as [|r0 rs]; [destruct (NE eq_refl)|].
          rewrite (each_panics _ st (r0 :: rs) r); [reflexivity| |exact Hr|].
          -- intros y. case_bool_decide; [right|left; reflexivity]. unfold ut_add_principal_role. rewrite M. reflexivity.
          -- rewrite bool_decide_true by exact Hx. unfold ut_add_principal_role. rewrite M. reflexivity.
        * apply fine_ok; [|intros (_ & _ & [E|(r & Hr & Hx)]); [exact (NE E)|]; apply (known_role _ _ _ Hc) in Hx; exact (N r Hr Hx)]. apply granted_ok. exists c. split; [exact Hc|right; right; split; [exact NE|exact N]].
    - destruct P as (id & P). apply named_tenant in P as [c Hc]. destruct (managed_cases _ _ Hc) as [[M C]|[M C]].
      + apply fine_ok; [|intros N; exact (N C)]. apply granted_ok. exists c. split; [exact Hc|exact M].
      + right. split; [|exact C]. cbn [ustep]. unfold uret, ut_assign_scopes. rewrite Hc, M. reflexivity.
    - destruct P as (id & P). apply named_tenant in P as [c Hc]. destruct (list_cases ss) as [->|NE]; [apply fine_ok; [eexists; reflexivity|intros [N _]; exact (N eq_refl)]|].
      destruct (managed_cases _ _ Hc) as [[M C]|[M C]].
      + apply fine_ok; [|intros [_ N]; exact (N C)]. apply granted_ok. right. exists c. split; [exact Hc|exact M].
      + right. split; [|split; [exact NE|exact C]]. cbn [ustep]. unfold uret, ut_assign_scopes_with_role. destruct ss as [|s0 ss]; [destruct (NE eq_refl)|]. rewrite Hc, M. reflexivity.
    - destruct P as [(id & P) D]. apply named_ns in P. apply fine_ok; [|intros []]. apply ret_ok. apply (each_ok _ as_large); [exact large_start|].
      intros s d L Hd. destruct (D d Hd) as (i & Hi). destruct (named_role _ _ Hi) as [dc Hdc]. rewrite (proj1 (proj2 (proj2 L))), Hdc. apply role_large; [exact L|exact (proj1 (proj2 L) _ P)].
    - destruct P as (id & P). apply named_ns in P. apply fine_ok; [|intros []]. apply ret_ok. apply (each_ok _ as_large); [exact large_start|].
      intros s d L Hd. apply scope_large; [exact L|exact (proj1 (proj2 L) _ P)].
  Qed.
End returns.
Lemma c114_exact o ops st outs o' x : urun o 0 u_init ops = Ok (st, outs) -> pointers_made (log_of ops outs) x -> set_up x ->
  ((exists st' y, ustep o' st x = Ok (st', y)) <-> ~ too_early (log_of ops outs) x) /\ (ustep o' st x = Panic <-> too_early (log_of ops outs) x) /\ ustep o' st x <> Hang.
Proof.
  intros H P SU. destruct (step_fine _ _ (knows_all _ _ _ _ H) o' x P SU) as [[([st' y] & E) N]|[E N]]; rewrite E; split_and!.
  - split; [intros _; exact N|intros _; exists st', y; reflexivity].
  - split; [discriminate|intros Y; destruct (N Y)].
  - discriminate.
  - split; [intros (? & ? & ?); discriminate|intros Y; destruct (Y N)].
  - split; [intros _; exact N|reflexivity].
  - discriminate.
Qed.

(** ** The calls that ask *)
Lemma rtc_impl {A} (R R' : A -> A -> Prop) x y : (forall a b, R a b -> R' a b) -> rtc R x y -> rtc R' x y.
Proof. intros I H. induction H as [|x y z E _ IH]; [constructor|]. econstructor; [apply I; exact E|exact IH]. Qed.
Section asked.
  Context (h : log) (st : ustate) (T : tells h st).
  Let W : u_wf st := tl_wf _ _ T.
  Lemma told_circle l : cyclic_from (u_heap st) l -> role_circle h l.
  Proof.
    intros (m & Hr & Hm). exists m. split; [revert Hr; apply rtc_impl; intros a b; apply (told_edge _ _ T)|]. apply (told_descends _ _ T). exact Hm.
  Qed.
  Lemma told_terminating r grp act : looked_up h r grp act -> terminating st r grp act.
  Proof.
    intros H l Hl. apply (tl_rreg _ _ T) in Hl. destruct (H l Hl) as [C S]. split; [intros N; exact (C (told_circle _ N))|].
    intros d g Hd Ho (k & a & Hk & Lo). destruct (proj1 (told_attr _ _ T _ _ _ k Ho) (mk_is_Some _ _ Hk)) as (a' & <- & Ha). apply S. exists d, a'.
    split; [revert Hd; apply rtc_impl; intros x y; apply (told_edge _ _ T)|]. split; assumption.
  Qed.
  Lemma told_rows_end p t grp act : (forall r n s, has_row h p r t n s -> looked_up h r grp act) -> forall a, member st p t a -> terminating st (tp_role a) grp act.
  Proof.
    intros H a Ha. apply (told_member _ _ _ _ _ T) in Ha as (Hm & <- & <-). destruct a as [p r i n s m]. cbn [tp_principal tp_tenant tp_role] in *.
    apply told_terminating, (H r n s). exists m. exact Hm.
  Qed.
  Lemma told_returns o p q : ~ lost h p q -> roles_decide h p q -> exists b, u_authorize o st p q = Ok b.
  Proof.
    intros NL D. destruct (decide (p ∈ u_principals st)) as [K|K]; [|exists false; exact (unknown_denied o st p q K)].
    destruct q as [t n s g a]. unfold roles_decide in D. cbn [uo_tenant uo_namespace uo_scope uo_group uo_activity] in D. cbv zeta in D.
    assert (C : complex_request (UOpts t n s g a) -> (forall r n' s', has_row h p r (to_string t) n' s' -> looked_up h r (to_string g) (to_string a)) -> exists b, u_authorize o st p (UOpts t n s g a) = Ok b).
    { intros Hq Hr. apply complex_returns; [exact W|exact K|exact Hq|]. exact (told_rows_end _ _ _ _ Hr). }
    destruct (asked g) eqn:Eg.
    { assert (G : g <> ANil) by (intros ->; discriminate). apply C; [left; exact G|]. destruct (asked t), (asked n), (asked s), (asked a); exact D. }
    assert (g = ANil) as -> by (destruct g; [reflexivity|discriminate..]). clear Eg.
    destruct (asked a) eqn:Ea.
    { assert (A : a <> ANil) by (intros ->; discriminate). destruct (asked t) eqn:Et; [|destruct (asked n) eqn:En; [|destruct (asked s) eqn:Es]].
      - apply C; [|destruct (asked n), (asked s); exact D]. right. left. split; [exact A|left; intros E0; cbn in E0; subst; discriminate].
      - apply C; [|destruct (asked s); exact D]. right. left. split; [exact A|right; left; intros E0; cbn in E0; subst; discriminate].
      - apply C; [|exact D]. right. left. split; [exact A|right; right; intros E0; cbn in E0; subst; discriminate].
      - assert (t = ANil) as -> by (destruct t; [reflexivity|discriminate..]). assert (n = ANil) as -> by (destruct n; [reflexivity|discriminate..]). assert (s = ANil) as -> by (destruct s; [reflexivity|discriminate..]).
        apply activity_returns; [exact W|exact K|exact A| |].
        + intros x Hx. apply NL. split; [apply (tl_prin _ _ T); exact K|]. split; [reflexivity|]. split; [exact A|]. apply (told_stray _ _ T). exists x. exact Hx.
        + intros r Hr. apply told_terminating, D, (told_anywhere _ _ T), Hr. }
    assert (a = ANil) as -> by (destruct a; [reflexivity|discriminate..]). clear Ea.
    destruct (asked t) eqn:Et, (asked n) eqn:En, (asked s) eqn:Es;
      try (assert (t = ANil) as -> by (destruct t; [reflexivity|discriminate..]); clear Et);
      try (assert (n = ANil) as -> by (destruct n; [reflexivity|discriminate..]); clear En);
      try (assert (s = ANil) as -> by (destruct s; [reflexivity|discriminate..]); clear Es);
      try (assert (Nt : t <> ANil) by (intros ->; discriminate)); try (assert (Nn : n <> ANil) by (intros ->; discriminate)); try (assert (Ns : s <> ANil) by (intros ->; discriminate)).
    - destruct (tenant_namespace_scope o st p t n s K Nt Nn Ns W) as (b & E & _). exists b. exact E.
    - destruct (tenant_namespace o st p t n K Nt Nn W) as (b & E & _). exists b. exact E.
    - destruct (tenant_scope o st p t s K Nt Ns W) as (b & E & _). exists b. exact E.
    - destruct (only_tenant o st p t K Nt W) as (b & E & _). exists b. exact E.
    - destruct (namespace_scope o st p n s K Nn Ns W) as (b & E & _). exists b. exact E.
    - destruct (only_namespace o st p n K Nn W) as (b & E & _). exists b. exact E.
    - destruct (only_scope o st p s K Ns W) as (b & E & _). exists b. exact E.
    - apply C; [|exact D]. right. right. split; [reflexivity|split; [reflexivity|split; reflexivity]].
  Qed.
End asked.
Lemma c115_answered o ops st outs o' p q : urun o 0 u_init ops = Ok (st, outs) -> Forall plain_names ops -> groups_made (log_of ops outs) ->
  ~ lost (log_of ops outs) p q -> roles_decide (log_of ops outs) p q -> exists b, u_authorize o' st p q = Ok b /\ (b = true <-> granted (log_of ops outs) p q).
Proof.
  intros H P GM NL D. destruct (told_returns _ _ (tells_all _ _ _ _ H P GM) o' p q NL D) as (b & E). exists b. split; [exact E|]. exact (decided_by_calls _ _ _ _ _ _ _ _ H P GM E).
Qed.
