(** What AddDescendant, AddPermission and AddPermissionResourceGroup change, exactly; and that nothing is ever taken
    away from a role. *)
From Verif Require Import RootInv RoleHas RegProofs.
From Verif Require Export RoleEffSpec HeapGrow.

Lemma first_with_nil {A K} (key : A -> K) k a : ~ first_with key [] k a.
Proof. by intros ([|] & post & ? & _). Qed.
Lemma first_with_cons {A K} (key : A -> K) x l k a :
  first_with key (x :: l) k a <-> key x = k /\ a = x \/ key x <> k /\ first_with key l k a.
Proof.
  split.
  - intros ([|y pre] & post & E & Hk & Hp); injection E as -> ->.
    + by left.
    + right. split; [apply Hp; left|]. exists pre, post. split_and!; [done|done|]. intros b Hb. apply Hp. by right.
  - intros [[Hk ->]|[Hk (pre & post & -> & Ha & Hp)]].
    + exists [], l. split_and!; [done|done|]. by intros b Hb%elem_of_nil.
    + exists (x :: pre), post. split_and!; [done|done|]. intros b [->|Hb]%elem_of_cons; [done|by apply Hp].
Qed.
Lemma first_with_fun {A K} (key : A -> K) l k a b : first_with key l k a -> first_with key l k b -> a = b.
Proof.
  induction l as [|x l IH]; [by intros ?%first_with_nil|]. rewrite !first_with_cons.
  intros [[? ->]|[? ?]] [[? ->]|[? ?]]; naive_solver.
Qed.

Lemma add_descendants_lookup h ds m m' : add_descendants_loop h m ds = Ok m' ->
  forall k d, m' !! k = Some d <-> m !! k = Some d \/ m !! k = None /\ first_with (id_at h) ds (Some k) d.
Proof.
  revert m. induction ds as [|x ds IH]; intros m; simpl.
  { intros [= <-] k d. split; [by left|]. intros [?|[_ ?%first_with_nil]]; done. }
  destruct (h_roles h !! x) as [c|] eqn:Hx; [|done]. intros H k d. rewrite (IH _ H k d), first_with_cons.
  assert (Hid : id_at h x = Some (r_id c)) by (unfold id_at; by rewrite Hx). rewrite Hid. clear IH H Hid.
  destruct (m !! r_id c) eqn:E.
  - split; [intros [?|[? ?]]; [by left|]|intros [?|[? [[? _]|[? ?]]]]; [by left| |by right]].
    + right. split; [done|]. right. split; [congruence|done].
    + congruence.
  - destruct (decide (r_id c = k)) as [<-|Hk].
    + rewrite lookup_insert, E. split; [intros [[= <-]|[? ?]]; [|done]|intros [?|[_ [[_ ->]|[? ?]]]]; [done|by left|done]].
      right. split; [done|]. by left.
    + rewrite lookup_insert_ne by done.
      split; [intros [?|[? ?]]; [by left|]|intros [?|[? [[? _]|[? ?]]]]; [by left| |by right]].
      * right. split; [done|]. right. split; [congruence|done].
      * congruence.
Qed.
Lemma set_role_only h l r r' : h_roles h !! l = Some r -> r_id r' = r_id r -> r_lock r' = r_lock r ->
  only_role h (set_role h l r') l.
Proof.
  intros Hr Hid Hlk. split_and!.
  - simpl. by rewrite insert_length.
  - intros x. unfold id_at. rewrite (set_role_lookup _ _ _ _ _ Hr). case_decide as E; [|done]. subst. rewrite Hr. simpl. congruence.
  - intros x. unfold unlocked. rewrite (set_role_lookup _ _ _ _ _ Hr). case_decide as E; [|done]. subst. rewrite Hr.
    split; intros (r0 & [= <-] & H0); eexists; (split; [done|congruence]).
  - intros x Hx. rewrite (set_role_lookup _ _ _ _ _ Hr). by case_decide.
Qed.
Lemma only_role_refl h l : only_role h h l.
Proof. by split_and!. Qed.

Lemma add_descendant_eff h l ds h' e : role_add_descendant h l ds = Ok (h', e) -> unlocked h l ->
  e = None /\ only_role h h' l /\ h_groups h' = h_groups h
  /\ (forall grp g, owns h' l grp g <-> owns h l grp g)
  /\ (forall k d, child h' l k d <->
        child h l k d \/ (forall d', ~ child h l k d') /\ first_with (id_at h) ds (Some k) d).
Proof.
  intros H (r & Hr & Hl). unfold role_add_descendant in H. rewrite Hr, Hl in H.
  apply rbind_ok in H as (desc & Hd & [= <- <-]). split; [done|]. split; [by eapply set_role_only|]. split; [done|].
  unfold owns, child. rewrite (set_role_lookup _ _ _ _ _ Hr), decide_True by done. split.
  - intros grp g. split; intros (r0 & gl & Hr0 & Hp & Hg); [simplify_eq; by exists r, gl|].
    rewrite Hr in Hr0. simplify_eq. eexists _, gl. split_and!; [done|done|done].
  - intros k d. pose proof (add_descendants_lookup _ _ _ _ Hd k d) as E. split.
    + intros (r0 & [= <-] & Hk). simpl in Hk. apply E in Hk as [Hk|[Hk Hf]]; [left; by exists r|right].
      split; [|done]. intros d' (r1 & Hr1 & Hk1). congruence.
    + intros Hk. eexists. split; [done|]. simpl. apply E. destruct Hk as [(r0 & Hr0 & Hk)|[Hn Hf]].
      * rewrite Hr in Hr0. simplify_eq. by left.
      * right. split; [|done]. destruct (r_desc r !! k) as [d'|] eqn:Hk'; [|done]. destruct (Hn d'). by exists r.
Qed.

Lemma role_add_group_eff h l gl g h' e : role_add_group h l gl = Ok (h', e) -> unlocked h l -> h_groups h !! gl = Some g ->
  e = None /\ only_role h h' l /\ h_groups h' = h_groups h
  /\ (forall k d, child h' l k d <-> child h l k d)
  /\ (forall k x, points h' l k x <-> points h l k x \/ (forall x', ~ points h l k x') /\ k = g_id g /\ x = gl).
Proof.
  intros H (r & Hr & Hl) Hg. unfold role_add_group in H. rewrite Hr, Hl, Hg in H.
  destruct (r_perms r !! g_id g) as [x0|] eqn:E; injection H as <- <-.
  - split_and!; try done. intros k x. split; [by left|]. intros [?|(Hn & -> & ->)]; [done|]. destruct (Hn x0). by exists r.
  - split; [done|]. split; [by eapply set_role_only|]. split; [done|].
    unfold points, child. rewrite (set_role_lookup _ _ _ _ _ Hr), decide_True by done. split.
    + intros k d. split; intros (r0 & Hr0 & Hk); [simplify_eq; by exists r|]. rewrite Hr in Hr0. simplify_eq. by eexists.
    + intros k x. split.
      * intros (r0 & [= <-] & Hk). simpl in Hk. destruct (decide (g_id g = k)) as [<-|Hne].
        -- rewrite lookup_insert in Hk. simplify_eq. right. split; [|done]. intros x' (r1 & Hr1 & Hk1).
           congruence.
        -- rewrite lookup_insert_ne in Hk by done. left. by exists r.
      * intros [(r0 & Hr0 & Hk)|(Hn & -> & ->)].
        -- rewrite Hr in Hr0. simplify_eq. eexists. split; [done|]. simpl.
           destruct (decide (g_id g = k)) as [<-|Hne]; [congruence|by rewrite lookup_insert_ne].
        -- eexists. split; [done|]. simpl. by rewrite lookup_insert.
Qed.

Lemma add_missing_first (m : gmap string attr) attrs k a :
  add_missing m attrs !! k = Some a <-> m !! k = Some a \/ m !! k = None /\ first_with attr_string attrs k a.
Proof.
  unfold add_missing. revert m. induction attrs as [|x attrs IH]; intros m; simpl.
  { split; [by left|]. intros [?|[_ ?%first_with_nil]]; done. }
  rewrite IH, first_with_cons. clear IH. destruct (m !! attr_string x) eqn:E.
  - split; [intros [?|[? ?]]; [by left|]|intros [?|[? [[? _]|[? ?]]]]; [by left| |by right]].
    + right. split; [done|]. right. split; [congruence|done].
    + congruence.
  - destruct (decide (attr_string x = k)) as [<-|Hk].
    + rewrite lookup_insert, E. split; [intros [[= <-]|[? ?]]; [|done]|intros [?|[_ [[_ ->]|[? ?]]]]; [done|by left|done]].
      right. split; [done|]. by left.
    + rewrite lookup_insert_ne by done.
      split; [intros [?|[? ?]]; [by left|]|intros [?|[? [[? _]|[? ?]]]]; [by left| |by right]].
      * right. split; [done|]. right. split; [congruence|done].
      * congruence.
Qed.
Lemma add_permission_eff h l grp attrs h' e : wf_heap h -> role_add_permission h l grp attrs = Ok (h', e) -> unlocked h l ->
  e = None
  /\ (forall x k d, child h' x k d <-> child h x k d)
  /\ (forall k a, holds h' l grp k a <->
        holds h l grp k a \/ (forall a', ~ holds h l grp k a') /\ first_with attr_string attrs k a)
  /\ (forall x g k a, (x = l /\ g = grp \/ exists gl, points h l grp gl /\ points h x g gl)
                      \/ (holds h' x g k a <-> holds h x g k a)).
Proof.
  intros W H (r & Hr & Hl). unfold role_add_permission in H. rewrite Hr, Hl in H.
  destruct (r_perms r !! grp) as [gl|] eqn:Eg.
  - destruct (h_groups h !! gl) as [g|] eqn:Egl; [|done]. injection H as <- <-.
    assert (Hh : forall x gg k a, holds (set_group h gl (Group (g_id g) (add_missing (g_perms g) attrs))) x gg k a <->
      exists gx, points h x gg gx /\ (gx = gl /\ add_missing (g_perms g) attrs !! k = Some a
                                 \/ gx <> gl /\ exists g0, h_groups h !! gx = Some g0 /\ g_perms g0 !! k = Some a)).
    { intros x gg k a. unfold holds, owns, points. split.
      - intros (g0 & (r0 & gx & Hr0 & Hp & Hg0) & Hk). exists gx. split; [by exists r0|].
        rewrite (set_group_lookup _ _ _ _ _ Egl) in Hg0. case_decide as E; [left; by simplify_eq|right; naive_solver].
      - intros (gx & (r0 & Hr0 & Hp) & [[-> Hk]|[Hne (g0 & Hg0 & Hk)]]).
        + exists (Group (g_id g) (add_missing (g_perms g) attrs)). split; [|done]. exists r0, gl. split_and!; [done|done|].
          rewrite (set_group_lookup _ _ _ _ _ Egl). by case_decide.
        + exists g0. split; [|done]. exists r0, gx. split_and!; [done|done|]. rewrite (set_group_lookup _ _ _ _ _ Egl). by case_decide. }
    assert (Ho : forall x gg k a, holds h x gg k a <-> exists gx g0, points h x gg gx /\ h_groups h !! gx = Some g0 /\ g_perms g0 !! k = Some a).
    { intros x gg k a. unfold holds, owns, points. naive_solver. }
    assert (Hp : forall gx, points h l grp gx <-> gx = gl).
    { intros gx. unfold points. split; [intros (r0 & Hr0 & Hp); rewrite Hr in Hr0; simplify_eq; congruence|intros ->; by exists r]. }
    assert (Hlk : forall k a, holds h l grp k a <-> g_perms g !! k = Some a).
    { intros k a. rewrite Ho. split; [intros (gx & g0 & ->%Hp & Hg0 & Hk); congruence|]. intros Hk. exists gl, g. by rewrite Hp. }
    split_and!; [done|done| |].
    + intros k a. rewrite Hh, Hlk. split.
      * intros (gx & ->%Hp & [[_ Hk]|[? _]]); [|done]. apply add_missing_first in Hk as [Hk|[Hk Hf]]; [by left|right].
        split; [|done]. intros a' Ha'. apply Hlk in Ha'. congruence.
      * intros Hk. exists gl. rewrite Hp. split; [done|]. left. split; [done|]. apply add_missing_first.
        destruct Hk as [Hk|[Hn Hf]]; [by left|right]. split; [|done].
        destruct (g_perms g !! k) as [a'|] eqn:E; [|done]. destruct (Hn a'). by apply Hlk.
    + intros x gg k a. destruct (h_roles h !! x) as [rx|] eqn:Hx.
      * destruct (r_perms rx !! gg) as [gx|] eqn:Hgx.
        -- destruct (decide (gx = gl)) as [->|Hne].
           { left. right. exists gl. split; [by apply Hp|by exists rx]. }
           right. rewrite Hh, Ho. unfold points. split.
           ++ intros (gy & (ry & Hry & Hpy) & [[-> _]|[_ (g0 & ? & ?)]]); [congruence|].
              exists gy, g0. split; [by exists ry|done].
           ++ intros (gy & g0 & (ry & Hry & Hpy) & Hg0 & Hk). exists gy. split; [by exists ry|]. right. split; [congruence|by exists g0].
        -- right. rewrite Hh, Ho. unfold points. naive_solver.
      * right. rewrite Hh, Ho. unfold points. naive_solver.
  - injection H as <- <-.
    set (h' := RHeap _ _).
    assert (Hro : forall x, h_roles h' !! x = if decide (x = l) then Some (Role (r_id r) (r_lock r) (<[grp := length (h_groups h)]> (r_perms r)) (r_desc r)) else h_roles h !! x).
    { intros x. unfold h'. simpl. rewrite Hl. case_decide as E; [subst; apply list_lookup_insert; by eapply lookup_lt_Some|by apply list_lookup_insert_ne]. }
    assert (Hgr : forall gx g0, h_groups h !! gx = Some g0 -> h_groups h' !! gx = Some g0).
    { intros gx g0 Hg0. unfold h'. simpl. by apply lookup_app_l_Some. }
    assert (Hgn : h_groups h' !! length (h_groups h) = Some (Group grp (add_missing ∅ attrs))).
    { unfold h'. simpl. apply list_lookup_middle. done. }
    assert (Hho : forall x gg k a, ~ (x = l /\ gg = grp) -> holds h' x gg k a <-> holds h x gg k a).
    { intros x gg k a Hne. unfold holds, owns. split.
      - intros (g0 & (r0 & gx & Hr0 & Hp & Hg0) & Hk). rewrite Hro in Hr0. case_decide as E.
        + subst x. simplify_eq. simpl in Hp. rewrite lookup_insert_ne in Hp by (intros ->; by destruct Hne).
          destruct W as (_ & W2 & _). destruct (W2 _ _ _ _ Hr Hp) as (g1 & Hg1 & _).
          rewrite (Hgr _ _ Hg1) in Hg0. simplify_eq. exists g0. split; [|done]. by exists r, gx.
        + destruct W as (_ & W2 & _). destruct (W2 _ _ _ _ Hr0 Hp) as (g1 & Hg1 & _).
          rewrite (Hgr _ _ Hg1) in Hg0. simplify_eq. exists g0. split; [|done]. by exists r0, gx.
      - intros (g0 & (r0 & gx & Hr0 & Hp & Hg0) & Hk). exists g0. split; [|done].
        destruct (decide (x = l)) as [->|E].
        + rewrite Hr in Hr0. simplify_eq. eexists _, gx. rewrite Hro, decide_True by done. split_and!; [done| |by apply Hgr].
          simpl. rewrite lookup_insert_ne; [done|]. intros ->. by destruct Hne.
        + exists r0, gx. rewrite Hro, decide_False by done. split_and!; [done|done|by apply Hgr]. }
    split_and!; [done| | |].
    + intros x k d. unfold child. rewrite Hro. case_decide as E; [|done]. subst x. rewrite Hr.
      split; intros (r0 & [= <-] & Hk); by eexists.
    + intros k a. split.
      * intros (g0 & (r0 & gx & Hr0 & Hp & Hg0) & Hk). right. rewrite Hro, decide_True in Hr0 by done. simplify_eq.
        simpl in Hp. rewrite lookup_insert in Hp. simplify_eq. simpl in Hk.
        apply add_missing_first in Hk as [Hk|[_ Hf]]; [by rewrite lookup_empty in Hk|]. split; [|done].
        intros a' (g1 & (r1 & gy & Hr1 & Hp1 & _) & _). congruence.
      * intros [(g1 & (r1 & gy & Hr1 & Hp1 & _) & _)|[_ Hf]]; [rewrite Hr in Hr1; simplify_eq; congruence|].
        exists (Group grp (add_missing ∅ attrs)). split; [|simpl; apply add_missing_first; right; by rewrite lookup_empty].
        eexists _, _. rewrite Hro, decide_True by done. split_and!; [done|simpl; by rewrite lookup_insert|done].
    + intros x g k a. destruct (decide (x = l)) as [->|Hx]; [destruct (decide (g = grp)) as [->|Hg]|].
      * left. by left.
      * right. apply Hho. naive_solver.
      * right. apply Hho. naive_solver.
Qed.

(** ** Nothing is taken away. *)
Ltac heap_id := match goal with H : ?a = ?b |- heap_grows ?b ?a => rewrite H; apply grows_refl | |- heap_grows _ _ => apply grows_refl end.
Lemma step_heap_grows o st x st' r : step o st x = Ok (st', r) -> heap_grows (s_heap st) (s_heap st').
Proof.
  destruct x; simpl; intros H.
  all: try (injection H as <- <-; apply grows_refl).
  - injection H as <- <-. apply grows_new_role.
  - injection H as <- <-. apply grows_new_group.
  - apply rbind_ok in H as (h & Hh & [= <- <-]). by apply grows_add_attributes in Hh.
  - apply rbind_ok in H as (h & Hh & [= <- <-]). by apply grows_set_lock in Hh.
  - apply rbind_ok in H as (h & Hh & [= <- <-]). by apply grows_set_lock in Hh.
  - apply rbind_ok in H as ([h e] & Hh & [= <- <-]). by apply grows_add_descendant in Hh.
  - apply rbind_ok in H as ([h e] & Hh & [= <- <-]). by apply grows_add_permission in Hh.
  - apply rbind_ok in H as ([h e] & Hh & [= <- <-]). by apply grows_add_group in Hh.
  - apply rbind_ok in H as ([st1 l] & H & [= <- <-]). unfold add_role in H.
    destruct (h_roles (s_heap st) !! r0) as [ro|]; [|done].
    destruct (m_roles st !! r_id ro); injection H as <- <-; apply grows_refl.
  - apply rbind_ok in H as ([st1 l] & H & [= <- <-]). unfold add_attribute_group in H.
    destruct (h_groups (s_heap st) !! g) as [ro|]; [|done].
    destruct (m_groups st !! g_id ro); injection H as <- <-; apply grows_refl.
  - apply rbind_ok in H as ([st1 l] & H & [= <- <-]). unfold add_tenant in H.
    destruct (s_tenants st !! t) as [c|] eqn:Hc; [|done].
    destruct (m_tenants (set_tenant st t _) !! t_id c); injection H as <- <-; apply grows_refl.
  - injection H as <- <-. unfold add_namespace. case_bool_decide; apply grows_refl.
  - injection H as <- <-. unfold add_scope. case_bool_decide; apply grows_refl.
  - injection H as <- <-. unfold add_principal. case_bool_decide; apply grows_refl.
  - injection H as <- <-. unfold add_attribute. destruct (m_attributes st !! attr_string a); apply grows_refl.
  - apply rbind_ok in H as ([st1 e] & H & [= <- <-]). unfold add_permissions_to_role in H.
    destruct (m_roles st !! r0) as [rl|]; [|injection H as <- <-; apply grows_refl].
    destruct (m_groups st !! g) as [gl|]; [|injection H as <- <-; apply grows_refl].
    destruct (h_groups (s_heap st) !! gl) as [go|]; [|done].
    destruct (check_attrs go g attrs); [injection H as <- <-; apply grows_refl|].
    apply rbind_ok in H as ([h e'] & Hh & [= <- <-]). by apply grows_add_permission in Hh.
  - apply rbind_ok in H as (st1 & H & [= <- <-]).
    pose proof (repeat_heap _ _ _ _ (fun st0 x st2 => tenant_add_namespace_heap st0 t x st2) H). heap_id.
  - apply rbind_ok in H as (st1 & H & [= <- <-]). apply add_descendants_heap in H. heap_id.
  - apply rbind_ok in H as (st1 & H & [= <- <-]). unfold tenant_add_scopes_to_namespace in H.
    apply rbind_ok in H as (c & _ & [= <-]). heap_id.
  - apply rbind_ok in H as (st1 & H & [= <- <-]). apply set_default_heap in H. heap_id.
  - apply rbind_ok in H as (st1 & H & [= <- <-]). unfold tenant_add_principal_in_namespace in H.
    apply rbind_ok in H as (c & _ & [= <-]). heap_id.
  - apply rbind_ok in H as (st1 & H & [= <- <-]).
    assert (E : s_heap st1 = s_heap st); [|heap_id]. eapply repeat_heap; [|exact H].
    intros st0 x st2 H2. unfold tenant_add_role in H2. apply rbind_ok in H2 as (c & _ & H2).
    destruct (h_roles (s_heap st0) !! x); [|done]. by injection H2 as <-.
  - apply rbind_ok in H as (st1 & H & [= <- <-]).
    assert (E : s_heap st1 = s_heap st); [|heap_id]. eapply repeat_heap; [|exact H].
    intros st0 x st2 H2. unfold tenant_add_scope in H2. by apply rbind_ok in H2 as (c & _ & [= <-]).
  - apply rbind_ok in H as ([st1 e] & H & [= <- <-]). cbn [fst].
    assert (E : s_heap st1 = s_heap st); [|heap_id]. eapply until_heap; [|exact H].
    intros st0 x st2 e2 H2. unfold tenant_add_principal_with_role in H2. apply rbind_ok in H2 as (c & _ & H2).
    destruct (negb _); [by injection H2 as <- <-|].
    destruct (m_roles st0 !! x); [|by injection H2 as <- <-]. injection H2 as <- <-. by destruct (t_default c).
  - apply rbind_ok in H as ([st1 e] & H & [= <- <-]). cbn [fst].
    assert (E : s_heap st1 = s_heap st); [|heap_id]. eapply until_heap; [|exact H].
    intros st0 x st2 e2 H2. unfold tenant_add_scope_to_principal in H2. apply rbind_ok in H2 as (c & _ & H2).
    destruct (negb _); [by injection H2 as <- <-|].
    destruct (negb _); [by injection H2 as <- <-|]. injection H2 as <- <-. by destruct (t_default c).
  - apply rbind_ok in H as ([st1 ds] & H & [= <- <-]). apply tenant_children_same in H as (hi & ca & ->). heap_id.
  - apply rbind_ok in H as ([st1 ds] & H & [= <- <-]). apply implicit_same in H as (hi & ca & ->). heap_id.
  - apply rbind_ok in H as ([st1 b] & H & [= <- <-]). apply authorize_same in H as (hi & ca & ->). heap_id.
Qed.
Lemma run_heap_grows o i st ops st' outs : run o i st ops = Ok (st', outs) -> heap_grows (s_heap st) (s_heap st').
Proof.
  revert i st outs. induction ops as [|x ops IH]; intros i st outs; simpl; [intros [= <- <-]; apply grows_refl|].
  rewrite rbind_ok. intros ([st1 r1] & H1 & H). apply rbind_ok in H as ([st2 r2] & H2 & [= <- <-]).
  eapply grows_trans; [by eapply step_heap_grows|]. eapply IH. exact H2.
Qed.
Lemma grows_permits h h' l grp perm allowed : heap_grows h h' -> heap_le h h' ->
  permits h l grp perm allowed -> permits h' l grp perm allowed.
Proof.
  intros G L (g & Ho & Hc). destruct (grows_owns _ _ _ _ _ G Ho) as (g' & Ho' & Hle). exists g'. split; [done|].
  destruct Hc as [Hc|(d & gd & Hd & Ha & Hod & Hof)]; [left; by eapply grows_offers|right].
  destruct (grows_owns _ _ _ _ _ G Hod) as (gd' & Hod' & Hled). exists d, gd'. split_and!.
  - by eapply grows_descends.
  - destruct Ha as [?|(id & Hid & Hin)]; [by left|right]. exists id. split; [|done]. destruct L as [L _]. by apply L.
  - done.
  - by eapply grows_offers.
Qed.
Lemma has_stays o1 i o2 o3 st ops st' outs l grp perm allowed b : reachable st -> run o1 i st ops = Ok (st', outs) ->
  role_has o2 (s_heap st) l grp perm allowed = Ok true -> role_has o3 (s_heap st') l grp perm allowed = Ok b -> b = true.
Proof.
  intros W%reachable_wf Hr H1 H2. apply role_has_ok in H1, H2. apply H2.
  eapply grows_permits; [by eapply run_heap_grows|by eapply run_heap_le|]. by apply H1.
Qed.
