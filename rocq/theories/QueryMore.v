(** GetScopesWithRolesForPrincipal and GetRolesForAvailablePermissions. *)
From Verif Require Export QueryProofs.

Lemma join_elem {T U V} (left : list T) (right : list U) jf (cf : T -> U -> V) x :
  x ∈ join_slices left right jf cf <-> exists l r, l ∈ left /\ r ∈ right /\ jf l r = true /\ x = cf l r.
Proof.
  rewrite join_slices_spec, elem_of_list_fmap. split.
  - intros ([l r] & -> & Hin). apply elem_of_list_filter in Hin as [Hj Hin].
    apply elem_of_list_bind in Hin as (l' & Hin & Hl). apply elem_of_list_bind in Hin as (r' & Hin & Hr).
    apply elem_of_list_singleton in Hin. simplify_eq. exists l', r'. done.
  - intros (l & r & Hl & Hr & Hj & ->). exists (l, r). split; [done|]. apply elem_of_list_filter. split; [done|].
    apply elem_of_list_bind. exists l. split; [|done]. apply elem_of_list_bind. exists r. split; [|done].
    by apply elem_of_list_singleton.
Qed.

(** ** Grouping by scope *)
Lemma seen_add_lists seen k r s x :
  lists_role (seen_add seen k r) s x <-> lists_role seen s x \/ s = k /\ x = r.
Proof.
  unfold lists_role. induction seen as [|[k' rs] seen IH]; simpl.
  - split.
    + intros (rs & Hin & Hx). apply elem_of_list_singleton in Hin. simplify_eq.
      apply elem_of_list_singleton in Hx. by right.
    + intros [(rs & Hin & _)|[-> ->]]; [by apply elem_of_nil in Hin|]. exists [r]. split; by left.
  - destruct (decide (k' = k)) as [->|Hne].
    + split.
      * intros (rs' & [E|Hin]%elem_of_cons & Hx).
        -- simplify_eq. apply elem_of_app in Hx as [Hx|Hx%elem_of_list_singleton]; [|by right].
           left. exists rs. split; [left|done].
        -- left. exists rs'. split; [by right|done].
      * intros [(rs' & [E|Hin]%elem_of_cons & Hx)|[-> ->]].
        -- simplify_eq. eexists. split; [left|]. apply elem_of_app. by left.
        -- exists rs'. split; [by right|done].
        -- eexists. split; [left|]. apply elem_of_app. right. by left.
    + split.
      * intros (rs' & [E|Hin]%elem_of_cons & Hx).
        -- simplify_eq. left. exists rs. split; [left|done].
        -- destruct IH as [IH _]. destruct IH as [(rs2 & ? & ?)|?]; [by exists rs'| |by right].
           left. exists rs2. split; [by right|done].
      * intros [(rs' & [E|Hin]%elem_of_cons & Hx)|Hk].
        -- simplify_eq. exists rs. split; [left|done].
        -- destruct IH as [_ IH]. destruct IH as (rs2 & ? & ?); [left; by exists rs'|].
           exists rs2. split; [by right|done].
        -- destruct IH as [_ IH]. destruct IH as (rs2 & ? & ?); [by right|].
           exists rs2. split; [by right|done].
Qed.
Lemma seen_add_keys seen k r x : x ∈ (seen_add seen k r).*1 <-> x ∈ seen.*1 \/ x = k.
Proof.
  induction seen as [|[k' rs] seen IH]; simpl.
  - rewrite elem_of_list_singleton. split; [by right|intros [?%elem_of_nil|?]; done].
  - destruct (decide (k' = k)) as [->|Hne]; simpl; rewrite !elem_of_cons; [|rewrite IH]; tauto.
Qed.
Lemma seen_add_nodup seen k r : NoDup seen.*1 -> NoDup (seen_add seen k r).*1.
Proof.
  induction seen as [|[k' rs] seen IH]; simpl; intros H.
  - apply NoDup_singleton.
  - apply NoDup_cons in H as [H1 H2]. destruct (decide (k' = k)) as [->|Hne]; simpl; apply NoDup_cons; split; auto.
    rewrite seen_add_keys. intros [?|?]; [done|congruence].
Qed.
Lemma group_spec rows seen s x :
  lists_role (foldl (fun seen r => seen_add seen (scope r) (role r)) seen rows) s x
  <-> lists_role seen s x \/ exists d, d ∈ rows /\ scope d = s /\ role d = x.
Proof.
  revert seen. induction rows as [|d rows IH]; intros seen; simpl.
  - split; [by left|]. intros [?|(d & ?%elem_of_nil & _)]; done.
  - rewrite IH, seen_add_lists. split.
    + intros [[?|[-> ->]]|(d' & ? & ? & ?)]; [by left| |].
      * right. exists d. split; [left|done].
      * right. exists d'. split; [by right|done].
    + intros [?|(d' & [->|?]%elem_of_cons & H1 & H2)]; [by left; left|left; right; done|].
      right. by exists d'.
Qed.
Lemma group_nodup rows seen : NoDup seen.*1 ->
  NoDup (foldl (fun seen r => seen_add seen (scope r) (role r)) seen rows).*1.
Proof. revert seen. induction rows as [|d rows IH]; intros seen H; simpl; [done|]. by apply IH, seen_add_nodup. Qed.
Lemma lists_role_perm l1 l2 s x : l1 ≡ₚ l2 -> lists_role l1 s x <-> lists_role l2 s x.
Proof. intros H. unfold lists_role. split; intros (rs & Hin & Hx); exists rs; (split; [|done]); [by rewrite <-H|by rewrite H]. Qed.

(** ** The rows it is built from *)
Lemma own_filter st o f d :
  d ∈ search o st f filter_principal_by_tenant <->
    stored st d /\ principal d = principal f /\ principal d <> ANil /\ tenant d = tenant f /\ tenant d <> ANil.
Proof.
  rewrite stored_search. unfold filter_principal_by_tenant.
  destruct (is_nil (tenant f)) eqn:Et; cbn [andb].
  - apply is_nil_spec in Et. rewrite Et. destruct (is_nil (principal f)) eqn:Ep.
    + split; [by intros []|]. intros (_ & _ & _ & ? & ?). congruence.
    + rewrite andb_true_iff, match_principal_spec, match_tenant_spec, Et. tauto.
  - rewrite andb_true_iff, match_principal_spec, match_tenant_spec. tauto.
Qed.
Lemma own_has_row st o f :
  (search o st f filter_principal_by_tenant <> []) <-> has_row st (principal f) (tenant f).
Proof.
  split.
  - destruct (search o st f filter_principal_by_tenant) as [|d l] eqn:E; [done|]. intros _.
    assert (Hd : d ∈ search o st f filter_principal_by_tenant) by (rewrite E; left).
    apply own_filter in Hd. by exists d.
  - intros (d & Hd) E. assert (Hin : d ∈ search o st f filter_principal_by_tenant) by by apply own_filter.
    rewrite E in Hin. by apply elem_of_nil in Hin.
Qed.
Lemma scoped_filter st o f d :
  d ∈ search o st f filter_scope_principal_by_tenant <->
    stored st d /\ principal d = principal f /\ principal d <> ANil /\ tenant d = tenant f /\ tenant d <> ANil
    /\ scope d <> ANil /\ role d <> ANil.
Proof.
  rewrite stored_search. unfold filter_scope_principal_by_tenant.
  destruct (is_nil (tenant f)) eqn:Et; cbn [andb].
  - apply is_nil_spec in Et. rewrite Et. destruct (is_nil (principal f)) eqn:Ep.
    + split; [by intros []|]. intros (_ & _ & _ & ? & ? & _). congruence.
    + rewrite !andb_true_iff, match_principal_spec, match_tenant_spec, !negb_true_iff, !is_nil_false, Et. tauto.
  - rewrite !andb_true_iff, match_principal_spec, match_tenant_spec, !negb_true_iff, !is_nil_false. tauto.
Qed.
Lemma within_filter st o f d :
  d ∈ search o st f filter_scope_by_tenant_and_namespace <->
    stored st d /\ tenant d = tenant f /\ tenant d <> ANil /\ namespace d = namespace f /\ namespace d <> ANil
    /\ scope d <> ANil.
Proof.
  rewrite stored_search. unfold filter_scope_by_tenant_and_namespace.
  rewrite !andb_true_iff, match_tenant_spec, match_namespace_spec, negb_true_iff, is_nil_false. tauto.
Qed.
Lemma scope_of_filter st o f d :
  d ∈ search o st f filter_scope_by_tenant <->
    stored st d /\ tenant d = tenant f /\ tenant d <> ANil /\ scope d <> ANil.
Proof.
  rewrite stored_search. unfold filter_scope_by_tenant.
  rewrite !andb_true_iff, match_tenant_spec, negb_true_iff, is_nil_false. tauto.
Qed.
Lemma entities_spec st o1 o2 f s :
  (exists d, d ∈ match search o1 st f filter_scope_by_tenant_and_namespace with
                 | [] => search o2 st f filter_scope_by_tenant
                 | rs => rs
                 end /\ scope d = s) <-> offered_scope st (tenant f) (namespace f) s.
Proof.
  unfold offered_scope, scope_within, scope_of.
  pose proof (within_filter st o1 f) as W.
  destruct (search o1 st f filter_scope_by_tenant_and_namespace) as [|d0 l].
  - setoid_rewrite scope_of_filter. split.
    + intros (d & (H1 & H2 & H3 & H4) & <-). right. split; [|by exists d].
      intros (s' & d' & ? & ? & ? & ? & ? & ? & ?). apply (not_elem_of_nil d'). apply W. done.
    + intros [(d & ? & ? & ? & ? & ? & <- & ?)|[_ (d & ? & ? & ? & <- & ?)]]; [|by exists d].
      exfalso. apply (not_elem_of_nil d), W. done.
  - split.
    + intros (d & (? & ? & ? & ? & ? & ?)%W & <-). left. exists d. done.
    + intros [(d & ? & ? & ? & ? & ? & <- & ?)|[Hno _]].
      * exists d. split; [|done]. by apply W.
      * exfalso. apply Hno. assert (Hd : d0 ∈ d0 :: l) by left. apply W in Hd as (? & ? & ? & ? & ? & ?).
        exists (scope d0), d0. done.
Qed.

Definition retenant (f : data) (t : any) : data :=
  Data t (namespace f) (scope f) (principal f) (role f) (manage f).
Lemma fallback_spec o st t0 ts : forall i f f' rs, fallback_loop o i st t0 f ts = (f', rs) ->
  (rs <> [] /\ exists u oo, u ∈ ts /\ AStr u <> t0 /\ f' = retenant f (AStr u)
     /\ rs = search oo st f' filter_principal_by_tenant)
  \/ rs = [] /\ (forall u, u ∈ ts -> AStr u <> t0 -> ~ has_row st (principal f) (AStr u))
     /\ (f' = f \/ exists u, u ∈ ts /\ AStr u <> t0 /\ f' = retenant f (AStr u)).
Proof.
  induction ts as [|t ts IH]; intros i f f' rs; cbn [fallback_loop].
  - intros [= <- <-]. right. split; [done|]. split; [by intros u ?%elem_of_nil|by left].
  - destruct (any_eq (AStr t) t0) eqn:E.
    + apply any_eq_spec in E. intros H. apply IH in H as [(H1 & u & oo & H2 & H3)|(H1 & H2 & H3)].
      * left. split; [done|]. exists u, oo. split; [by right|done].
      * right. split; [done|]. split.
        -- intros u [->|Hu]%elem_of_cons Hne; [done|by apply H2].
        -- destruct H3 as [H3|(u & Hu & H3)]; [by left|right]. exists u. split; [by right|done].
    + assert (Hne : AStr t <> t0) by (intros Hx; apply any_eq_spec in Hx; congruence).
      fold (retenant f (AStr t)).
      destruct (search (sub o i) st (retenant f (AStr t)) filter_principal_by_tenant) as [|d l] eqn:Es.
      * intros H. apply IH in H as [(H1 & u & oo & H2 & H3 & H4 & H5)|(H1 & H2 & H3)].
        -- left. split; [done|]. exists u, oo. split; [by right|]. done.
        -- right. split; [done|]. split.
           ++ intros u [->|Hu]%elem_of_cons Hne'; [|by apply H2].
              intros Hr. by apply (own_has_row st (sub o i) (retenant f (AStr t))) in Hr.
           ++ right. destruct H3 as [->|(u & Hu & ? & ->)]; [exists t|exists u]; (split; [by (left || right)|done]).
      * intros [= <- <-]. left. split; [done|]. exists t, (sub o i). split; [left|]. done.
Qed.

Lemma stored_caches st st' d : same_but_caches st st' -> stored st' d <-> stored st d.
Proof. intros (h & c & ->). by destruct st. Qed.

Lemma scopes_with_roles_exact o st p t n st' resp :
  get_scopes_with_roles o st p t n = Ok (st', resp) ->
  NoDup resp.*1
  /\ exists T, answered_for (sub o 1) st p t st' T
     /\ forall s r, lists_role resp s r <->
          offered_scope st T n s /\ holds_role st p T r \/ scoped_role st p T s r.
Proof.
  unfold get_scopes_with_roles. rewrite rbind_ok. intros ([st1 [f1 ps]] & H & [= <- <-]).
  split. { rewrite ordered_perm. apply group_nodup. constructor. }
  assert (Hs : same_but_caches st st1 /\ principal f1 = p /\ namespace f1 = n
    /\ (forall d, d ∈ ps <-> stored st d /\ principal d = p /\ principal d <> ANil
                             /\ tenant d = tenant f1 /\ tenant d <> ANil)
    /\ (answered_for (sub o 1) st p t st1 (tenant f1)
        \/ ~ has_row st p (tenant f1) /\ ~ has_row st p t /\ answered_for (sub o 1) st p t st1 t)).
  { pose proof (own_has_row st (sub o 0) (row_filter t n ANil p)) as Hr. simpl in Hr.
    destruct (search (sub o 0) st (row_filter t n ANil p) filter_principal_by_tenant) as [|d l] eqn:E.
    - assert (Hno : ~ has_row st p t) by (intros Hh; by apply Hr in Hh).
      destruct p as [|q| |]; try done. apply rbind_ok in H as ([st2 U] & HU & H). simpl in H.
      destruct (fallback_loop _ _ _ _ _ _) as [f2 rs] eqn:Ef.
      assert (st2 = st1 /\ f2 = f1 /\ rs = ps) as (-> & -> & ->) by (by injection H as -> -> ->).
      pose proof (implicit_same _ _ _ _ _ HU) as Hsame. split; [done|].
      assert (Hrow : forall t', has_row st1 (AStr q) t' <-> has_row st (AStr q) t').
      { intros t'. unfold has_row. by setoid_rewrite (stored_caches _ _ _ Hsame). }
      apply fallback_spec in Ef as [(Hne & u & oo & Hu & Hut & -> & ->)|(-> & Hno' & Hf1)].
      + apply (own_has_row st1 oo) in Hne. simpl in Hne. apply Hrow in Hne.
        rewrite elem_of_ordered, elem_of_elements in Hu. simpl. split_and!; [done..| |].
        * intros d. rewrite own_filter, (stored_caches _ _ _ Hsame). done.
        * left. right. split; [done|]. exists q, U. split_and!; [done..|]. left. by exists u.
      + assert (Hnone : forall u, u ∈ U -> ~ has_row st (AStr q) (AStr u)).
        { intros u Hu Hh. destruct (decide (AStr u = t)) as [<-|Hne]; [done|].
          apply (Hno' u); [by rewrite elem_of_ordered, elem_of_elements|done|by apply Hrow]. }
        assert (Hn1 : ~ has_row st (AStr q) (tenant f1)).
        { destruct Hf1 as [->|(u & Hu & _ & ->)]; [done|]. simpl. apply Hnone.
          by rewrite elem_of_ordered, elem_of_elements in Hu. }
        split; [|split]; [by destruct Hf1 as [->|(u & _ & _ & ->)]..|]. split.
        * intros d. split; [by intros ?%elem_of_nil|]. intros Hd. exfalso. apply Hn1. exists d. tauto.
        * right. split_and!; [done..|]. right. split; [done|]. exists q, U. split_and!; [done..|]. by right.
    - assert (st1 = st /\ f1 = row_filter t n ANil p /\ ps = d :: l) as (-> & -> & ->)
        by (by injection H as -> -> ->).
      split; [apply same_but_caches_refl|]. simpl. split_and!; [done..| |].
      + intros d'. rewrite <-E, own_filter. done.
      + left. left. split_and!; [|done..]. by apply Hr. }
  clear H. destruct Hs as (Hsame & Hp & Hn & Hps & HT).
  assert (Hmain : forall s r, lists_role (ordered (sub o 6)
     (foldl (fun seen r => seen_add seen (scope r) (role r)) []
       (join_slices match search (sub o 3) st1 f1 filter_scope_by_tenant_and_namespace with
                    | [] => search (sub o 4) st1 f1 filter_scope_by_tenant
                    | rs => rs
                    end ps match_tenant combine_rows ++ search (sub o 5) st1 f1 filter_scope_principal_by_tenant))) s r
    <-> offered_scope st (tenant f1) n s /\ holds_role st p (tenant f1) r \/ scoped_role st p (tenant f1) s r).
  { intros s r. rewrite (lists_role_perm _ _ _ _ (ordered_perm _ _)), group_spec.
    assert (Hoff : offered_scope st1 (tenant f1) (namespace f1) s <-> offered_scope st (tenant f1) n s).
    { rewrite Hn. unfold offered_scope, scope_within, scope_of. by setoid_rewrite (stored_caches _ _ _ Hsame). }
    rewrite <-Hoff, <-(entities_spec st1 (sub o 3) (sub o 4) f1 s). clear Hoff.
    assert (Hten : forall d, d ∈ match search (sub o 3) st1 f1 filter_scope_by_tenant_and_namespace with
                    | [] => search (sub o 4) st1 f1 filter_scope_by_tenant
                    | rs => rs
                    end -> tenant d = tenant f1 /\ tenant d <> ANil).
    { intros d. pose proof (within_filter st1 (sub o 3) f1 d) as W.
      destruct (search (sub o 3) st1 f1 filter_scope_by_tenant_and_namespace) as [|d0 l].
      - rewrite scope_of_filter. tauto.
      - rewrite W. tauto. }
    set (E := match search (sub o 3) st1 f1 filter_scope_by_tenant_and_namespace with
              | [] => search (sub o 4) st1 f1 filter_scope_by_tenant | rs => rs end) in *. clearbody E.
    split.
    - intros [(rs & Hin & _)|(d & Hd & Hds & Hdr)]; [by apply elem_of_nil in Hin|].
      apply elem_of_app in Hd as [Hd|Hd].
      + left. apply join_elem in Hd as (e & a & He & Ha & _ & ->). simpl in Hds, Hdr.
        apply Hps in Ha as (? & ? & ? & ? & ?). split; [by exists e|]. exists a. done.
      + right. apply scoped_filter in Hd as (Hd & ? & ? & ? & ? & ? & ?).
        rewrite (stored_caches _ _ _ Hsame) in Hd. exists d. rewrite <-Hp. subst s r. done.
    - intros [[(e & He & <-) (a & Ha & ? & ? & ? & ? & <-)]|(d & Hd & ? & ? & ? & ? & <- & ? & <- & ?)]; right.
      + exists (combine_rows e a). split; [|done]. apply elem_of_app. left. apply join_elem.
        exists e, a. destruct (Hten e He) as [Ht1 Ht2]. split_and!; [done| |by apply match_tenant_spec; split; congruence|done].
        by apply Hps.
      + exists d. split; [|done]. apply elem_of_app. right. apply scoped_filter.
        rewrite (stored_caches _ _ _ Hsame), Hp. done. }
  destruct HT as [HT|(Hn1 & Hn2 & HT)].
  - by exists (tenant f1).
  - exists t. split; [done|]. intros s r. rewrite Hmain.
    assert (Hz : forall t', ~ has_row st p t' ->
      ~ (offered_scope st t' n s /\ holds_role st p t' r \/ scoped_role st p t' s r)).
    { intros t' Hno [[_ (d & ? & ? & ? & ? & ? & _)]|(d & ? & ? & ? & ? & ? & _)]; apply Hno; by exists d. }
    split; intros Hx; exfalso; [exact (Hz _ Hn1 Hx)|exact (Hz _ Hn2 Hx)].
Qed.
Lemma scopes_with_roles_panics o st p t n : ~ has_row st p t -> (forall s, p <> AStr s) ->
  get_scopes_with_roles o st p t n = Panic.
Proof.
  intros Hno Hp. unfold get_scopes_with_roles.
  pose proof (own_has_row st (sub o 0) (row_filter t n ANil p)) as Hr. simpl in Hr.
  destruct (search (sub o 0) st (row_filter t n ANil p) filter_principal_by_tenant) as [|d l].
  - destruct p as [|q| |]; try done. by destruct (Hp q).
  - exfalso. apply Hno, Hr. done.
Qed.
