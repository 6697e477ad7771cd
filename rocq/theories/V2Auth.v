(** Exact decisions of v2 Authorize and Can. *)
From Verif Require Export V2Trav.
From Verif Require Import RoleHas.

(** ** The role cache during one call *)
Section view.
  Variable st : vstate.
  Variable contrib : vrole -> gset string.
  Definition role_view (r x : string) : Prop :=
    match d_resolved (w_dag st) !! r with
    | Some s => x ∈ s
    | None => exists n ro, rtc (below (w_roles st) (w_dag st)) r n /\
                registered (w_roles st) (w_dag st) n ro /\ x ∈ contrib ro
    end.
  (** [d] is the role graph of [st], with a cache extended by correct entries. *)
  Record extends (d : dag) : Prop := {
    ext_roles : d_roles d = d_roles (w_dag st);
    ext_edges : d_edges d = d_edges (w_dag st);
    ext_old : forall r, d_resolved d !! r = None -> d_resolved (w_dag st) !! r = None;
    ext_kept : forall r s, d_resolved (w_dag st) !! r = Some s -> d_resolved d !! r = Some s;
    ext_view : forall r s, d_resolved d !! r = Some s -> forall x, x ∈ s <-> role_view r x
  }.
  Lemma extends_refl : extends (w_dag st).
  Proof. split; try done. intros r s Hr x. unfold role_view. by rewrite Hr. Qed.
  Lemma registered_ext h d d' n r : d_roles d = d_roles d' -> registered h d n r -> registered h d' n r.
  Proof. unfold registered. by intros ->. Qed.
  Lemma below_ext h d d' a b :
    d_roles d = d_roles d' -> d_edges d = d_edges d' -> below h d a b -> below h d' a b.
  Proof. unfold below, registered. by intros -> ->. Qed.
  Lemma rtc_below_ext h d d' a b :
    d_roles d = d_roles d' -> d_edges d = d_edges d' -> rtc (below h d) a b -> rtc (below h d') a b.
  Proof.
    intros H1 H2. induction 1 as [|a b c Hab _ IH]; [done|].
    eapply rtc_l; [|exact IH]. by eapply below_ext.
  Qed.
  Lemma resolve_ext d name d' s :
    extends d -> resolve contrib (w_roles st) d name = Ok (d', s) ->
    extends d' /\ forall x, x ∈ s <-> role_view name x.
  Proof.
    intros [Hr He Ho Hk Hv] H. destruct (d_resolved d !! name) as [s'|] eqn:Hc.
    - rewrite (resolve_cached _ _ _ _ _ Hc) in H. injection H as <- <-.
      split; [by constructor|]. by apply Hv.
    - destruct (resolve_first _ _ _ _ _ _ Hc H) as [-> Hs].
      assert (forall x, x ∈ s <-> role_view name x) as Hs'.
      { intros x. rewrite Hs. unfold role_view. rewrite (Ho _ Hc). split.
        - intros (n & r & H1 & H2 & H3). exists n, r. split; [by eapply rtc_below_ext|].
          split; [by eapply registered_ext|done].
        - intros (n & r & H1 & H2 & H3). exists n, r. split; [by eapply rtc_below_ext|].
          split; [by eapply registered_ext|done]. }
      split; [|done]. split; simpl; [done|done| | |].
      + intros r Hn. destruct (decide (r = name)) as [->|?]; [by rewrite lookup_insert in Hn|].
        rewrite lookup_insert_ne in Hn by done. by apply Ho.
      + intros r s' Hs2. destruct (decide (r = name)) as [->|?].
        * apply Hk in Hs2. congruence.
        * rewrite lookup_insert_ne by done. by apply Hk.
      + intros r s' Hs2. destruct (decide (r = name)) as [->|?].
        * rewrite lookup_insert in Hs2. by injection Hs2 as <-.
        * rewrite lookup_insert_ne in Hs2 by done. by apply Hv.
  Qed.
  Lemma resolve_ext_returns d name :
    dag_wf (w_roles st) (w_dag st) -> extends d ->
    exists d' s, resolve contrib (w_roles st) d name = Ok (d', s).
  Proof.
    intros Hwf Hd. apply resolve_returns. intros n l Hl. rewrite (ext_roles _ Hd) in Hl. by eapply Hwf.
  Qed.
End view.

Lemma role_view_perm st r p : role_view st vr_perms r p <-> role_perm st r p.
Proof. done. Qed.
Lemma role_view_name st r x : role_view st name_of r x <-> role_name st r x.
Proof.
  unfold role_view, role_name, includes, name_of. destruct (d_resolved (w_dag st) !! r); [done|].
  by setoid_rewrite elem_of_singleton.
Qed.

(** ** Tenants *)
Lemma down_manages st user a b : down st user a b <-> manages st user a b.
Proof.
  unfold down, manages, child_tenant, tenant_at. split.
  - intros (t & k & Ht & Hk & pr & ?). split; [by exists t, k|]. by exists t, pr.
  - intros ((t & k & Ht & Hk) & t' & pr & Ht' & ?). simplify_eq. exists t, k. split; [done|].
    split; [done|]. by exists pr.
Qed.
Lemma rtc_down_manages st user a b : rtc (down st user) a b <-> rtc (manages st user) a b.
Proof.
  split; induction 1 as [|x y z Hxy _ IH]; try done; (eapply rtc_l; [|exact IH]); by apply down_manages.
Qed.
Definition ns_ok (n : string) (pr : prole) : Prop := pr_namespace pr = "" \/ pr_namespace pr = n.
Lemma ns_ok_spec n pr :
  bool_decide (pr_namespace pr = "") || bool_decide (pr_namespace pr = n) = true <-> ns_ok n pr.
Proof. unfold ns_ok. by rewrite orb_true_iff, !bool_decide_eq_true. Qed.
Lemma counts_trav st now user t n pr :
  counts st now user t n pr <->
  ns_ok n pr /\ exists l c, rtc (down st user) t l /\ w_tenants st !! l = Some c /\
    live_row st now user (vt_id c) pr.
Proof.
  unfold counts, live_row, ns_ok, tenant_at. setoid_rewrite rtc_down_manages. naive_solver.
Qed.
Lemma wf_kids_ok st : v2_wf st -> kids_ok st.
Proof.
  intros Hwf l t c Ht ([k c'] & -> & Hk%elem_of_map_to_list)%elem_of_list_fmap.
  destruct (wf_kids st Hwf l t k c' Ht Hk) as (tc & ? & _). by exists tc.
Qed.
Lemma wf_sound_rows st : v2_wf st -> ~ broken st -> sound_rows st.
Proof.
  intros Hwf Hb [l|] Hp; [|done]. destruct (wf_prs st Hwf l Hp) as [pr Hpr]. by exists pr.
Qed.

(** ** Permissions *)
Section perms.
  Variable st : vstate.
  Variables n scope : string.
  Definition perm_has (acc : gset string * gset string) (x : bool * string) : Prop :=
    if x.1 then x.2 ∈ acc.1 else x.2 ∈ acc.2.
  Definition perm_gives (pr : prole) (x : bool * string) : Prop :=
    ns_ok n pr /\ role_perm st (pr_role pr) x.2 /\
    if x.1 then pr_scope pr = scope else pr_scope pr <> scope /\ pr_scope pr = "".
  Lemma perm_row_exact d acc pr d' acc' :
    extends st vr_perms d -> perm_row st n scope d acc pr = Ok (d', acc') ->
    extends st vr_perms d' /\ forall x, perm_has acc' x <-> perm_has acc x \/ perm_gives pr x.
  Proof.
    intros Hd. unfold perm_row.
    destruct (bool_decide (pr_namespace pr = "") || bool_decide (pr_namespace pr = n)) eqn:Hns.
    - apply ns_ok_spec in Hns. intros ([d1 s] & Hres & [= <- <-])%rbind_inv. simpl.
      destruct (resolve_ext _ _ _ _ _ _ Hd Hres) as [Hd1 Hs]. split; [done|].
      intros [b p]. unfold perm_has, perm_gives. simpl.
      rewrite <-role_view_perm, <-Hs.
      case_bool_decide as Hsc; [|case_bool_decide as Hem]; destruct b; simpl; rewrite ?elem_of_union; naive_solver.
    - intros [= <- <-]. split; [done|]. intros x. unfold perm_gives.
      assert (~ ns_ok n pr) as Hn. { intros H%ns_ok_spec. congruence. } tauto.
  Qed.
  Lemma perm_row_returns d acc pr :
    dag_wf (w_roles st) (w_dag st) -> extends st vr_perms d ->
    exists d' acc', perm_row st n scope d acc pr = Ok (d', acc') /\ extends st vr_perms d'.
  Proof.
    intros Hwf Hd. unfold perm_row. destruct (_ || _); [|eauto].
    destruct (resolve_ext_returns st vr_perms d (pr_role pr) Hwf Hd) as (d' & s & Hr).
    unfold resolve_permissions. rewrite Hr. simpl. eexists _, _. split; [done|].
    by destruct (resolve_ext _ _ _ _ _ _ Hd Hr).
  Qed.
  Lemma perm_gives_spec now user t b p :
    (exists l c pr, rtc (down st user) t l /\ w_tenants st !! l = Some c /\
       live_row st now user (vt_id c) pr /\ perm_gives pr (b, p)) <->
    if b then scoped_perm st now user t n scope p else global_perm st now user t n scope p.
  Proof.
    unfold perm_gives. destruct b; simpl; unfold scoped_perm, global_perm; setoid_rewrite counts_trav; naive_solver.
  Qed.
End perms.

Lemma rpp_exact o st now d user tid t n scope d' ps :
  v2_wf st -> distinct_ids st -> extends st vr_perms d -> w_reg st !! tid = Some t ->
  resolve_principal_permissions o st now d user tid n scope = Ok (d', ps) ->
  extends st vr_perms d' /\
  forall p, effective st now user t n scope p <-> exists s, ps = Some s /\ p ∈ s.
Proof.
  intros Hwf Hdi Hd Ht. unfold resolve_principal_permissions. rewrite Ht.
  intros ([d1 [sc gl]] & Htr & [= <- <-])%rbind_inv. simpl.
  destruct (wf_reg st Hwf tid t Ht) as (c & Hc & _).
  destruct (traverse_all_exact (perm_row st n scope) st now user (extends st vr_perms) perm_has
    (perm_gives st n scope) (perm_row_exact st n scope) o t d (∅, ∅) d1 (sc, gl)
    Hdi (wf_kids_ok st Hwf) (ex_intro _ c Hc) Hd Htr) as [Hd1 Hx].
  split; [done|].
  assert (forall p, p ∈ sc <-> scoped_perm st now user t n scope p) as Hsc.
  { intros p. rewrite <-(perm_gives_spec st n scope now user t true p).
    specialize (Hx (true, p)). unfold perm_has in Hx. simpl in Hx. rewrite Hx. set_solver. }
  assert (forall p, p ∈ gl <-> global_perm st now user t n scope p) as Hgl.
  { intros p. rewrite <-(perm_gives_spec st n scope now user t false p).
    specialize (Hx (false, p)). unfold perm_has in Hx. simpl in Hx. rewrite Hx. set_solver. }
  intros p. unfold effective. rewrite <-Hsc, <-Hgl. setoid_rewrite <-Hsc.
  case_bool_decide as Hne.
  - apply set_choose_L in Hne as [p0 Hp0]. split.
    + intros [?|[_ Hno]]; [by exists sc|]. by destruct (Hno p0).
    + intros (s & [= <-] & ?). by left.
  - assert (sc = ∅) as ->. { destruct (decide (sc = ∅)); [done|by destruct Hne]. }
    assert (forall p', p' ∉ (∅ : gset string)) as Hno by set_solver.
    case_bool_decide as Hne2.
    + split; [intros [?|[? _]]; [set_solver|by exists gl]|].
      intros (s & [= <-] & ?). by right.
    + assert (gl = ∅) as ->. { destruct (decide (gl = ∅)); [done|by destruct Hne2]. }
      split; [set_solver|]. by intros (s & ? & ?).
Qed.
(** Whatever the tenant ids: only scoped or unscoped permissions of the principal are returned. *)
Lemma rpp_sound o st now d user tid t n scope d' ps :
  extends st vr_perms d -> w_reg st !! tid = Some t ->
  resolve_principal_permissions o st now d user tid n scope = Ok (d', ps) ->
  extends st vr_perms d' /\
  forall p s, ps = Some s -> p ∈ s ->
    scoped_perm st now user t n scope p \/ global_perm st now user t n scope p.
Proof.
  intros Hd Ht. unfold resolve_principal_permissions. rewrite Ht.
  intros ([d1 [sc gl]] & Htr & [= <- <-])%rbind_inv. simpl.
  destruct (traverse_all_sound (perm_row st n scope) st now user (extends st vr_perms) perm_has
    (perm_gives st n scope) (perm_row_exact st n scope) o t d (∅, ∅) d1 (sc, gl) Hd Htr) as [Hd1 Hx].
  split; [done|]. intros p s.
  case_bool_decide as Hne; [|case_bool_decide as Hne2]; [| |done]; intros [= <-] Hp.
  - left. rewrite <-(perm_gives_spec st n scope now user t true p).
    destruct (Hx (true, p) Hp) as [H|H]; [|done]. unfold perm_has in H. simpl in H. set_solver.
  - right. rewrite <-(perm_gives_spec st n scope now user t false p).
    destruct (Hx (false, p) Hp) as [H|H]; [|done]. unfold perm_has in H. simpl in H. set_solver.
Qed.
Lemma rpp_returns o st now d user tid n scope :
  v2_wf st -> ~ broken st -> extends st vr_perms d ->
  exists d' ps, resolve_principal_permissions o st now d user tid n scope = Ok (d', ps) /\
    extends st vr_perms d'.
Proof.
  intros Hwf Hb Hd. unfold resolve_principal_permissions.
  destruct (w_reg st !! tid) as [t|] eqn:Ht; [|eauto].
  destruct (wf_reg st Hwf tid t Ht) as (c & Hc & _).
  destruct (traverse_all_returns (perm_row st n scope) st now user (extends st vr_perms) o t d (∅, ∅))
    as (d' & acc' & -> & Hd'); [|by apply wf_sound_rows|by apply wf_kids_ok|by exists c|done|].
  - intros d0 acc pr Hd0. apply perm_row_returns; [by apply wf_dag|done].
  - simpl. eauto.
Qed.

(** ** Roles *)
Section roles.
  Variable st : vstate.
  Variable n : string.
  Definition role_gives (pr : prole) (x : string) : Prop :=
    ns_ok n pr /\ pr_role pr <> "" /\ (x = pr_role pr \/ role_name st (pr_role pr) x).
  Lemma role_row_exact d acc pr d' acc' :
    extends st name_of d -> role_row st n d acc pr = Ok (d', acc') ->
    extends st name_of d' /\ forall x, x ∈ acc' <-> x ∈ acc \/ role_gives pr x.
  Proof.
    intros Hd. unfold role_row.
    destruct ((bool_decide (pr_namespace pr = "") || bool_decide (pr_namespace pr = n))
              && negb (bool_decide (pr_role pr = ""))) eqn:Hc.
    - apply andb_true_iff in Hc as [Hns%ns_ok_spec Hr%negb_true_iff%bool_decide_eq_false].
      intros ([d1 s] & Hres & [= <- <-])%rbind_inv. simpl.
      destruct (resolve_ext _ _ _ _ _ _ Hd Hres) as [Hd1 Hs]. split; [done|].
      intros x. unfold role_gives. rewrite !elem_of_union, elem_of_singleton, Hs, role_view_name. naive_solver.
    - intros [= <- <-]. split; [done|]. intros x. unfold role_gives. split; [by left|].
      intros [?|(Hns%ns_ok_spec & Hr & _)]; [done|]. rewrite Hns, bool_decide_false in Hc by done. done.
  Qed.
  Lemma role_row_returns d acc pr :
    dag_wf (w_roles st) (w_dag st) -> extends st name_of d ->
    exists d' acc', role_row st n d acc pr = Ok (d', acc') /\ extends st name_of d'.
  Proof.
    intros Hwf Hd. unfold role_row. destruct (_ && _); [|eauto].
    destruct (resolve_ext_returns st name_of d (pr_role pr) Hwf Hd) as (d' & s & Hr).
    unfold resolve_child_roles. rewrite Hr. simpl. eexists _, _. split; [done|].
    by destruct (resolve_ext _ _ _ _ _ _ Hd Hr).
  Qed.
  Lemma role_gives_spec now user t x :
    (exists l c pr, rtc (down st user) t l /\ w_tenants st !! l = Some c /\
       live_row st now user (vt_id c) pr /\ role_gives pr x) <-> holds_role st now user t n x.
  Proof. unfold holds_role. setoid_rewrite counts_trav. unfold role_gives. naive_solver. Qed.
End roles.
Lemma rpr_exact o st now d user tid t n d' rs :
  v2_wf st -> distinct_ids st -> extends st name_of d -> w_reg st !! tid = Some t ->
  resolve_principal_roles o st now d user tid n = Ok (d', rs) ->
  extends st name_of d' /\
  forall x, holds_role st now user t n x <-> exists s, rs = Some s /\ x ∈ s.
Proof.
  intros Hwf Hdi Hd Ht. unfold resolve_principal_roles. rewrite Ht.
  intros ([d1 s] & Htr & [= <- <-])%rbind_inv. simpl.
  destruct (wf_reg st Hwf tid t Ht) as (c & Hc & _).
  destruct (traverse_all_exact (role_row st n) st now user (extends st name_of) (fun s x => x ∈ s)
    (role_gives st n) (role_row_exact st n) o t d ∅ d1 s
    Hdi (wf_kids_ok st Hwf) (ex_intro _ c Hc) Hd Htr) as [Hd1 Hx].
  split; [done|]. intros x. rewrite <-(role_gives_spec st n now user t x).
  specialize (Hx x). case_bool_decide as Hne.
  - split; [intros H; exists s; split; [done|]; apply Hx; by right|].
    intros (s' & [= <-] & Hxs). apply Hx in Hxs as [?|?]; [set_solver|done].
  - assert (s = ∅) as ->. { destruct (decide (s = ∅)); [done|by destruct Hne]. }
    split; [|by intros (s & ? & ?)]. intros H. exfalso.
    assert (x ∈ (∅ : gset string)) by (apply Hx; by right). set_solver.
Qed.
Lemma rpr_sound o st now d user tid t n d' rs :
  extends st name_of d -> w_reg st !! tid = Some t ->
  resolve_principal_roles o st now d user tid n = Ok (d', rs) ->
  extends st name_of d' /\
  forall x s, rs = Some s -> x ∈ s -> holds_role st now user t n x.
Proof.
  intros Hd Ht. unfold resolve_principal_roles. rewrite Ht.
  intros ([d1 s] & Htr & [= <- <-])%rbind_inv. simpl.
  destruct (traverse_all_sound (role_row st n) st now user (extends st name_of) (fun s x => x ∈ s)
    (role_gives st n) (role_row_exact st n) o t d ∅ d1 s Hd Htr) as [Hd1 Hx].
  split; [done|]. intros x s'. case_bool_decide; [|done]. intros [= <-] Hxs.
  rewrite <-(role_gives_spec st n now user t x).
  destruct (Hx x Hxs) as [?|?]; [set_solver|done].
Qed.
Lemma rpr_returns o st now d user tid n :
  v2_wf st -> ~ broken st -> extends st name_of d ->
  exists d' rs, resolve_principal_roles o st now d user tid n = Ok (d', rs) /\ extends st name_of d'.
Proof.
  intros Hwf Hb Hd. unfold resolve_principal_roles.
  destruct (w_reg st !! tid) as [t|] eqn:Ht; [|eauto].
  destruct (wf_reg st Hwf tid t Ht) as (c & Hc & _).
  destruct (traverse_all_returns (role_row st n) st now user (extends st name_of) o t d ∅)
    as (d' & acc' & -> & Hd'); [|by apply wf_sound_rows|by apply wf_kids_ok|by exists c|done|].
  - intros d0 acc pr Hd0. apply role_row_returns; [by apply wf_dag|done].
  - simpl. eauto.
Qed.

(** ** Target tenants and namespaces *)
Lemma principal_tenants_exact st user acc ps m :
  (forall k t, acc !! k = Some t -> w_reg st !! k = Some t) ->
  principal_tenants st user acc ps = Ok m ->
  forall k t, m !! k = Some t <-> w_reg st !! k = Some t /\
    (k ∈ dom acc \/ exists p pr c, p ∈ ps /\ row_of st p = Some pr /\ pr_principal pr = user /\
       pr_tenant pr = k /\ k <> "" /\ tenant_at st t c /\ vt_status c = TActive).
Proof.
  revert acc. induction ps as [|p ps IH]; intros acc Hacc; simpl.
  - intros [= <-] k t. rewrite elem_of_dom. split.
    + intros H. split; [by apply Hacc|]. left. by exists t.
    + intros [H [[t' Ht']|(p & pr & c & ?%elem_of_nil & _)]]; [|done].
      rewrite Ht'. f_equal. apply Hacc in Ht'. congruence.
  - fold (row_of st p). destruct (row_of st p) as [pr|] eqn:Hpr; [|done].
    destruct (bool_decide (pr_principal pr = user) && negb (bool_decide (pr_tenant pr = ""))) eqn:Hc.
    + apply andb_true_iff in Hc as [Hu%bool_decide_eq_true Hn%negb_true_iff%bool_decide_eq_false].
      destruct (w_reg st !! pr_tenant pr) as [t0|] eqn:Ht0.
      * destruct (w_tenants st !! t0) as [c0|] eqn:Hc0; [|done]. intros Hm k t.
        case_bool_decide as Hact.
        -- rewrite (IH _ (fun k t H => ltac:(by apply lookup_insert_Some in H as [[<- <-]|[_ ?]]; [|apply Hacc])) Hm).
           rewrite dom_insert, elem_of_union, elem_of_singleton. split.
           ++ intros [Hr [[->|?]|(p' & pr' & c & Hp' & ?)]]; (split; [done|]); [|by left|].
              ** right. exists p, pr, c0. split; [left|]. assert (t = t0) as -> by congruence. done.
              ** right. exists p', pr', c. split; [by right|done].
           ++ intros [Hr [?|(p' & pr' & c & [->|Hp']%elem_of_cons & Hpr' & Hu' & Hk & ?)]]; (split; [done|]); [by left; right| |].
              ** left. left. congruence.
              ** right. by exists p', pr', c.
        -- rewrite (IH _ Hacc Hm). split.
           ++ intros [Hr [?|(p' & pr' & c & Hp' & ?)]]; (split; [done|]); [by left|].
              right. exists p', pr', c. split; [by right|done].
           ++ intros [Hr [?|(p' & pr' & c & [->|Hp']%elem_of_cons & Hpr' & Hu' & Hk & Hne & Hc & Ha)]]; (split; [done|]); [by left| |].
              ** exfalso. assert (pr' = pr) as -> by congruence. subst k.
                 assert (t = t0) as -> by congruence. unfold tenant_at in Hc. congruence.
              ** right. by exists p', pr', c.
      * intros Hm k t. rewrite (IH _ Hacc Hm). split.
        -- intros [Hr [?|(p' & pr' & c & Hp' & ?)]]; (split; [done|]); [by left|].
           right. exists p', pr', c. split; [by right|done].
        -- intros [Hr [?|(p' & pr' & c & [->|Hp']%elem_of_cons & Hpr' & Hu' & Hk & ?)]]; (split; [done|]); [by left| |].
           ** exfalso. congruence.
           ** right. by exists p', pr', c.
    + intros Hm k t. rewrite (IH _ Hacc Hm). split.
      * intros [Hr [?|(p' & pr' & c & Hp' & ?)]]; (split; [done|]); [by left|].
        right. exists p', pr', c. split; [by right|done].
      * intros [Hr [?|(p' & pr' & c & [->|Hp']%elem_of_cons & Hpr' & Hu' & Hk & Hne & ?)]]; (split; [done|]); [by left| |].
        -- exfalso. assert (pr' = pr) as -> by congruence. subst k.
           by rewrite bool_decide_true, bool_decide_false in Hc by done.
        -- right. by exists p', pr', c.
Qed.
Lemma principal_tenants_returns st user acc ps :
  v2_wf st -> (forall p, p ∈ ps -> exists pr, row_of st p = Some pr) ->
  exists m, principal_tenants st user acc ps = Ok m.
Proof.
  intros Hwf. revert acc. induction ps as [|p ps IH]; intros acc Hps; simpl; [eauto|].
  destruct (Hps p) as [pr Hpr]; [left|]. unfold row_of in Hpr. rewrite Hpr.
  assert (forall p, p ∈ ps -> exists pr, row_of st p = Some pr) as Hps'.
  { intros p' Hp'. apply Hps. by right. }
  destruct (_ && _); [|by apply IH].
  destruct (w_reg st !! pr_tenant pr) as [t|] eqn:Ht; [|by apply IH].
  destruct (wf_reg st Hwf _ _ Ht) as (c & Hc & _). unfold tenant_at in Hc. rewrite Hc. by apply IH.
Qed.
Lemma find_target_exact o st q ts :
  find_target_tenants o st q = Ok ts ->
  forall t, target st q t <-> exists l, ts = Some l /\ t ∈ l.
Proof.
  unfold find_target_tenants, target, names, nameless.
  set (tn := if bool_decide (q_tenant q = "") then w_default st else q_tenant q).
  assert (forall name, name <> "" -> (q_tenant q = name \/ q_tenant q = "" /\ w_default st = name) <-> tn = name) as Htn.
  { intros name Hn. unfold tn. case_bool_decide; naive_solver. }
  assert ((q_tenant q = "" /\ w_default st = "") <-> tn = "") as Htn0.
  { unfold tn. case_bool_decide; naive_solver. }
  case_bool_decide as Hb.
  - intros (l & Hl & [= <-])%rbind_inv t.
    unfold find_principal_tenants in Hl. apply rbind_inv in Hl as (m & Hm & [= <-]).
    assert (t ∈ ordered o (map_to_list m).*2 <-> exists k, m !! k = Some t) as Hin.
    { rewrite elem_of_ordered, elem_of_list_fmap. split.
      - intros ([k t'] & -> & Hk%elem_of_map_to_list). by exists k.
      - intros [k Hk]. exists (k, t). split; [done|by apply elem_of_map_to_list]. }
    pose proof (principal_tenants_exact st (q_principal q) ∅ (w_assign st) m
      (fun k t H => ltac:(by rewrite lookup_empty in H)) Hm) as Hx.
    split.
    + intros [(name & [Hn Hname] & _)|[_ (pr & c & (l & Hl & Hpr) & Hu & Ht & Hr & Hc & Ha)]].
      * apply Htn in Hname; [|done]. congruence.
      * exists (ordered o (map_to_list m).*2). split; [done|]. apply Hin. exists (pr_tenant pr).
        apply Hx. split; [done|]. right. by exists (Some l), pr, c.
    + intros (l & [= <-] & [k Hk]%Hin). right. split; [by apply Htn0|].
      apply Hx in Hk as [Hr [Hd|(p & pr & c & Hp & Hpr & Hu & <- & Hne & Hc & Ha)]].
      * rewrite dom_empty in Hd. set_solver.
      * exists pr, c. split; [|done]. destruct p as [l|]; [|done]. by exists l.
  - intros [= <-] t. split.
    + intros [(name & [Hn Hname] & Hr)|[H0 _]]; [|by apply Htn0 in H0].
      apply Htn in Hname; [|done]. subst name. rewrite Hr. exists [t]. split; [done|left].
    + intros (l & Hl & Ht). left. exists tn. split.
      * split; [done|]. by apply Htn.
      * destruct (w_reg st !! tn) as [t'|]; [|done]. injection Hl as <-.
        by apply elem_of_list_singleton in Ht as ->.
Qed.
Lemma find_target_reg o st q ts l t :
  v2_wf st -> find_target_tenants o st q = Ok ts -> ts = Some l -> t ∈ l ->
  exists c, tenant_at st t c /\ w_reg st !! vt_id c = Some t.
Proof.
  intros Hwf H -> Ht.
  assert (target st q t) as Htg. { eapply find_target_exact; [exact H|by exists l]. }
  assert (exists id, w_reg st !! id = Some t) as [id Hid].
  { destruct Htg as [(name & _ & ?)|[_ (pr & c & _ & _ & _ & ? & _)]]; eauto. }
  destruct (wf_reg st Hwf _ _ Hid) as (c & Hc & <-). by exists c.
Qed.
Lemma find_target_returns o st q :
  v2_wf st -> ~ broken st -> exists ts, find_target_tenants o st q = Ok ts.
Proof.
  intros Hwf Hb. unfold find_target_tenants. case_bool_decide; [|eauto].
  unfold find_principal_tenants.
  destruct (principal_tenants_returns st (q_principal q) ∅ (w_assign st) Hwf (wf_sound_rows st Hwf Hb))
    as [m ->]. simpl. eauto.
Qed.

Lemma map_to_list_single {B} (m : gmap string B) (n : string) (x : B) :
  map_to_list m = [(n, x)] -> dom m = {[n]}.
Proof.
  intros H. apply set_eq. intros k. rewrite elem_of_dom, elem_of_singleton. split.
  - intros [y Hy%elem_of_map_to_list]. rewrite H in Hy. apply elem_of_list_singleton in Hy. congruence.
  - intros ->. exists x. apply elem_of_map_to_list. rewrite H. left.
Qed.
Lemma dom_single_map_to_list {B} (m : gmap string B) (n : string) :
  dom m = {[n]} -> exists x, map_to_list m = [(n, x)].
Proof.
  intros H. assert (size m = 1) as Hs. { by rewrite <-(size_dom (D:=gset string) m), H, size_singleton. }
  change (length (map_to_list m) = 1) in Hs. destruct (map_to_list m) as [|[k x] [|]] eqn:Hm; try done.
  exists x. f_equal. f_equal. assert (k ∈ dom m) as Hk.
  { apply elem_of_dom. exists x. apply elem_of_map_to_list. rewrite Hm. left. }
  rewrite H in Hk. set_solver.
Qed.
Lemma target_namespace_exact c q n : target_namespace c q = Some n <-> uses_namespace c q n.
Proof.
  unfold target_namespace, uses_namespace.
  set (pick := if negb (bool_decide (q_namespace q = "")) then Some (q_namespace q)
               else if negb (bool_decide (vt_default c = "")) then Some (vt_default c)
               else match map_to_list (vt_namespaces c) with [(n, _)] => Some n | _ => None end).
  assert (pick = Some n <->
    (q_namespace q = n /\ n <> "" \/ q_namespace q = "" /\ vt_default c = n /\ n <> "" \/
     q_namespace q = "" /\ vt_default c = "" /\ dom (vt_namespaces c) = {[n]})) as Hp.
  { unfold pick. case_bool_decide as H1; simpl; [|naive_solver].
    case_bool_decide as H2; simpl; [|naive_solver].
    split.
    - destruct (map_to_list (vt_namespaces c)) as [|[k x] [|]] eqn:Hm; [done| |done].
      intros [= <-]. right. right. split; [done|]. split; [done|]. by eapply map_to_list_single.
    - intros [[H ?]|[(_ & H & ?)|(_ & _ & Hd)]]; [congruence|congruence|].
      apply dom_single_map_to_list in Hd as [x ->]. done. }
  split.
  - destruct pick as [n'|] eqn:Hpk; [|done].
    destruct (vt_namespaces c !! n') as [scopes|] eqn:Hs; [|done].
    destruct (bool_decide (q_scope q = "") || bool_decide (q_scope q ∈ scopes)) eqn:Hb; [|done].
    intros [= ->]. split; [by apply Hp|]. exists scopes. split; [done|].
    apply orb_true_iff in Hb as [?%bool_decide_eq_true|?%bool_decide_eq_true]; auto.
  - intros [Hn (scopes & Hs & Hsc)]. apply Hp in Hn. rewrite Hn, Hs.
    destruct (bool_decide (q_scope q = "") || bool_decide (q_scope q ∈ scopes)) eqn:Hb; [done|].
    apply orb_false_iff in Hb as [?%bool_decide_eq_false ?%bool_decide_eq_false]. naive_solver.
Qed.

(** ** Matching *)
Lemma any_match_returns v ps :
  (forall p, p ∈ ps -> ~ StrLoops p v) -> exists b, any_match v ps = Ok b.
Proof.
  intros H. destruct (any_match v ps) as [b| |] eqn:Hm; [eauto| |].
  - by apply any_match_panic in Hm.
  - apply any_match_hang in Hm as (p & Hp & Hl). by apply H in Hl.
Qed.
Lemma perms_match_exact o q ps b :
  perms_match o q ps = Ok b -> b = true <-> exists p, p ∈ ps /\ matches_perm q p.
Proof.
  unfold perms_match, matches_perm.
  destruct (bool_decide (q_resource q = "") && bool_decide (q_action q = "")) eqn:Hb.
  - apply andb_true_iff in Hb as [?%bool_decide_eq_true ?%bool_decide_eq_true].
    intros [= <-]. split; [done|]. naive_solver.
  - intros H. rewrite (any_match_ok _ _ _ H). setoid_rewrite elem_of_ordered. setoid_rewrite elem_of_elements.
    apply andb_false_iff in Hb as [?%bool_decide_eq_false|?%bool_decide_eq_false]; naive_solver.
Qed.

(** ** Authorize *)
Section authorize.
  Variable st : vstate.
  Variable now : Z.
  Variable q : request.
  Hypothesis Hwf : v2_wf st.
  Definition allowed_at (t : nat) : Prop :=
    exists c n p, tenant_at st t c /\ uses_namespace c q n /\
      effective st now (q_principal q) t n (q_scope q) p /\ matches_perm q p.
  Lemma authorize_loop_exact o i d ts d' b :
    distinct_ids st -> extends st vr_perms d ->
    (forall t, t ∈ ts -> exists c, tenant_at st t c /\ w_reg st !! vt_id c = Some t) ->
    authorize_loop o i st now q d ts = Ok (d', b) ->
    extends st vr_perms d' /\ (b = true <-> exists t, t ∈ ts /\ allowed_at t).
  Proof.
    intros Hdi. revert i d. induction ts as [|t ts IH]; intros i d Hd Hts; simpl.
    - intros [= <- <-]. split; [done|]. split; [done|]. by intros (t & ?%elem_of_nil & _).
    - destruct (Hts t) as (c & Hc & Hreg); [left|].
      assert (forall t, t ∈ ts -> exists c, tenant_at st t c /\ w_reg st !! vt_id c = Some t) as Hts'.
      { intros t' Ht'. apply Hts. by right. }
      assert (forall d1, extends st vr_perms d1 -> authorize_loop o (S i) st now q d1 ts = Ok (d', b) ->
        ~ allowed_at t -> extends st vr_perms d' /\ (b = true <-> exists t', t' ∈ t :: ts /\ allowed_at t')) as Hgo.
      { intros d1 Hd1 Hl Hno. destruct (IH _ _ Hd1 Hts' Hl) as [Hd2 Hb]. split; [done|].
        rewrite Hb. split; intros (t' & Ht' & Ha).
        - exists t'. split; [by right|done].
        - apply elem_of_cons in Ht' as [->|?]; [done|by exists t']. }
      unfold tenant_at in Hc. rewrite Hc.
      destruct (target_namespace c q) as [n|] eqn:Hn.
      + apply target_namespace_exact in Hn.
        intros ([d1 ps] & Hp & Hl)%rbind_inv. simpl in Hl.
        destruct (rpp_exact _ _ _ _ _ _ _ _ _ _ _ Hwf Hdi Hd Hreg Hp) as [Hd1 Heff].
        assert (allowed_at t <-> exists s p, ps = Some s /\ p ∈ s /\ matches_perm q p) as Hat.
        { unfold allowed_at, tenant_at. split.
          - intros (c' & n' & p & Hc' & Hn' & He & Hm). assert (c' = c) as -> by congruence.
            assert (n' = n) as ->.
            { apply target_namespace_exact in Hn, Hn'. congruence. }
            apply Heff in He as (s & Hs & Hps). by exists s, p.
          - intros (s & p & Hs & Hps & Hm). exists c, n, p. split; [done|]. split; [done|].
            split; [|done]. apply Heff. by exists s. }
        destruct ps as [s|].
        * apply rbind_inv in Hl as (b1 & Hb1 & Hl).
          pose proof (perms_match_exact _ _ _ _ Hb1) as Hm. destruct b1.
          -- injection Hl as <- <-. split; [done|]. split; [|done]. intros _. exists t.
             split; [left|]. apply Hat. destruct Hm as [Hm _]. destruct (Hm eq_refl) as (p & ? & ?).
             by exists s, p.
          -- apply (Hgo d1); [done|done|]. rewrite Hat. intros (s' & p & [= <-] & Hps & Hmp).
             assert (false = true); [|done]. apply Hm. by exists p.
        * apply (Hgo d1); [done|done|]. rewrite Hat. by intros (s' & p & ? & _).
      + intros Hl. apply (Hgo d); [done|done|].
        intros (c' & n & p & Hc' & Hn' & _). unfold tenant_at in Hc'.
        apply target_namespace_exact in Hn'. congruence.
  Qed.
  Lemma authorize_loop_not_panic o i d ts :
    ~ broken st -> extends st vr_perms d ->
    (forall t, t ∈ ts -> exists c, tenant_at st t c /\ w_reg st !! vt_id c = Some t) ->
    authorize_loop o i st now q d ts <> Panic.
  Proof.
    intros Hb. revert i d. induction ts as [|t ts IH]; intros i d Hd Hts; simpl; [done|].
    destruct (Hts t) as (c & Hc & Hreg); [left|].
    assert (forall t, t ∈ ts -> exists c, tenant_at st t c /\ w_reg st !! vt_id c = Some t) as Hts'.
    { intros t' Ht'. apply Hts. by right. }
    unfold tenant_at in Hc. rewrite Hc.
    destruct (target_namespace c q) as [n|]; [|by apply IH].
    destruct (rpp_returns (sub (sub o i) 0) st now d (q_principal q) (vt_id c) n (q_scope q) Hwf Hb Hd)
      as (d1 & ps & -> & Hd1). simpl.
    destruct ps as [s|]; [|by apply IH].
    assert (perms_match (sub (sub o i) 1) q s <> Panic) as Hpm.
    { unfold perms_match. destruct (_ && _); [done|]. by apply any_match_panic. }
    destruct (perms_match (sub (sub o i) 1) q s) as [[]| |]; simpl; [done|by apply IH|done|done].
  Qed.
  Lemma authorize_loop_returns o i d ts :
    no_loop st now q -> ~ broken st -> extends st vr_perms d ->
    (forall t, t ∈ ts -> exists c, tenant_at st t c /\ w_reg st !! vt_id c = Some t) ->
    exists d' b, authorize_loop o i st now q d ts = Ok (d', b).
  Proof.
    intros Hnl Hb. revert i d. induction ts as [|t ts IH]; intros i d Hd Hts; simpl; [eauto|].
    destruct (Hts t) as (c & Hc & Hreg); [left|].
    assert (forall t, t ∈ ts -> exists c, tenant_at st t c /\ w_reg st !! vt_id c = Some t) as Hts'.
    { intros t' Ht'. apply Hts. by right. }
    unfold tenant_at in Hc. rewrite Hc.
    destruct (target_namespace c q) as [n|]; [|by apply IH].
    destruct (rpp_returns (sub (sub o i) 0) st now d (q_principal q) (vt_id c) n (q_scope q) Hwf Hb Hd)
      as (d1 & ps & Hp & Hd1). rewrite Hp. simpl.
    destruct ps as [s|]; [|by apply IH].
    assert (exists b, perms_match (sub (sub o i) 1) q s = Ok b) as [b ->].
    { unfold perms_match. destruct (_ && _); [eauto|]. apply any_match_returns.
      intros p Hps%elem_of_ordered%elem_of_elements.
      apply (Hnl t n p). by eapply (rpp_sound _ _ _ _ _ _ _ _ _ _ _ Hd Hreg Hp). }
    simpl. destruct b; [eauto|by apply IH].
  Qed.

  Lemma can_loop_exact o i roles d ts d' b :
    distinct_ids st -> extends st name_of d ->
    (forall t, t ∈ ts -> exists c, tenant_at st t c /\ w_reg st !! vt_id c = Some t) ->
    can_loop o i st now q roles d ts = Ok (d', b) ->
    extends st name_of d' /\ (b = true <-> exists t, t ∈ ts /\
      exists c n x, tenant_at st t c /\ uses_namespace c q n /\
        holds_role st now (q_principal q) t n x /\ x ∈ roles).
  Proof.
    intros Hdi. revert i d. induction ts as [|t ts IH]; intros i d Hd Hts; simpl.
    - intros [= <- <-]. split; [done|]. split; [done|]. by intros (t & ?%elem_of_nil & _).
    - destruct (Hts t) as (c & Hc & Hreg); [left|].
      assert (forall t, t ∈ ts -> exists c, tenant_at st t c /\ w_reg st !! vt_id c = Some t) as Hts'.
      { intros t' Ht'. apply Hts. by right. }
      set (ok t := exists c n x, tenant_at st t c /\ uses_namespace c q n /\
        holds_role st now (q_principal q) t n x /\ x ∈ roles).
      assert (forall d1, extends st name_of d1 -> can_loop o (S i) st now q roles d1 ts = Ok (d', b) ->
        ~ ok t -> extends st name_of d' /\ (b = true <-> exists t', t' ∈ t :: ts /\ ok t')) as Hgo.
      { intros d1 Hd1 Hl Hno. destruct (IH _ _ Hd1 Hts' Hl) as [Hd2 Hb]. split; [done|].
        rewrite Hb. split; intros (t' & Ht' & Ha).
        - exists t'. split; [by right|done].
        - apply elem_of_cons in Ht' as [->|?]; [done|by exists t']. }
      unfold tenant_at in Hc. rewrite Hc.
      destruct (target_namespace c q) as [n|] eqn:Hn.
      + apply target_namespace_exact in Hn.
        intros ([d1 rs] & Hp & Hl)%rbind_inv. simpl in Hl.
        destruct (rpr_exact _ _ _ _ _ _ _ _ _ _ Hwf Hdi Hd Hreg Hp) as [Hd1 Heff].
        assert (ok t <-> exists s x, rs = Some s /\ x ∈ s /\ x ∈ roles) as Hat.
        { unfold ok, tenant_at. split.
          - intros (c' & n' & x & Hc' & Hn' & He & Hm). assert (c' = c) as -> by congruence.
            assert (n' = n) as ->.
            { apply target_namespace_exact in Hn, Hn'. congruence. }
            apply Heff in He as (s & Hs & Hps). by exists s, x.
          - intros (s & x & Hs & Hps & Hm). exists c, n, x. split; [done|]. split; [done|].
            split; [|done]. apply Heff. by exists s. }
        destruct rs as [s|].
        * assert (existsb (contains roles) (elements s) = true <-> exists x, x ∈ s /\ x ∈ roles) as He.
          { rewrite existsb_exists. setoid_rewrite <-elem_of_list_In. setoid_rewrite elem_of_elements.
            assert (forall l (x : string), contains l x = true <-> x ∈ l) as Hco.
            { induction l as [|y l IHl]; intros x; simpl; [split; [done|by intros ?%elem_of_nil]|].
              rewrite elem_of_cons. destruct (decide (y = x)); [naive_solver|].
              rewrite IHl. naive_solver. }
            by setoid_rewrite Hco. }
          destruct (existsb (contains roles) (elements s)) eqn:Hex.
          -- injection Hl as <- <-. split; [done|]. split; [|done]. intros _. exists t.
             split; [left|]. apply Hat. destruct He as [He _]. destruct (He eq_refl) as (x & ? & ?).
             by exists s, x.
          -- apply (Hgo d1); [done|done|]. rewrite Hat. intros (s' & x & [= <-] & ? & ?).
             assert (false = true); [|done]. apply He. by exists x.
        * apply (Hgo d1); [done|done|]. rewrite Hat. by intros (s' & p & ? & _).
      + intros Hl. apply (Hgo d); [done|done|].
        intros (c' & n & p & Hc' & Hn' & _). unfold tenant_at in Hc'.
        apply target_namespace_exact in Hn'. congruence.
  Qed.
  Lemma can_loop_returns o i roles d ts :
    ~ broken st -> extends st name_of d ->
    (forall t, t ∈ ts -> exists c, tenant_at st t c /\ w_reg st !! vt_id c = Some t) ->
    exists d' b, can_loop o i st now q roles d ts = Ok (d', b).
  Proof.
    intros Hb. revert i d. induction ts as [|t ts IH]; intros i d Hd Hts; simpl; [eauto|].
    destruct (Hts t) as (c & Hc & Hreg); [left|].
    assert (forall t, t ∈ ts -> exists c, tenant_at st t c /\ w_reg st !! vt_id c = Some t) as Hts'.
    { intros t' Ht'. apply Hts. by right. }
    unfold tenant_at in Hc. rewrite Hc.
    destruct (target_namespace c q) as [n|]; [|by apply IH].
    destruct (rpr_returns (sub o i) st now d (q_principal q) (vt_id c) n Hwf Hb Hd)
      as (d1 & ps & -> & Hd1). simpl.
    destruct ps as [s|]; [|by apply IH]. destruct (existsb _ _); [eauto|by apply IH].
  Qed.
End authorize.

Lemma v2_authorize_exact o st now q st' b :
  v2_wf st -> distinct_ids st -> v2_authorize o st now q = Ok (st', b) ->
  (b = true <-> v2_allowed st now q) /\
  exists d', st' = vw_dag st d' /\ extends st vr_perms d'.
Proof.
  intros Hwf Hdi. unfold v2_authorize. intros (ts & Hts & H)%rbind_inv.
  pose proof (find_target_exact _ _ _ _ Hts) as Htg.
  destruct ts as [ts|].
  - apply rbind_inv in H as ([d' b'] & Hl & [= <- <-]). simpl.
    destruct (authorize_loop_exact st now q Hwf _ _ _ _ _ _ Hdi (extends_refl st vr_perms)
      (fun t Ht => find_target_reg _ _ _ _ _ t Hwf Hts eq_refl Ht) Hl) as [Hd' Hb].
    split; [|by exists d']. rewrite Hb. unfold v2_allowed, allowed_at. split.
    + intros (t & Ht & c & n & p & ?). exists t, c, n, p. split; [|done]. apply Htg. by exists ts.
    + intros (t & c & n & p & Ht & ?). exists t. apply Htg in Ht as (l & [= <-] & Ht).
      split; [done|]. by exists c, n, p.
  - injection H as <- <-. split.
    + split; [done|]. intros (t & c & n & p & Ht & _). apply Htg in Ht as (l & ? & _). done.
    + exists (w_dag st). split; [by destruct st|apply extends_refl].
Qed.
Lemma v2_can_exact o st now q roles st' b :
  v2_wf st -> distinct_ids st -> v2_can o st now q roles = Ok (st', b) ->
  (b = true <-> v2_can_allowed st now q roles) /\
  exists d', st' = vw_dag st d' /\ extends st name_of d'.
Proof.
  intros Hwf Hdi. unfold v2_can. intros (ts & Hts & H)%rbind_inv.
  pose proof (find_target_exact _ _ _ _ Hts) as Htg.
  destruct ts as [ts|].
  - apply rbind_inv in H as ([d' b'] & Hl & [= <- <-]). simpl.
    destruct (can_loop_exact st now q Hwf _ _ _ _ _ _ _ Hdi (extends_refl st name_of)
      (fun t Ht => find_target_reg _ _ _ _ _ t Hwf Hts eq_refl Ht) Hl) as [Hd' Hb].
    split; [|by exists d']. rewrite Hb. unfold v2_can_allowed. split.
    + intros (t & Ht & c & n & p & ?). exists t, c, n, p. split; [|done]. apply Htg. by exists ts.
    + intros (t & c & n & p & Ht & ?). exists t. apply Htg in Ht as (l & [= <-] & Ht).
      split; [done|]. by exists c, n, p.
  - injection H as <- <-. split.
    + split; [done|]. intros (t & c & n & p & Ht & _). apply Htg in Ht as (l & ? & _). done.
    + exists (w_dag st). split; [by destruct st|apply extends_refl].
Qed.
Lemma v2_can_returns o st now q roles :
  v2_wf st -> ~ broken st -> exists st' b, v2_can o st now q roles = Ok (st', b).
Proof.
  intros Hwf Hb. unfold v2_can. destruct (find_target_returns (sub o 0) st q Hwf Hb) as [ts Hts].
  rewrite Hts. simpl. destruct ts as [ts|]; [|eauto].
  destruct (can_loop_returns st now q Hwf (sub o 1) 0 roles (w_dag st) ts Hb (extends_refl st name_of)
    (fun t Ht => find_target_reg _ _ _ _ _ t Hwf Hts eq_refl Ht)) as (d' & b & ->). simpl. eauto.
Qed.
Lemma v2_authorize_not_panic o st now q :
  v2_wf st -> ~ broken st -> v2_authorize o st now q <> Panic.
Proof.
  intros Hwf Hb. unfold v2_authorize. destruct (find_target_returns (sub o 0) st q Hwf Hb) as [ts Hts].
  rewrite Hts. simpl. destruct ts as [ts|]; [|done].
  pose proof (authorize_loop_not_panic st now q Hwf (sub o 1) 0 (w_dag st) ts Hb (extends_refl st vr_perms)
    (fun t Ht => find_target_reg _ _ _ _ _ t Hwf Hts eq_refl Ht)) as H.
  by destruct (authorize_loop _ _ _ _ _ _ _).
Qed.
Lemma v2_authorize_returns o st now q :
  v2_wf st -> ~ broken st -> no_loop st now q -> exists st' b, v2_authorize o st now q = Ok (st', b).
Proof.
  intros Hwf Hb Hnl. unfold v2_authorize. destruct (find_target_returns (sub o 0) st q Hwf Hb) as [ts Hts].
  rewrite Hts. simpl. destruct ts as [ts|]; [|eauto].
  destruct (authorize_loop_returns st now q Hwf (sub o 1) 0 (w_dag st) ts Hnl Hb (extends_refl st vr_perms)
    (fun t Ht => find_target_reg _ _ _ _ _ t Hwf Hts eq_refl Ht)) as (d' & b & ->). simpl. eauto.
Qed.
