(** Additions never take access away (v2). *)
From Verif Require Export V2GrowSpec.
From Verif Require Import V2Inv V2Cor V2Final.
Local Open Scope string_scope.

Lemma vr_add_kids ts : forall cs t t', vt_add_children ts t cs = Ok t' ->
  forall k l, vt_children t !! k = Some l -> exists l', vt_children t' !! k = Some l' /\ (l' = l \/ exists tl, ts !! l' = Some tl /\ vt_id tl = k).
Proof.
  induction cs as [|c cs IH]; intros t t'; simpl.
  - intros [= <-] k l H. eauto.
  - destruct (ts !! c) as [ct|] eqn:Hc; [|done]. intros H k l Hl.
    destruct (decide (vt_id ct = k)) as [Hk|Hk].
    + destruct (IH _ _ H k c) as (l' & H1 & H2); [simpl; by rewrite Hk, lookup_insert|].
      exists l'. split; [done|]. right. destruct H2 as [-> |H2]; [by exists ct|done].
    + apply (IH _ _ H k l). simpl. by rewrite lookup_insert_ne.
Qed.

(** ** Roles *)
Record roles_kept (st st' : vstate) : Prop := {
  rk_resolved : d_resolved (w_dag st') = d_resolved (w_dag st);
  rk_registered : forall n r, registered (w_roles st) (w_dag st) n r ->
    exists r', registered (w_roles st') (w_dag st') n r' /\ vr_name r' = vr_name r /\ vr_perms r ⊆ vr_perms r';
  rk_child : forall a b, child (d_edges (w_dag st)) a b -> child (d_edges (w_dag st')) a b
}.
Lemma kept_below st st' a b : roles_kept st st' -> rtc (below (w_roles st) (w_dag st)) a b -> rtc (below (w_roles st') (w_dag st')) a b.
Proof.
  intros K. induction 1 as [|a b c [[r Hr] Hc] _ IH]; [done|]. eapply rtc_l; [|exact IH]. split.
  - destruct (rk_registered _ _ K _ _ Hr) as (r' & H & _). by exists r'.
  - by apply (rk_child _ _ K).
Qed.
Lemma kept_perm st st' r p : roles_kept st st' -> role_perm st r p -> role_perm st' r p.
Proof.
  intros K. unfold role_perm. rewrite (rk_resolved _ _ K). destruct (d_resolved (w_dag st) !! r); [done|].
  intros (n & x & Hb & Hx & Hp). destruct (rk_registered _ _ K _ _ Hx) as (x' & Hx' & _ & Hs).
  exists n, x'. split; [by eapply kept_below|]. split; [done|]. by apply Hs.
Qed.
Lemma kept_name st st' r x : roles_kept st st' -> role_name st r x -> role_name st' r x.
Proof.
  intros K. unfold role_name. rewrite (rk_resolved _ _ K). destruct (d_resolved (w_dag st) !! r); [done|].
  intros (n & y & Hb & Hy & ->). destruct (rk_registered _ _ K _ _ Hy) as (y' & Hy' & Hn & _).
  exists n, y'. split; [by eapply kept_below|]. split; [done|]. done.
Qed.
Lemma kept_same st st' : w_roles st' = w_roles st -> w_dag st' = w_dag st -> roles_kept st st'.
Proof. intros H1 H2. split; rewrite ?H1, ?H2; try done. intros n r Hr. by exists r. Qed.

Lemma add_roles_kept h : forall rs d d', dag_add_roles h d rs = Ok d' ->
  forall n l0, d_roles d !! n = Some l0 -> (forall l r, l ∈ rs -> h !! l = Some r -> vr_name r = n -> l0 = l) -> d_roles d' !! n = Some l0.
Proof.
  induction rs as [|l rs IH]; intros d d'; simpl; [by intros [= <-]|].
  destruct (h !! l) as [r|] eqn:Hr; [|done]. intros H n l0 Hn Hall. apply (IH _ _ H); simpl.
  - destruct (decide (vr_name r = n)) as [Hk|Hk].
    + rewrite Hk, lookup_insert. f_equal. symmetry. apply (Hall l r); [left|done|done].
    + by rewrite lookup_insert_ne.
  - intros l' r' Hin. apply Hall. by right.
Qed.

(** ** Everything else *)
(** The same assignment, for at least as long. *)
Definition outlasts (pr pr' : prole) : Prop :=
  pr' = with_expiry pr (pr_expiry pr') /\ forall now, ~ expired now pr -> ~ expired now pr'.
Lemma outlasts_refl pr : outlasts pr pr.
Proof. split; [by destruct pr|done]. Qed.
Lemma outlasts_fields pr pr' : outlasts pr pr' -> pr_principal pr' = pr_principal pr /\ pr_tenant pr' = pr_tenant pr /\ pr_scope pr' = pr_scope pr
  /\ pr_namespace pr' = pr_namespace pr /\ pr_role pr' = pr_role pr /\ pr_manage pr' = pr_manage pr.
Proof. intros [-> _]. done. Qed.
Record rest_kept (st st' : vstate) : Prop := {
  sk_tenant : forall l c, tenant_at st l c -> exists c', tenant_at st' l c' /\ vt_id c' = vt_id c /\ (vt_status c = TActive -> vt_status c' = TActive)
    /\ (forall q n, uses_namespace c q n -> uses_namespace c' q n)
    /\ (forall k x, vt_children c !! k = Some x -> vt_children c' !! k = Some x);
  sk_reg : forall n l, w_reg st !! n = Some l -> w_reg st' !! n = Some l;
  sk_assigned : forall pr, assigned st pr -> exists pr', assigned st' pr' /\ outlasts pr pr';
  sk_default : w_default st' = w_default st
}.
Lemma rest_refl st : rest_kept st st.
Proof. split; try done; [intros l c Hc; by exists c|]. intros pr Hp. exists pr. split; [done|apply outlasts_refl]. Qed.
Lemma rest_same st st' : w_tenants st' = w_tenants st -> w_reg st' = w_reg st -> w_assign st' = w_assign st -> w_prs st' = w_prs st ->
  w_default st' = w_default st -> rest_kept st st'.
Proof.
  intros H1 H2 H3 H4 H5. split; unfold tenant_at, assigned; rewrite ?H1, ?H2, ?H3, ?H4; try done; [intros l c Hc; by exists c|].
  intros pr Hp. exists pr. split; [done|apply outlasts_refl].
Qed.
(** The expiry of one assignment is changed. *)
Lemma rest_pr st l pr e : w_prs st !! l = Some pr -> outlasts pr (with_expiry pr e) -> rest_kept st (vw_prs st (<[l := with_expiry pr e]> (w_prs st))).
Proof.
  intros Hl Ho. split; try done; [intros k c Hc; by exists c|]. intros pr' (k & Hk & Hp). destruct (decide (k = l)) as [->|Hne].
  - rewrite Hl in Hp. injection Hp as <-. exists (with_expiry pr e). split; [|done]. exists l. split; [done|].
    simpl. apply list_lookup_insert. by eapply lookup_lt_Some.
  - exists pr'. split; [|apply outlasts_refl]. exists k. split; [done|]. simpl. by rewrite list_lookup_insert_ne.
Qed.
Lemma rest_tenant st t c c' : tenant_at st t c -> vt_id c' = vt_id c -> (vt_status c = TActive -> vt_status c' = TActive) ->
  (forall q n, uses_namespace c q n -> uses_namespace c' q n) -> (forall k x, vt_children c !! k = Some x -> vt_children c' !! k = Some x) ->
  rest_kept st (vw_tenants st (<[t := c']> (w_tenants st))).
Proof.
  intros Hc H1 H2 H3 H4. split; try done; [|intros pr Hp; exists pr; split; [done|apply outlasts_refl]]. intros l cl Hl. unfold tenant_at in *. simpl.
  destruct (decide (l = t)) as [->|Hne].
  - exists c'. rewrite list_lookup_insert by by eapply lookup_lt_Some. rewrite Hc in Hl. injection Hl as <-. done.
  - exists cl. rewrite list_lookup_insert_ne by done. done.
Qed.
Lemma namespace_kept c n b : (b = true -> vt_default c = n) -> (vt_default c = "" -> forall n', dom (vt_namespaces c) = {[n']} -> n = n') ->
  forall q m, uses_namespace c q m -> uses_namespace (vt_add_namespace c n b) q m.
Proof.
  intros Hb Hd q m [H1 (ss & H2 & H3)].
  assert (vt_default (vt_add_namespace c n b) = vt_default c) as E.
  { simpl. destruct b; [|done]. symmetry. by apply Hb. }
  assert (forall k ss, vt_namespaces c !! k = Some ss -> vt_namespaces (vt_add_namespace c n b) !! k = Some ss) as Hk.
  { intros k s Hs. simpl. destruct (vt_namespaces c !! n) eqn:Hn; [done|].
    rewrite lookup_insert_ne; [done|]. intros ->. by rewrite Hn in Hs. }
  split; [|exists ss; split; [by apply Hk|done]].
  rewrite E. destruct H1 as [H1|[H1|(H1 & H4 & H5)]]; [by left|by right; left|].
  right; right. split; [done|]. split; [done|].
  assert (n = m) as -> by by apply Hd. simpl. by rewrite H2.
Qed.
Lemma scopes_kept c n ss q m : uses_namespace c q m -> uses_namespace (vt_add_scopes c n ss).1 q m.
Proof.
  unfold vt_add_scopes. destruct (vt_namespaces c !! n) as [s|] eqn:Hn; [|done].
  intros [H1 (s' & H2 & H3)]. split; cbn [fst vt_default vt_namespaces].
  - destruct H1 as [H1|[H1|(H1 & H4 & H5)]]; [by left|by right; left|].
    right; right. split; [done|]. split; [done|]. rewrite dom_insert_L, H5.
    assert (n ∈ dom (vt_namespaces c)) as Hin by (apply elem_of_dom; by exists s).
    rewrite H5 in Hin. apply elem_of_singleton in Hin as ->. set_solver.
  - destruct (decide (n = m)) as [->|Hne].
    + rewrite Hn in H2. injection H2 as <-. exists (list_to_set ss ∪ s). rewrite lookup_insert. split; [done|]. set_solver.
    + exists s'. rewrite lookup_insert_ne by done. done.
Qed.

(** ** One step *)
Definition ids_kept (st st' : vstate) : Prop :=
  forall l c, tenant_at st l c -> exists c', tenant_at st' l c' /\ vt_id c' = vt_id c.
Lemma ids_distinct st st' : ids_kept st st' -> distinct_ids st' -> distinct_ids st.
Proof.
  intros K D a b ta tb Ha Hb E. destruct (K a ta Ha) as (ta' & Ha' & Ea). destruct (K b tb Hb) as (tb' & Hb' & Eb).
  apply (D a b ta' tb' Ha' Hb'). by rewrite Ea, Eb.
Qed.
Lemma ids_same st st' : w_tenants st' = w_tenants st -> ids_kept st st'.
Proof. intros E l c Hc. exists c. unfold tenant_at in *. by rewrite E. Qed.
Lemma ids_insert st t c c' : tenant_at st t c -> vt_id c' = vt_id c -> ids_kept st (vw_tenants st (<[t := c']> (w_tenants st))).
Proof.
  intros Hc E l cl Hl. unfold tenant_at in *. simpl. destruct (decide (l = t)) as [->|Hne].
  - exists c'. rewrite list_lookup_insert by by eapply lookup_lt_Some. rewrite Hc in Hl. injection Hl as <-. done.
  - exists cl. rewrite list_lookup_insert_ne by done. done.
Qed.
Lemma addition_ids o st x st' y : addition st x -> vstep o st x = Ok (st', y) -> ids_kept st st'.
Proof.
  destruct x; simpl; try done.
  - intros _ [= <- <-]. by apply ids_same.
  - intros _ [= <- <-] l c Hc. exists c. split; [|done]. unfold tenant_at in *. simpl. by apply lookup_app_l_Some.
  - intros _ [= <- <-]. by apply ids_same.
  - intros _ (s & (r' & _ & ->)%upd_role_inv & [= <- <-])%rbind_inv. by apply ids_same.
  - intros _ (d & _ & [= <- <-])%rbind_inv. by apply ids_same.
  - intros _ (d & _ & [= <- <-])%rbind_inv. by apply ids_same.
  - intros _ (s & (c & Hc & ->)%upd_tenant_inv & [= <- <-])%rbind_inv. by apply ids_insert with c.
  - intros _. destruct (w_tenants st !! t) as [c|] eqn:Hc; [|done]. intros [= <- <-]. apply ids_insert with c; [done|].
    unfold vt_add_scopes. by destruct (vt_namespaces c !! n).
  - intros _. destruct (w_tenants st !! t) as [c|] eqn:Hc; [|done]. intros (c' & H & [= <- <-])%rbind_inv.
    apply ids_insert with c; [done|]. by apply vt_add_children_inv in H as [? _].
  - intros _ (s1 & (c & Hc & ->)%upd_tenant_inv & [= <- <-])%rbind_inv. by apply ids_insert with c.
  - intros _ (s & H & [= <- <-])%rbind_inv. unfold v2_add_tenant in H. destruct (w_tenants st !! t); [|done].
    apply rbind_inv in H as (ps & _ & [= <-]). by apply ids_same.
  - intros _ (s & H & [= <- <-])%rbind_inv. apply v2_add_principal_role_inv in H as (_ & H & _). by apply ids_same.
  - intros _ ([s1 er] & (p & _ & -> & _)%upd_pr_inv & [= <- <-])%rbind_inv. by apply ids_same.
  - intros _ ([s1 er] & (p & _ & -> & _)%upd_pr_inv & [= <- <-])%rbind_inv. by apply ids_same.
Qed.
Lemma addition_kept o st x st' y : v2_wf st -> distinct_ids st -> addition st x -> vstep o st x = Ok (st', y) -> roles_kept st st' /\ rest_kept st st'.
Proof.
  intros Hwf Hd. destruct x; simpl; try done.
  - intros _ [= <- <-]. split; [|by apply rest_same]. split; try done. simpl.
    intros n r (l & H1 & H2). exists r. split; [|done]. exists l. split; [done|]. by apply lookup_app_l_Some.
  - intros _ [= <- <-]. split; [by apply kept_same|]. split; try done; [|apply (rest_refl st)].
    intros l c Hc. exists c. split; [|done]. unfold tenant_at in *. simpl. by apply lookup_app_l_Some.
  - intros _ [= <- <-]. split; [by apply kept_same|]. split; try done.
    + intros l c Hc. by exists c.
    + intros pr' (l & H1 & H2). exists pr'. split; [|apply outlasts_refl]. exists l. split; [done|]. simpl. by apply lookup_app_l_Some.
  - intros _ (s & (r' & Hr & ->)%upd_role_inv & [= <- <-])%rbind_inv. split; [|by apply rest_same]. split; try done. simpl.
    intros n x (l & H1 & H2). destruct (decide (l = r)) as [->|Hne].
    + rewrite Hr in H2. injection H2 as <-. exists (vrole_add r' ps). split; [|split; [done|simpl; set_solver]].
      exists r. split; [done|]. apply list_lookup_insert. by eapply lookup_lt_Some.
    + exists x. split; [|done]. exists l. split; [done|]. by rewrite list_lookup_insert_ne.
  - intros Ha (d & H & [= <- <-])%rbind_inv. split; [|by apply rest_same].
    destruct (dag_add_roles_inv _ _ _ _ H) as (E1 & E2 & _). split; simpl; [done| |by rewrite E1].
    intros n r (l & H1 & H2). exists r. split; [|done]. exists l. split; [|done].
    apply (add_roles_kept _ _ _ _ H n l H1). intros l' r' Hin Hr' En. apply (Ha l' r' l Hin Hr'). by rewrite En.
  - intros _ ([d e] & H & [= <- <-])%rbind_inv. split; [|by apply rest_same]. simpl.
    destruct e as [e|]; [apply dag_add_child_error in H as ->; by apply kept_same; destruct st|].
    apply dag_add_child_success in H as ->. split; simpl; [done| |].
    + intros n r Hr. exists r. done.
    + intros a b Hc. apply child_with_children. by left.
  - intros Ha (s & (c & Hc & ->)%upd_tenant_inv & [= <- <-])%rbind_inv. split; [by apply kept_same|].
    destruct (Ha c Hc) as [Ha1 Ha2]. apply rest_tenant with c; try done. by apply namespace_kept.
  - intros _. destruct (w_tenants st !! t) as [c|] eqn:Hc; [|done]. intros [= <- <-]. split; [by apply kept_same|].
    apply rest_tenant with c; [done|..].
    + unfold vt_add_scopes. by destruct (vt_namespaces c !! n).
    + unfold vt_add_scopes. by destruct (vt_namespaces c !! n).
    + intros q m. apply scopes_kept.
    + unfold vt_add_scopes. by destruct (vt_namespaces c !! n).
  - intros _. destruct (w_tenants st !! t) as [c|] eqn:Hc; [|done]. intros (c' & H & [= <- <-])%rbind_inv. split; [by apply kept_same|].
    destruct (vt_add_children_inv _ _ _ _ H) as (E1 & E2 & E3 & E4 & _). apply rest_tenant with c; try done.
    + by rewrite E4.
    + intros q n. unfold uses_namespace. by rewrite E2, E3.
    + intros k x Hx. destruct (vr_add_kids _ _ _ _ H k x Hx) as (x' & Hx' & [-> |(tl & Hl & Ek)]); [done|].
      rewrite Hx'. f_equal. destruct (wf_kids _ Hwf t c k x Hc Hx) as (tx & Htx & Ex).
      apply (Hd x' x tl tx Hl Htx). by rewrite Ek, Ex.
  - intros -> (s1 & (c & Hc & ->)%upd_tenant_inv & [= <- <-])%rbind_inv. split; [by apply kept_same|]. by apply rest_tenant with c.
  - intros _ (s & H & [= <- <-])%rbind_inv. unfold v2_add_tenant in H. destruct (w_tenants st !! t) as [c|] eqn:Hc; [|done].
    apply rbind_inv in H as (ps & _ & [= <-]). split; [by apply kept_same|]. split; try done; simpl; [| |apply (rest_refl st)].
    + intros l cl Hl. by exists cl.
    + intros n l Hl. destruct (decide (vt_id c = n)) as [En|Hne]; [|by rewrite lookup_insert_ne].
      rewrite En, lookup_insert. f_equal. destruct (wf_reg _ Hwf n l Hl) as (tl & Htl & El).
      apply (Hd t l c tl Hc Htl). by rewrite En, El.
  - intros _ (s & H & [= <- <-])%rbind_inv. apply v2_add_principal_role_inv in H as (E1 & E2 & E3 & E4 & E5 & E6 & E7 & _).
    split; [by apply kept_same|]. split; unfold tenant_at, assigned; rewrite ?E2, ?E3, ?E5, ?E6, ?E7; try done.
    + intros l c Hc. by exists c.
    + intros pr (l & H1 & H2). exists pr. split; [|apply outlasts_refl]. exists l. split; [|done]. apply elem_of_app. by left.
  - intros Ha ([s1 er] & (p & Hp & -> & _)%upd_pr_inv & [= <- <-])%rbind_inv. split; [by apply kept_same|].
    destruct (Ha p Hp) as (e0 & E0 & Hle). unfold set_expiry. case_bool_decide.
    + simpl. rewrite list_insert_id by done. apply rest_same; try done.
    + apply rest_pr; [done|]. split; [done|]. intros n0 Hn (e1 & [= <-] & H1). apply Hn. exists e0. split; [done|]. lia.
  - intros _ ([s1 er] & (p & Hp & -> & _)%upd_pr_inv & [= <- <-])%rbind_inv. split; [by apply kept_same|].
    unfold clear_expiry. apply rest_pr; [done|]. split; [done|]. intros n0 _ (e1 & [=] & _).
Qed.

(** ** Questions of one kind *)
Lemma authorize_kept o st now q st' b : v2_wf st -> v2_authorize o st now q = Ok (st', b) ->
  ids_kept st st' /\ rest_kept st st' /\ forall r p, role_perm st r p -> role_perm st' r p.
Proof.
  intros Hwf H. apply v2_authorize_sound in H as [(d & -> & Hd1) _]; [|done].
  split; [by apply ids_same|]. split; [by apply rest_same|].
  intros r p. unfold role_perm at 2. simpl. destruct (d_resolved d !! r) as [s|] eqn:Hs.
  - intros H. apply (ext_view _ _ _ Hd1 _ _ Hs p). by apply role_view_perm.
  - unfold role_perm. rewrite (ext_old _ _ _ Hd1 _ Hs). intros (n & x & Hb & Hreg & Hp). exists n, x.
    split; [eapply rtc_below_ext; [| |exact Hb]; symmetry; apply Hd1|].
    split; [|done]. eapply registered_ext; [|exact Hreg]. symmetry. apply Hd1.
Qed.
Lemma can_kept o st now q roles st' b : v2_wf st -> v2_can o st now q roles = Ok (st', b) ->
  ids_kept st st' /\ rest_kept st st' /\ forall r x, role_name st r x -> role_name st' r x.
Proof.
  intros Hwf H. apply v2_can_sound in H as [(d & -> & Hd1) _]; [|done].
  split; [by apply ids_same|]. split; [by apply rest_same|].
  intros r p. unfold role_name at 2. simpl. destruct (d_resolved d !! r) as [s|] eqn:Hs.
  - intros H. apply (ext_view _ _ _ Hd1 _ _ Hs p). by apply role_view_name.
  - unfold role_name. rewrite (ext_old _ _ _ Hd1 _ Hs). intros (n & x & Hb & Hreg & Hp). exists n, x.
    split; [eapply rtc_below_ext; [| |exact Hb]; symmetry; apply Hd1|].
    split; [|done]. eapply registered_ext; [|exact Hreg]. symmetry. apply Hd1.
Qed.

Section kind.
  Variable ask : vop -> Prop.
  Variable P : vstate -> string -> string -> Prop.
  Hypothesis HP : forall st st' r p, roles_kept st st' -> P st r p -> P st' r p.
  Hypothesis Hask : forall o st x st' y, v2_wf st -> ask x -> vstep o st x = Ok (st', y) ->
    ids_kept st st' /\ rest_kept st st' /\ forall r p, P st r p -> P st' r p.
  Lemma goes_on_step st st' : v2_wf st -> goes_on ask st st' ->
    v2_wf st' /\ (distinct_ids st' -> distinct_ids st /\ rest_kept st st' /\ forall r p, P st r p -> P st' r p).
  Proof.
    intros Hwf (o & x & y & Hx & H). split; [by eapply vstep_wf|]. intros Hd. destruct Hx as [Ha|Ha].
    - pose proof (ids_distinct _ _ (addition_ids _ _ _ _ _ Ha H) Hd) as Hd0. split; [done|].
      destruct (addition_kept _ _ _ _ _ Hwf Hd0 Ha H) as [K1 K2]. split; [done|]. intros r p. by apply HP.
    - destruct (Hask _ _ _ _ _ Hwf Ha H) as (K1 & K2 & K3). split; [|done]. by apply (ids_distinct _ _ K1).
  Qed.
  Variable Q : vstate -> Prop.
  Hypothesis HQ : forall st st', rest_kept st st' -> (forall r p, P st r p -> P st' r p) -> Q st -> Q st'.
  Lemma goes_on_keeps st st' : v2_wf st -> rtc (goes_on ask) st st' -> distinct_ids st' -> v2_wf st' /\ distinct_ids st /\ (Q st -> Q st').
  Proof.
    intros Hwf H. revert Hwf. induction H as [st|st st1 st' H1 _ IH]; intros Hwf Hd; [done|].
    destruct (goes_on_step _ _ Hwf H1) as [Hwf1 K]. destruct (IH Hwf1 Hd) as (Hwf' & Hd1 & HQ1).
    destruct (K Hd1) as (Hd0 & K1 & K2). split; [done|]. split; [done|]. intros Hq. apply HQ1. by apply (HQ _ _ K1 K2).
  Qed.
End kind.

(** ** Decisions *)
Lemma target_kept st st' q t : rest_kept st st' -> target st q t -> target st' q t.
Proof.
  intros K [(name & Hn & Hr)|(Hn & pr & c & Ha & Hu & Ht & Hr & Hc & Hs)].
  - left. exists name. split; [|by apply (sk_reg _ _ K)]. unfold names in *. by rewrite (sk_default _ _ K).
  - right. split; [unfold nameless in *; by rewrite (sk_default _ _ K)|].
    destruct (sk_tenant _ _ K t c Hc) as (c' & Hc' & _ & Es & _).
    destruct (sk_assigned _ _ K pr Ha) as (pr' & Ha' & (F1 & F2 & _)%outlasts_fields). exists pr', c'. rewrite F1, F2.
    split; [done|]. split; [done|]. split; [done|]. split; [by apply (sk_reg _ _ K)|].
    split; [done|]. by apply Es.
Qed.
Lemma manages_kept st st' u a b : rest_kept st st' -> manages st u a b -> manages st' u a b.
Proof.
  intros K [(ta & k & Ha & Hk) (t & pr & Ht & Hp & H1 & H2 & H3)]. split.
  - destruct (sk_tenant _ _ K a ta Ha) as (ta' & Ha' & _ & _ & _ & Hch). exists ta', k. split; [done|]. by apply Hch.
  - destruct (sk_tenant _ _ K a t Ht) as (t' & Ht' & E & _). 
    destruct (sk_assigned _ _ K pr Hp) as (pr' & Ha' & (F1 & F2 & _ & _ & _ & F6)%outlasts_fields).
    exists t', pr'. rewrite E, F1, F2, F6. done.
Qed.
Lemma counts_kept st st' now u t n pr : rest_kept st st' -> counts st now u t n pr ->
  exists pr', counts st' now u t n pr' /\ pr_scope pr' = pr_scope pr /\ pr_role pr' = pr_role pr.
Proof.
  intros K (H1 & H2 & H3 & H4 & t' & c & H5 & H6 & H7).
  destruct (sk_assigned _ _ K pr H1) as (pr' & Ha' & Ho). destruct (outlasts_fields _ _ Ho) as (F1 & F2 & F3 & F4 & F5 & _).
  exists pr'. split; [|done]. split; [done|]. rewrite F1, F2, F4. split; [done|]. split; [by apply Ho|]. split; [done|].
  destruct (sk_tenant _ _ K t' c H6) as (c' & Hc' & E & _). exists t', c'. rewrite E. split; [|done].
  clear -H5 K. induction H5 as [|a b d Hab _ IH]; [done|]. eapply rtc_l; [|exact IH]. by eapply manages_kept.
Qed.
Lemma can_grows st st' now q roles : rest_kept st st' -> (forall r x, role_name st r x -> role_name st' r x) ->
  v2_can_allowed st now q roles -> v2_can_allowed st' now q roles.
Proof.
  intros K Kr (t & c & n & x & H1 & H2 & H3 & (pr & H4 & H5 & H6) & H7).
  destruct (sk_tenant _ _ K t c H2) as (c' & Hc' & _ & _ & Hu & _). exists t, c', n, x.
  split; [by eapply target_kept|]. split; [done|]. split; [by apply Hu|]. split; [|done].
  destruct (counts_kept _ _ _ _ _ _ _ K H4) as (pr' & Hk & _ & F). exists pr'. rewrite F. split; [done|]. split; [done|].
  destruct H6 as [?|?]; [by left|right; by apply Kr].
Qed.
(** Allowed, by a permission for the scope asked for or by an unscoped one. *)
Definition somehow (st : vstate) (now : Z) (q : request) : Prop :=
  exists t c n p, target st q t /\ tenant_at st t c /\ uses_namespace c q n
    /\ (scoped_perm st now (q_principal q) t n (q_scope q) p \/ global_perm st now (q_principal q) t n (q_scope q) p) /\ matches_perm q p.
Lemma somehow_grows st st' now q : rest_kept st st' -> (forall r p, role_perm st r p -> role_perm st' r p) -> somehow st now q -> somehow st' now q.
Proof.
  intros K Kr (t & c & n & p & H1 & H2 & H3 & H4 & H5).
  destruct (sk_tenant _ _ K t c H2) as (c' & Hc' & _ & _ & Hu & _). exists t, c', n, p.
  split; [by eapply target_kept|]. split; [done|]. split; [by apply Hu|]. split; [|done].
  destruct H4 as [(pr & Hk & Hs & Hp)|(pr & Hk & Hs & Hs' & Hp)]; [left|right];
    destruct (counts_kept _ _ _ _ _ _ _ K Hk) as (pr' & Hk' & F1 & F2); exists pr'; rewrite F1, F2;
    repeat (split; [done|]); by apply Kr.
Qed.
Lemma allowed_somehow st now q : v2_allowed st now q -> somehow st now q.
Proof.
  intros (t & c & n & p & H1 & H2 & H3 & H4 & H5). exists t, c, n, p. split; [done|]. split; [done|]. split; [done|]. split; [|done].
  destruct H4 as [?|[? _]]; [by left|by right].
Qed.
Lemma somehow_allowed st now q : no_scope_given st q -> somehow st now q -> v2_allowed st now q.
Proof.
  intros Hn (t & c & n & p & H1 & H2 & H3 & H4 & H5). exists t, c, n, p. split; [done|]. split; [done|]. split; [done|]. split; [|done].
  destruct H4 as [H4|H4]; [by left|]. destruct Hn as [Hn|Hn].
  - destruct H4 as (pr & _ & Hs & Hs' & _). by rewrite Hn in Hs.
  - right. split; [done|]. intros p' (pr & (Ha & Hu & _) & Hs & _). by apply (Hn pr).
Qed.
(** What is for the scope asked for stays, whatever is added. *)
Definition scoped_allowed (st : vstate) (now : Z) (q : request) : Prop :=
  exists t c n p, target st q t /\ tenant_at st t c /\ uses_namespace c q n
    /\ scoped_perm st now (q_principal q) t n (q_scope q) p /\ matches_perm q p.

Lemma scoped_grows st st' now q : rest_kept st st' -> (forall r p, role_perm st r p -> role_perm st' r p) -> scoped_allowed st now q -> scoped_allowed st' now q.
Proof.
  intros K Kr (t & c & n & p & H1 & H2 & H3 & (pr & Hk & Hs & Hp) & H5).
  destruct (sk_tenant _ _ K t c H2) as (c' & Hc' & _ & _ & Hu & _). exists t, c', n, p.
  split; [by eapply target_kept|]. split; [done|]. split; [by apply Hu|]. split; [|done].
  destruct (counts_kept _ _ _ _ _ _ _ K Hk) as (pr' & Hk' & F1 & F2). exists pr'. rewrite F1, F2. split; [done|]. split; [done|]. by apply Kr.
Qed.
Lemma allowed_scoped st now q : all_scoped st (q_principal q) -> v2_allowed st now q -> scoped_allowed st now q.
Proof.
  intros Hn (t & c & n & p & H1 & H2 & H3 & H4 & H5). exists t, c, n, p. split; [done|]. split; [done|]. split; [done|]. split; [|done].
  destruct H4 as [?|[(pr & (Ha & Hu & _) & _ & Hs & _) _]]; [done|]. exfalso. by apply (Hn pr).
Qed.
Lemma scoped_is_allowed st now q : scoped_allowed st now q -> v2_allowed st now q.
Proof. intros (t & c & n & p & H1 & H2 & H3 & H4 & H5). exists t, c, n, p. repeat (split; [done|]). split; [by left|done]. Qed.

Lemma authorize_asks o st x st' y : v2_wf st -> is_authorize x -> vstep o st x = Ok (st', y) ->
  ids_kept st st' /\ rest_kept st st' /\ forall r p, role_perm st r p -> role_perm st' r p.
Proof.
  intros Hw Hx Hst. destruct x; try done. simpl in Hst. apply rbind_inv in Hst as ([s3 b3] & Hst & [= <- <-]).
  by eapply authorize_kept.
Qed.
Lemma c127_scoped o o' st now q s st' s' b : vreachable st -> all_scoped st (q_principal q) -> v2_authorize o st now q = Ok (s, true) ->
  rtc (goes_on is_authorize) st st' -> distinct_ids st' -> v2_authorize o' st' now q = Ok (s', b) -> b = true.
Proof.
  intros Hr Hn H Hs Hd H'. pose proof (vreachable_wf _ Hr) as Hwf.
  destruct (goes_on_keeps is_authorize role_perm kept_perm authorize_asks (fun s => scoped_allowed s now q) (fun s1 s2 => scoped_grows s1 s2 now q)
    st st' Hwf Hs Hd) as (Hwf' & Hd0 & K).
  apply (v2_authorize_exact _ _ _ _ _ _ Hwf' Hd H'). apply scoped_is_allowed, K, allowed_scoped; [done|].
  by apply (v2_authorize_exact _ _ _ _ _ _ Hwf Hd0 H).
Qed.
Lemma c127_authorize o o' st now q s st' s' b : vreachable st -> v2_authorize o st now q = Ok (s, true) ->
  rtc (goes_on is_authorize) st st' -> distinct_ids st' -> no_scope_given st' q -> v2_authorize o' st' now q = Ok (s', b) -> b = true.
Proof.
  intros Hr H Hs Hd Hn H'. pose proof (vreachable_wf _ Hr) as Hwf.
  destruct (goes_on_keeps is_authorize role_perm kept_perm authorize_asks (fun s => somehow s now q) (fun s1 s2 => somehow_grows s1 s2 now q)
    st st' Hwf Hs Hd) as (Hwf' & Hd0 & K).
  apply (v2_authorize_exact _ _ _ _ _ _ Hwf' Hd H'). apply somehow_allowed; [done|]. apply K. apply allowed_somehow.
  by apply (v2_authorize_exact _ _ _ _ _ _ Hwf Hd0 H).
Qed.
Lemma c127_can o o' st now q roles s st' s' b : vreachable st -> v2_can o st now q roles = Ok (s, true) ->
  rtc (goes_on is_can) st st' -> distinct_ids st' -> v2_can o' st' now q roles = Ok (s', b) -> b = true.
Proof.
  intros Hr H Hs Hd H'. pose proof (vreachable_wf _ Hr) as Hwf.
  assert (forall o st x st' y, v2_wf st -> is_can x -> vstep o st x = Ok (st', y) ->
    ids_kept st st' /\ rest_kept st st' /\ forall r p, role_name st r p -> role_name st' r p) as Hask.
  { intros o1 s1 x s2 y Hw Hx Hst. destruct x; try done. simpl in Hst. apply rbind_inv in Hst as ([s3 b3] & Hst & [= <- <-]).
    by eapply can_kept. }
  destruct (goes_on_keeps is_can role_name kept_name Hask (fun s => v2_can_allowed s now q roles) (fun s1 s2 => can_grows s1 s2 now q roles)
    st st' Hwf Hs Hd) as (Hwf' & Hd0 & K).
  apply (v2_can_exact _ _ _ _ _ _ _ Hwf' Hd H'). apply K.
  by apply (v2_can_exact _ _ _ _ _ _ _ Hwf Hd0 H).
Qed.
