(** The v2 registries hold the last object offered under each name; effects of the set-up methods. *)
From Verif Require Import RoleHas.
From Verif Require Export V2RegSpec V2Cor.

Definition vnames (st : vstate) := (vr_name <$> w_roles st, vt_id <$> w_tenants st).
(** Objects keep their names, new ones come at the end. *)
Lemma insert_name {A} (f : A -> string) (l : list A) i x y : l !! i = Some x -> f y = f x -> f <$> <[i := y]> l = f <$> l.
Proof. intros H E. rewrite list_fmap_insert, E. apply list_insert_id. by rewrite list_lookup_fmap, H. Qed.
Lemma children_id ts t cs t' : vt_add_children ts t cs = Ok t' -> vt_id t' = vt_id t.
Proof.
  revert t. induction cs as [|c cs IH]; intros t; simpl; [by intros [= <-]|].
  destruct (ts !! c); [|done]. intros H. by apply IH in H.
Qed.
Lemma vstep_names o st x st' out : vstep o st x = Ok (st', out) ->
  (exists k, vr_name <$> w_roles st' = (vr_name <$> w_roles st) ++ k)
  /\ (exists k, vt_id <$> w_tenants st' = (vt_id <$> w_tenants st) ++ k).
Proof.
  assert (R : forall s s', w_roles s' = w_roles s -> w_tenants s' = w_tenants s ->
    (exists k, vr_name <$> w_roles s' = (vr_name <$> w_roles s) ++ k)
    /\ (exists k, vt_id <$> w_tenants s' = (vt_id <$> w_tenants s) ++ k)).
  { intros s s' -> ->. split; exists []; by rewrite app_nil_r. }
  assert (T : forall l c c', w_tenants st !! l = Some c -> vt_id c' = vt_id c ->
    (exists k, vr_name <$> w_roles st = (vr_name <$> w_roles st) ++ k)
    /\ (exists k, vt_id <$> <[l := c']> (w_tenants st) = (vt_id <$> w_tenants st) ++ k)).
  { intros l c c' Hc E. rewrite (insert_name vt_id _ _ _ _ Hc E). split; exists []; by rewrite app_nil_r. }
  destruct x; simpl.
  - intros [= <- <-]. simpl. split; [|exists []; by rewrite app_nil_r]. exists [name]. by rewrite fmap_app.
  - intros [= <- <-]. simpl. split; [exists []; by rewrite app_nil_r|]. rewrite fmap_app. by eexists.
  - intros [= <- <-]. by apply R.
  - intros (st1 & (r' & Hr' & ->)%upd_role_inv & [= <- <-])%rbind_inv. simpl.
    rewrite (insert_name vr_name _ _ _ _ Hr') by done. split; exists []; by rewrite app_nil_r.
  - intros (st1 & (r' & Hr' & ->)%upd_role_inv & [= <- <-])%rbind_inv. simpl.
    rewrite (insert_name vr_name _ _ _ _ Hr') by done. split; exists []; by rewrite app_nil_r.
  - intros (d & _ & [= <- <-])%rbind_inv. by apply R.
  - intros (d & _ & [= <- <-])%rbind_inv. by apply R.
  - intros (st1 & (c & Hc & ->)%upd_tenant_inv & [= <- <-])%rbind_inv. by eapply T.
  - destruct (w_tenants st !! t) as [c|] eqn:Hc; [|done]. intros [= <- <-]. simpl. eapply T; [exact Hc|].
    unfold vt_add_scopes. by destruct (vt_namespaces c !! n).
  - destruct (w_tenants st !! t) as [c|] eqn:Hc; [|done].
    intros (c' & Hc' & [= <- <-])%rbind_inv. simpl. eapply T; [exact Hc|]. by eapply children_id.
  - intros (st1 & (c & Hc & ->)%upd_tenant_inv & [= <- <-])%rbind_inv. by eapply T.
  - unfold v2_add_tenant. intros (st1 & H & [= <- <-])%rbind_inv.
    destruct (w_tenants st !! t) as [c|] eqn:Hc; [|done]. apply rbind_inv in H as (ps & _ & [= <-]). by apply R.
  - intros [= <- <-]. by apply R.
  - intros (st1 & H & [= <- <-])%rbind_inv. apply v2_add_principal_role_inv in H as (H1 & H2 & _). by apply R.
  - intros ([st1 e] & H & [= <- <-])%rbind_inv. apply v2_remove_inv in H as (H1 & H2 & _). by apply R.
  - intros ([st1 e'] & (pr' & Hpr & -> & _)%upd_pr_inv & [= <- <-])%rbind_inv. by apply R.
  - intros ([st1 e'] & (pr' & Hpr & -> & _)%upd_pr_inv & [= <- <-])%rbind_inv. by apply R.
  - intros ([st1 e'] & (pr' & Hpr & -> & _)%upd_pr_inv & [= <- <-])%rbind_inv. by apply R.
  - intros ([st1 b] & H & [= <- <-])%rbind_inv. unfold v2_authorize in H. apply rbind_inv in H as ([ts|] & _ & H).
    + apply rbind_inv in H as (db & _ & [= <- <-]). by apply R.
    + injection H as <- <-. by apply R.
  - intros ([st1 b] & H & [= <- <-])%rbind_inv. unfold v2_can in H. apply rbind_inv in H as ([ts|] & _ & H).
    + apply rbind_inv in H as (db & _ & [= <- <-]). by apply R.
    + injection H as <- <-. by apply R.
Qed.
Lemma vrun_names o i st ops st' outs : vrun o i st ops = Ok (st', outs) ->
  (exists k, vr_name <$> w_roles st' = (vr_name <$> w_roles st) ++ k)
  /\ (exists k, vt_id <$> w_tenants st' = (vt_id <$> w_tenants st) ++ k).
Proof.
  revert i st outs. induction ops as [|x ops IH]; intros i st outs; simpl.
  - intros [= <- <-]. split; exists []; by rewrite app_nil_r.
  - intros ([st1 o1] & H1 & ([st2 o2] & H2 & [= <- <-])%rbind_inv)%rbind_inv. simpl in *.
    destruct (vstep_names _ _ _ _ _ H1) as [[k1 E1] [k2 E2]]. destruct (IH _ _ _ H2) as [[k3 E3] [k4 E4]].
    rewrite E1 in E3. rewrite E2 in E4. rewrite <-app_assoc in E3, E4. split; by eexists.
Qed.
Lemma name_later {A} (f : A -> string) (l l' : list A) i k n : f <$> l' = (f <$> l) ++ k ->
  f <$> l !! i = Some n -> f <$> l' !! i = Some n.
Proof.
  intros E H. rewrite <-list_lookup_fmap in H |- *. rewrite E. by apply lookup_app_l_Some.
Qed.

(** ** Histories *)
Lemma last_such_app {A} (f : A -> bool) l1 l2 :
  last_such f (l1 ++ l2) = match last_such f l2 with Some a => Some a | None => last_such f l1 end.
Proof.
  unfold last_such. rewrite rev_app_distr. induction (rev l2) as [|a l IH]; simpl; [done|].
  by destruct (f a).
Qed.
Definition put (key : nat -> option string) (m : gmap string nat) (ls : list nat) : gmap string nat :=
  fold_left (fun m l => match key l with Some k => <[k := l]> m | None => m end) ls m.
Lemma put_last key m ls k : Forall (fun l => is_Some (key l)) ls ->
  put key m ls !! k = match last_such (fun l => bool_decide (key l = Some k)) ls with Some l => Some l | None => m !! k end.
Proof.
  intros F. revert m. induction F as [|l ls [n Hn] F IH]; intros m; [done|]. simpl. rewrite Hn, IH.
  change (l :: ls) with ([l] ++ ls). rewrite last_such_app.
  destruct (last_such _ ls) as [l'|]; [done|]. unfold last_such; simpl. rewrite Hn.
  case_bool_decide as E; [|by rewrite lookup_insert_ne by congruence]. injection E as ->. by rewrite lookup_insert.
Qed.
Section registry.
  Context (get : vstate -> gmap string nat) (offers : vop -> list nat) (key : vstate -> nat -> option string).
  Hypothesis Hstep : forall o st x st' r, v2_wf st -> vstep o st x = Ok (st', r) ->
    get st' = put (key st) (get st) (offers x) /\ Forall (fun l => is_Some (key st l)) (offers x).
  Hypothesis Hkey : forall o i st ops st' outs l k, vrun o i st ops = Ok (st', outs) -> key st l = Some k -> key st' l = Some k.
  Lemma vreg_run o i st ops st' outs k : v2_wf st -> vrun o i st ops = Ok (st', outs) ->
    get st' !! k = match last_such (fun l => bool_decide (key st' l = Some k)) (concat (offers <$> ops)) with
                   | Some l => Some l
                   | None => get st !! k
                   end.
  Proof.
    revert i st outs. induction ops as [|x ops IH]; intros i st outs W H.
    - simpl in H. injection H as <- <-. done.
    - pose proof H as H0. simpl in H.
      apply rbind_inv in H as ([st1 r1] & H1 & H). apply rbind_inv in H as ([st2 r2] & H2 & [= <- <-]). simpl in H2 |- *.
      rewrite (IH _ _ _ (vstep_wf _ _ _ _ _ W H1) H2), last_such_app. destruct (last_such _ (concat _)) as [l|]; [done|].
      destruct (Hstep _ _ _ _ _ W H1) as [-> F]. rewrite put_last by done.
      assert (forall l, l ∈ offers x -> bool_decide (key st l = Some k) = bool_decide (key st2 l = Some k)) as E.
      { intros l Hl. rewrite Forall_forall in F. destruct (F l Hl) as [n Hn].
        rewrite Hn, (Hkey _ _ _ _ _ _ _ _ H0 Hn). done. }
      unfold last_such. clear -E. assert (forall l, l ∈ rev (offers x) -> l ∈ offers x) as Hr.
      { intros l Hl. apply elem_of_list_In, in_rev, elem_of_list_In. done. }
      induction (rev (offers x)) as [|l ls IHl]; simpl; [done|].
      rewrite E by (apply Hr; left). destruct (bool_decide _); [done|]. apply IHl. intros l' Hl'. apply Hr. by right.
  Qed.
End registry.

Lemma dag_add_roles_put h d ls d' : dag_add_roles h d ls = Ok d' ->
  d_roles d' = put (fun l => vr_name <$> h !! l) (d_roles d) ls /\ Forall (fun l => is_Some (vr_name <$> h !! l)) ls.
Proof.
  revert d. induction ls as [|l ls IH]; intros d; simpl; [by intros [= <-]|].
  destruct (h !! l) as [r|] eqn:E; [|done]. intros H. apply IH in H as [H1 H2]. simpl in H1. split; [done|].
  constructor; [|done]. rewrite E. by eexists.
Qed.
Lemma vstep_vregs o st x st' out : v2_wf st -> vstep o st x = Ok (st', out) ->
  (d_roles (w_dag st') = put (fun l => vr_name <$> w_roles st !! l) (d_roles (w_dag st)) (offers_roles x)
   /\ Forall (fun l => is_Some (vr_name <$> w_roles st !! l)) (offers_roles x))
  /\ (w_reg st' = put (fun l => vt_id <$> w_tenants st !! l) (w_reg st) (offers_tenants x)
      /\ Forall (fun l => is_Some (vt_id <$> w_tenants st !! l)) (offers_tenants x))
  /\ w_default st' = default (w_default st) (last (offers_default x)).
Proof.
  assert (R : forall s, d_roles (w_dag s) = d_roles (w_dag st) -> w_reg s = w_reg st -> w_default s = w_default st ->
    (d_roles (w_dag s) = put (fun l => vr_name <$> w_roles st !! l) (d_roles (w_dag st)) []
     /\ Forall (fun l => is_Some (vr_name <$> w_roles st !! l)) [])
    /\ (w_reg s = put (fun l => vt_id <$> w_tenants st !! l) (w_reg st) []
        /\ Forall (fun l => is_Some (vt_id <$> w_tenants st !! l)) [])
    /\ w_default s = w_default st) by (intros s -> -> ->; done).
  intros W H. destruct x; simpl in H |- *.
  - injection H as <- <-. by apply R.
  - injection H as <- <-. by apply R.
  - injection H as <- <-. by apply R.
  - apply rbind_inv in H as (st1 & (r' & Hr' & ->)%upd_role_inv & [= <- <-]). by apply R.
  - apply rbind_inv in H as (st1 & (r' & Hr' & ->)%upd_role_inv & [= <- <-]). by apply R.
  - apply rbind_inv in H as (d & Hd & [= <- <-]). split; [by apply dag_add_roles_put|done].
  - apply rbind_inv in H as ([d e] & Hd & [= <- <-]). unfold dag_add_child in Hd.
    apply rbind_inv in Hd as ([err|] & _ & [= <- <-]); by apply R.
  - apply rbind_inv in H as (st1 & (c & Hc & ->)%upd_tenant_inv & [= <- <-]). by apply R.
  - destruct (w_tenants st !! t) as [c|] eqn:Hc; [|done]. injection H as <- <-. by apply R.
  - destruct (w_tenants st !! t) as [c|] eqn:Hc; [|done]. apply rbind_inv in H as (c' & Hc' & [= <- <-]). by apply R.
  - apply rbind_inv in H as (st1 & (c & Hc & ->)%upd_tenant_inv & [= <- <-]). by apply R.
  - unfold v2_add_tenant in H. apply rbind_inv in H as (st1 & H & [= <- <-]).
    destruct (w_tenants st !! t) as [c|] eqn:Hc; [|done]. apply rbind_inv in H as (ps & _ & [= <-]). simpl.
    split; [done|]. split; [|done]. split; [unfold put; simpl; done|]. constructor; [simpl; rewrite ?Hc; by eexists|done].
  - by injection H as <- <-.
  - apply rbind_inv in H as (st1 & H & [= <- <-]). apply v2_add_principal_role_inv in H as (H1 & H2 & H3 & H4 & H5 & H6 & H7).
    apply R; congruence.
  - apply rbind_inv in H as ([st1 e] & H & [= <- <-]). unfold v2_remove_principal_role in H.
    apply rbind_inv in H as ([u j] & _ & H). simpl in H. case_bool_decide; injection H as <- <-; by apply R.
  - apply rbind_inv in H as ([st1 e'] & (pr' & Hpr & -> & _)%upd_pr_inv & [= <- <-]). by apply R.
  - apply rbind_inv in H as ([st1 e'] & (pr' & Hpr & -> & _)%upd_pr_inv & [= <- <-]). by apply R.
  - apply rbind_inv in H as ([st1 e'] & (pr' & Hpr & -> & _)%upd_pr_inv & [= <- <-]). by apply R.
  - apply rbind_inv in H as ([st1 b] & H & [= <- <-]). simpl.
    apply v2_authorize_sound in H as [(d' & -> & Hd') _]; [|done]. apply R; try done. by apply (ext_roles _ _ _ Hd').
  - apply rbind_inv in H as ([st1 b] & H & [= <- <-]). simpl.
    apply v2_can_sound in H as [(d' & -> & Hd') _]; [|done]. apply R; try done. by apply (ext_roles _ _ _ Hd').
Qed.

Lemma vroles_history o ops st outs name : vrun o 0 v2_init ops = Ok (st, outs) ->
  v2_get_role st name = last_such (vrole_named st name) (concat (offers_roles <$> ops)).
Proof.
  intros H. unfold v2_get_role.
  rewrite (vreg_run (fun st => d_roles (w_dag st)) offers_roles (fun st l => vr_name <$> w_roles st !! l)
    (fun o s x s' r W Hs => proj1 (vstep_vregs o s x s' r W Hs))
    (fun o i s xs s' ou l k Hr Hk => match proj1 (vrun_names o i s xs s' ou Hr) with ex_intro _ k1 E => name_later vr_name _ _ _ _ _ E Hk end)
    _ _ _ _ _ _ name init_wf H).
  unfold vrole_named. by destruct (last_such _ _).
Qed.
Lemma vtenants_history o ops st outs id : vrun o 0 v2_init ops = Ok (st, outs) ->
  v2_get_tenant st id = last_such (vtenant_named st id) (concat (offers_tenants <$> ops)).
Proof.
  intros H. unfold v2_get_tenant.
  rewrite (vreg_run w_reg offers_tenants (fun st l => vt_id <$> w_tenants st !! l)
    (fun o s x s' r W Hs => proj1 (proj2 (vstep_vregs o s x s' r W Hs)))
    (fun o i s xs s' ou l k Hr Hk => match proj2 (vrun_names o i s xs s' ou Hr) with ex_intro _ k1 E => name_later vt_id _ _ _ _ _ E Hk end)
    _ _ _ _ _ _ id init_wf H).
  unfold vtenant_named. by destruct (last_such _ _).
Qed.
Lemma vdefault_run o i st ops st' outs : v2_wf st -> vrun o i st ops = Ok (st', outs) ->
  w_default st' = default (w_default st) (last (concat (offers_default <$> ops))).
Proof.
  revert i st outs. induction ops as [|x ops IH]; intros i st outs W; simpl; [by intros [= <- <-]|].
  intros ([st1 o1] & H1 & ([st2 o2] & H2 & [= <- <-])%rbind_inv)%rbind_inv. simpl in *.
  rewrite (IH _ _ _ (vstep_wf _ _ _ _ _ W H1) H2). destruct (vstep_vregs _ _ _ _ _ W H1) as (_ & _ & ->).
  rewrite last_app. by destruct (last (concat _)).
Qed.
(** The tenant used when a request names none. *)
Lemma vdefault_history o ops st outs : vrun o 0 v2_init ops = Ok (st, outs) ->
  v2_get_default_tenant st = match last (concat (offers_default <$> ops)) with
                             | Some id => if bool_decide (id = "") then None else v2_get_tenant st id
                             | None => None
                             end.
Proof.
  intros H. unfold v2_get_default_tenant. rewrite (vdefault_run _ _ _ _ _ _ init_wf H).
  destruct (last _) as [d|]; simpl; [|done]. by destruct (bool_decide (d = "")).
Qed.
Lemma vadd_tenants_each o st ts st' : v2_add_tenants o 0 st ts = Ok st' ->
  exists outs, vrun o 0 st (VAddTenant <$> ts) = Ok (st', outs).
Proof.
  generalize 0. revert st. induction ts as [|t ts IH]; intros st i; simpl; [intros [= <-]; by eexists|].
  intros (st1 & H1 & H)%rbind_inv. rewrite H1. simpl. destruct (IH _ _ H) as [outs Ho]. unfold fmap in Ho. rewrite Ho. by eexists.
Qed.

(** ** Effects *)
Lemma role_add_exact o st r ps st' y : vstep o st (VRoleAdd r ps) = Ok (st', y) -> forall ro, w_roles st !! r = Some ro ->
  exists X, (forall p, p ∈ X <-> p ∈ vr_perms ro \/ exists re ac, (re, ac) ∈ ps /\ p = res_act re ac)
    /\ vrole_becomes st r (VRole (vr_name ro) X) st'.
Proof.
  simpl. intros (st1 & (r' & Hr' & ->)%upd_role_inv & [= <- <-])%rbind_inv ro Hro.
  assert (r' = ro) as -> by congruence. eexists. split; [|done]. intros p.
  rewrite elem_of_union, elem_of_list_to_set, elem_of_list_fmap. split.
  - intros [([re ac] & -> & Hx)|Hp]; [right; by exists re, ac|by left].
  - intros [Hp|(re & ac & Hx & ->)]; [by right|left; by exists (re, ac)].
Qed.
Lemma role_remove_exact o st r ps st' y : vstep o st (VRoleRemove r ps) = Ok (st', y) -> forall ro, w_roles st !! r = Some ro ->
  exists X, (forall p, p ∈ X <-> p ∈ vr_perms ro /\ forall re ac, (re, ac) ∈ ps -> p <> res_act re ac)
    /\ vrole_becomes st r (VRole (vr_name ro) X) st'.
Proof.
  simpl. intros (st1 & (r' & Hr' & ->)%upd_role_inv & [= <- <-])%rbind_inv ro Hro.
  assert (r' = ro) as -> by congruence. eexists. split; [|done]. intros p.
  rewrite elem_of_difference, elem_of_list_to_set, elem_of_list_fmap. split.
  - intros [Hp Hn]. split; [done|]. intros re ac Hx ->. apply Hn. by exists (re, ac).
  - intros [Hp Hn]. split; [done|]. intros ([re ac] & -> & Hx). by apply (Hn re ac).
Qed.
Lemma tenant_namespace_exact o st t n b st' y : vstep o st (VTenantNamespace t n b) = Ok (st', y) ->
  forall c, tenant_at st t c -> exists m,
    (forall k, m !! k = if decide (k = n) then Some (default ∅ (vt_namespaces c !! n)) else vt_namespaces c !! k)
    /\ vtenant_becomes st t (VTenant (vt_id c) m (if b then n else vt_default c) (vt_status c) (vt_children c)) st'.
Proof.
  simpl. intros (st1 & (c' & Hc' & ->)%upd_tenant_inv & [= <- <-])%rbind_inv c Hc. unfold tenant_at in Hc.
  assert (c' = c) as -> by congruence. eexists. split; [|done]. intros k. cbv beta.
  destruct (vt_namespaces c !! n) as [s|] eqn:E; case_decide as Hk; subst; simpl.
  - done.
  - done.
  - by rewrite lookup_insert.
  - by rewrite lookup_insert_ne by done.
Qed.
Lemma tenant_scopes_exact o st t n ss st' y : vstep o st (VTenantScopes t n ss) = Ok (st', y) ->
  forall c, tenant_at st t c ->
  match vt_namespaces c !! n with
  | None => st' = st /\ y = WErr (Some ("namespace " ++ n ++ " does not exist in tenant " ++ vt_id c)%string)
  | Some s => y = WErr None /\ exists X, (forall x, x ∈ X <-> x ∈ s \/ x ∈ ss)
      /\ vtenant_becomes st t (VTenant (vt_id c) (<[n := X]> (vt_namespaces c)) (vt_default c) (vt_status c) (vt_children c)) st'
  end.
Proof.
  simpl. intros H c Hc. unfold tenant_at in Hc. rewrite Hc in H. unfold vt_add_scopes in H.
  destruct (vt_namespaces c !! n) as [s|]; injection H as <- <-.
  - split; [done|]. eexists. split; [|done]. intros x. rewrite elem_of_union, elem_of_list_to_set. tauto.
  - split; [|done]. simpl. rewrite list_insert_id by done. by destruct st.
Qed.
Lemma add_children_exact ts t cs t' : vt_add_children ts t cs = Ok t' ->
  vt_id t' = vt_id t /\ vt_namespaces t' = vt_namespaces t /\ vt_default t' = vt_default t /\ vt_status t' = vt_status t
  /\ forall k, vt_children t' !! k =
       match last_such (fun l => bool_decide ((vt_id <$> ts !! l) = Some k)) cs with
       | Some l => Some l | None => vt_children t !! k end.
Proof.
  intros H. assert (E : vt_children t' = put (fun l => vt_id <$> ts !! l) (vt_children t) cs
    /\ Forall (fun l => is_Some (vt_id <$> ts !! l)) cs
    /\ vt_id t' = vt_id t /\ vt_namespaces t' = vt_namespaces t /\ vt_default t' = vt_default t /\ vt_status t' = vt_status t).
  { revert t H. induction cs as [|c cs IH]; intros t; simpl; [by intros [= <-]|].
    destruct (ts !! c) as [ct|] eqn:Hc; [|done]. intros (H1 & H2 & H3 & H4 & H5 & H6)%IH. simpl in *.
    split; [done|]. split; [|done]. constructor; [|done]. rewrite Hc. by eexists. }
  destruct E as (E & F & ? & ? & ? & ?). split_and!; try done. intros k. rewrite E. by apply put_last.
Qed.
Lemma tenant_children_exact o st t cs st' y : vstep o st (VTenantChildren t cs) = Ok (st', y) ->
  forall c, tenant_at st t c -> exists m,
    (forall k, m !! k = match last_such (vtenant_named st k) cs with Some l => Some l | None => vt_children c !! k end)
    /\ vtenant_becomes st t (VTenant (vt_id c) (vt_namespaces c) (vt_default c) (vt_status c) m) st'.
Proof.
  simpl. intros H c Hc. unfold tenant_at in Hc. rewrite Hc in H. apply rbind_inv in H as (c' & Hc' & [= <- <-]).
  apply add_children_exact in Hc' as (H1 & H2 & H3 & H4 & H5). exists (vt_children c'). split; [exact H5|].
  unfold vtenant_becomes. rewrite <-H1, <-H2, <-H3, <-H4. by destruct c'.
Qed.
Lemma tenant_status_exact o st t s st' y : vstep o st (VTenantStatus t s) = Ok (st', y) ->
  forall c, tenant_at st t c ->
    vtenant_becomes st t (VTenant (vt_id c) (vt_namespaces c) (vt_default c) s (vt_children c)) st'.
Proof.
  simpl. intros (st1 & (c' & Hc' & ->)%upd_tenant_inv & [= <- <-])%rbind_inv c Hc. unfold tenant_at in Hc.
  by assert (c' = c) as -> by congruence.
Qed.
Lemma new_tenant_exact o st id def st' y : vstep o st (VNewTenant id def) = Ok (st', y) ->
  exists c, st' = vw_tenants st (w_tenants st ++ [c]) /\ y = WLoc (length (w_tenants st))
    /\ vt_id c = id /\ vt_status c = TActive /\ vt_children c = ∅ /\ vt_default c = default "" def
    /\ forall n s, vt_namespaces c !! n = Some s <-> def = Some n /\ s = ∅.
Proof.
  simpl. intros [= <- <-]. eexists. split; [done|]. split; [done|].
  destruct def as [d|]; simpl; split_and!; try done; intros n s.
  - rewrite lookup_singleton_Some. split; [intros [-> <-]; done|intros [[= ->] ->]; done].
  - rewrite lookup_empty. split; [done|intros [? _]; done].
Qed.
Lemma add_assignments_exact o st ls st' y : vstep o st (VAddPR ls) = Ok (st', y) ->
  w_assign st' = w_assign st ++ (Some <$> ls) /\ st' = vw_index (vw_assign st (w_assign st')) (w_index st').
Proof.
  simpl. intros (st1 & H & [= <- <-])%rbind_inv. revert st H. induction ls as [|l ls IH]; intros st; simpl.
  - intros [= <-]. rewrite app_nil_r. split; [done|by destruct st].
  - destruct (w_prs st !! l) as [pr|] eqn:Hpr; [|done]. intros H. destruct (IH _ H) as [H1 H2]. simpl in *.
    rewrite <-app_assoc in H1. split; [done|]. rewrite H2. by simpl.
Qed.
Lemma add_tenant_exact o st t st' y : vstep o st (VAddTenant t) = Ok (st', y) ->
  forall c, tenant_at st t c -> st' = vw_reg st (<[vt_id c := t]> (w_reg st)) (w_parents st').
Proof.
  simpl. intros (st1 & H & [= <- <-])%rbind_inv c Hc. unfold v2_add_tenant in H. unfold tenant_at in Hc. rewrite Hc in H.
  by apply rbind_inv in H as (ps & _ & [= <-]).
Qed.
Lemma add_roles_exact o st ls st' y : vstep o st (VAddRoles ls) = Ok (st', y) ->
  st' = vw_dag st (Dag (d_roles (w_dag st')) (d_edges (w_dag st)) (d_resolved (w_dag st)))
  /\ forall name, v2_get_role st' name =
       match last_such (vrole_named st name) ls with Some l => Some l | None => v2_get_role st name end.
Proof.
  simpl. intros (d & H & [= <- <-])%rbind_inv. simpl.
  pose proof (dag_add_roles_put _ _ _ _ H) as [E F]. apply dag_add_roles_inv in H as (H1 & H2 & _). split.
  - rewrite <-H1, <-H2. by destruct d.
  - intros name. unfold v2_get_role; simpl. rewrite E. by apply put_last.
Qed.
Lemma set_default_v2_exact o st id st' y : vstep o st (VSetDefault id) = Ok (st', y) -> st' = vw_default st id.
Proof. simpl. by intros [= <- <-]. Qed.
Lemma status_string_exact n s : status_string n = Ok s <->
  (n, s) ∈ [(0, "active"); (1, "inactive"); (2, "pending"); (3, "blocked"); (4, "banned")]%Z.
Proof.
  unfold status_string. split.
  - case_bool_decide as Hn; [done|]. intros H.
    destruct (Z.to_nat n) as [|[|[|[|[|k]]]]] eqn:E; simpl in H; try done; injection H as <-;
      assert (n = Z.of_nat (Z.to_nat n)) as -> by lia; rewrite E; simpl; set_solver.
  - intros H. repeat (apply elem_of_cons in H as [[= -> ->]|H]; [done|]). by apply elem_of_nil in H.
Qed.
Lemma status_string_panics n : status_string n = Panic <-> (n < 0 \/ 4 < n)%Z.
Proof.
  unfold status_string. case_bool_decide as Hn; [split; [by left|done]|].
  destruct (Z.to_nat n) as [|[|[|[|[|k]]]]] eqn:E; simpl; split; intros H; try done; lia.
Qed.
Lemma status_names s1 s2 x : status_string (status_code s1) = Ok x -> status_string (status_code s2) = Ok x -> s1 = s2.
Proof. destruct s1, s2; simpl; intros H1 H2; (done || exfalso; cbv in H1, H2; congruence). Qed.

(** ** Examples *)
