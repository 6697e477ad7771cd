(** userRoleMap is written and never read. *)
From Verif Require Export EditProofs.

Section ix.
  Variables (st : vstate) (ix : gmap string (gmap string (list nat))).
  Let st2 := vw_index st ix.
  Lemma ix_tenants user acc ps : principal_tenants st2 user acc ps = principal_tenants st user acc ps.
  Proof.
    revert acc. induction ps as [|p ps IH]; intros acc; [done|]. simpl. destruct (p ≫= _) as [pr|]; [|done].
    destruct (bool_decide (pr_principal pr = user) && _); [|apply IH]. destruct (w_reg st !! pr_tenant pr) as [t|]; [|apply IH].
    destruct (w_tenants st !! t) as [c|]; [apply IH|done].
  Qed.
  Lemma ix_target o q : find_target_tenants o st2 q = find_target_tenants o st q.
  Proof. unfold find_target_tenants, find_principal_tenants. simpl. by rewrite ix_tenants. Qed.
  Lemma ix_authorize o i now q d ts : authorize_loop o i st2 now q d ts = authorize_loop o i st now q d ts.
  Proof.
    revert i d. induction ts as [|t ts IH]; intros i d; [done|]. cbn [authorize_loop]. change (w_tenants st2) with (w_tenants st).
    destruct (w_tenants st !! t) as [c|]; [|done]. destruct (target_namespace c q) as [n|]; [|apply IH].
    change (resolve_principal_permissions (sub (sub o i) 0) st2 now d (q_principal q) (vt_id c) n (q_scope q))
      with (resolve_principal_permissions (sub (sub o i) 0) st now d (q_principal q) (vt_id c) n (q_scope q)).
    destruct (resolve_principal_permissions _ _ _ _ _ _ _ _) as [[d' [ps|]]| |]; cbn [rbind fst snd]; [|apply IH|done|done].
    destruct (perms_match _ _ _) as [[]| |]; cbn [rbind]; [done|apply IH|done|done].
  Qed.
  Lemma ix_can o i now q roles d ts : can_loop o i st2 now q roles d ts = can_loop o i st now q roles d ts.
  Proof.
    revert i d. induction ts as [|t ts IH]; intros i d; [done|]. cbn [can_loop]. change (w_tenants st2) with (w_tenants st).
    destruct (w_tenants st !! t) as [c|]; [|done]. destruct (target_namespace c q) as [n|]; [|apply IH].
    change (resolve_principal_roles (sub o i) st2 now d (q_principal q) (vt_id c) n) with (resolve_principal_roles (sub o i) st now d (q_principal q) (vt_id c) n).
    destruct (resolve_principal_roles _ _ _ _ _ _ _) as [[d' [rs|]]| |]; cbn [rbind fst snd]; [|apply IH|done|done].
    by destruct (existsb _ _).
  Qed.
End ix.
Lemma but_refl st ix : but_for_index st (vw_index st ix).
Proof. done. Qed.
Lemma ix_add st ix ls : alike_but_index (wunit (v2_add_principal_role st ls)) (wunit (v2_add_principal_role (vw_index st ix) ls)).
Proof.
  revert st ix. induction ls as [|l ls IH]; intros st ix; cbn [v2_add_principal_role]; [by split|].
  change (w_prs (vw_index st ix)) with (w_prs st). destruct (w_prs st !! l) as [pr|]; [|done]. apply (IH (vw_index (vw_assign st (w_assign st ++ [Some l])) (index_add (w_index st) pr l))).
Qed.
Lemma ix_estep o st ix x : alike_but_index (estep o st x) (estep o (vw_index st ix) x).
Proof.
  destruct x as [x|e].
  - destruct x; cbn [estep vstep]; try (by split).
    + unfold upd_role. simpl. by destruct (w_roles st !! r).
    + unfold upd_role. simpl. by destruct (w_roles st !! r).
    + simpl. by destruct (dag_add_roles _ _ _).
    + simpl. by destruct (dag_add_child _ _ _).
    + unfold upd_tenant. simpl. by destruct (w_tenants st !! t).
    + simpl. by destruct (w_tenants st !! t).
    + simpl. destruct (w_tenants st !! t); [|done]. by destruct (vt_add_children _ _ _).
    + unfold upd_tenant. simpl. by destruct (w_tenants st !! t).
    + unfold v2_add_tenant. simpl. destruct (w_tenants st !! t); [|done]. by destruct (add_parents _ _ _ _).
    + apply ix_add.
    + unfold v2_remove_principal_role. simpl. destruct (remove_loop _ _ _) as [uj| |]; simpl; [|done|done]. by destruct (bool_decide _).
    + unfold upd_pr. simpl. by destruct (w_prs st !! pr).
    + unfold upd_pr. simpl. by destruct (w_prs st !! pr).
    + unfold upd_pr. simpl. by destruct (w_prs st !! pr).
    + unfold v2_authorize. rewrite ix_target. destruct (find_target_tenants _ _ _) as [[ts|]| |]; cbn [rbind wbool]; [|by split|done|done].
      rewrite ix_authorize. simpl. by destruct (authorize_loop _ _ _ _ _ _ _).
    + unfold v2_can. rewrite ix_target. destruct (find_target_tenants _ _ _) as [[ts|]| |]; cbn [rbind wbool]; [|by split|done|done].
      rewrite ix_can. simpl. by destruct (can_loop _ _ _ _ _ _ _ _).
  - destruct e as [l pr|t n|t m|t ks|r ps|t id|r n]; cbn [estep edit_step]; unfold upd_pr, upd_tenant, upd_role; simpl.
    + by destruct (w_prs st !! l).
    + by destruct (w_tenants st !! t).
    + by destruct (w_tenants st !! t).
    + by destruct (w_tenants st !! t).
    + by destruct (w_roles st !! r).
    + by destruct (w_tenants st !! t).
    + by destruct (w_roles st !! r).
Qed.
Lemma c43_unread o i st1 st2 ops : but_for_index st1 st2 -> alike_but_index (erun o i st1 ops) (erun o i st2 ops).
Proof.
  revert i st1 st2. induction ops as [|x ops IH]; intros i st1 st2 E; cbn [erun]; [by split|].
  pose proof (ix_estep (sub o i) st1 (w_index st2) x) as H. rewrite <- E in H. unfold alike_but_index in H.
  destruct (estep (sub o i) st1 x) as [[s1 a]| |], (estep (sub o i) st2 x) as [[s2 b]| |]; try done. destruct H as [H ->].
  cbn [rbind fst snd]. specialize (IH (S i) s1 s2 H). unfold alike_but_index in IH |- *.
  destruct (erun o (S i) s1 ops) as [[t1 u]| |], (erun o (S i) s2 ops) as [[t2 v]| |]; try done. destruct IH as [IH ->]. by split.
Qed.
