(** Invariants of v2 histories. *)
From Verif Require Export V2Auth.
From Verif Require Import RoleHas.

(** ** Queries only extend the role cache, whatever the tenant ids. *)
Section sound.
  Variable st : vstate.
  Variable now : Z.
  Variable q : request.
  Hypothesis Hwf : v2_wf st.
  Definition maybe_allowed (t : nat) : Prop :=
    exists c n p, tenant_at st t c /\ uses_namespace c q n /\
      (scoped_perm st now (q_principal q) t n (q_scope q) p \/
       global_perm st now (q_principal q) t n (q_scope q) p) /\ matches_perm q p.
  Lemma authorize_loop_sound o i d ts d' b :
    extends st vr_perms d ->
    (forall t, t ∈ ts -> exists c, tenant_at st t c /\ w_reg st !! vt_id c = Some t) ->
    authorize_loop o i st now q d ts = Ok (d', b) ->
    extends st vr_perms d' /\ (b = true -> exists t, t ∈ ts /\ maybe_allowed t).
  Proof.
    revert i d. induction ts as [|t ts IH]; intros i d Hd Hts; simpl.
    - intros [= <- <-]. split; done.
    - destruct (Hts t) as (c & Hc & Hreg); [left|].
      assert (forall t, t ∈ ts -> exists c, tenant_at st t c /\ w_reg st !! vt_id c = Some t) as Hts'.
      { intros t' Ht'. apply Hts. by right. }
      assert (forall d1, extends st vr_perms d1 -> authorize_loop o (S i) st now q d1 ts = Ok (d', b) ->
        extends st vr_perms d' /\ (b = true -> exists t', t' ∈ t :: ts /\ maybe_allowed t')) as Hgo.
      { intros d1 Hd1 Hl. destruct (IH _ _ Hd1 Hts' Hl) as [Hd2 Hb]. split; [done|].
        intros (t' & Ht' & Ha)%Hb. exists t'. split; [by right|done]. }
      unfold tenant_at in Hc. rewrite Hc.
      destruct (target_namespace c q) as [n|] eqn:Hn; [|by apply Hgo].
      apply target_namespace_exact in Hn.
      intros ([d1 ps] & Hp & Hl)%rbind_inv. simpl in Hl.
      destruct (rpp_sound _ _ _ _ _ _ _ _ _ _ _ Hd Hreg Hp) as [Hd1 Heff].
      destruct ps as [s|]; [|by apply (Hgo d1)].
      apply rbind_inv in Hl as (b1 & Hb1 & Hl).
      destruct b1; [|by apply (Hgo d1)]. injection Hl as <- <-. split; [done|]. intros _.
      destruct (perms_match_exact _ _ _ _ Hb1) as [Hm _]. destruct (Hm eq_refl) as (p & Hps & Hmp).
      exists t. split; [left|]. exists c, n, p. split; [done|]. split; [done|]. split; [|done].
      by eapply Heff.
  Qed.
  Lemma can_loop_sound o i roles d ts d' b :
    extends st name_of d ->
    (forall t, t ∈ ts -> exists c, tenant_at st t c /\ w_reg st !! vt_id c = Some t) ->
    can_loop o i st now q roles d ts = Ok (d', b) ->
    extends st name_of d' /\ (b = true -> exists t, t ∈ ts /\
      exists c n x, tenant_at st t c /\ uses_namespace c q n /\
        holds_role st now (q_principal q) t n x /\ x ∈ roles).
  Proof.
    revert i d. induction ts as [|t ts IH]; intros i d Hd Hts; simpl.
    - intros [= <- <-]. split; done.
    - destruct (Hts t) as (c & Hc & Hreg); [left|].
      assert (forall t, t ∈ ts -> exists c, tenant_at st t c /\ w_reg st !! vt_id c = Some t) as Hts'.
      { intros t' Ht'. apply Hts. by right. }
      set (ok t := exists c n x, tenant_at st t c /\ uses_namespace c q n /\
        holds_role st now (q_principal q) t n x /\ x ∈ roles).
      assert (forall d1, extends st name_of d1 -> can_loop o (S i) st now q roles d1 ts = Ok (d', b) ->
        extends st name_of d' /\ (b = true -> exists t', t' ∈ t :: ts /\ ok t')) as Hgo.
      { intros d1 Hd1 Hl. destruct (IH _ _ Hd1 Hts' Hl) as [Hd2 Hb]. split; [done|].
        intros (t' & Ht' & Ha)%Hb. exists t'. split; [by right|done]. }
      unfold tenant_at in Hc. rewrite Hc.
      destruct (target_namespace c q) as [n|] eqn:Hn; [|by apply Hgo].
      apply target_namespace_exact in Hn.
      intros ([d1 rs] & Hp & Hl)%rbind_inv. simpl in Hl.
      destruct (rpr_sound _ _ _ _ _ _ _ _ _ _ Hd Hreg Hp) as [Hd1 Heff].
      destruct rs as [s|]; [|by apply (Hgo d1)].
      destruct (existsb (contains roles) (elements s)) eqn:Hex; [|by apply (Hgo d1)].
      injection Hl as <- <-. split; [done|]. intros _.
      apply existsb_exists in Hex as (x & Hx%elem_of_list_In%elem_of_elements & Hr).
      exists t. split; [left|]. exists c, n, x. split; [done|]. split; [done|].
      split; [by eapply Heff|]. clear -Hr. induction roles as [|y l IHl]; simpl in Hr; [done|].
      destruct (decide (y = x)) as [->|]; [left|right; by apply IHl].
  Qed.
End sound.
Lemma v2_authorize_sound o st now q st' b :
  v2_wf st -> v2_authorize o st now q = Ok (st', b) ->
  (exists d', st' = vw_dag st d' /\ extends st vr_perms d') /\
  (b = true -> exists t, target st q t /\ maybe_allowed st now q t).
Proof.
  intros Hwf. unfold v2_authorize. intros (ts & Hts & H)%rbind_inv.
  pose proof (find_target_exact _ _ _ _ Hts) as Htg. destruct ts as [ts|].
  - apply rbind_inv in H as ([d' b'] & Hl & [= <- <-]). simpl.
    destruct (authorize_loop_sound st now q _ _ _ _ _ _ (extends_refl st vr_perms)
      (fun t Ht => find_target_reg _ _ _ _ _ t Hwf Hts eq_refl Ht) Hl) as [Hd' Hb].
    split; [by exists d'|]. intros (t & Ht & Ha)%Hb. exists t. split; [|done]. apply Htg. by exists ts.
  - injection H as <- <-. split; [|done].
    exists (w_dag st). split; [by destruct st|apply extends_refl].
Qed.
Lemma v2_can_sound o st now q roles st' b :
  v2_wf st -> v2_can o st now q roles = Ok (st', b) ->
  (exists d', st' = vw_dag st d' /\ extends st name_of d') /\
  (b = true -> v2_can_allowed st now q roles).
Proof.
  intros Hwf. unfold v2_can. intros (ts & Hts & H)%rbind_inv.
  pose proof (find_target_exact _ _ _ _ Hts) as Htg. destruct ts as [ts|].
  - apply rbind_inv in H as ([d' b'] & Hl & [= <- <-]). simpl.
    destruct (can_loop_sound st now q _ _ _ _ _ _ _ (extends_refl st name_of)
      (fun t Ht => find_target_reg _ _ _ _ _ t Hwf Hts eq_refl Ht) Hl) as [Hd' Hb].
    split; [by exists d'|]. intros (t & Ht & c & n & x & ?)%Hb. exists t, c, n, x.
    split; [|done]. apply Htg. by exists ts.
  - injection H as <- <-. split; [|done].
    exists (w_dag st). split; [by destruct st|apply extends_refl].
Qed.

(** ** Well-formedness *)
Lemma upd_role_inv st l f st' : upd_role st l f = Ok st' ->
  exists r, w_roles st !! l = Some r /\ st' = vw_roles st (<[l := f r]> (w_roles st)).
Proof. unfold upd_role. destruct (w_roles st !! l); naive_solver. Qed.
Lemma upd_tenant_inv st l f st' : upd_tenant st l f = Ok st' ->
  exists t, w_tenants st !! l = Some t /\ st' = vw_tenants st (<[l := f t]> (w_tenants st)).
Proof. unfold upd_tenant. destruct (w_tenants st !! l); naive_solver. Qed.
Lemma upd_pr_inv st l f st' e : upd_pr st l f = Ok (st', e) ->
  exists pr, w_prs st !! l = Some pr /\ st' = vw_prs st (<[l := (f pr).1]> (w_prs st)) /\ e = (f pr).2.
Proof. unfold upd_pr. destruct (w_prs st !! l); naive_solver. Qed.

Lemma init_wf : v2_wf v2_init.
Proof.
  split; simpl.
  - intros n l H. simpl in H. by rewrite lookup_empty in H.
  - intros id l H. by rewrite lookup_empty in H.
  - intros l t k c Ht. unfold tenant_at in Ht. simpl in Ht. by rewrite lookup_nil in Ht.
  - by intros l ?%elem_of_nil.
Qed.
(** Changing one tenant object in place. *)
Lemma wf_tenants st t c c' :
  v2_wf st -> w_tenants st !! t = Some c -> vt_id c' = vt_id c ->
  (forall k l, vt_children c' !! k = Some l -> exists tl, tenant_at st l tl /\ vt_id tl = k) ->
  v2_wf (vw_tenants st (<[t := c']> (w_tenants st))).
Proof.
  intros [Hd Hr Hk Hp] Hc Hid Hch.
  assert (forall l tl, tenant_at st l tl ->
    exists tl', tenant_at (vw_tenants st (<[t := c']> (w_tenants st))) l tl' /\ vt_id tl' = vt_id tl) as Hkeep.
  { intros l tl Hl. unfold tenant_at in *. simpl. destruct (decide (l = t)) as [->|Hne].
    - exists c'. rewrite list_lookup_insert by by eapply lookup_lt_Some. simplify_eq. done.
    - exists tl. by rewrite list_lookup_insert_ne. }
  split; simpl; [done| | |done].
  - intros id l Hl. destruct (Hr id l Hl) as (tl & Htl & <-).
    destruct (Hkeep l tl Htl) as (tl' & ? & ?). by exists tl'.
  - intros l tl k ch Hl Hkc. unfold tenant_at in Hl. simpl in Hl.
    assert (exists tc, tenant_at st ch tc /\ vt_id tc = k) as (tc & Htc & <-).
    { destruct (decide (l = t)) as [->|Hne].
      - rewrite list_lookup_insert in Hl by by eapply lookup_lt_Some. injection Hl as <-. by apply Hch.
      - rewrite list_lookup_insert_ne in Hl by done. by eapply Hk. }
    destruct (Hkeep ch tc Htc) as (tc' & ? & ?). by exists tc'.
Qed.
Lemma vt_add_children_inv ts t cs t' :
  vt_add_children ts t cs = Ok t' ->
  vt_id t' = vt_id t /\ vt_namespaces t' = vt_namespaces t /\ vt_default t' = vt_default t /\
  vt_status t' = vt_status t /\
  forall k l, vt_children t' !! k = Some l -> vt_children t !! k = Some l \/
    exists tl, ts !! l = Some tl /\ vt_id tl = k.
Proof.
  revert t. induction cs as [|c cs IH]; intros t; simpl.
  - intros [= <-]. naive_solver.
  - destruct (ts !! c) as [ct|] eqn:Hc; [|done]. intros H.
    destruct (IH _ H) as (H1 & H2 & H3 & H4 & H5). simpl in *.
    split; [done|]. split; [done|]. split; [done|]. split; [done|].
    intros k l Hl. apply H5 in Hl as [Hl|?]; [|by right].
    apply lookup_insert_Some in Hl as [[<- <-]|[_ ?]]; [|by left]. right. by exists ct.
Qed.
Lemma dag_add_roles_inv h d ls d' :
  dag_add_roles h d ls = Ok d' ->
  d_edges d' = d_edges d /\ d_resolved d' = d_resolved d /\ (dag_wf h d -> dag_wf h d').
Proof.
  revert d. induction ls as [|l ls IH]; intros d; simpl; [by intros [= <-]|].
  destruct (h !! l) as [r|] eqn:Hr; [|done]. intros H.
  destruct (IH _ H) as (H1 & H2 & H3). simpl in *. split; [done|]. split; [done|].
  intros Hwf. apply H3. intros n l' Hl'. simpl in Hl'.
  apply lookup_insert_Some in Hl' as [[<- <-]|[_ ?]]; [by exists r|by eapply Hwf].
Qed.
Lemma dag_add_child_inv d p cs d' e :
  dag_add_child d p cs = Ok (d', e) -> d_roles d' = d_roles d /\ d_resolved d' = d_resolved d.
Proof.
  destruct e as [e|]; intros H.
  - by apply dag_add_child_error in H as ->.
  - by apply dag_add_child_success in H as ->.
Qed.
Lemma v2_add_principal_role_inv st ls st' :
  v2_add_principal_role st ls = Ok st' ->
  w_roles st' = w_roles st /\ w_tenants st' = w_tenants st /\ w_prs st' = w_prs st /\
  w_dag st' = w_dag st /\ w_reg st' = w_reg st /\ w_default st' = w_default st /\
  w_assign st' = w_assign st ++ (Some <$> ls) /\
  Forall (fun l => exists pr, w_prs st !! l = Some pr) ls.
Proof.
  revert st. induction ls as [|l ls IH]; intros st; simpl.
  - intros [= <-]. rewrite app_nil_r. repeat split; try done.
  - destruct (w_prs st !! l) as [pr|] eqn:Hpr; [|done]. intros H.
    destruct (IH _ H) as (H1 & H2 & H3 & H4 & H5 & H6 & H7 & H8). simpl in *.
    repeat split; try done.
    + by rewrite H7, <-app_assoc.
    + constructor; [by exists pr|done].
Qed.

Lemma remove_loop_length prs tg ps u j :
  remove_loop prs tg ps = Ok (u, j) -> length u = length ps /\ j <= length ps.
Proof.
  revert u j. induction ps as [|p ps IH]; intros u j; simpl; [by intros [= <- <-]|].
  intros (m & _ & ([u' j'] & Hl & [= H])%rbind_inv)%rbind_inv.
  destruct (IH _ _ Hl). destruct m; injection H as <- <-; simpl; lia.
Qed.
Lemma remove_loop_elem prs tg ps u j l :
  remove_loop prs tg ps = Ok (u, j) -> Some l ∈ u -> Some l ∈ ps.
Proof.
  revert u j. induction ps as [|p ps IH]; intros u j; simpl; [by intros [= <- <-]|].
  intros (m & _ & ([u' j'] & Hl & [= H])%rbind_inv)%rbind_inv.
  destruct m; injection H as <- <-; simpl; intros [Hx|Hx]%elem_of_cons; [done| | |].
  - right. by eapply IH.
  - rewrite Hx. left.
  - right. by eapply IH.
Qed.
Lemma v2_remove_inv st tg st' e :
  v2_remove_principal_role st tg = Ok (st', e) ->
  w_roles st' = w_roles st /\ w_tenants st' = w_tenants st /\ w_prs st' = w_prs st /\
  w_dag st' = w_dag st /\ w_reg st' = w_reg st /\ w_default st' = w_default st /\
  forall l, Some l ∈ w_assign st' -> Some l ∈ w_assign st.
Proof.
  unfold v2_remove_principal_role. intros ([u j] & Hl & H)%rbind_inv. simpl in H.
  case_bool_decide; injection H as <- <-; simpl; repeat split; try done.
  intros l Hin. eapply remove_loop_elem; [done|]. eapply elem_of_list_lookup in Hin as [i Hi].
  apply lookup_take_Some in Hi as [Hi _]. by eapply elem_of_list_lookup_2.
Qed.

Lemma dag_wf_mono h h' d d' :
  length h <= length h' -> d_roles d' = d_roles d -> dag_wf h d -> dag_wf h' d'.
Proof.
  intros Hlen Hr Hwf n l Hl. rewrite Hr in Hl. destruct (Hwf n l Hl) as [r Hr'].
  apply lookup_lt_is_Some_2. apply lookup_lt_Some in Hr'. lia.
Qed.
Lemma vstep_wf o st x st' out : v2_wf st -> vstep o st x = Ok (st', out) -> v2_wf st'.
Proof.
  intros Hwf. pose proof Hwf as [Hd Hr Hk Hp]. destruct x; simpl.
  - intros [= <- <-]. split; simpl; try done. eapply dag_wf_mono; [|done|done]. rewrite app_length. lia.
  - intros [= <- <-].
    assert (forall l t, tenant_at st l t ->
      tenant_at (vw_tenants st (w_tenants st ++ [new_vtenant id def])) l t) as Hkeep.
    { intros l t Hl. unfold tenant_at in *. simpl. by apply lookup_app_l_Some. }
    split; simpl; try done.
    + intros i l Hl. destruct (Hr i l Hl) as (t & ? & ?). exists t. eauto.
    + intros l t k c Hl Hc. unfold tenant_at in Hl. simpl in Hl.
      apply lookup_app_Some in Hl as [Hl|[_ Hl]].
      * destruct (Hk l t k c Hl Hc) as (tc & ? & ?). exists tc. eauto.
      * apply list_lookup_singleton_Some in Hl as [_ <-]. by destruct def; simpl in Hc; rewrite lookup_empty in Hc.
  - intros [= <- <-]. split; simpl; try done. intros l Hl. destruct (Hp l Hl) as [pr' ?].
    exists pr'. by apply lookup_app_l_Some.
  - intros (st1 & (r' & Hr' & ->)%upd_role_inv & [= <- <-])%rbind_inv.
    split; simpl; try done. eapply dag_wf_mono; [|done|done]. by rewrite insert_length.
  - intros (st1 & (r' & Hr' & ->)%upd_role_inv & [= <- <-])%rbind_inv.
    split; simpl; try done. eapply dag_wf_mono; [|done|done]. by rewrite insert_length.
  - intros (d & Hda & [= <- <-])%rbind_inv. apply dag_add_roles_inv in Hda as (_ & _ & Hda).
    split; simpl; try done. by apply Hda.
  - intros ([d e] & Hda & [= <- <-])%rbind_inv. apply dag_add_child_inv in Hda as (Hda & _).
    split; simpl; try done. by eapply dag_wf_mono.
  - intros (st1 & (c & Hc & ->)%upd_tenant_inv & [= <- <-])%rbind_inv.
    apply (wf_tenants st t c); [done|done|done|]. intros k l. apply (Hk t c k l Hc).
  - destruct (w_tenants st !! t) as [c|] eqn:Hc; [|done]. intros [= <- <-].
    unfold vt_add_scopes. destruct (vt_namespaces c !! n) as [ss'|]; simpl;
      (apply (wf_tenants st t c); [done|done|done|]); intros k l; apply (Hk t c k l Hc).
  - destruct (w_tenants st !! t) as [c|] eqn:Hc; [|done].
    intros (c' & Hc' & [= <- <-])%rbind_inv.
    apply vt_add_children_inv in Hc' as (Hid & _ & _ & _ & Hch).
    apply (wf_tenants st t c); [done|done|done|]. intros k l [Hl|?]%Hch; [|done]. by apply (Hk t c k l).
  - intros (st1 & (c & Hc & ->)%upd_tenant_inv & [= <- <-])%rbind_inv.
    apply (wf_tenants st t c); [done|done|done|]. intros k l. apply (Hk t c k l Hc).
  - unfold v2_add_tenant. intros (st1 & H & [= <- <-])%rbind_inv.
    destruct (w_tenants st !! t) as [c|] eqn:Hc; [|done]. apply rbind_inv in H as (ps & _ & [= <-]).
    split; simpl; try done. intros id l Hl.
    apply lookup_insert_Some in Hl as [[<- <-]|[_ ?]]; [by exists c|by apply Hr].
  - intros [= <- <-]. by split.
  - intros (st1 & H & [= <- <-])%rbind_inv.
    apply v2_add_principal_role_inv in H as (H1 & H2 & H3 & H4 & H5 & H6 & H7 & H8).
    split; unfold tenant_at; rewrite ?H1, ?H2, ?H3, ?H4, ?H5, ?H7; try done.
    intros l [Hl|Hl]%elem_of_app; [by apply Hp|].
    apply elem_of_list_fmap in Hl as (l' & [= <-] & Hl'). by eapply Forall_forall in H8.
  - intros ([st1 e] & H & [= <- <-])%rbind_inv. simpl.
    apply v2_remove_inv in H as (H1 & H2 & H3 & H4 & H5 & H6 & H7).
    split; unfold tenant_at; rewrite ?H1, ?H2, ?H3, ?H4, ?H5; try done.
    intros l Hl. apply Hp. by apply H7.
  - intros ([st1 e'] & (pr' & Hpr & -> & _)%upd_pr_inv & [= <- <-])%rbind_inv. split; simpl; try done.
    intros l Hl. destruct (Hp l Hl) as [pr0 ?%lookup_lt_Some].
    apply lookup_lt_is_Some_2. by rewrite insert_length.
  - intros ([st1 e'] & (pr' & Hpr & -> & _)%upd_pr_inv & [= <- <-])%rbind_inv. split; simpl; try done.
    intros l Hl. destruct (Hp l Hl) as [pr0 ?%lookup_lt_Some].
    apply lookup_lt_is_Some_2. by rewrite insert_length.
  - intros ([st1 e'] & (pr' & Hpr & -> & _)%upd_pr_inv & [= <- <-])%rbind_inv. split; simpl; try done.
    intros l Hl. destruct (Hp l Hl) as [pr0 ?%lookup_lt_Some].
    apply lookup_lt_is_Some_2. by rewrite insert_length.
  - intros ([st1 b] & H & [= <- <-])%rbind_inv. simpl.
    apply v2_authorize_sound in H as [(d' & -> & Hd') _]; [|done].
    split; simpl; try done. eapply dag_wf_mono; [done|by apply (ext_roles _ _ _ Hd')|done].
  - intros ([st1 b] & H & [= <- <-])%rbind_inv. simpl.
    apply v2_can_sound in H as [(d' & -> & Hd') _]; [|done].
    split; simpl; try done. eapply dag_wf_mono; [done|by apply (ext_roles _ _ _ Hd')|done].
Qed.

(** Induction over histories. *)
Lemma vrun_inv (P : vstate -> Prop) o i st ops st' outs :
  (forall o st x st' out, P st -> v2_wf st -> vstep o st x = Ok (st', out) -> P st') ->
  P st -> v2_wf st -> vrun o i st ops = Ok (st', outs) -> P st' /\ v2_wf st'.
Proof.
  intros Hstep. revert i st outs. induction ops as [|x ops IH]; intros i st outs HP Hwf; simpl.
  - by intros [= <- <-].
  - intros ([st1 out1] & H1 & ([st2 outs2] & H2 & [= <- <-])%rbind_inv)%rbind_inv. simpl in *.
    eapply IH; [|by eapply vstep_wf|exact H2]. by eapply Hstep.
Qed.
Lemma vreachable_wf st : vreachable st -> v2_wf st.
Proof.
  intros (o & ops & outs & H). by eapply (vrun_inv (fun _ => True)); [|..|exact H]; [done|done|apply init_wf].
Qed.
Lemma vreachable_inv (P : vstate -> Prop) st :
  P v2_init -> (forall o st x st' out, P st -> v2_wf st -> vstep o st x = Ok (st', out) -> P st') ->
  vreachable st -> P st.
Proof.
  intros H0 Hs (o & ops & outs & H). by eapply (vrun_inv P); [exact Hs|..|exact H]; [|apply init_wf].
Qed.

(** ** The role graph *)
Lemma vstep_edges o st x st' out :
  v2_wf st -> vstep o st x = Ok (st', out) ->
  d_edges (w_dag st') = d_edges (w_dag st) \/
  exists p cs e, x = VAddChildRole p cs /\ dag_add_child (w_dag st) p cs = Ok (w_dag st', e).
Proof.
  intros Hwf. destruct x; simpl.
  1,2,3,13: intros [= <- <-]; by left.
  1,2: intros (st1 & (r' & Hr' & ->)%upd_role_inv & [= <- <-])%rbind_inv; by left.
  - intros (d & Hda & [= <- <-])%rbind_inv. left. by apply dag_add_roles_inv in Hda as (? & _).
  - intros ([d e] & Hda & [= <- <-])%rbind_inv. right. by exists parent, cs, e.
  - intros (st1 & (c & Hc & ->)%upd_tenant_inv & [= <- <-])%rbind_inv. by left.
  - destruct (w_tenants st !! t) as [c|] eqn:Hc; [|done]. intros [= <- <-]. by left.
  - destruct (w_tenants st !! t) as [c|] eqn:Hc; [|done].
    intros (c' & Hc' & [= <- <-])%rbind_inv. by left.
  - intros (st1 & (c & Hc & ->)%upd_tenant_inv & [= <- <-])%rbind_inv. by left.
  - unfold v2_add_tenant. intros (st1 & H & [= <- <-])%rbind_inv.
    destruct (w_tenants st !! t) as [c|] eqn:Hc; [|done]. apply rbind_inv in H as (ps & _ & [= <-]). by left.
  - intros (st1 & H & [= <- <-])%rbind_inv.
    apply v2_add_principal_role_inv in H as (_ & _ & _ & H4 & _). left. by rewrite H4.
  - intros ([st1 e] & H & [= <- <-])%rbind_inv. simpl.
    apply v2_remove_inv in H as (_ & _ & _ & H4 & _). left. by rewrite H4.
  - intros ([st1 e'] & (pr' & Hpr & -> & _)%upd_pr_inv & [= <- <-])%rbind_inv. by left.
  - intros ([st1 e'] & (pr' & Hpr & -> & _)%upd_pr_inv & [= <- <-])%rbind_inv. by left.
  - intros ([st1 e'] & (pr' & Hpr & -> & _)%upd_pr_inv & [= <- <-])%rbind_inv. by left.
  - intros ([st1 b] & H & [= <- <-])%rbind_inv. simpl.
    apply v2_authorize_sound in H as [(d' & -> & Hd') _]; [|done]. left. by apply (ext_edges _ _ _ Hd').
  - intros ([st1 b] & H & [= <- <-])%rbind_inv. simpl.
    apply v2_can_sound in H as [(d' & -> & Hd') _]; [|done]. left. by apply (ext_edges _ _ _ Hd').
Qed.
Lemma vreachable_acyclic st : vreachable st -> acyclic (d_edges (w_dag st)).
Proof.
  apply (vreachable_inv (fun st => acyclic (d_edges (w_dag st)))); [apply empty_acyclic|]. intros o st0 x st' out Hac Hwf H.
  destruct (vstep_edges _ _ _ _ _ Hwf H) as [->|(p & cs & e & -> & Hd)]; [done|].
  by eapply dag_add_child_acyclic.
Qed.

(** Once a role has been resolved its entry never changes. *)
Lemma vstep_resolved o st x st' out r s :
  v2_wf st -> vstep o st x = Ok (st', out) ->
  d_resolved (w_dag st) !! r = Some s -> d_resolved (w_dag st') !! r = Some s.
Proof.
  intros Hwf. destruct x; simpl.
  1,2,3,13: by intros [= <- <-].
  1,2: by intros (st1 & (r' & Hr' & ->)%upd_role_inv & [= <- <-])%rbind_inv.
  - intros (d & Hda & [= <- <-])%rbind_inv. simpl. by apply dag_add_roles_inv in Hda as (_ & -> & _).
  - intros ([d e] & Hda & [= <- <-])%rbind_inv. simpl. by apply dag_add_child_inv in Hda as (_ & ->).
  - by intros (st1 & (c & Hc & ->)%upd_tenant_inv & [= <- <-])%rbind_inv.
  - destruct (w_tenants st !! t) as [c|] eqn:Hc; [|done]. by intros [= <- <-].
  - destruct (w_tenants st !! t) as [c|] eqn:Hc; [|done].
    by intros (c' & Hc' & [= <- <-])%rbind_inv.
  - by intros (st1 & (c & Hc & ->)%upd_tenant_inv & [= <- <-])%rbind_inv.
  - unfold v2_add_tenant. intros (st1 & H & [= <- <-])%rbind_inv.
    destruct (w_tenants st !! t) as [c|] eqn:Hc; [|done]. by apply rbind_inv in H as (ps & _ & [= <-]).
  - intros (st1 & H & [= <- <-])%rbind_inv.
    apply v2_add_principal_role_inv in H as (_ & _ & _ & H4 & _). by rewrite H4.
  - intros ([st1 e] & H & [= <- <-])%rbind_inv. simpl.
    apply v2_remove_inv in H as (_ & _ & _ & H4 & _). by rewrite H4.
  - by intros ([st1 e'] & (pr' & Hpr & -> & _)%upd_pr_inv & [= <- <-])%rbind_inv.
  - by intros ([st1 e'] & (pr' & Hpr & -> & _)%upd_pr_inv & [= <- <-])%rbind_inv.
  - by intros ([st1 e'] & (pr' & Hpr & -> & _)%upd_pr_inv & [= <- <-])%rbind_inv.
  - intros ([st1 b] & H & [= <- <-])%rbind_inv. simpl.
    apply v2_authorize_sound in H as [(d' & -> & Hd') _]; [|done]. by apply (ext_kept _ _ _ Hd').
  - intros ([st1 b] & H & [= <- <-])%rbind_inv. simpl.
    apply v2_can_sound in H as [(d' & -> & Hd') _]; [|done]. by apply (ext_kept _ _ _ Hd').
Qed.
Lemma vrun_resolved o i st ops st' outs r s :
  v2_wf st -> vrun o i st ops = Ok (st', outs) ->
  d_resolved (w_dag st) !! r = Some s -> d_resolved (w_dag st') !! r = Some s.
Proof.
  intros Hwf H Hs.
  eapply (vrun_inv (fun st => d_resolved (w_dag st) !! r = Some s)); [|done|done|exact H].
  intros. by eapply vstep_resolved.
Qed.
