(** Writes to the objects of package v2: proofs. *)
From Verif Require Export V2Final EditSpec.

Lemma edit_wf st e st' : keeps_ids (EWrite e) -> v2_wf st -> edit_step st e = Ok st' -> v2_wf st'.
Proof.
  intros K Hwf. pose proof Hwf as [Hd Hr Hk Hp]. destruct e as [l pr|t n|t m|t ks|r ps|t id|r n]; simpl in K |- *; try done.
  - intros ([st1 e'] & (pr' & Hpr & -> & _)%upd_pr_inv & [= <-])%rbind_inv. split; simpl; try done.
    intros k Hl. destruct (Hp k Hl) as [pr0 ?%lookup_lt_Some]. apply lookup_lt_is_Some_2. by rewrite insert_length.
  - intros (c & Hc & ->)%upd_tenant_inv. apply (wf_tenants st t c); [done|done|done|]. intros k l. apply (Hk t c k l Hc).
  - intros (c & Hc & ->)%upd_tenant_inv. apply (wf_tenants st t c); [done|done|done|]. intros k l. apply (Hk t c k l Hc).
  - intros (c & Hc & ->)%upd_tenant_inv. apply (wf_tenants st t c); [done|done|done|]. intros k l. simpl. intros [Hl _]%map_filter_lookup_Some. by apply (Hk t c k l Hc).
  - intros (r' & Hr' & ->)%upd_role_inv. split; simpl; try done. eapply dag_wf_mono; [|done|done]. by rewrite insert_length.
  - intros (r' & Hr' & ->)%upd_role_inv. split; simpl; try done. eapply dag_wf_mono; [|done|done]. by rewrite insert_length.
Qed.
Lemma estep_wf o st x st' out : keeps_ids x -> v2_wf st -> estep o st x = Ok (st', out) -> v2_wf st'.
Proof.
  destruct x as [x|e]; simpl; intros K Hwf H; [by eapply vstep_wf|]. apply rbind_inv in H as (st1 & H & [= <- <-]). by apply (edit_wf st e st1 K).
Qed.
Lemma erun_inv (P : vstate -> Prop) (Q : eop -> Prop) o i st ops st' outs :
  (forall o st x st' out, Q x -> P st -> v2_wf st -> estep o st x = Ok (st', out) -> P st') -> (forall x, Q x -> keeps_ids x) ->
  Forall Q ops -> P st -> v2_wf st -> erun o i st ops = Ok (st', outs) -> P st' /\ v2_wf st'.
Proof.
  intros Hs HQ F. revert i st outs. induction F as [|x ops Hx F IH]; intros i st outs HP Hw; simpl; [by intros [= <- <-]|].
  intros ([st1 out1] & H1 & ([st2 outs2] & H2 & [= <- <-])%rbind_inv)%rbind_inv. simpl in *.
  eapply IH; [|by eapply estep_wf; [apply HQ|..]|exact H2]. by eapply Hs.
Qed.
Lemma ereachable_wf st : ereachable st -> v2_wf st.
Proof.
  intros (o & ops & outs & F & H). eapply (erun_inv (fun _ => True) keeps_ids) in H as [_ H]; [done|done|done|done|done|apply init_wf].
Qed.
Lemma vreachable_ereachable st : vreachable st -> ereachable st.
Proof.
  intros (o & ops & outs & H). exists o, (ECall <$> ops), outs. split; [apply Forall_fmap, Forall_forall; done|].
  revert H. generalize 0, v2_init, outs. induction ops as [|x ops IH]; intros i s out; [done|]. rewrite fmap_cons. cbn [vrun erun estep].
  intros ([s1 o1] & H1 & ([s2 o2] & H2 & [= <- <-])%rbind_inv)%rbind_inv. rewrite H1. cbn [rbind fst snd] in H2 |- *. by rewrite (IH _ _ _ H2).
Qed.

Lemma c125_authorize o st now q st' b : ereachable st -> distinct_ids st -> v2_authorize o st now q = Ok (st', b) -> b = true <-> v2_allowed st now q.
Proof. intros Hr%ereachable_wf Hd H. by apply (v2_authorize_exact o st now q st' b). Qed.
Lemma c125_can o st now q roles st' b : ereachable st -> distinct_ids st -> v2_can o st now q roles = Ok (st', b) -> b = true <-> v2_can_allowed st now q roles.
Proof. intros Hr%ereachable_wf Hd H. by apply (v2_can_exact o st now q roles st' b). Qed.
Lemma c125_returns o st now q roles : ereachable st -> ~ broken st ->
  (no_loop st now q -> exists st' b, v2_authorize o st now q = Ok (st', b)) /\ exists st' b, v2_can o st now q roles = Ok (st', b).
Proof. intros Hr%ereachable_wf Hb. split; [by apply v2_authorize_returns|by apply v2_can_returns]. Qed.
Lemma edit_assign st e st' : edit_step st e = Ok st' -> w_assign st' = w_assign st.
Proof.
  destruct e as [l pr|t n|t m|t ks|r ps|t id|r n]; simpl.
  - by intros ([st1 e'] & (pr' & Hpr & -> & _)%upd_pr_inv & [= <-])%rbind_inv.
  - by intros (c & Hc & ->)%upd_tenant_inv.
  - by intros (c & Hc & ->)%upd_tenant_inv.
  - by intros (c & Hc & ->)%upd_tenant_inv.
  - by intros (c & Hc & ->)%upd_role_inv.
  - by intros (c & Hc & ->)%upd_tenant_inv.
  - by intros (c & Hc & ->)%upd_role_inv.
Qed.
Lemma c125_not_broken o ops st outs : Forall keeps_ids ops -> Forall no_removal ops -> erun o 0 v2_init ops = Ok (st, outs) -> ~ broken st.
Proof.
  intros F1 F2 H. eapply (erun_inv (fun st => ~ broken st) (fun x => keeps_ids x /\ no_removal x)) in H as [H _]; [done| | | | |].
  - intros o' s x s' out [Hx Hn] Hb Hw Hs. destruct x as [x|e]; simpl in Hs.
    + destruct (vstep_assign _ _ _ _ _ Hs) as [[t ->]|[ls E]]; [done|]. unfold broken in *. rewrite E, elem_of_app. intros [?|Hn']; [done|].
      by apply elem_of_list_fmap in Hn' as (? & ? & _).
    + apply rbind_inv in Hs as (s1 & Hs & [= <- <-]). unfold broken. by rewrite (edit_assign _ _ _ Hs).
  - intros x [? _]. done.
  - apply Forall_and. by split.
  - unfold broken. simpl. apply not_elem_of_nil.
  - apply init_wf.
Qed.
Lemma c125_children st t ks st' c : edit_step st (EChildren t ks) = Ok st' -> tenant_at st t c ->
  forall b, child_tenant st' t b <-> exists k, vt_children c !! k = Some b /\ k ∉ ks.
Proof.
  intros (c' & Hc & ->)%upd_tenant_inv Ht b. unfold tenant_at in Ht. rewrite Hc in Ht. injection Ht as ->. unfold child_tenant, tenant_at. simpl.
  pose proof (lookup_lt_Some _ _ _ Hc) as L. rewrite (list_lookup_insert _ _ _ L). split.
  - intros (c' & k & [= <-] & H). simpl in H. apply map_filter_lookup_Some in H as [H1 H2]. by exists k.
  - intros (k & H1 & H2). exists (drop_children ks c), k. split; [done|]. simpl. by apply map_filter_lookup_Some.
Qed.
