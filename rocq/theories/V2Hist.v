(** Histories in which the role cache never goes stale. *)
From Verif Require Export V2Cor.
From Verif Require Import RoleHas.

Lemma vrun_app o i st ops1 ops2 st' outs :
  vrun o i st (ops1 ++ ops2) = Ok (st', outs) ->
  exists st1 outs1 outs2, vrun o i st ops1 = Ok (st1, outs1) /\
    vrun o (i + length ops1) st1 ops2 = Ok (st', outs2).
Proof.
  revert i st outs. induction ops1 as [|x ops1 IH]; intros i st outs H.
  - exists st, [], outs. split; [done|]. simpl in *. by rewrite Nat.add_0_r.
  - simpl in H. apply rbind_inv in H as ([st1 o1] & H1 & H). apply rbind_inv in H as ([st2 o2] & H2 & [= <- <-]).
    simpl in *. destruct (IH _ _ _ H2) as (st3 & outs1 & outs2 & H3 & H4).
    exists st3, (o1 :: outs1), outs2. split.
    + rewrite H1. simpl. by rewrite H3.
    + by rewrite <-Nat.add_succ_comm in H4 || (replace (i + S (length ops1)) with (S i + length ops1) by lia).
Qed.

(** Calls that do not decide leave the cache alone. *)
Lemma vstep_no_decision o st x st' out :
  ~ decides x -> vstep o st x = Ok (st', out) -> d_resolved (w_dag st') = d_resolved (w_dag st).
Proof.
  intros Hnd. destruct x; simpl in Hnd; try done; simpl.
  1,2,3,13: by intros [= <- <-].
  1,2: by intros (st1 & (r' & Hr' & ->)%upd_role_inv & [= <- <-])%rbind_inv.
  - intros (d & Hda & [= <- <-])%rbind_inv. simpl. by apply dag_add_roles_inv in Hda as (_ & -> & _).
  - intros ([d e] & Hda & [= <- <-])%rbind_inv. simpl. by apply dag_add_child_inv in Hda as (_ & ->).
  - by intros (st1 & (c & Hc & ->)%upd_tenant_inv & [= <- <-])%rbind_inv.
  - destruct (w_tenants st !! t) as [c|] eqn:Hc; [|done]. by intros [= <- <-].
  - destruct (w_tenants st !! t) as [c|] eqn:Hc; [|done].
    by intros (c' & Hc' & [= <- <-])%rbind_inv.
  - by intros (st1 & (c & Hc & ->)%upd_tenant_inv & [= <- <-])%rbind_inv.
  - unfold v2_add_tenant. intros (st1 & H & [= <- <-])%rbind_inv.
    destruct (w_tenants st !! t) as [c|] eqn:Hc; [|done]. by apply rbind_inv in H as (ps & _ & [= <-]).
  - intros (st1 & H & [= <- <-])%rbind_inv.
    apply v2_add_principal_role_inv in H as (_ & _ & _ & H4 & _). by rewrite H4.
  - intros ([st1 e] & H & [= <- <-])%rbind_inv. simpl.
    apply v2_remove_inv in H as (_ & _ & _ & H4 & _). by rewrite H4.
  - by intros ([st1 e'] & (pr' & Hpr & -> & _)%upd_pr_inv & [= <- <-])%rbind_inv.
  - by intros ([st1 e'] & (pr' & Hpr & -> & _)%upd_pr_inv & [= <- <-])%rbind_inv.
  - by intros ([st1 e'] & (pr' & Hpr & -> & _)%upd_pr_inv & [= <- <-])%rbind_inv.
Qed.
Lemma vrun_no_decision o i st ops st' outs :
  Forall (fun x => ~ decides x) ops -> vrun o i st ops = Ok (st', outs) ->
  d_resolved (w_dag st') = d_resolved (w_dag st).
Proof.
  intros Hops. revert i st outs. induction Hops as [|x ops Hx Hops IH]; intros i st outs; simpl.
  - by intros [= <- <-].
  - intros ([st1 o1] & H1 & ([st2 o2] & H2 & [= <- <-])%rbind_inv)%rbind_inv. simpl in *.
    rewrite (IH _ _ _ H2). by eapply vstep_no_decision.
Qed.

(** The cache says what the graph says, in terms of [contrib]. *)
Definition cache_says (contrib : vrole -> gset string) (st : vstate) : Prop :=
  forall r s, d_resolved (w_dag st) !! r = Some s -> forall x, x ∈ s <->
    exists n ro, rtc (below (w_roles st) (w_dag st)) r n /\ registered (w_roles st) (w_dag st) n ro /\ x ∈ contrib ro.
Lemma cache_says_same contrib st st' :
  w_roles st' = w_roles st -> w_dag st' = w_dag st -> cache_says contrib st -> cache_says contrib st'.
Proof. unfold cache_says. by intros -> ->. Qed.
Lemma cache_says_ext contrib st d :
  extends st contrib d -> cache_says contrib st -> cache_says contrib (vw_dag st d).
Proof.
  intros Hd Hc r s Hr x. simpl in *. rewrite (ext_view _ _ _ Hd r s Hr x). unfold role_view.
  assert ((exists n ro, rtc (below (w_roles st) (w_dag st)) r n /\
      registered (w_roles st) (w_dag st) n ro /\ x ∈ contrib ro) <->
    (exists n ro, rtc (below (w_roles st) d) r n /\ registered (w_roles st) d n ro /\ x ∈ contrib ro)) as Hiff.
  { split; intros (n & ro & H1 & H2 & H3); exists n, ro.
    - split; [eapply rtc_below_ext; [| |exact H1]; symmetry; apply Hd|].
      split; [|done]. eapply registered_ext; [|exact H2]. symmetry. apply Hd.
    - split; [eapply rtc_below_ext; [| |exact H1]; apply Hd|].
      split; [|done]. eapply registered_ext; [|exact H2]. apply Hd. }
  destruct (d_resolved (w_dag st) !! r) as [s'|] eqn:Hs; [|done].
  by rewrite (Hc r s' Hs x).
Qed.
Lemma registered_app h d n ro r :
  dag_wf h d -> registered (h ++ [ro]) d n r <-> registered h d n r.
Proof.
  intros Hwf. unfold registered. split; intros (l & Hl & Hr); exists l; (split; [done|]).
  - destruct (Hwf n l Hl) as [r' Hr']. rewrite lookup_app_l in Hr; [done|by eapply lookup_lt_Some].
  - by apply lookup_app_l_Some.
Qed.
Lemma rtc_below_app h d ro a b :
  dag_wf h d -> rtc (below (h ++ [ro]) d) a b <-> rtc (below h d) a b.
Proof.
  intros Hwf.
  assert (forall a b, below (h ++ [ro]) d a b <-> below h d a b) as Hb.
  { intros a0 b0. unfold below. by setoid_rewrite (registered_app h d _ ro _ Hwf). }
  split; induction 1 as [|x y z Hxy _ IH]; try done; (eapply rtc_l; [|exact IH]); by apply Hb.
Qed.
Lemma cache_says_new contrib st ro :
  v2_wf st -> cache_says contrib st -> cache_says contrib (vw_roles st (w_roles st ++ [ro])).
Proof.
  intros Hwf Hc r s Hr x. simpl in *. rewrite (Hc r s Hr x).
  pose proof (wf_dag _ Hwf) as Hd.
  split; intros (n & r' & H1 & H2 & H3); exists n, r'.
  - split; [by apply rtc_below_app|]. split; [by apply registered_app|done].
  - rewrite rtc_below_app in H1 by done. rewrite registered_app in H2 by done. done.
Qed.
Lemma vstep_cache_says contrib o st x st' out :
  v2_wf st -> ~ changes_roles x ->
  (forall now q, x = VAuthorize now q -> contrib = vr_perms) ->
  (forall now q roles, x = VCan now q roles -> contrib = name_of) ->
  vstep o st x = Ok (st', out) -> cache_says contrib st -> cache_says contrib st'.
Proof.
  intros Hwf Hn Ha Hcn. destruct x; simpl in Hn; try done; simpl.
  - intros [= <- <-]. by apply cache_says_new.
  - intros [= <- <-]. by apply cache_says_same.
  - intros [= <- <-]. by apply cache_says_same.
  - intros (st1 & (c & Hc & ->)%upd_tenant_inv & [= <- <-])%rbind_inv. by apply cache_says_same.
  - destruct (w_tenants st !! t) as [c|] eqn:Hc; [|done]. intros [= <- <-]. by apply cache_says_same.
  - destruct (w_tenants st !! t) as [c|] eqn:Hc; [|done].
    intros (c' & Hc' & [= <- <-])%rbind_inv. by apply cache_says_same.
  - intros (st1 & (c & Hc & ->)%upd_tenant_inv & [= <- <-])%rbind_inv. by apply cache_says_same.
  - unfold v2_add_tenant. intros (st1 & H & [= <- <-])%rbind_inv.
    destruct (w_tenants st !! t) as [c|] eqn:Hc; [|done]. apply rbind_inv in H as (ps & _ & [= <-]).
    by apply cache_says_same.
  - intros [= <- <-]. by apply cache_says_same.
  - intros (st1 & H & [= <- <-])%rbind_inv.
    apply v2_add_principal_role_inv in H as (H1 & _ & _ & H4 & _). by apply cache_says_same.
  - intros ([st1 e] & H & [= <- <-])%rbind_inv. simpl.
    apply v2_remove_inv in H as (H1 & _ & _ & H4 & _). by apply cache_says_same.
  - intros ([st1 e'] & (pr' & Hpr & -> & _)%upd_pr_inv & [= <- <-])%rbind_inv. by apply cache_says_same.
  - intros ([st1 e'] & (pr' & Hpr & -> & _)%upd_pr_inv & [= <- <-])%rbind_inv. by apply cache_says_same.
  - intros ([st1 e'] & (pr' & Hpr & -> & _)%upd_pr_inv & [= <- <-])%rbind_inv. by apply cache_says_same.
  - intros ([st1 b] & H & [= <- <-])%rbind_inv. simpl.
    apply v2_authorize_sound in H as [(d' & -> & Hd') _]; [|done].
    rewrite (Ha _ _ eq_refl). by apply cache_says_ext.
  - intros ([st1 b] & H & [= <- <-])%rbind_inv. simpl.
    apply v2_can_sound in H as [(d' & -> & Hd') _]; [|done].
    rewrite (Hcn _ _ _ eq_refl). by apply cache_says_ext.
Qed.
Lemma vrun_cache_says contrib o i st ops st' outs :
  v2_wf st -> Forall (fun x => ~ changes_roles x) ops ->
  (contrib = vr_perms /\ Forall (fun x => ~ is_can x) ops \/
   contrib = name_of /\ Forall (fun x => ~ is_authorize x) ops) ->
  vrun o i st ops = Ok (st', outs) -> cache_says contrib st -> cache_says contrib st'.
Proof.
  intros Hwf Hops. revert i st outs Hwf. induction Hops as [|x ops Hx Hops IH]; intros i st outs Hwf Hk; simpl.
  - by intros [= <- <-].
  - intros ([st1 o1] & H1 & ([st2 o2] & H2 & [= <- <-])%rbind_inv)%rbind_inv Hc. simpl in *.
    eapply IH; [by eapply vstep_wf| |exact H2|].
    + destruct Hk as [[? ?%Forall_cons]|[? ?%Forall_cons]]; naive_solver.
    + eapply vstep_cache_says; [done|done| | |done|done].
      * intros now q ->. destruct Hk as [[? _]|[_ [Hf _]%Forall_cons]]; [done|]. by destruct Hf.
      * intros now q roles ->. destruct Hk as [[_ [Hf _]%Forall_cons]|[? _]]; [|done]. by destruct Hf.
Qed.
Lemma setup_cache_says contrib o ops1 ops2 st outs :
  vrun o 0 v2_init (ops1 ++ ops2) = Ok (st, outs) ->
  Forall (fun x => ~ decides x) ops1 -> Forall (fun x => ~ changes_roles x) ops2 ->
  (contrib = vr_perms /\ Forall (fun x => ~ is_can x) ops2 \/
   contrib = name_of /\ Forall (fun x => ~ is_authorize x) ops2) ->
  cache_says contrib st.
Proof.
  intros H H1 H2 H3. apply vrun_app in H as (st1 & outs1 & outs2 & Hr1 & Hr2).
  eapply vrun_cache_says; [|exact H2|exact H3|exact Hr2|].
  - apply vreachable_wf. by exists o, ops1, outs1.
  - intros r s Hr. rewrite (vrun_no_decision _ _ _ _ _ _ H1 Hr1) in Hr. simpl in Hr.
    by rewrite lookup_empty in Hr.
Qed.
Lemma c30_setup o ops1 ops2 st outs o' now q st' b :
  vrun o 0 v2_init (ops1 ++ ops2) = Ok (st, outs) ->
  Forall (fun x => ~ decides x) ops1 ->
  Forall (fun x => ~ changes_roles x /\ ~ is_can x) ops2 -> distinct_ids st ->
  v2_authorize o' st now q = Ok (st', b) -> (b = true <-> v2_allowed (forget st) now q).
Proof.
  intros H H1 H2 Hd. apply c30_current; [by exists o, (ops1 ++ ops2), outs|done|].
  intros pr _ _ s Hs p.
  apply (setup_cache_says vr_perms o ops1 ops2 st outs H H1); [| |exact Hs].
  - eapply Forall_impl; [exact H2|]. by intros x [? ?].
  - left. split; [done|]. eapply Forall_impl; [exact H2|]. by intros x [? ?].
Qed.
Lemma c30_can_setup o ops1 ops2 st outs o' now q roles st' b :
  vrun o 0 v2_init (ops1 ++ ops2) = Ok (st, outs) ->
  Forall (fun x => ~ decides x) ops1 ->
  Forall (fun x => ~ changes_roles x /\ ~ is_authorize x) ops2 -> distinct_ids st ->
  v2_can o' st now q roles = Ok (st', b) -> (b = true <-> v2_can_allowed (forget st) now q roles).
Proof.
  intros H H1 H2 Hd. apply c30_can_current; [by exists o, (ops1 ++ ops2), outs|done|].
  intros pr _ _ s Hs p.
  assert (cache_says name_of st) as Hcs.
  { apply (setup_cache_says name_of o ops1 ops2 st outs H H1).
    - eapply Forall_impl; [exact H2|]. by intros x [? ?].
    - right. split; [done|]. eapply Forall_impl; [exact H2|]. by intros x [? ?]. }
  rewrite (Hcs _ _ Hs p). unfold includes, name_of. by setoid_rewrite elem_of_singleton.
Qed.
