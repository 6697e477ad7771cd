(** Corollaries for the v2 properties. *)
From Verif Require Export V2Remove V2PropSpec.
From Verif Require Import RoleHas.

(** ** What decisions depend on *)
Definition tenants_like (st1 st2 : vstate) : Prop :=
  forall a c, tenant_at st1 a c -> exists c', tenant_at st2 a c' /\ same_but_status c c'.
Lemma child_tenant_like st1 st2 a b :
  tenants_like st1 st2 -> child_tenant st1 a b -> child_tenant st2 a b.
Proof.
  intros Ht (c & k & Hc & Hk). destruct (Ht a c Hc) as (c' & Hc' & _ & _ & _ & E).
  exists c', k. by rewrite <-E.
Qed.
Lemma rtc_manages_child st u a b : rtc (manages st u) a b -> rtc (child_tenant st) a b.
Proof. induction 1 as [|x y z [H _] _ IH]; [done|]. by eapply rtc_l. Qed.
Lemma rtc_manages_sub st1 st2 u t t' :
  tenants_like st1 st2 ->
  (forall pr, given_below st1 t pr -> pr_principal pr = u -> pr_manage pr = true ->
     assigned st1 pr -> exists s, assigned st2 (with_scope pr s)) ->
  rtc (manages st1 u) t t' -> rtc (manages st2 u) t t'.
Proof.
  intros Ht Ha H. revert t' H. apply (rtc_ind_r (fun t' => rtc (manages st2 u) t t') t); [done|].
  intros x y Hx Hxy IH.
  eapply rtc_r; [done|]. destruct Hxy as (Hch & c & pr & Hc & Hpr & Hu & Hid & Hm).
  split; [by eapply child_tenant_like|]. destruct (Ht x c Hc) as (c' & Hc' & E & _).
  destruct (Ha pr) as [s Hs]; [|done|done|done|].
  - exists x, c. split; [by eapply rtc_manages_child|done].
  - exists c', (with_scope pr s). simpl. split; [done|]. split; [done|]. split; [done|]. split; [congruence|done].
Qed.
Lemma with_scope_same pr : with_scope pr (pr_scope pr) = pr.
Proof. by destruct pr. Qed.
Lemma counts_below st now u t n pr : counts st now u t n pr -> given_below st t pr.
Proof.
  intros (_ & _ & _ & _ & t' & c & H & ? & ?). exists t', c. split; [by eapply rtc_manages_child|done].
Qed.
Lemma counts_sub st1 st2 now u t n pr :
  tenants_like st1 st2 ->
  (forall pr, given_below st1 t pr -> pr_principal pr = u -> ~ expired now pr \/ pr_manage pr = true ->
     assigned st1 pr -> assigned st2 pr) ->
  counts st1 now u t n pr -> counts st2 now u t n pr.
Proof.
  intros Ht Ha H. pose proof (counts_below _ _ _ _ _ _ H) as Hb.
  destruct H as (H1 & H2 & H3 & H4 & t' & c & H5 & Hc & H6).
  destruct (Ht t' c Hc) as (c' & Hc' & E & _).
  split; [apply Ha; auto|]. split; [done|]. split; [done|]. split; [done|].
  exists t', c'. split; [|split; [done|congruence]].
  eapply rtc_manages_sub; [done| |done]. intros pr' Hb' Hu' Hm' Ha'. exists (pr_scope pr').
  rewrite with_scope_same. apply Ha; auto.
Qed.
Lemma effective_ext st1 st2 now u t n s p :
  (forall pr, counts st1 now u t n pr <-> counts st2 now u t n pr) ->
  (forall pr p, counts st1 now u t n pr -> role_perm st1 (pr_role pr) p <-> role_perm st2 (pr_role pr) p) ->
  effective st1 now u t n s p <-> effective st2 now u t n s p.
Proof.
  intros Hc Hr.
  assert (forall p, scoped_perm st1 now u t n s p <-> scoped_perm st2 now u t n s p) as Hs.
  { intros p'. unfold scoped_perm. split; intros (pr & H1 & H2 & H3); exists pr.
    - split; [by apply Hc|]. split; [done|]. by apply Hr.
    - apply Hc in H1. split; [done|]. split; [done|]. by apply Hr. }
  assert (forall p, global_perm st1 now u t n s p <-> global_perm st2 now u t n s p) as Hg.
  { intros p'. unfold global_perm. split; intros (pr & H1 & H2 & H3 & H4); exists pr.
    - split; [by apply Hc|]. split; [done|]. split; [done|]. by apply Hr.
    - apply Hc in H1. split; [done|]. split; [done|]. split; [done|]. by apply Hr. }
  unfold effective. rewrite Hs, Hg. setoid_rewrite Hs. done.
Qed.
Lemma allowed_sub st1 st2 now q :
  (forall t c n p, target st1 q t -> tenant_at st1 t c -> uses_namespace c q n ->
     effective st1 now (q_principal q) t n (q_scope q) p ->
     exists c', target st2 q t /\ tenant_at st2 t c' /\ uses_namespace c' q n /\
       effective st2 now (q_principal q) t n (q_scope q) p) ->
  v2_allowed st1 now q -> v2_allowed st2 now q.
Proof.
  intros H (t & c & n & p & H1 & H2 & H3 & H4 & H5).
  destruct (H t c n p H1 H2 H3 H4) as (c' & ? & ? & ? & ?). by exists t, c', n, p.
Qed.
Lemma can_allowed_sub st1 st2 now q roles :
  (forall t c n x, target st1 q t -> tenant_at st1 t c -> uses_namespace c q n ->
     holds_role st1 now (q_principal q) t n x ->
     exists c', target st2 q t /\ tenant_at st2 t c' /\ uses_namespace c' q n /\
       holds_role st2 now (q_principal q) t n x) ->
  v2_can_allowed st1 now q roles -> v2_can_allowed st2 now q roles.
Proof.
  intros H (t & c & n & p & H1 & H2 & H3 & H4 & H5).
  destruct (H t c n p H1 H2 H3 H4) as (c' & ? & ? & ? & ?). by exists t, c', n, p.
Qed.
Lemma bool_iff_eq (a b : bool) : (a = true <-> b = true) -> a = b.
Proof. destruct a, b; naive_solver. Qed.
(** Two decisions agree when the specifications do. *)
Lemma authorize_agree o1 o2 st1 st2 now q st1' st2' b1 b2 :
  vreachable st1 -> vreachable st2 -> distinct_ids st1 -> distinct_ids st2 ->
  (v2_allowed st1 now q <-> v2_allowed st2 now q) ->
  v2_authorize o1 st1 now q = Ok (st1', b1) -> v2_authorize o2 st2 now q = Ok (st2', b2) -> b1 = b2.
Proof.
  intros Hr1%vreachable_wf Hr2%vreachable_wf Hd1 Hd2 Hiff H1 H2. apply bool_iff_eq.
  destruct (v2_authorize_exact _ _ _ _ _ _ Hr1 Hd1 H1) as [-> _].
  destruct (v2_authorize_exact _ _ _ _ _ _ Hr2 Hd2 H2) as [-> _]. done.
Qed.
Lemma can_agree o1 o2 st1 st2 now q roles st1' st2' b1 b2 :
  vreachable st1 -> vreachable st2 -> distinct_ids st1 -> distinct_ids st2 ->
  (v2_can_allowed st1 now q roles <-> v2_can_allowed st2 now q roles) ->
  v2_can o1 st1 now q roles = Ok (st1', b1) -> v2_can o2 st2 now q roles = Ok (st2', b2) -> b1 = b2.
Proof.
  intros Hr1%vreachable_wf Hr2%vreachable_wf Hd1 Hd2 Hiff H1 H2. apply bool_iff_eq.
  destruct (v2_can_exact _ _ _ _ _ _ _ Hr1 Hd1 H1) as [-> _].
  destruct (v2_can_exact _ _ _ _ _ _ _ Hr2 Hd2 H2) as [-> _]. done.
Qed.

(** ** Same set-up, different assignments *)
Section setup.
  Lemma setup_sym st1 st2 : same_setup st1 st2 -> same_setup st2 st1.
  Proof. by intros [H1 H2 H3 H4 H5]; split. Qed.
  Lemma setup_like st1 st2 : same_setup st1 st2 -> tenants_like st1 st2.
  Proof. intros [_ Ht _ _ _] a c Hc. exists c. unfold tenant_at in *. by rewrite <-Ht. Qed.
  Lemma setup_child st1 st2 a b : same_setup st1 st2 -> child_tenant st1 a b <-> child_tenant st2 a b.
  Proof.
    intros Hs. split; apply child_tenant_like; apply setup_like; [done|by apply setup_sym].
  Qed.
  Lemma setup_below st1 st2 t pr : same_setup st1 st2 -> given_below st1 t pr -> given_below st2 t pr.
  Proof.
    intros Hs (t' & c & H & Hc & E). exists t', c. split; [|split; [|done]].
    - clear Hc. induction H as [|x y z Hxy _ IH]; [done|]. eapply rtc_l; [|exact IH].
      by apply (setup_child st1 st2).
    - unfold tenant_at in *. by rewrite <-(ss_tenants _ _ Hs).
  Qed.
  Lemma setup_role_perm st1 st2 r p : same_setup st1 st2 -> role_perm st1 r p <-> role_perm st2 r p.
  Proof. intros [H1 _ H3 _ _]. unfold role_perm. by rewrite H1, H3. Qed.
  Lemma setup_role_name st1 st2 r p : same_setup st1 st2 -> role_name st1 r p <-> role_name st2 r p.
  Proof. intros [H1 _ H3 _ _]. unfold role_name. by rewrite H1, H3. Qed.
  Lemma setup_names st1 st2 q name : same_setup st1 st2 -> names st1 q name -> names st2 q name.
  Proof. intros [_ _ _ _ H5]. unfold names. by rewrite H5. Qed.
  Lemma setup_nameless st1 st2 q : same_setup st1 st2 -> nameless st1 q -> nameless st2 q.
  Proof. intros [_ _ _ _ H5]. unfold nameless. by rewrite H5. Qed.
End setup.

(** A request with a tenant name has that tenant as its only target. *)
Lemma target_named st q name t : names st q name -> w_reg st !! name = Some t -> target st q t.
Proof. intros H1 H2. left. by exists name. Qed.
Lemma named_target st q name t :
  names st q name -> target st q t -> w_reg st !! name = Some t.
Proof.
  intros [Hn H] [(name' & [Hn' H'] & Hr)|[[H1 H2] _]].
  - by assert (name = name') as -> by naive_solver.
  - naive_solver.
Qed.

(** ** C39 *)
Lemma isolation_allowed st1 st2 now q name t :
  same_setup st1 st2 -> names st1 q name -> w_reg st1 !! name = Some t ->
  (forall pr, pr_principal pr = q_principal q -> given_below st1 t pr -> assigned st1 pr -> assigned st2 pr) ->
  (forall pr, pr_principal pr = q_principal q -> given_below st1 t pr -> assigned st2 pr -> assigned st1 pr) ->
  v2_allowed st1 now q -> v2_allowed st2 now q.
Proof.
  intros Hs Hn Hr H12 H21. apply allowed_sub. intros t0 c n p Ht Hc Hu He.
  assert (t0 = t) as ->. { apply (named_target _ _ _ _ Hn) in Ht. congruence. }
  exists c. split; [|split; [|split; [done|]]].
  - apply (target_named _ _ name); [by eapply setup_names|]. by rewrite <-(ss_reg _ _ Hs).
  - unfold tenant_at in *. by rewrite <-(ss_tenants _ _ Hs).
  - eapply effective_ext; [| |exact He]; [|intros; by apply setup_role_perm, setup_sym].
    intros pr. split; apply counts_sub; [by apply setup_like, setup_sym| |by apply setup_like|]; intros pr' Hb Hp _ Ha.
    + apply H21; [done| |done]. by eapply (setup_below st2); [apply setup_sym|].
    + by apply H12.
Qed.
Lemma isolation_can st1 st2 now q roles name t :
  same_setup st1 st2 -> names st1 q name -> w_reg st1 !! name = Some t ->
  (forall pr, pr_principal pr = q_principal q -> given_below st1 t pr -> assigned st1 pr -> assigned st2 pr) ->
  v2_can_allowed st1 now q roles -> v2_can_allowed st2 now q roles.
Proof.
  intros Hs Hn Hr H12. apply can_allowed_sub. intros t0 c n p Ht Hc Hu (pr & Hpr & Hne & Hx).
  assert (t0 = t) as ->. { apply (named_target _ _ _ _ Hn) in Ht. congruence. }
  exists c. split; [|split; [|split; [done|]]].
  - apply (target_named _ _ name); [by eapply setup_names|]. by rewrite <-(ss_reg _ _ Hs).
  - unfold tenant_at in *. by rewrite <-(ss_tenants _ _ Hs).
  - exists pr. split; [|split; [done|]].
    + eapply counts_sub; [by apply setup_like| |exact Hpr]. intros pr' Hb Hp _ Ha. by apply H12.
    + destruct Hx as [?|Hx]; [by left|right]. eapply setup_role_name; [|exact Hx]. by apply setup_sym.
Qed.
Lemma c39_authorize o1 o2 st1 st2 now q name t st1' st2' b1 b2 :
  vreachable st1 -> vreachable st2 -> distinct_ids st1 -> same_setup st1 st2 ->
  names st1 q name -> w_reg st1 !! name = Some t ->
  (forall pr, pr_principal pr = q_principal q -> given_below st1 t pr -> (assigned st1 pr <-> assigned st2 pr)) ->
  v2_authorize o1 st1 now q = Ok (st1', b1) -> v2_authorize o2 st2 now q = Ok (st2', b2) -> b1 = b2.
Proof.
  intros Hr1 Hr2 Hd Hs Hn Hr Ha. apply authorize_agree; [done|done|done| |].
  - intros a b ta tb. unfold tenant_at. rewrite <-(ss_tenants _ _ Hs). apply Hd.
  - split.
    + apply (isolation_allowed st1 st2 now q name t); [done|done|done| |]; intros pr ? ?; by apply Ha.
    + apply (isolation_allowed st2 st1 now q name t); [by apply setup_sym|by eapply setup_names| | |].
      * by rewrite <-(ss_reg _ _ Hs).
      * intros pr ? ?. apply Ha; [done|]. by eapply (setup_below st2); [apply setup_sym|].
      * intros pr ? ?. apply Ha; [done|]. by eapply (setup_below st2); [apply setup_sym|].
Qed.
Lemma c39_can o1 o2 st1 st2 now q roles name t st1' st2' b1 b2 :
  vreachable st1 -> vreachable st2 -> distinct_ids st1 -> same_setup st1 st2 ->
  names st1 q name -> w_reg st1 !! name = Some t ->
  (forall pr, pr_principal pr = q_principal q -> given_below st1 t pr -> (assigned st1 pr <-> assigned st2 pr)) ->
  v2_can o1 st1 now q roles = Ok (st1', b1) -> v2_can o2 st2 now q roles = Ok (st2', b2) -> b1 = b2.
Proof.
  intros Hr1 Hr2 Hd Hs Hn Hr Ha. apply can_agree; [done|done|done| |].
  - intros a b ta tb. unfold tenant_at. rewrite <-(ss_tenants _ _ Hs). apply Hd.
  - split.
    + apply (isolation_can st1 st2 now q roles name t); [done|done|done|]; intros pr ? ?; by apply Ha.
    + apply (isolation_can st2 st1 now q roles name t); [by apply setup_sym|by eapply setup_names| |].
      * by rewrite <-(ss_reg _ _ Hs).
      * intros pr ? ?. apply Ha; [done|]. by eapply (setup_below st2); [apply setup_sym|].
Qed.

(** ** C35 and the principal's own assignments, also for requests without a tenant. *)
Definition loses_expired (now : Z) (user : string) (st1 st2 : vstate) : Prop :=
  same_setup st1 st2 /\
  (forall pr, pr_principal pr = user -> assigned st2 pr -> assigned st1 pr) /\
  (forall pr, pr_principal pr = user -> assigned st1 pr ->
     assigned st2 pr \/ expired now pr /\ pr_manage pr = false).
(** A tenant in which something counts is a target because of an assignment that is kept. *)
Lemma target_loses st1 st2 now q t n pr :
  v2_wf st1 -> distinct_ids st1 -> loses_expired now (q_principal q) st1 st2 ->
  target st1 q t -> counts st1 now (q_principal q) t n pr -> target st2 q t.
Proof.
  intros Hwf Hdi (Hs & H21 & H12) [(name & Hn & Hr)|[Hn (pr0 & c & Ha & Hu & Hne & Hr & Hc & Hact)]] Hcnt.
  - left. exists name. split; [by eapply setup_names|]. by rewrite <-(ss_reg _ _ Hs).
  - right. split; [by eapply setup_nameless|].
    destruct (wf_reg st1 Hwf _ _ Hr) as (c0 & Hc0 & Hid).
    assert (c0 = c) as -> by (unfold tenant_at in *; congruence).
    assert (exists pr1, assigned st2 pr1 /\ pr_principal pr1 = q_principal q /\ pr_tenant pr1 = vt_id c) as (pr1 & Ha1 & Hu1 & Ht1).
    { destruct Hcnt as (Hap & Hup & Hnexp & _ & t' & c' & Hm & Hc' & Et).
      destruct Hm as [|x y z Hxy _].
      - assert (c' = c) as -> by (unfold tenant_at in *; congruence).
        exists pr. split; [|done]. destruct (H12 pr Hup Hap) as [?|[? _]]; done.
      - destruct Hxy as (_ & cx & prm & Hcx & Hpm & Hum & Htm & Hmm).
        assert (cx = c) as -> by (unfold tenant_at in *; congruence).
        exists prm. split; [|done]. destruct (H12 prm Hum Hpm) as [?|[_ ?]]; [done|congruence]. }
    exists pr1, c. split; [done|]. split; [done|]. rewrite Ht1, Hid. split; [done|].
    rewrite <-(ss_reg _ _ Hs). split; [done|]. unfold tenant_at in *. by rewrite <-(ss_tenants _ _ Hs).
Qed.
Lemma target_gains st1 st2 now q t :
  loses_expired now (q_principal q) st1 st2 -> target st2 q t -> target st1 q t.
Proof.
  intros (Hs & H21 & H12) [(name & Hn & Hr)|[Hn (pr0 & c & Ha & Hu & Hne & Hr & Hc & Hact)]].
  - left. exists name. split; [by eapply setup_names; [apply setup_sym|]|]. by rewrite (ss_reg _ _ Hs).
  - right. split; [by eapply setup_nameless; [apply setup_sym|]|]. exists pr0, c.
    split; [by apply H21|]. split; [done|]. split; [done|]. rewrite (ss_reg _ _ Hs).
    split; [done|]. unfold tenant_at in *. by rewrite (ss_tenants _ _ Hs).
Qed.
Lemma counts_loses st1 st2 now u t n pr :
  loses_expired now u st1 st2 -> counts st1 now u t n pr <-> counts st2 now u t n pr.
Proof.
  intros (Hs & H21 & H12). split; apply counts_sub; [by apply setup_like| |by apply setup_like, setup_sym|];
    intros pr' _ Hu Hor Ha.
  - destruct (H12 pr' Hu Ha) as [?|[? ?]]; [done|]. destruct Hor; [done|congruence].
  - by apply H21.
Qed.
Lemma c35_allowed st1 st2 now q :
  v2_wf st1 -> distinct_ids st1 -> loses_expired now (q_principal q) st1 st2 ->
  v2_allowed st1 now q <-> v2_allowed st2 now q.
Proof.
  intros Hwf Hdi Hl. pose proof Hl as (Hs & _).
  assert (forall t n s p, effective st1 now (q_principal q) t n s p <-> effective st2 now (q_principal q) t n s p) as He.
  { intros t n s p. apply effective_ext; [intros; by apply counts_loses|intros; by apply setup_role_perm]. }
  split; apply allowed_sub; intros t c n p Ht Hc Hu Hp; exists c.
  - assert (exists pr, counts st1 now (q_principal q) t n pr) as [pr Hpr].
    { destruct Hp as [(pr & ? & _)|[(pr & ? & _) _]]; by exists pr. }
    split; [by eapply target_loses|]. split; [unfold tenant_at in *; by rewrite <-(ss_tenants _ _ Hs)|].
    split; [done|by apply He].
  - split; [by eapply target_gains|]. split; [unfold tenant_at in *; by rewrite (ss_tenants _ _ Hs)|].
    split; [done|by apply He].
Qed.
Lemma c35_can_allowed st1 st2 now q roles :
  v2_wf st1 -> distinct_ids st1 -> loses_expired now (q_principal q) st1 st2 ->
  v2_can_allowed st1 now q roles <-> v2_can_allowed st2 now q roles.
Proof.
  intros Hwf Hdi Hl. pose proof Hl as (Hs & _).
  split; apply can_allowed_sub; intros t c n p Ht Hc Hu (pr & Hpr & Hne & Hx); exists c.
  - split; [by eapply target_loses|]. split; [unfold tenant_at in *; by rewrite <-(ss_tenants _ _ Hs)|].
    split; [done|]. exists pr. split; [by apply (counts_loses st1)|]. split; [done|].
    destruct Hx as [?|Hx]; [by left|right]. by apply (setup_role_name st1 st2).
  - split; [by eapply target_gains|]. split; [unfold tenant_at in *; by rewrite (ss_tenants _ _ Hs)|].
    split; [done|]. exists pr. split; [by apply (counts_loses st1 st2)|]. split; [done|].
    destruct Hx as [?|Hx]; [by left|right]. by apply (setup_role_name st1 st2).
Qed.
Lemma distinct_setup st1 st2 : same_setup st1 st2 -> distinct_ids st1 -> distinct_ids st2.
Proof. intros Hs Hd a b ta tb. unfold tenant_at. rewrite <-(ss_tenants _ _ Hs). apply Hd. Qed.
Lemma c35_authorize o1 o2 st1 st2 now q st1' st2' b1 b2 :
  vreachable st1 -> vreachable st2 -> distinct_ids st1 -> same_setup st1 st2 ->
  (forall pr, assigned st2 pr -> assigned st1 pr) ->
  (forall pr, assigned st1 pr -> assigned st2 pr \/ expired now pr /\ pr_manage pr = false) ->
  v2_authorize o1 st1 now q = Ok (st1', b1) -> v2_authorize o2 st2 now q = Ok (st2', b2) -> b1 = b2.
Proof.
  intros Hr1 Hr2 Hd Hs H21 H12. apply authorize_agree; [done|done|done|by eapply distinct_setup|].
  apply c35_allowed; [by apply vreachable_wf|done|]. split; [done|]. split; auto.
Qed.
Lemma c35_can o1 o2 st1 st2 now q roles st1' st2' b1 b2 :
  vreachable st1 -> vreachable st2 -> distinct_ids st1 -> same_setup st1 st2 ->
  (forall pr, assigned st2 pr -> assigned st1 pr) ->
  (forall pr, assigned st1 pr -> assigned st2 pr \/ expired now pr /\ pr_manage pr = false) ->
  v2_can o1 st1 now q roles = Ok (st1', b1) -> v2_can o2 st2 now q roles = Ok (st2', b2) -> b1 = b2.
Proof.
  intros Hr1 Hr2 Hd Hs H21 H12. apply can_agree; [done|done|done|by eapply distinct_setup|].
  apply c35_can_allowed; [by apply vreachable_wf|done|]. split; [done|]. split; auto.
Qed.
Lemma c39_principal o1 o2 st1 st2 now q st1' st2' b1 b2 :
  vreachable st1 -> vreachable st2 -> distinct_ids st1 -> same_setup st1 st2 ->
  (forall pr, pr_principal pr = q_principal q -> (assigned st1 pr <-> assigned st2 pr)) ->
  v2_authorize o1 st1 now q = Ok (st1', b1) -> v2_authorize o2 st2 now q = Ok (st2', b2) -> b1 = b2.
Proof.
  intros Hr1 Hr2 Hd Hs Ha. apply authorize_agree; [done|done|done|by eapply distinct_setup|].
  apply c35_allowed; [by apply vreachable_wf|done|].
  split; [done|]. split; [|left]; by apply Ha.
Qed.
Lemma c39_can_principal o1 o2 st1 st2 now q roles st1' st2' b1 b2 :
  vreachable st1 -> vreachable st2 -> distinct_ids st1 -> same_setup st1 st2 ->
  (forall pr, pr_principal pr = q_principal q -> (assigned st1 pr <-> assigned st2 pr)) ->
  v2_can o1 st1 now q roles = Ok (st1', b1) -> v2_can o2 st2 now q roles = Ok (st2', b2) -> b1 = b2.
Proof.
  intros Hr1 Hr2 Hd Hs Ha. apply can_agree; [done|done|done|by eapply distinct_setup|].
  apply c35_can_allowed; [by apply vreachable_wf|done|].
  split; [done|]. split; [|left]; by apply Ha.
Qed.

(** ** C34 *)
Lemma rescoped_can_allowed st1 st2 now q roles :
  same_setup st1 st2 ->
  (forall pr, assigned st1 pr -> exists s, assigned st2 (with_scope pr s)) ->
  v2_can_allowed st1 now q roles -> v2_can_allowed st2 now q roles.
Proof.
  intros Hs Ha. apply can_allowed_sub. intros t c n x Ht Hc Hu (pr & Hpr & Hne & Hx). exists c.
  split; [|split; [unfold tenant_at in *; by rewrite <-(ss_tenants _ _ Hs)|split; [done|]]].
  - destruct Ht as [(name & Hn & Hr)|[Hn (pr0 & c0 & Ha0 & Hu0 & Hne0 & Hr & Hc0 & Hact)]].
    + left. exists name. split; [by eapply setup_names|]. by rewrite <-(ss_reg _ _ Hs).
    + right. split; [by eapply setup_nameless|]. destruct (Ha pr0 Ha0) as [s Has].
      exists (with_scope pr0 s), c0. simpl. split; [done|]. split; [done|]. split; [done|].
      rewrite <-(ss_reg _ _ Hs). split; [done|]. unfold tenant_at in *. by rewrite <-(ss_tenants _ _ Hs).
  - destruct Hpr as (H1 & H2 & H3 & H4 & t' & c' & H5 & H6 & H7). destruct (Ha pr H1) as [s Has].
    exists (with_scope pr s). split; [|split; [done|]].
    + split; [done|]. split; [done|]. split; [done|]. split; [done|]. exists t', c'.
      split; [|split; [unfold tenant_at in *; by rewrite <-(ss_tenants _ _ Hs)|done]].
      eapply rtc_manages_sub; [by apply setup_like| |exact H5]. intros pr' _ _ _ Ha'. by apply Ha.
    + destruct Hx as [?|Hx]; [by left|right]. by apply (setup_role_name st1 st2).
Qed.
Lemma c34_can o1 o2 st1 st2 now q roles st1' st2' b1 b2 :
  vreachable st1 -> vreachable st2 -> distinct_ids st1 -> same_setup st1 st2 ->
  (forall pr, assigned st1 pr -> exists s, assigned st2 (with_scope pr s)) ->
  (forall pr, assigned st2 pr -> exists s, assigned st1 (with_scope pr s)) ->
  v2_can o1 st1 now q roles = Ok (st1', b1) -> v2_can o2 st2 now q roles = Ok (st2', b2) -> b1 = b2.
Proof.
  intros Hr1 Hr2 Hd Hs H12 H21. apply can_agree; [done|done|done|by eapply distinct_setup|].
  split; apply rescoped_can_allowed; [done|done|by apply setup_sym|done].
Qed.

(** ** C37 *)
Lemma status_like st1 st2 : differ_in_status st1 st2 -> tenants_like st1 st2 /\ tenants_like st2 st1.
Proof.
  intros [_ Ht _ _ _ _ _]. split; intros a c Hc; unfold tenant_at in *.
  - destruct (Forall2_lookup_l _ _ _ _ _ Ht Hc) as (c' & ? & ?). by exists c'.
  - destruct (Forall2_lookup_r _ _ _ _ _ Ht Hc) as (c' & ? & E1 & E2 & E3 & E4). exists c'. by split.
Qed.
Lemma status_assigned st1 st2 pr : differ_in_status st1 st2 -> assigned st1 pr <-> assigned st2 pr.
Proof. intros [_ _ H3 H4 _ _ _]. unfold assigned. by rewrite H3, H4. Qed.
Lemma status_counts st1 st2 now u t n pr :
  differ_in_status st1 st2 -> counts st1 now u t n pr <-> counts st2 now u t n pr.
Proof.
  intros Hs. destruct (status_like _ _ Hs) as [H12 H21].
  split; apply counts_sub; try done; intros pr' _ _ _; by apply (status_assigned st1 st2).
Qed.
Lemma uses_like c c' q n : same_but_status c c' -> uses_namespace c q n -> uses_namespace c' q n.
Proof. intros (_ & E1 & E2 & _). unfold uses_namespace. by rewrite E1, E2. Qed.
Lemma status_sym st1 st2 : differ_in_status st1 st2 -> differ_in_status st2 st1.
Proof.
  intros [H1 H2 H3 H4 H5 H6 H7]. split; try done. apply Forall2_flip.
  eapply Forall2_impl; [exact H2|]. intros x y (?&?&?&?). by split.
Qed.
Lemma status_allowed st1 st2 now q name :
  differ_in_status st1 st2 -> names st1 q name -> v2_allowed st1 now q -> v2_allowed st2 now q.
Proof.
  intros Hs Hn. destruct (status_like _ _ Hs) as [H12 H21].
  apply allowed_sub. intros t c n p Ht Hc Hu He. destruct (H12 t c Hc) as (c' & Hc' & E).
  exists c'. split; [|split; [done|split; [by eapply uses_like|]]].
  - apply (named_target _ _ _ _ Hn) in Ht. left. exists name.
    unfold names. rewrite <-(ds_default _ _ Hs), <-(ds_reg _ _ Hs). done.
  - eapply effective_ext; [| |exact He].
    + intros. symmetry. by apply status_counts.
    + intros pr p' _. unfold role_perm. by rewrite (ds_roles _ _ Hs), (ds_dag _ _ Hs).
Qed.
Lemma status_can_allowed st1 st2 now q roles name :
  differ_in_status st1 st2 -> names st1 q name ->
  v2_can_allowed st1 now q roles -> v2_can_allowed st2 now q roles.
Proof.
  intros Hs Hn. destruct (status_like _ _ Hs) as [H12 H21].
  apply can_allowed_sub. intros t c n p Ht Hc Hu (pr & Hpr & Hne & Hx).
  destruct (H12 t c Hc) as (c' & Hc' & E).
  exists c'. split; [|split; [done|split; [by eapply uses_like|]]].
  - apply (named_target _ _ _ _ Hn) in Ht. left. exists name.
    unfold names. rewrite <-(ds_default _ _ Hs), <-(ds_reg _ _ Hs). done.
  - exists pr. split; [by apply (status_counts st1)|]. split; [done|].
    unfold role_name in *. by rewrite <-(ds_roles _ _ Hs), <-(ds_dag _ _ Hs).
Qed.
Lemma status_distinct st1 st2 : differ_in_status st1 st2 -> distinct_ids st1 -> distinct_ids st2.
Proof.
  intros Hs Hd a b ta tb Ha Hb E. destruct (status_like _ _ Hs) as [_ H21].
  destruct (H21 a ta Ha) as (ta' & Ha' & Ea & _). destruct (H21 b tb Hb) as (tb' & Hb' & Eb & _).
  apply (Hd a b ta' tb' Ha' Hb'). congruence.
Qed.
Lemma c37_authorize_named o1 o2 st1 st2 now q name st1' st2' b1 b2 :
  vreachable st1 -> vreachable st2 -> distinct_ids st1 -> differ_in_status st1 st2 -> names st1 q name ->
  v2_authorize o1 st1 now q = Ok (st1', b1) -> v2_authorize o2 st2 now q = Ok (st2', b2) -> b1 = b2.
Proof.
  intros Hr1 Hr2 Hd Hs Hn. apply authorize_agree; [done|done|done|by eapply status_distinct|].
  split; [by eapply status_allowed|]. eapply (status_allowed _ _ _ _ name); [by apply status_sym|].
  unfold names. by rewrite <-(ds_default _ _ Hs).
Qed.
Lemma c37_can_named o1 o2 st1 st2 now q roles name st1' st2' b1 b2 :
  vreachable st1 -> vreachable st2 -> distinct_ids st1 -> differ_in_status st1 st2 -> names st1 q name ->
  v2_can o1 st1 now q roles = Ok (st1', b1) -> v2_can o2 st2 now q roles = Ok (st2', b2) -> b1 = b2.
Proof.
  intros Hr1 Hr2 Hd Hs Hn. apply can_agree; [done|done|done|by eapply status_distinct|].
  split; [by eapply status_can_allowed|]. eapply (status_can_allowed _ _ _ _ _ name); [by apply status_sym|].
  unfold names. by rewrite <-(ds_default _ _ Hs).
Qed.
(** A request that names no tenant is granted only through an active registered tenant in which
    the principal has an assignment. *)
Lemma c37_nameless o st now q st' :
  vreachable st -> nameless st q -> v2_authorize o st now q = Ok (st', true) ->
  exists pr t c, assigned st pr /\ pr_principal pr = q_principal q /\ w_reg st !! pr_tenant pr = Some t /\
    tenant_at st t c /\ vt_status c = TActive /\
    exists n p, uses_namespace c q n /\ matches_perm q p /\
      (scoped_perm st now (q_principal q) t n (q_scope q) p \/ global_perm st now (q_principal q) t n (q_scope q) p).
Proof.
  intros Hr%vreachable_wf Hn H. destruct (v2_authorize_sound _ _ _ _ _ _ Hr H) as [_ Hs].
  destruct (Hs eq_refl) as (t & [(name & [Hne Hname] & _)|[_ (pr & c & H1 & H2 & H3 & H4 & H5 & H6)]] & Hm).
  - destruct Hn. naive_solver.
  - destruct Hm as (c' & n & p & Hc' & Hu & Hp & Hmp).
    assert (c' = c) as -> by (unfold tenant_at in *; congruence).
    exists pr, t, c. split_and!; try done. by exists n, p.
Qed.
Lemma c37_can_nameless o st now q roles st' :
  vreachable st -> nameless st q -> v2_can o st now q roles = Ok (st', true) ->
  exists pr t c, assigned st pr /\ pr_principal pr = q_principal q /\ w_reg st !! pr_tenant pr = Some t /\
    tenant_at st t c /\ vt_status c = TActive /\
    exists n x, uses_namespace c q n /\ holds_role st now (q_principal q) t n x /\ x ∈ roles.
Proof.
  intros Hr%vreachable_wf Hn H. destruct (v2_can_sound _ _ _ _ _ _ _ Hr H) as [_ Hs].
  destruct (Hs eq_refl) as (t & c' & n & x & [(name & [Hne Hname] & _)|[_ (pr & c & H1 & H2 & H3 & H4 & H5 & H6)]] & Hc' & Hm).
  - destruct Hn. naive_solver.
  - assert (c' = c) as -> by (unfold tenant_at in *; congruence).
    exists pr, t, c. split_and!; try done. by exists n, x.
Qed.

(** ** C38 *)
Lemma c38_not_downward o st now q name t st' b :
  vreachable st -> names st q name -> w_reg st !! name = Some t ->
  (forall pr, assigned st pr -> pr_principal pr = q_principal q -> ~ given_below st t pr) ->
  v2_authorize o st now q = Ok (st', b) -> b = false.
Proof.
  intros Hr%vreachable_wf Hn Ht Hno H. destruct (v2_authorize_sound _ _ _ _ _ _ Hr H) as [_ Hs].
  destruct b; [|done]. destruct (Hs eq_refl) as (t' & Ht' & c & n & p & Hc & Hu & Hp & _). exfalso.
  apply (named_target _ _ _ _ Hn) in Ht'. assert (t' = t) as -> by congruence.
  assert (exists pr, counts st now (q_principal q) t n pr) as [pr Hpr].
  { destruct Hp as [(pr & ? & _)|(pr & ? & _)]; by exists pr. }
  pose proof (counts_below _ _ _ _ _ _ Hpr) as Hb. destruct Hpr as (Ha & Hu' & _). by apply (Hno pr).
Qed.
Lemma c38_upward o st now q name t c t' c' n prm pr p st' b :
  vreachable st -> distinct_ids st ->
  names st q name -> w_reg st !! name = Some t -> tenant_at st t c -> uses_namespace c q n ->
  assigned st prm -> pr_principal prm = q_principal q -> pr_tenant prm = vt_id c -> pr_manage prm = true ->
  child_tenant st t t' -> tenant_at st t' c' ->
  assigned st pr -> pr_principal pr = q_principal q -> pr_tenant pr = vt_id c' -> ~ expired now pr ->
  pr_namespace pr = "" \/ pr_namespace pr = n -> pr_scope pr = q_scope q ->
  role_perm st (pr_role pr) p -> matches_perm q p ->
  v2_authorize o st now q = Ok (st', b) -> b = true.
Proof.
  intros Hr%vreachable_wf Hd Hn Ht Hc Hu Hm1 Hm2 Hm3 Hm4 Hch Hc' H1 H2 H3 H4 H5 H6 H7 H8 H.
  apply (v2_authorize_exact _ _ _ _ _ _ Hr Hd H). exists t, c, n, p.
  split; [by eapply target_named|]. split; [done|]. split; [done|]. split; [|done].
  left. exists pr. split; [|done]. split; [done|]. split; [done|]. split; [done|]. split; [done|].
  exists t', c'. split; [|done]. apply rtc_once. split; [done|]. by exists c, prm.
Qed.

(** ** C30, C33: the cache *)
Lemma forget_wf st : v2_wf st -> v2_wf (forget st).
Proof. intros [H1 H2 H3 H4]. by split. Qed.
Lemma forget_registered st n r :
  registered (w_roles st) (w_dag (forget st)) n r <-> registered (w_roles st) (w_dag st) n r.
Proof. done. Qed.
Lemma forget_perm st r p : role_perm (forget st) r p <-> confers (w_roles st) (w_dag st) r p.
Proof. unfold role_perm. simpl. by rewrite lookup_empty. Qed.
Lemma forget_name st r x : role_name (forget st) r x <-> includes (w_roles st) (w_dag st) r x.
Proof. unfold role_name. simpl. by rewrite lookup_empty. Qed.
Lemma up_to_date_perm st r p : up_to_date st r -> role_perm st r p <-> role_perm (forget st) r p.
Proof.
  intros H. rewrite forget_perm. unfold role_perm. destruct (d_resolved (w_dag st) !! r) eqn:E; [|done].
  by apply H.
Qed.
Lemma up_to_date_name st r p : names_up_to_date st r -> role_name st r p <-> role_name (forget st) r p.
Proof.
  intros H. rewrite forget_name. unfold role_name. destruct (d_resolved (w_dag st) !! r) eqn:E; [|done].
  by apply H.
Qed.
(** Only the roles of the principal's own assignments are looked up. *)
Lemma role_perm_allowed st d now q :
  (forall pr p, assigned st pr -> pr_principal pr = q_principal q ->
     role_perm st (pr_role pr) p <-> role_perm (vw_dag st d) (pr_role pr) p) ->
  v2_allowed st now q <-> v2_allowed (vw_dag st d) now q.
Proof.
  intros Hr.
  assert (forall t n s p, effective st now (q_principal q) t n s p <->
    effective (vw_dag st d) now (q_principal q) t n s p) as He.
  { intros t n s p. apply effective_ext; [done|]. intros pr p' (Ha & Hu & _). by apply Hr. }
  split; apply allowed_sub; intros t c n p Ht Hc Hu Hp; exists c; (split; [done|]); (split; [done|]);
    (split; [done|]); by apply He.
Qed.
Lemma role_name_can_allowed st d now q roles :
  (forall pr x, assigned st pr -> pr_principal pr = q_principal q ->
     role_name st (pr_role pr) x <-> role_name (vw_dag st d) (pr_role pr) x) ->
  v2_can_allowed st now q roles <-> v2_can_allowed (vw_dag st d) now q roles.
Proof.
  intros Hr. split; apply can_allowed_sub; intros t c n x Ht Hc Hu (pr & Hpr & Hne & Hx); exists c;
    (split; [done|]); (split; [done|]); (split; [done|]); exists pr; (split; [done|]); (split; [done|]);
    (destruct Hx as [?|Hx]; [by left|right]); destruct Hpr as (Ha & Hup & _); by apply Hr.
Qed.
Lemma c30_current o st now q st' b :
  vreachable st -> distinct_ids st ->
  (forall pr, assigned st pr -> pr_principal pr = q_principal q -> up_to_date st (pr_role pr)) ->
  v2_authorize o st now q = Ok (st', b) -> (b = true <-> v2_allowed (forget st) now q).
Proof.
  intros Hr%vreachable_wf Hd Hu H. destruct (v2_authorize_exact _ _ _ _ _ _ Hr Hd H) as [-> _].
  apply role_perm_allowed. intros pr p Ha Hp. by apply up_to_date_perm, Hu.
Qed.
Lemma c30_can_current o st now q roles st' b :
  vreachable st -> distinct_ids st ->
  (forall pr, assigned st pr -> pr_principal pr = q_principal q -> names_up_to_date st (pr_role pr)) ->
  v2_can o st now q roles = Ok (st', b) -> (b = true <-> v2_can_allowed (forget st) now q roles).
Proof.
  intros Hr%vreachable_wf Hd Hu H. destruct (v2_can_exact _ _ _ _ _ _ _ Hr Hd H) as [-> _].
  apply role_name_can_allowed. intros pr p Ha Hp. by apply up_to_date_name, Hu.
Qed.
Lemma c30_frozen o i st ops st' outs r s p :
  vreachable st -> vrun o i st ops = Ok (st', outs) -> d_resolved (w_dag st) !! r = Some s ->
  (role_perm st' r p <-> p ∈ s) /\ (role_name st' r p <-> p ∈ s).
Proof.
  intros Hr%vreachable_wf H Hs. pose proof (vrun_resolved _ _ _ _ _ _ _ _ Hr H Hs) as Hs'.
  unfold role_perm, role_name. by rewrite Hs'.
Qed.
Lemma c33_authorize o1 o2 o3 st now1 q1 roles st1 b1 now2 q2 st2 st3 b2 b3 :
  vreachable st -> distinct_ids st ->
  (forall pr, assigned st pr -> pr_principal pr = q_principal q2 ->
     exists s, d_resolved (w_dag st) !! pr_role pr = Some s) ->
  v2_can o1 st now1 q1 roles = Ok (st1, b1) ->
  v2_authorize o2 st now2 q2 = Ok (st2, b2) -> v2_authorize o3 st1 now2 q2 = Ok (st3, b3) -> b2 = b3.
Proof.
  intros Hr Hd Hc Hcan. pose proof (vreachable_wf _ Hr) as Hwf.
  destruct (v2_can_sound _ _ _ _ _ _ _ Hwf Hcan) as [(d & -> & Hd1) _].
  intros H2 H3. apply bool_iff_eq.
  destruct (v2_authorize_exact _ _ _ _ _ _ Hwf Hd H2) as [-> _].
  assert (v2_wf (vw_dag st d)) as Hwf'.
  { destruct Hwf as [W1 W2 W3 W4]. split; try done. eapply dag_wf_mono; [done| |done]. apply Hd1. }
  destruct (v2_authorize_exact _ _ _ _ _ _ Hwf' Hd H3) as [-> _].
  apply role_perm_allowed. intros pr p Ha Hu. destruct (Hc pr Ha Hu) as [s Hs].
  unfold role_perm. simpl. rewrite Hs, (ext_kept _ _ _ Hd1 _ _ Hs). done.
Qed.
Lemma c33_can o1 o2 o3 st now1 q1 st1 b1 now2 q2 roles st2 st3 b2 b3 :
  vreachable st -> distinct_ids st ->
  (forall pr, assigned st pr -> pr_principal pr = q_principal q2 ->
     exists s, d_resolved (w_dag st) !! pr_role pr = Some s) ->
  v2_authorize o1 st now1 q1 = Ok (st1, b1) ->
  v2_can o2 st now2 q2 roles = Ok (st2, b2) -> v2_can o3 st1 now2 q2 roles = Ok (st3, b3) -> b2 = b3.
Proof.
  intros Hr Hd Hc Hcan. pose proof (vreachable_wf _ Hr) as Hwf.
  destruct (v2_authorize_sound _ _ _ _ _ _ Hwf Hcan) as [(d & -> & Hd1) _].
  intros H2 H3. apply bool_iff_eq.
  destruct (v2_can_exact _ _ _ _ _ _ _ Hwf Hd H2) as [-> _].
  assert (v2_wf (vw_dag st d)) as Hwf'.
  { destruct Hwf as [W1 W2 W3 W4]. split; try done. eapply dag_wf_mono; [done| |done]. apply Hd1. }
  destruct (v2_can_exact _ _ _ _ _ _ _ Hwf' Hd H3) as [-> _].
  apply role_name_can_allowed. intros pr p Ha Hu. destruct (Hc pr Ha Hu) as [s Hs].
  unfold role_name. simpl. rewrite Hs, (ext_kept _ _ _ Hd1 _ _ Hs). done.
Qed.
(** Calls of the same kind never disturb each other. *)
Lemma same_kind_authorize o1 o2 o3 st now1 q1 st1 b1 now2 q2 st2 st3 b2 b3 :
  vreachable st -> distinct_ids st ->
  v2_authorize o1 st now1 q1 = Ok (st1, b1) ->
  v2_authorize o2 st now2 q2 = Ok (st2, b2) -> v2_authorize o3 st1 now2 q2 = Ok (st3, b3) -> b2 = b3.
Proof.
  intros Hr Hd Hcan. pose proof (vreachable_wf _ Hr) as Hwf.
  destruct (v2_authorize_sound _ _ _ _ _ _ Hwf Hcan) as [(d & -> & Hd1) _].
  intros H2 H3. apply bool_iff_eq.
  destruct (v2_authorize_exact _ _ _ _ _ _ Hwf Hd H2) as [-> _].
  assert (v2_wf (vw_dag st d)) as Hwf'.
  { destruct Hwf as [W1 W2 W3 W4]. split; try done. eapply dag_wf_mono; [done| |done]. apply Hd1. }
  destruct (v2_authorize_exact _ _ _ _ _ _ Hwf' Hd H3) as [-> _].
  apply role_perm_allowed. intros pr p Ha Hu. unfold role_perm at 2. simpl.
  destruct (d_resolved d !! pr_role pr) as [s|] eqn:Hs.
  - rewrite (ext_view _ _ _ Hd1 _ _ Hs p). by rewrite role_view_perm.
  - unfold role_perm. rewrite (ext_old _ _ _ Hd1 _ Hs).
    unfold confers. split; intros (n & r & Hb & Hreg & Hp); exists n, r.
    + split; [eapply rtc_below_ext; [| |exact Hb]; symmetry; apply Hd1|].
      split; [|done]. eapply registered_ext; [|exact Hreg]. symmetry. apply Hd1.
    + split; [eapply rtc_below_ext; [| |exact Hb]; apply Hd1|].
      split; [|done]. eapply registered_ext; [|exact Hreg]. apply Hd1.
Qed.
Lemma same_kind_can o1 o2 o3 st now1 q1 roles1 st1 b1 now2 q2 roles2 st2 st3 b2 b3 :
  vreachable st -> distinct_ids st ->
  v2_can o1 st now1 q1 roles1 = Ok (st1, b1) ->
  v2_can o2 st now2 q2 roles2 = Ok (st2, b2) -> v2_can o3 st1 now2 q2 roles2 = Ok (st3, b3) -> b2 = b3.
Proof.
  intros Hr Hd Hcan. pose proof (vreachable_wf _ Hr) as Hwf.
  destruct (v2_can_sound _ _ _ _ _ _ _ Hwf Hcan) as [(d & -> & Hd1) _].
  intros H2 H3. apply bool_iff_eq.
  destruct (v2_can_exact _ _ _ _ _ _ _ Hwf Hd H2) as [-> _].
  assert (v2_wf (vw_dag st d)) as Hwf'.
  { destruct Hwf as [W1 W2 W3 W4]. split; try done. eapply dag_wf_mono; [done| |done]. apply Hd1. }
  destruct (v2_can_exact _ _ _ _ _ _ _ Hwf' Hd H3) as [-> _].
  apply role_name_can_allowed. intros pr p Ha Hu. unfold role_name at 2. simpl.
  destruct (d_resolved d !! pr_role pr) as [s|] eqn:Hs.
  - rewrite (ext_view _ _ _ Hd1 _ _ Hs p). by rewrite role_view_name.
  - unfold role_name. rewrite (ext_old _ _ _ Hd1 _ Hs).
    unfold includes. split; intros (n & r & Hb & Hreg & Hp); exists n, r.
    + split; [eapply rtc_below_ext; [| |exact Hb]; symmetry; apply Hd1|].
      split; [|done]. eapply registered_ext; [|exact Hreg]. symmetry. apply Hd1.
    + split; [eapply rtc_below_ext; [| |exact Hb]; apply Hd1|].
      split; [|done]. eapply registered_ext; [|exact Hreg]. apply Hd1.
Qed.

(** ** C42 *)
Lemma c42_set_expiry now pr e pr' err :
  set_expiry now pr e = (pr', err) ->
  ((e < now)%Z -> err <> None /\ pr' = pr) /\
  ((now <= e)%Z -> err = None /\ forall now', expired now' pr' <-> (e < now')%Z).
Proof.
  unfold set_expiry. destruct (decide (e < now)%Z) as [Hlt|Hlt].
  - rewrite bool_decide_true by done. intros [= <- <-]. split; [done|lia].
  - rewrite bool_decide_false by done. intros [= <- <-]. split; [done|]. intros _. split; [done|].
    intros now'. unfold expired. simpl. naive_solver.
Qed.
Lemma c42_clear pr now : ~ expired now (clear_expiry pr).
Proof. unfold expired. simpl. naive_solver. Qed.
Lemma c42_duration now pr a pr' err :
  set_expiry_duration now pr a = (pr', err) ->
  err = None /\
  forall d, a = DDuration d \/ a = DString (Some d) ->
    forall now', expired now' pr' <-> (now + d < now')%Z.
Proof.
  unfold set_expiry_duration, expired. destruct a as [[d0|]|d0|]; intros [= <- <-]; (split; [done|]); intros d Hd; simpl; naive_solver.
Qed.
Lemma c42_duration_ignored now pr a :
  a = DString None \/ a = DOther ->
  (set_expiry_duration now pr a).2 = None /\
  (a = DString None -> (set_expiry_duration now pr a).1 = pr) /\
  (a = DOther -> forall now', expired now' (set_expiry_duration now pr a).1 <-> (now < now')%Z).
Proof.
  intros [->| ->]; simpl; (split; [done|]); (split; [done|]); intros H; [done|]. intros now'. unfold expired. simpl. naive_solver.
Qed.
