(** Leaving something out of a request in package v2. *)
From Verif Require Import V2Final V2GrowProofs.
From Verif Require Export V2OmitSpec.
Local Open Scope string_scope.

(** ** The tenant *)
Lemma in_tenant_self q : in_tenant q (q_tenant q) = q.
Proof. by destruct q. Qed.
(** The loops over the tenants do not look at the tenant named. *)
Lemma authorize_loop_tenant st now q x ts : forall o i d, authorize_loop o i st now (in_tenant q x) d ts = authorize_loop o i st now q d ts.
Proof.
  induction ts as [|t ts IH]; intros o i d; [done|]. cbn [authorize_loop].
  destruct (w_tenants st !! t) as [c|]; [|done].
  change (target_namespace c (in_tenant q x)) with (target_namespace c q).
  destruct (target_namespace c q) as [n|]; [|apply IH].
  cbn [q_principal q_scope in_tenant].
  destruct (resolve_principal_permissions (sub (sub o i) 0) st now d (q_principal q) (vt_id c) n (q_scope q)) as [[d' [ps|]]| |]; cbn [rbind fst snd]; try done.
  change (perms_match (sub (sub o i) 1) (in_tenant q x) ps) with (perms_match (sub (sub o i) 1) q ps).
  destruct (perms_match (sub (sub o i) 1) q ps) as [[]| |]; cbn [rbind]; done.
Qed.
Lemma can_loop_tenant st now q roles x ts : forall o i d, can_loop o i st now (in_tenant q x) roles d ts = can_loop o i st now q roles d ts.
Proof.
  induction ts as [|t ts IH]; intros o i d; [done|]. cbn [can_loop].
  destruct (w_tenants st !! t) as [c|]; [|done].
  change (target_namespace c (in_tenant q x)) with (target_namespace c q).
  destruct (target_namespace c q) as [n|]; [|apply IH].
  cbn [q_principal in_tenant].
  destruct (resolve_principal_roles (sub o i) st now d (q_principal q) (vt_id c) n) as [[d' [rs|]]| |]; cbn [rbind fst snd]; try done.
  destruct (existsb (contains roles) (elements rs)); [done|apply IH].
Qed.
Lemma target_default o st q : q_tenant q = "" -> find_target_tenants o st (in_tenant q (w_default st)) = find_target_tenants o st q.
Proof.
  intros H. unfold find_target_tenants. cbn [q_tenant q_principal in_tenant]. rewrite H.
  rewrite (bool_decide_eq_true_2 ("" = "")) by done.
  destruct (decide (w_default st = "")) as [E|E]; [by rewrite E|].
  by rewrite !(bool_decide_eq_false_2 (w_default st = "")) by done.
Qed.
Lemma c130_default o st now q : q_tenant q = "" -> v2_authorize o st now q = v2_authorize o st now (in_tenant q (w_default st)).
Proof.
  intros H. unfold v2_authorize. rewrite target_default by done.
  destruct (find_target_tenants (sub o 0) st q) as [[ts|]| |]; cbn [rbind]; try done. by rewrite authorize_loop_tenant.
Qed.
Lemma c130_can_default o st now q roles : q_tenant q = "" -> v2_can o st now q roles = v2_can o st now (in_tenant q (w_default st)) roles.
Proof.
  intros H. unfold v2_can. rewrite target_default by done.
  destruct (find_target_tenants (sub o 0) st q) as [[ts|]| |]; cbn [rbind]; try done. by rewrite can_loop_tenant.
Qed.

(** Whoever has something that counts in a tenant has an assignment in it. *)
Lemma counts_assigned st now user t n pr c : counts st now user t n pr -> distinct_ids st -> tenant_at st t c ->
  exists pr', assigned st pr' /\ pr_principal pr' = user /\ pr_tenant pr' = vt_id c.
Proof.
  intros (Ha & Hu & _ & _ & t' & c' & Hm & Hc' & Ht) Hd Hc. inversion Hm as [x|x y z Hxy Hyz]; subst.
  - assert (c' = c) as -> by (unfold tenant_at in *; congruence). by exists pr.
  - destruct Hxy as (_ & t0 & pr0 & Ht0 & Ha0 & Hu0 & Hp0 & _).
    assert (t0 = c) as -> by (unfold tenant_at in *; congruence). by exists pr0.
Qed.
Lemma effective_counts st now user t n s p : effective st now user t n s p -> exists pr, counts st now user t n pr.
Proof. intros [(pr & H & _)|[(pr & H & _) _]]; by exists pr. Qed.
Lemma target_in_tenant st q l t : w_reg st !! t = Some l -> t <> "" -> forall l', target st (in_tenant q t) l' <-> l' = l.
Proof.
  intros Hl Ht l'. split.
  - intros [(id & (Hid & Hn) & Hr)|[[H _] _]]; cbn [q_tenant in_tenant] in *; [|done].
    destruct Hn as [<-|[? _]]; [congruence|done].
  - intros ->. left. exists t. by repeat split; [|left|].
Qed.
(** Without a tenant and a default tenant: as in some active tenant. *)
Lemma allowed_nameless st now q : v2_wf st -> distinct_ids st -> nameless st q ->
  v2_allowed st now q <-> exists t, t <> "" /\ active st t /\ v2_allowed st now (in_tenant q t).
Proof.
  intros W Hd Hn. split.
  - intros (l & c & n & p & Ht & Hc & Hu & He & Hm).
    destruct Ht as [(id & (Hid & Hi) & _)|(_ & pr & c0 & Ha & Hp & Hne & Hr & Hc0 & Hs)].
    { destruct Hn as [H1 H2]. destruct Hi as [Hi|[_ Hi]]; congruence. }
    exists (pr_tenant pr). split; [done|]. split; [by exists l, c0|].
    exists l, c, n, p. split; [by apply (target_in_tenant st q l)|]. by split.
  - intros (t & Ht & (l0 & c0 & Hr & Hc0 & Hs) & l & c & n & p & Hl & Hc & Hu & He & Hm).
    apply (target_in_tenant st q l0 t Hr Ht) in Hl as ->.
    exists l0, c, n, p. split; [|by split]. right. split; [done|].
    destruct (effective_counts _ _ _ _ _ _ _ He) as [pr Hpr].
    destruct (counts_assigned _ _ _ _ _ _ _ Hpr Hd Hc) as (pr' & Ha & Hp & Hi).
    destruct (wf_reg st W _ _ Hr) as (tc & Htc & Hid).
    assert (tc = c) as -> by (unfold tenant_at in *; congruence).
    exists pr', c0. rewrite Hi, Hid. by repeat split.
Qed.
Lemma can_allowed_nameless st now q roles : v2_wf st -> distinct_ids st -> nameless st q ->
  v2_can_allowed st now q roles <-> exists t, t <> "" /\ active st t /\ v2_can_allowed st now (in_tenant q t) roles.
Proof.
  intros W Hd Hn. split.
  - intros (l & c & n & x & Ht & Hc & Hu & He & Hm).
    destruct Ht as [(id & (Hid & Hi) & _)|(_ & pr & c0 & Ha & Hp & Hne & Hr & Hc0 & Hs)].
    { destruct Hn as [H1 H2]. destruct Hi as [Hi|[_ Hi]]; congruence. }
    exists (pr_tenant pr). split; [done|]. split; [by exists l, c0|].
    exists l, c, n, x. split; [by apply (target_in_tenant st q l)|]. by split.
  - intros (t & Ht & (l0 & c0 & Hr & Hc0 & Hs) & l & c & n & x & Hl & Hc & Hu & He & Hm).
    apply (target_in_tenant st q l0 t Hr Ht) in Hl as ->.
    exists l0, c, n, x. split; [|by split]. right. split; [done|].
    destruct He as (pr & Hpr & _).
    destruct (counts_assigned _ _ _ _ _ _ _ Hpr Hd Hc) as (pr' & Ha & Hp & Hi).
    destruct (wf_reg st W _ _ Hr) as (tc & Htc & Hid).
    assert (tc = c) as -> by (unfold tenant_at in *; congruence).
    exists pr', c0. rewrite Hi, Hid. by repeat split.
Qed.
Lemma c130_left_out o o' st now q s t s' : vreachable st -> distinct_ids st -> nameless st q ->
  active st t -> v2_authorize o st now q = Ok (s, false) -> v2_authorize o' st now (in_tenant q t) = Ok (s', true) -> False.
Proof.
  intros Hr Hd Hn Ha H H'. destruct (decide (t = "")) as [->|Ht].
  { assert (in_tenant q "" = q) as E by (destruct Hn as [<- _]; apply in_tenant_self). rewrite E in H'.
    apply (c31_exact _ _ _ _ _ _ Hr Hd) in H'. apply (c31_exact _ _ _ _ _ _ Hr Hd) in H.
    assert (false = true) by tauto. done. }
  apply (c31_exact _ _ _ _ _ _ Hr Hd) in H'. apply (c31_exact _ _ _ _ _ _ Hr Hd) in H.
  assert (v2_allowed st now q) as HA; [|assert (false = true) by tauto; done].
  apply allowed_nameless; [by apply vreachable_wf|done|done|]. exists t. split; [done|]. split; [done|]. tauto.
Qed.
Lemma c130_some o st now q s : vreachable st -> distinct_ids st -> nameless st q ->
  v2_authorize o st now q = Ok (s, true) -> exists t, active st t /\ t <> "" /\
  forall o' s' b, v2_authorize o' st now (in_tenant q t) = Ok (s', b) -> b = true.
Proof.
  intros Hr Hd Hn H. pose proof (proj1 (c31_exact _ _ _ _ _ _ Hr Hd H) eq_refl) as HA0.
  apply (proj1 (allowed_nameless st now q (vreachable_wf _ Hr) Hd Hn)) in HA0 as (t & Ht & Ha & HA).
  exists t. split; [done|]. split; [done|]. intros o' s' b E. exact (proj2 (c31_exact _ _ _ _ _ _ Hr Hd E) HA).
Qed.
Lemma c130_can_left_out o o' st now q roles s t s' : vreachable st -> distinct_ids st -> nameless st q ->
  active st t -> v2_can o st now q roles = Ok (s, false) -> v2_can o' st now (in_tenant q t) roles = Ok (s', true) -> False.
Proof.
  intros Hr Hd Hn Ha H H'. destruct (decide (t = "")) as [->|Ht].
  { assert (in_tenant q "" = q) as E by (destruct Hn as [<- _]; apply in_tenant_self). rewrite E in H'.
    apply (c32_exact _ _ _ _ _ _ _ Hr Hd) in H'. apply (c32_exact _ _ _ _ _ _ _ Hr Hd) in H.
    assert (false = true) by tauto. done. }
  apply (c32_exact _ _ _ _ _ _ _ Hr Hd) in H'. apply (c32_exact _ _ _ _ _ _ _ Hr Hd) in H.
  assert (v2_can_allowed st now q roles) as HA; [|assert (false = true) by tauto; done].
  apply can_allowed_nameless; [by apply vreachable_wf|done|done|]. exists t. split; [done|]. split; [done|]. tauto.
Qed.
Lemma c130_can_some o st now q roles s : vreachable st -> distinct_ids st -> nameless st q ->
  v2_can o st now q roles = Ok (s, true) -> exists t, active st t /\ t <> "" /\
  forall o' s' b, v2_can o' st now (in_tenant q t) roles = Ok (s', b) -> b = true.
Proof.
  intros Hr Hd Hn H. pose proof (proj1 (c32_exact _ _ _ _ _ _ _ Hr Hd H) eq_refl) as HA0.
  apply (proj1 (can_allowed_nameless st now q roles (vreachable_wf _ Hr) Hd Hn)) in HA0 as (t & Ht & Ha & HA).
  exists t. split; [done|]. split; [done|]. intros o' s' b E. exact (proj2 (c32_exact _ _ _ _ _ _ _ Hr Hd E) HA).
Qed.

(** ** The namespace *)
Lemma own_namespace_one c n m : own_namespace c n -> own_namespace c m -> n = m.
Proof.
  intros [[H1 H2]|[H1 H2]] [[H3 H4]|[H3 H4]]; [congruence|congruence|congruence|].
  rewrite H2 in H4. by apply (inj _) in H4.
Qed.
Lemma uses_own c q m : q_namespace q = "" -> uses_namespace c q m <->
  own_namespace c m /\ exists scopes, vt_namespaces c !! m = Some scopes /\ (q_scope q = "" \/ q_scope q ∈ scopes).
Proof.
  intros H. unfold uses_namespace, own_namespace. split; intros [H1 H2]; (split; [|done]).
  - destruct H1 as [[H1 H3]|[(_ & H1)|(_ & H1)]]; [congruence|by left|by right].
  - right. destruct H1 as [H1|H1]; [by left|by right].
Qed.
Lemma target_own c q n : q_namespace q = "" -> own_namespace c n -> target_namespace c (in_namespace q n) = target_namespace c q.
Proof.
  intros Hq Hn. destruct (decide (n = "")) as [->|Hne].
  { by rewrite <- Hq; destruct q. }
  apply option_eq. intros m. rewrite !target_namespace_exact, (uses_own c q m Hq).
  unfold uses_namespace. cbn [q_namespace q_scope in_namespace]. split.
  - intros [[[<- _]|[[? _]|[? _]]] Hs]; [by split|done|done].
  - intros [Hm Hs]. rewrite (own_namespace_one c n m Hn Hm) in *. split; [by left|done].
Qed.
Lemma about_targets st q c : about st q c -> exists l, w_tenants st !! l = Some c /\ forall o, find_target_tenants o st q = Ok (Some [l]).
Proof.
  intros (id & l & (Hid & Hn) & Hr & Hc). exists l. split; [done|]. intros o. unfold find_target_tenants.
  destruct Hn as [Hn|[Hn Hn']].
  - rewrite (bool_decide_eq_false_2 (q_tenant q = "")) by congruence. rewrite Hn, bool_decide_eq_false_2 by done. by rewrite Hr.
  - rewrite (bool_decide_eq_true_2 (q_tenant q = "")) by done. rewrite Hn', bool_decide_eq_false_2 by done. by rewrite Hr.
Qed.
Lemma c130_namespace o st now q c n : q_namespace q = "" -> about st q c -> own_namespace c n ->
  v2_authorize o st now q = v2_authorize o st now (in_namespace q n).
Proof.
  intros Hq Ha Hn. destruct (about_targets st q c Ha) as (l & Hl & Ht). unfold v2_authorize.
  change (find_target_tenants (sub o 0) st (in_namespace q n)) with (find_target_tenants (sub o 0) st q).
  rewrite Ht. cbn [rbind authorize_loop]. rewrite Hl, (target_own c q n Hq Hn).
  by destruct (target_namespace c q).
Qed.
Lemma c130_can_namespace o st now q roles c n : q_namespace q = "" -> about st q c -> own_namespace c n ->
  v2_can o st now q roles = v2_can o st now (in_namespace q n) roles.
Proof.
  intros Hq Ha Hn. destruct (about_targets st q c Ha) as (l & Hl & Ht). unfold v2_can.
  change (find_target_tenants (sub o 0) st (in_namespace q n)) with (find_target_tenants (sub o 0) st q).
  rewrite Ht. cbn [rbind can_loop]. rewrite Hl, (target_own c q n Hq Hn).
  by destruct (target_namespace c q).
Qed.
Lemma target_none c q : q_namespace q = "" -> (forall n, ~ own_namespace c n) -> target_namespace c q = None.
Proof.
  intros Hq Hn. destruct (target_namespace c q) as [m|] eqn:E; [|done].
  apply target_namespace_exact, (uses_own c q m Hq) in E as [E _]. by destruct (Hn m).
Qed.
Lemma c130_no_namespace o st now q c : q_namespace q = "" -> about st q c -> (forall n, ~ own_namespace c n) ->
  exists s, v2_authorize o st now q = Ok (s, false).
Proof.
  intros Hq Ha Hn. destruct (about_targets st q c Ha) as (l & Hl & Ht). unfold v2_authorize.
  rewrite Ht. cbn [rbind authorize_loop]. rewrite Hl, (target_none c q Hq Hn). cbn [rbind fst snd]. eauto.
Qed.
Lemma c130_can_no_namespace o st now q roles c : q_namespace q = "" -> about st q c -> (forall n, ~ own_namespace c n) ->
  exists s, v2_can o st now q roles = Ok (s, false).
Proof.
  intros Hq Ha Hn. destruct (about_targets st q c Ha) as (l & Hl & Ht). unfold v2_can.
  rewrite Ht. cbn [rbind can_loop]. rewrite Hl, (target_none c q Hq Hn). cbn [rbind fst snd]. eauto.
Qed.

(** ** The scope *)
Lemma uses_unscoped c q s n : uses_namespace c (in_scope q s) n -> uses_namespace c (in_scope q "") n.
Proof. intros [H (scopes & H1 & _)]. split; [done|]. exists scopes. split; [done|by left]. Qed.
Lemma target_scope st q s l : target st (in_scope q s) l <-> target st q l.
Proof. done. Qed.
Lemma can_unscoped st now q roles s : v2_can_allowed st now (in_scope q s) roles -> v2_can_allowed st now (in_scope q "") roles.
Proof.
  intros (t & c & n & x & H1 & H2 & H3 & H4 & H5). exists t, c, n, x. split; [done|]. split; [done|].
  split; [by eapply uses_unscoped|]. by split.
Qed.
Lemma unscoped_perm st now user t n p : effective st now user t n "" p -> scoped_perm st now user t n "" p.
Proof. intros [H|[(pr & _ & H1 & H2 & _) _]]; done. Qed.
Lemma allowed_unscoped st now q s : no_scope_given st (in_scope q s) -> v2_allowed st now (in_scope q s) -> v2_allowed st now (in_scope q "").
Proof.
  intros Hn (t & c & n & p & H1 & H2 & H3 & H4 & H5). exists t, c, n, p. split; [done|]. split; [done|].
  split; [by eapply uses_unscoped|]. split; [|done]. cbn [q_scope q_principal in_scope] in *. left.
  destruct Hn as [Hn|Hn]; cbn [q_scope q_principal in_scope] in Hn.
  { rewrite Hn in H4. by apply unscoped_perm. }
  destruct H4 as [(pr & (Ha & Hu & _) & Hs & _)|[(pr & Hc & _ & Hs & Hp) _]]; [by destruct (Hn pr)|]. by exists pr.
Qed.
Lemma has_scope_uses c q s n : has_scope c q s -> uses_namespace c (in_scope q "") n -> uses_namespace c (in_scope q s) n.
Proof.
  intros Hs [H (scopes & H1 & _)]. split; [done|]. exists scopes. split; [done|]. right.
  cbn [q_namespace q_scope in_scope] in *. apply (Hs n scopes); [|done]. unfold own_namespace.
  destruct H as [[? ?]|[(? & ?)|(? & ?)]]; [by left|right; split; [done|by left]|right; split; [done|by right]].
Qed.
Lemma names_target st q c l c' : about st q c -> target st q l -> tenant_at st l c' -> c' = c.
Proof.
  intros (id & l0 & (Hid & Hn) & Hr & Hc) Ht Hc'.
  assert (l = l0) as ->; [|unfold tenant_at in *; congruence].
  destruct Ht as [(id' & (Hid' & Hn') & Hr')|[[H1 H2] _]].
  - assert (id' = id) as ->; [|congruence].
    destruct Hn as [<-|[Hn <-]], Hn' as [<-|[Hn' <-]]; congruence.
  - destruct Hn as [Hn|[_ Hn]]; congruence.
Qed.
Lemma unscoped_allowed st now q s c : about st q c -> has_scope c q s -> no_scope_given st (in_scope q s) ->
  v2_allowed st now (in_scope q "") -> v2_allowed st now (in_scope q s).
Proof.
  intros Ha Hs Hn (t & c' & n & p & H1 & H2 & H3 & H4 & H5).
  assert (c' = c) as -> by (by apply (names_target st q c t c')).
  exists t, c, n, p. split; [done|]. split; [done|]. split; [by apply has_scope_uses|]. split; [|done].
  cbn [q_scope q_principal in_scope] in *. apply unscoped_perm in H4.
  destruct (decide (s = "")) as [->|Hne]; [by left|].
  destruct Hn as [Hn|Hn]; cbn [q_scope q_principal in_scope] in Hn; [done|]. right.
  destruct H4 as (pr & Hc & Hp & Hr). split.
  - exists pr. split; [done|]. split; [congruence|]. by split.
  - intros p' (pr' & (Ha' & Hu' & _) & Hs' & _). by apply (Hn pr').
Qed.
Lemma c130_scope o o' st now q s b b' c s1 s2 : vreachable st -> distinct_ids st -> about st q c -> has_scope c q s ->
  no_scope_given st (in_scope q s) -> v2_authorize o st now (in_scope q "") = Ok (s1, b) -> v2_authorize o' st now (in_scope q s) = Ok (s2, b') -> b' = b.
Proof.
  intros Hr Hd Ha Hs Hn H1 H2. apply (c31_exact _ _ _ _ _ _ Hr Hd) in H1. apply (c31_exact _ _ _ _ _ _ Hr Hd) in H2.
  pose proof (allowed_unscoped st now q s Hn) as A. pose proof (unscoped_allowed st now q s c Ha Hs Hn) as B.
  destruct b, b'; intuition congruence.
Qed.
Lemma c130_can_scope o o' st now q roles s b b' c s1 s2 : vreachable st -> distinct_ids st -> about st q c -> has_scope c q s ->
  v2_can o st now (in_scope q "") roles = Ok (s1, b) -> v2_can o' st now (in_scope q s) roles = Ok (s2, b') -> b' = b.
Proof.
  intros Hr Hd Ha Hs H1 H2. apply (c32_exact _ _ _ _ _ _ _ Hr Hd) in H1. apply (c32_exact _ _ _ _ _ _ _ Hr Hd) in H2.
  pose proof (can_unscoped st now q roles s) as A.
  assert (v2_can_allowed st now (in_scope q "") roles -> v2_can_allowed st now (in_scope q s) roles) as B.
  { intros (t & c' & n & x & K1 & K2 & K3 & K4 & K5).
    assert (c' = c) as -> by (by apply (names_target st q c t c')).
    exists t, c, n, x. split; [done|]. split; [done|]. split; [by apply has_scope_uses|]. by split. }
  destruct b, b'; intuition congruence.
Qed.
