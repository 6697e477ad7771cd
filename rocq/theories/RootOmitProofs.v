(** Requests to the root package that name less. *)
From Verif Require Import RootCor RootCor3.
From Verif Require Export RootOmitSpec.

Lemma is_nil_false x : x <> ANil -> is_nil x = false.
Proof. by destruct x. Qed.
(** The two requests are decided with the same implicit tenants. *)
Lemma asked_again o1 st p q st1 o2 i ops st2 outs o3 q' st3 b :
  authorize o1 st p q = Ok (st1, true) -> (forall x, x ∈ ops -> is_query x) -> run o2 i st1 ops = Ok (st2, outs) ->
  authorize o3 st2 p q' = Ok (st3, b) ->
  (forall U o, get_implicit_tenants o st p = Ok (st1, U) -> authorized st U p q -> authorized st U p q') -> b = true.
Proof.
  intros H1 Hq Hr H2 HA.
  assert (S : same_but_caches st st2).
  { eapply same_but_caches_trans; [by eapply authorize_same|by eapply query_run_same]. }
  apply authorize_ok in H1 as [(? & _)|(Hp & U & (o & HU) & Hb)]; [done|].
  apply authorize_ok in H2 as [(_ & Hp2 & _)|(Hp2 & U2 & (o' & HU2) & Hb2)]; rewrite (principals_same _ _ S) in Hp2; [done|].
  pose proof (HA U o HU (proj1 Hb eq_refl)) as HA'.
  apply implicit_caches in HU. apply (gr_cache _ _ (run_grows _ _ _ _ _ _ Hr)) in HU.
  rewrite (implicit_cached o' _ _ _ HU) in HU2. injection HU2 as _ <-.
  rewrite (authorized_same _ _ _ _ _ S) in Hb2. by apply Hb2.
Qed.
(** Whoever has an implicit tenant has an own one among them. *)
Lemma implicit_own o st p st1 U : reachable st -> m_cache st !! p = None -> get_implicit_tenants o st p = Ok (st1, U) ->
  (forall u, own st p u -> u ∈ U) /\ (U <> ∅ -> exists u, u ∈ U /\ own st p u).
Proof.
  intros Hr Hc H. destruct (implicit_reachable_bounds o st p st1 U Hr Hc H) as [B1 B2]. split; [done|].
  intros HU. apply set_choose_L in HU as [u Hu]. destruct (B2 u Hu) as [Ho|(t0 & (d & Hd & Hp & Ht & _) & _)].
  - exists u. by split.
  - assert (own st p t0) as Ho by (by exists d). exists t0. split; [by apply B1|done].
Qed.

(** ** Membership *)
Lemma ftns_fts st p q : grants_membership st p q FTNS -> grants_membership st p (without_namespace q) FTS.
Proof.
  intros (d & H1 & H2 & H3 & H4 & H5 & H6). exists d. cbn [o_tenant o_scope without_namespace]. repeat (split; [done|]).
  destruct H6 as [?|[? _]]; [by right|by left].
Qed.
Lemma shape_ftns q : o_tenant q <> ANil -> o_namespace q <> ANil -> o_scope q <> ANil -> shape_of q = FTNS.
Proof. intros H1 H2 H3. unfold shape_of. by rewrite !is_nil_false. Qed.
Lemma shape_fts q : o_tenant q <> ANil -> o_scope q <> ANil -> shape_of (without_namespace q) = FTS.
Proof. intros H1 H3. unfold shape_of. cbn [o_tenant o_namespace o_scope without_namespace]. by rewrite (is_nil_false (o_tenant q)), (is_nil_false (o_scope q)). Qed.
Lemma shape_ftn q : o_tenant q <> ANil -> o_namespace q <> ANil -> shape_of (without_scope q) = FTN.
Proof. intros H1 H3. unfold shape_of. cbn [o_tenant o_namespace o_scope without_scope]. by rewrite (is_nil_false (o_tenant q)), (is_nil_false (o_namespace q)). Qed.
Lemma shape_ft q : o_tenant q <> ANil -> shape_of (tenant_alone q) = FT.
Proof. intros H1. unfold shape_of. cbn [o_tenant o_namespace o_scope tenant_alone]. by rewrite (is_nil_false (o_tenant q)). Qed.
Lemma valid_drop st q : valid_request st q ->
  valid_request st (without_namespace q) /\ valid_request st (without_scope q) /\ valid_request st (tenant_alone q).
Proof. intros (H1 & H2 & H3). unfold valid_request. cbn. split_and!; try done; by left. Qed.
Lemma authorized_without_namespace st U p q : ~ asks_activity q -> o_tenant q <> ANil -> o_namespace q <> ANil -> o_scope q <> ANil ->
  authorized st U p q -> authorized st U p (without_namespace q).
Proof.
  intros Ha Ht Hn Hs (H1 & H2 & H3 & H4). split; [done|]. split; [done|]. split; [by apply valid_drop|].
  rewrite (shape_fts q Ht Hs). rewrite (shape_ftns q Ht Hn Hs) in H4. destruct H4 as [H4|(u & Hu & H4)].
  - left. apply grants_no_activity; [done|]. apply grants_no_activity in H4; [|done]. by apply ftns_fts.
  - right. exists u. split; [done|]. apply grants_no_activity; [done|]. apply grants_no_activity in H4; [|done]. by apply ftns_fts in H4.
Qed.
Lemma authorized_tenant_alone st U p q : ~ asks_activity q -> o_tenant q <> ANil -> (U <> ∅ -> exists u, u ∈ U /\ own st p u) ->
  authorized st U p q -> authorized st U p (tenant_alone q).
Proof.
  intros Ha Ht HU (H1 & H2 & H3 & _). split; [done|]. split; [done|]. split; [by apply valid_drop|].
  rewrite (shape_ft q Ht). right. destruct (HU H2) as (u & Hu & d & Hd & Hp & Htd). exists u. split; [done|].
  apply grants_no_activity; [done|]. exists d. cbn. repeat (split; [done|]). by rewrite Htd.
Qed.
Lemma c131_namespace o1 st p q st1 o2 i ops st2 outs o3 st3 b : ~ asks_activity q ->
  o_tenant q <> ANil -> o_namespace q <> ANil -> o_scope q <> ANil ->
  authorize o1 st p q = Ok (st1, true) -> (forall x, x ∈ ops -> is_query x) -> run o2 i st1 ops = Ok (st2, outs) ->
  authorize o3 st2 p (without_namespace q) = Ok (st3, b) -> b = true.
Proof.
  intros Ha Ht Hn Hs H1 Hq Hr H2. eapply asked_again; [exact H1|exact Hq|exact Hr|exact H2|].
  intros U o _. by apply authorized_without_namespace.
Qed.
Lemma c131_tenant o1 st p q st1 o2 i ops st2 outs o3 st3 b : reachable st -> m_cache st !! p = None -> ~ asks_activity q -> o_tenant q <> ANil ->
  authorize o1 st p q = Ok (st1, true) -> (forall x, x ∈ ops -> is_query x) -> run o2 i st1 ops = Ok (st2, outs) ->
  authorize o3 st2 p (tenant_alone q) = Ok (st3, b) -> b = true.
Proof.
  intros R C Ha Ht H1 Hq Hr H2. eapply asked_again; [exact H1|exact Hq|exact Hr|exact H2|].
  intros U o HU. apply authorized_tenant_alone; [done|done|]. by apply (implicit_own o st p st1 U).
Qed.

(** ** Activities *)
Definition grants_some (st : state) (U : gset string) (p : string) (q : opts) (f : shape) : Prop :=
  grants st p q f \/ exists u, u ∈ U /\ grants st p (set_o_tenant q (AStr u)) f.
Lemma activity_row st U p q t d q' f : asks_activity q -> given_somewhere st p -> (forall u, own st p u -> u ∈ U) ->
  o_group q' = o_group q -> o_activity q' = o_activity q -> f = FTN \/ f = FTS ->
  (t = o_tenant q' \/ exists u, u ∈ U /\ t = AStr u) -> stored st d -> role_row p t q FTNS d ->
  (forall t', tenant d = t' -> tenant d <> ANil -> role_row p t' q' f d) ->
  (exists g a r l, o_group q = AStr g /\ o_activity q = AStr a /\ role d = AStr r /\ m_roles st !! r = Some l /\ permits (s_heap st) l g a []) ->
  grants_some st U p q' f.
Proof.
  intros Ha Hg HU E1 E2 Hf Ht Hd Hrow Hto (g & a & r & l & G1 & G2 & G3 & G4 & G5).
  destruct Hrow as (Hr & Hp & _).
  destruct (Hg d Hd Hp Hr) as [u Hu]. assert (own st p u) as Ho by (by exists d).
  right. exists u. split; [by apply HU|]. apply grants_with_activity.
  { unfold asks_activity in *. cbn. by rewrite E1, E2. }
  exists g, a, (AStr u), d, r, l. cbn [o_group o_activity set_o_tenant]. rewrite E1, E2. split; [done|]. split; [done|].
  split; [destruct Hf as [-> | ->]; done|]. split; [done|]. split; [|done].
  assert (role_row p (AStr u) q' f d) as K by (apply Hto; [done|by rewrite Hu]).
  destruct Hf as [-> | ->]; exact K.
Qed.
Lemma authorized_fewer st U p q q' f : asks_activity q -> given_somewhere st p -> (forall u, own st p u -> u ∈ U) ->
  o_group q' = o_group q -> o_activity q' = o_activity q -> o_tenant q' = o_tenant q -> f = FTN \/ f = FTS -> shape_of q = FTNS -> shape_of q' = f -> valid_request st q' ->
  (forall t d, role_row p t q FTNS d -> tenant d <> ANil -> role_row p (tenant d) q' f d) ->
  authorized st U p q -> authorized st U p q'.
Proof.
  intros Ha Hg HU E1 E2 E3 Hf Hq Hq' Hv Hto (H1 & H2 & H3 & H4). split; [done|]. split; [done|]. split; [done|].
  rewrite Hq'. rewrite Hq in H4. destruct H4 as [H4|(u & Hu & H4)].
  - apply grants_with_activity in H4 as (g & a & t & d & r & l & G1 & G2 & G3 & G4 & G5 & G6 & G7 & G8); [|done].
    eapply (activity_row st U p q t d q' f); [done..| |done|done| |].
    + left. cbn in G3. by rewrite E3.
    + intros t' <- Hn. by eapply Hto.
    + by exists g, a, r, l.
  - apply grants_with_activity in H4 as (g & a & t & d & r & l & G1 & G2 & G3 & G4 & G5 & G6 & G7 & G8); [|done].
    eapply (activity_row st U p q t d q' f); [done..| |done|done| |].
    + right. exists u. by split.
    + intros t' <- Hn. by eapply Hto.
    + by exists g, a, r, l.
Qed.
Lemma row_without_scope p t q d : role_row p t q FTNS d -> tenant d <> ANil -> role_row p (tenant d) (without_scope q) FTN d.
Proof. intros (H1 & H2 & _ & H3 & _) Hn. split; [done|]. split; [by left|done]. Qed.
Lemma row_without_namespace p t q d : role_row p t q FTNS d -> tenant d <> ANil -> role_row p (tenant d) (without_namespace q) FTS d.
Proof. intros (H1 & H2 & _ & _ & H3) Hn. split; [done|]. split; [by left|done]. Qed.
Lemma c131_activity o1 st p q st1 o2 i ops st2 outs o3 q' st3 b : reachable st -> m_cache st !! p = None -> given_somewhere st p -> asks_activity q ->
  o_tenant q <> ANil -> o_namespace q <> ANil -> o_scope q <> ANil -> q' = without_scope q \/ q' = without_namespace q ->
  authorize o1 st p q = Ok (st1, true) -> (forall x, x ∈ ops -> is_query x) -> run o2 i st1 ops = Ok (st2, outs) ->
  authorize o3 st2 p q' = Ok (st3, b) -> b = true.
Proof.
  intros R C G Ha Ht Hn Hs Hq' H1 Hq Hr H2. eapply asked_again; [exact H1|exact Hq|exact Hr|exact H2|].
  intros U o HU. pose proof (proj1 (implicit_own o st p st1 U R C HU)) as Ho. intros HA.
  destruct (valid_drop st q) as (V1 & V2 & _); [by destruct HA as (_ & _ & ? & _)|].
  destruct Hq' as [-> | ->].
  - eapply (authorized_fewer st U p q _ FTN); try done; [by left|by apply shape_ftns|by apply shape_ftn|]. intros t d. apply row_without_scope.
  - eapply (authorized_fewer st U p q _ FTS); try done; [by right|by apply shape_ftns|by apply shape_fts|]. intros t d. apply row_without_namespace.
Qed.

(** ** No tenant *)
Lemma asked_again_same o1 st p q st1 b1 o2 i ops st2 outs o3 q' st3 b2 :
  authorize o1 st p q = Ok (st1, b1) -> (forall x, x ∈ ops -> is_query x) -> run o2 i st1 ops = Ok (st2, outs) ->
  authorize o3 st2 p q' = Ok (st3, b2) ->
  (forall U o, get_implicit_tenants o st p = Ok (st1, U) -> authorized st U p q <-> authorized st U p q') -> b1 = b2.
Proof.
  intros H1 Hq Hr H2 HA.
  assert (S : same_but_caches st st2).
  { eapply same_but_caches_trans; [by eapply authorize_same|by eapply query_run_same]. }
  apply authorize_ok in H1 as [(-> & Hp & _)|(Hp & U & (o & HU) & Hb)];
    apply authorize_ok in H2 as [(-> & Hp2 & _)|(Hp2 & U2 & (o' & HU2) & Hb2)]; rewrite (principals_same _ _ S) in Hp2; try done.
  pose proof (HA U o HU) as HA'.
  apply implicit_caches in HU. apply (gr_cache _ _ (run_grows _ _ _ _ _ _ Hr)) in HU.
  rewrite (implicit_cached o' _ _ _ HU) in HU2. injection HU2 as _ <-.
  rewrite (authorized_same _ _ _ _ _ S) in Hb2. apply eq_true_iff_eq. by rewrite Hb, Hb2.
Qed.
Lemma shape_fns q : o_namespace q <> ANil -> o_scope q <> ANil -> shape_of (without_tenant q) = FNS.
Proof. intros H1 H3. unfold shape_of. cbn [o_tenant o_namespace o_scope without_tenant]. by rewrite (is_nil_false (o_namespace q)), (is_nil_false (o_scope q)). Qed.
(** Some role of [p] for the namespace and scope of [q] permits the activity. *)
Definition role_for (st : state) (p : string) (q : opts) : Prop :=
  exists g a d r l, o_group q = AStr g /\ o_activity q = AStr a /\ stored st d /\ principal d = AStr p
    /\ unset_or (namespace d) (o_namespace q) /\ unset_or (scope d) (o_scope q)
    /\ role d = AStr r /\ m_roles st !! r = Some l /\ permits (s_heap st) l g a [].
Lemma ftns_role_for st p q : grants_activity st p q FTNS -> role_for st p q.
Proof. intros (g & a & t & d & r & l & G1 & G2 & G3 & G4 & (_ & R1 & _ & R2 & R3) & G6 & G7 & G8). exists g, a, d, r, l. by repeat split. Qed.
Lemma fns_role_for st p q : grants_activity st p q FNS -> role_for st p q.
Proof. intros (g & a & t & d & r & l & G1 & G2 & G3 & G4 & (_ & R1 & _ & R2 & R3) & G6 & G7 & G8). exists g, a, d, r, l. by repeat split. Qed.
Lemma role_for_fns st p q : given_somewhere st p -> role_for st p q -> grants_activity st p q FNS.
Proof.
  intros G (g & a & d & r & l & G1 & G2 & G3 & G4 & G5 & G6 & G7 & G8 & G9).
  assert (role d <> ANil) as Hr by (by rewrite G7). destruct (G d G3 G4 Hr) as [u Hu].
  assert (tenant d <> ANil) as Hn by (by rewrite Hu).
  exists g, a, (tenant d), d, r, l. split; [done|]. split; [done|]. split; [by exists d|]. split; [done|]. split; [|done].
  split; [done|]. split; [done|]. split; [by left|done].
Qed.
Lemma role_for_ftns st (U : gset string) p q : given_somewhere st p -> (forall u, own st p u -> u ∈ U) -> role_for st p q ->
  exists u, u ∈ U /\ grants_activity st p (set_o_tenant q (AStr u)) FTNS.
Proof.
  intros G HU (g & a & d & r & l & G1 & G2 & G3 & G4 & G5 & G6 & G7 & G8 & G9).
  assert (role d <> ANil) as Hr by (by rewrite G7). destruct (G d G3 G4 Hr) as [u Hu].
  exists u. split; [apply HU; by exists d|].
  exists g, a, (AStr u), d, r, l. split; [done|]. split; [done|]. split; [done|]. split; [done|]. split; [|done].
  split; [done|]. split; [done|]. split; [left; by rewrite Hu|done].
Qed.
Lemma authorized_no_tenant st U p q t l : asks_activity q -> given_somewhere st p -> (forall u, own st p u -> u ∈ U) ->
  o_tenant q = AStr t -> m_tenants st !! t = Some l -> o_namespace q <> ANil -> o_scope q <> ANil ->
  authorized st U p q <-> authorized st U p (without_tenant q).
Proof.
  intros Ha G HU Ht Hl Hn Hs. assert (asks_activity (without_tenant q)) as Ha' by done.
  assert (o_tenant q <> ANil) as Hnt by (by rewrite Ht). unfold authorized. rewrite (shape_fns q Hn Hs), (shape_ftns q Hnt Hn Hs).
  assert (valid_request st q <-> valid_request st (without_tenant q)) as ->.
  { unfold valid_request. cbn. rewrite Ht. split; intros (H1 & H2 & H3); (split; [|done]); [by left|]. right. by exists t, l. }
  split; intros (H1 & H2 & H3 & H4); (split; [done|]; split; [done|]; split; [done|]).
  - left. apply grants_with_activity; [done|]. apply role_for_fns; [done|].
    assert (role_for st p q) as K; [|exact K].
    destruct H4 as [H4|(u & _ & H4)]; apply grants_with_activity in H4; try done; apply ftns_role_for in H4; exact H4.
  - right. assert (role_for st p q) as K.
    { destruct H4 as [H4|(u & _ & H4)]; apply grants_with_activity in H4; try done; apply fns_role_for in H4; exact H4. }
    destruct (role_for_ftns st U p q G HU K) as (u & Hu & Hg). exists u. split; [done|]. by apply grants_with_activity.
Qed.
Lemma c131_no_tenant o1 st p q t l st1 b1 o2 i ops st2 outs o3 st3 b2 : reachable st -> m_cache st !! p = None -> given_somewhere st p -> asks_activity q ->
  o_tenant q = AStr t -> m_tenants st !! t = Some l -> o_namespace q <> ANil -> o_scope q <> ANil ->
  authorize o1 st p q = Ok (st1, b1) -> (forall x, x ∈ ops -> is_query x) -> run o2 i st1 ops = Ok (st2, outs) ->
  authorize o3 st2 p (without_tenant q) = Ok (st3, b2) -> b1 = b2.
Proof.
  intros R C G Ha Ht Hl Hn Hs H1 Hq Hr H2. eapply asked_again_same; [exact H1|exact Hq|exact Hr|exact H2|].
  intros U o HU. eapply authorized_no_tenant; try done. exact (proj1 (implicit_own o st p st1 U R C HU)).
Qed.
