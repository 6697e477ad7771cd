(** Closing steps for the properties of v2 decisions during which time passes. *)
From Verif Require Import V2Auth V2Inv TickModel TickProofs TickSpec.

(** ** If time stands still the model is the one of V2Model *)
Section alone.
  Context (st : vstate) (now : Z).
  Notation still := (fun _ : nat => now).
  (** Same outcome up to the counter *)
  Definition same {A} (x : res (gset string * dag * (nat * A))) (y : res (gset string * dag * A)) : Prop :=
    match x, y with
    | Ok (c, d, (_, a)), Ok (c', d', a') => c = c' /\ d = d' /\ a = a'
    | Panic, Panic => True
    | Hang, Hang => True
    | _, _ => False
    end.
  Lemma same_rows {A} (row : dag -> A -> prole -> res (dag * A)) user tid d k a ps :
    exists k', t_rows still st row user tid d (k, a) ps =
    match rows_loop row st now user tid d a ps with Ok (d', a') => Ok (d', (k', a')) | Panic => Panic | Hang => Hang end.
  Proof.
    revert d k a. induction ps as [|p ps IH]; intros d k a; [by exists k|]. cbn [t_rows rows_loop fst snd].
    destruct (p ≫= (fun l => w_prs st !! l)) as [pr|]; [|by exists 0].
    destruct (bool_decide (pr_principal pr = user) && bool_decide (pr_tenant pr = tid)); cbn [andb]; [|apply IH].
    assert (He : (expired_at still k pr).2 = is_expired now pr) by (unfold expired_at, is_expired; by destruct (pr_expiry pr)).
    destruct (expired_at still k pr) as [k1 e]. cbn [snd] in He. subst e. destruct (is_expired now pr); cbn [negb]; [apply IH|].
    destruct (row d a pr) as [[d1 a1]| |]; cbn [rbind fst snd]; [apply IH|by exists 0..].
  Qed.
  Lemma same_kids {A} rec rec' o i cs ch d k (a : A) :
    (forall o c ch d k a, same (rec o c ch d (k, a)) (rec' o c ch d a)) ->
    same (kids_loop rec o i cs ch d (k, a)) (kids_loop rec' o i cs ch d a).
  Proof.
    intros Hrec. revert i ch d k a. induction cs as [|c cs IH]; intros i ch d k a; cbn [kids_loop]; [done|].
    pose proof (Hrec (sub o i) c ch d k a) as H.
    destruct (rec (sub o i) c ch d (k, a)) as [[[c1 d1] [k1 a1]]| |], (rec' (sub o i) c ch d a) as [[[c2 d2] a2]| |];
      cbn in H; try done. destruct H as (-> & -> & ->). cbn. apply IH.
  Qed.
  Lemma same_manage {A} rec rec' user o i t ps ch d k (a : A) :
    (forall o c ch d k a, same (rec o c ch d (k, a)) (rec' o c ch d a)) ->
    same (manage_loop st user rec o i t ps ch d (k, a)) (manage_loop st user rec' o i t ps ch d a).
  Proof.
    intros Hrec. revert i ch d k a. induction ps as [|p ps IH]; intros i ch d k a; cbn [manage_loop]; [done|].
    destruct (p ≫= (fun l => w_prs st !! l)) as [pr|]; [|done]. destruct (_ && _ && _); [|by apply IH].
    pose proof (same_kids rec rec' (sub o i) 1 (ordered (sub (sub o i) 0) (map_to_list (vt_children t)).*2) ch d k a Hrec) as H.
    destruct (kids_loop rec _ _ _ _ _ _) as [[[c1 d1] [k1 a1]]| |], (kids_loop rec' _ _ _ _ _ _) as [[[c2 d2] a2]| |];
      cbn in H; try done. destruct H as (-> & -> & ->). cbn. apply IH.
  Qed.
  Lemma same_traverse {A} (row : dag -> A -> prole -> res (dag * A)) user fuel o t ch d k a :
    same (t_traverse still st row user fuel o t ch d (k, a)) (traverse row st now user fuel o t ch d a).
  Proof.
    revert o t ch d k a. induction fuel as [|fuel IH]; intros o t ch d k a; cbn [t_traverse traverse]; [done|].
    destruct (w_tenants st !! t) as [c|]; [|done]. case_bool_decide; [done|].
    destruct (same_rows row user (vt_id c) d k a (w_assign st)) as [k' ->].
    destruct (rows_loop row _ _ _ _ _ _ _) as [[d1 a1]| |]; [|done|done]. cbn [rbind fst snd]. apply same_manage. intros. apply IH.
  Qed.
  Lemma same_all {A} (row : dag -> A -> prole -> res (dag * A)) user o t d k a :
    exists k', t_traverse_all still st row user o t d (k, a) =
    match traverse_all row st now user o t d a with Ok (d', a') => Ok (d', (k', a')) | Panic => Panic | Hang => Hang end.
  Proof.
    unfold t_traverse_all, traverse_all. pose proof (same_traverse row user (S (length (w_tenants st))) o t ∅ d k a) as H.
    destruct (t_traverse still st row user _ o t ∅ d (k, a)) as [[[c1 d1] [k1 a1]]| |],
      (traverse row st now user _ o t ∅ d a) as [[[c2 d2] a2]| |]; cbn in H; try done; [|by exists 0..].
    destruct H as (-> & -> & ->). by exists k1.
  Qed.
  Lemma same_authorize o i q d k ts : t_authorize_loop still st o i q d k ts = authorize_loop o i st now q d ts.
  Proof.
    revert i d k. induction ts as [|t ts IH]; intros i d k; cbn [t_authorize_loop authorize_loop]; [done|].
    destruct (w_tenants st !! t) as [c|]; [|done]. destruct (target_namespace c q) as [n|]; [|apply IH].
    unfold t_principal_permissions, resolve_principal_permissions.
    destruct (w_reg st !! vt_id c) as [t'|]; [|cbn [rbind fst snd]; apply IH].
    destruct (same_all (perm_row st n (q_scope q)) (q_principal q) (sub (sub o i) 0) t' d k (∅, ∅)) as [k' ->].
    destruct (traverse_all _ _ _ _ _ _ _ _) as [[d1 [sc gl]]| |]; [|done|done]. cbn [rbind fst snd].
    destruct (bool_decide (sc <> ∅)); [|destruct (bool_decide (gl <> ∅)); [|apply IH]];
      (destruct (perms_match _ _ _) as [[]| |]; cbn [rbind]; [done|apply IH|done|done]).
  Qed.
  Lemma same_can o i q roles d k ts : t_can_loop still st o i q roles d k ts = can_loop o i st now q roles d ts.
  Proof.
    revert i d k. induction ts as [|t ts IH]; intros i d k; cbn [t_can_loop can_loop]; [done|].
    destruct (w_tenants st !! t) as [c|]; [|done]. destruct (target_namespace c q) as [n|]; [|apply IH].
    unfold t_principal_roles, resolve_principal_roles.
    destruct (w_reg st !! vt_id c) as [t'|]; [|cbn [rbind fst snd]; apply IH].
    destruct (same_all (role_row st n) (q_principal q) (sub o i) t' d k ∅) as [k' ->].
    destruct (traverse_all _ _ _ _ _ _ _ _) as [[d1 s]| |]; [|done|done]. cbn [rbind fst snd].
    destruct (bool_decide (s <> ∅)); [|apply IH]. destruct (existsb _ _); [done|apply IH].
  Qed.
End alone.
Lemma authorize_still st now o q : t_authorize (fun _ => now) st o q = v2_authorize o st now q.
Proof.
  unfold t_authorize, v2_authorize. destruct (find_target_tenants (sub o 0) st q) as [[ts|]| |]; cbn [rbind]; [|done..].
  by rewrite same_authorize.
Qed.
Lemma can_still st now o q roles : t_can (fun _ => now) st o q roles = v2_can o st now q roles.
Proof.
  unfold t_can, v2_can. destruct (find_target_tenants (sub o 0) st q) as [[ts|]| |]; cbn [rbind]; [|done..]. by rewrite same_can.
Qed.

(** ** Instants *)
Lemma lasts_order clock t0 t1 : lasts clock t0 t1 -> (t0 <= t1)%Z.
Proof. intros [H _]. pose proof (H 0). lia. Qed.
Lemma unscoped_then st t t' q : q_scope q = "" -> allows_then st t t' q <-> v2_allowed st t q.
Proof.
  intros Hq.
  assert (Hng : forall s t n p, ~ global_perm st s (q_principal q) t n (q_scope q) p).
  { intros s t0 n p (pr & _ & Hne & He & _). congruence. }
  rewrite <-allows_then_same.
  split; intros (x & c & n & p & ? & ? & ? & ? & [Hs|[Hgl _]]); try (by apply Hng in Hgl); exists x, c, n, p; tauto.
Qed.
Lemma expired_mono t t' pr : (t <= t')%Z -> expired t pr -> expired t' pr.
Proof. intros Ht (e & He & ?). exists e. split; [done|lia]. Qed.
Lemma counts_mono st t t' user l n pr : (t <= t')%Z -> counts st t' user l n pr -> counts st t user l n pr.
Proof. intros Ht (H1 & H2 & H3 & H4). split; [done|]. split; [done|]. split; [|done]. intros He. by apply H3, (expired_mono t). Qed.
Lemma counts_lasting st user t0 t1 t t' l n pr : none_runs_out st user t0 t1 -> (t0 <= t <= t1)%Z -> (t0 <= t' <= t1)%Z ->
  counts st t user l n pr -> counts st t' user l n pr.
Proof.
  intros Hno Ht Ht' (H1 & H2 & H3 & H4). split; [done|]. split; [done|]. split; [|done]. intros He.
  apply H3, (expired_mono t0); [lia|]. apply (Hno pr H1 H2), (expired_mono t'); [lia|done].
Qed.
Lemma scoped_lasting st user t0 t1 t t' l n s p : none_runs_out st user t0 t1 -> (t0 <= t <= t1)%Z -> (t0 <= t' <= t1)%Z ->
  scoped_perm st t user l n s p -> scoped_perm st t' user l n s p.
Proof. intros Hno Ht Ht' (pr & Hc & H). exists pr. split; [exact (counts_lasting st user t0 t1 t t' l n pr Hno Ht Ht' Hc)|exact H]. Qed.
Lemma global_lasting st user t0 t1 t t' l n s p : none_runs_out st user t0 t1 -> (t0 <= t <= t1)%Z -> (t0 <= t' <= t1)%Z ->
  global_perm st t user l n s p -> global_perm st t' user l n s p.
Proof. intros Hno Ht Ht' (pr & Hc & H). exists pr. split; [exact (counts_lasting st user t0 t1 t t' l n pr Hno Ht Ht' Hc)|exact H]. Qed.
Lemma allows_lasting st q t0 t1 yes no yes' no' : none_runs_out st (q_principal q) t0 t1 ->
  (t0 <= yes <= t1)%Z -> (t0 <= no <= t1)%Z -> (t0 <= yes' <= t1)%Z -> (t0 <= no' <= t1)%Z ->
  allows_then st yes no q -> allows_then st yes' no' q.
Proof.
  intros Hno H1 H2 H3 H4 (t & c & n & p & Ht & Hc & Hn & Hm & H). exists t, c, n, p. split; [done|]. split; [done|]. split; [done|].
  split; [done|]. destruct H as [Hs|[Hg Hall]]; [left; exact (scoped_lasting _ _ t0 t1 _ _ _ _ _ _ Hno H1 H3 Hs)|]. right. split; [exact (global_lasting _ _ t0 t1 _ _ _ _ _ _ Hno H1 H3 Hg)|].
  intros p' Hp'. apply (Hall p'). exact (scoped_lasting _ _ t0 t1 no' no _ _ _ _ Hno H4 H2 Hp').
Qed.
Lemma can_mono st t t' q roles : (t <= t')%Z -> v2_can_allowed st t' q roles -> v2_can_allowed st t q roles.
Proof.
  intros Ht (l & c & n & x & H1 & H2 & H3 & (pr & Hc & H4) & H5). exists l, c, n, x. split; [done|]. split; [done|]. split; [done|].
  split; [|done]. exists pr. split; [exact (counts_mono st t t' _ _ _ pr Ht Hc)|exact H4].
Qed.

(** ** C122 *)
Lemma c122_bounds st clock t0 t1 o q roles st' b : vreachable st -> distinct_ids st -> lasts clock t0 t1 ->
  t_can clock st o q roles = Ok (st', b) ->
  (v2_can_allowed st t1 q roles -> b = true) /\ (b = true -> v2_can_allowed st t0 q roles).
Proof.
  intros Hr%vreachable_wf Hdi [Hin _] H. destruct (t_can_between clock st t0 t1 Hin Hr Hdi q o roles st' b H) as [H1 H2]. by split.
Qed.
Lemma c122_some_instant st clock t0 t1 o q roles st' b : vreachable st -> distinct_ids st -> lasts clock t0 t1 ->
  t_can clock st o q roles = Ok (st', b) -> right_meanwhile (fun t => v2_can_allowed st t q roles) t0 t1 b.
Proof.
  intros Hr Hdi Hl H. destruct (c122_bounds _ _ _ _ _ _ _ _ _ Hr Hdi Hl H) as [H1 H2]. pose proof (lasts_order _ _ _ Hl). destruct b.
  - exists t0. split; [lia|]. split; [by intros _; apply H2|done].
  - exists t1. split; [lia|]. split; [done|exact H1].
Qed.
Lemma c122_returns st clock o q roles : vreachable st -> ~ broken st -> exists st' b, t_can clock st o q roles = Ok (st', b).
Proof. intros Hr%vreachable_wf Hb. exact (t_can_returns clock st Hr Hb q o roles). Qed.

(** ** C123 *)
Lemma c123_bounds st clock t0 t1 o q st' b : vreachable st -> distinct_ids st -> lasts clock t0 t1 ->
  t_authorize clock st o q = Ok (st', b) ->
  (allows_then st t1 t0 q -> b = true) /\ (b = true -> allows_then st t0 t1 q).
Proof.
  intros Hr%vreachable_wf Hdi [Hin _] H. destruct (t_authorize_between clock st t0 t1 Hin Hr Hdi q o st' b H) as [H1 H2]. by split.
Qed.
Lemma c123_unscoped st clock t0 t1 o q st' b : vreachable st -> distinct_ids st -> lasts clock t0 t1 -> q_scope q = "" ->
  t_authorize clock st o q = Ok (st', b) -> right_meanwhile (fun t => v2_allowed st t q) t0 t1 b.
Proof.
  intros Hr Hdi Hl Hq H. destruct (c123_bounds _ _ _ _ _ _ _ _ Hr Hdi Hl H) as [H1 H2].
  rewrite (unscoped_then st t1 t0 q Hq) in H1. rewrite (unscoped_then st t0 t1 q Hq) in H2. pose proof (lasts_order _ _ _ Hl). destruct b.
  - exists t0. split; [lia|]. split; [by intros _; apply H2|done].
  - exists t1. split; [lia|]. split; [done|exact H1].
Qed.
Lemma c123_lasting st clock t0 t1 o q st' b t : vreachable st -> distinct_ids st -> lasts clock t0 t1 ->
  none_runs_out st (q_principal q) t0 t1 -> (t0 <= t <= t1)%Z ->
  t_authorize clock st o q = Ok (st', b) -> b = true <-> v2_allowed st t q.
Proof.
  intros Hr Hdi Hl Hno Ht H. destruct (c123_bounds _ _ _ _ _ _ _ _ Hr Hdi Hl H) as [H1 H2]. rewrite <-allows_then_same. split.
  - intros Hb. apply (allows_lasting st q t0 t1 t0 t1); [done|lia..|by apply H2].
  - intros Ha. apply H1. apply (allows_lasting st q t0 t1 t t); [done|lia..|done].
Qed.
Lemma c123_returns st clock t0 t1 o q : vreachable st -> ~ broken st -> distinct_ids st -> lasts clock t0 t1 -> no_loop st t0 q ->
  exists st' b, t_authorize clock st o q = Ok (st', b).
Proof. intros Hr%vreachable_wf Hb Hdi [Hin _] Hn. exact (t_authorize_returns clock st Hr Hb q t0 t1 Hin o Hdi Hn). Qed.
