(** Closing steps for the properties of v2 decisions beside changes of the assignments. *)
From Verif Require Import V2Auth V2Inv CDecModel CDecProofs CDecSpec.

(** ** Without changes the model is the one of V2Model *)
Section alone.
  Context (st : vstate) (now : Z).
  Notation still := (fun _ : nat => w_assign st).
  (** Same outcome up to the counter *)
  Definition same {A} (x : res (gset string * dag * (nat * A))) (y : res (gset string * dag * A)) : Prop :=
    match x, y with
    | Ok (c, d, (_, a)), Ok (c', d', a') => c = c' /\ d = d' /\ a = a'
    | Panic, Panic => True
    | Hang, Hang => True
    | _, _ => False
    end.
  Lemma count_rows {A} (row : dag -> A -> prole -> res (dag * A)) user tid d k a ps :
    rows_loop (count_row row) st now user tid d (k, a) ps =
    match rows_loop row st now user tid d a ps with Ok (d', a') => Ok (d', (k, a')) | Panic => Panic | Hang => Hang end.
  Proof.
    revert d a. induction ps as [|p ps IH]; intros d a; [done|]. cbn [rows_loop].
    destruct (p ≫= (fun l => w_prs st !! l)) as [pr|]; [|done]. destruct (_ && _ && _); [|by apply IH].
    unfold count_row at 1. cbn [fst snd]. destruct (row d a pr) as [[d1 a1]| |]; cbn [rbind fst snd]; [by apply IH|done|done].
  Qed.
  Lemma same_kids {A} rec rec' o i cs ch d k (a : A) :
    (forall o c ch d k a, same (rec o c ch d (k, a)) (rec' o c ch d a)) ->
    same (kids_loop rec o i cs ch d (k, a)) (kids_loop rec' o i cs ch d a).
  Proof.
    intros Hrec. revert i ch d k a. induction cs as [|c cs IH]; intros i ch d k a; cbn [kids_loop]; [done|].
    pose proof (Hrec (sub o i) c ch d k a) as H.
    destruct (rec (sub o i) c ch d (k, a)) as [[[c1 d1] [k1 a1]]| |], (rec' (sub o i) c ch d a) as [[[c2 d2] a2]| |];
      cbn in H; try done. destruct H as (-> & -> & ->). cbn. apply IH.
  Qed.
  Lemma same_manage {A} rec rec' user o i t ps ch d k (a : A) :
    (forall o c ch d k a, same (rec o c ch d (k, a)) (rec' o c ch d a)) ->
    same (manage_loop st user rec o i t ps ch d (k, a)) (manage_loop st user rec' o i t ps ch d a).
  Proof.
    intros Hrec. revert i ch d k a. induction ps as [|p ps IH]; intros i ch d k a; cbn [manage_loop]; [done|].
    destruct (p ≫= (fun l => w_prs st !! l)) as [pr|]; [|done]. destruct (_ && _ && _); [|by apply IH].
    pose proof (same_kids rec rec' (sub o i) 1 (ordered (sub (sub o i) 0) (map_to_list (vt_children t)).*2) ch d k a Hrec) as H.
    destruct (kids_loop rec _ _ _ _ _ _) as [[[c1 d1] [k1 a1]]| |], (kids_loop rec' _ _ _ _ _ _) as [[[c2 d2] a2]| |];
      cbn in H; try done. destruct H as (-> & -> & ->). cbn. apply IH.
  Qed.
  Lemma same_traverse {A} (row : dag -> A -> prole -> res (dag * A)) user fuel o t ch d k a :
    same (w_traverse still st now row user fuel o t ch d (k, a)) (traverse row st now user fuel o t ch d a).
  Proof.
    revert o t ch d k a. induction fuel as [|fuel IH]; intros o t ch d k a; cbn [w_traverse traverse]; [done|].
    destruct (w_tenants st !! t) as [c|]; [|done]. case_bool_decide; [done|]. cbn [fst snd]. rewrite count_rows.
    destruct (rows_loop row _ _ _ _ _ _ _) as [[d1 a1]| |]; [|done|done]. cbn [rbind fst snd]. apply same_manage. intros. apply IH.
  Qed.
  Lemma same_all {A} (row : dag -> A -> prole -> res (dag * A)) user o t d k a :
    exists k', w_traverse_all still st now row user o t d (k, a) =
    match traverse_all row st now user o t d a with Ok (d', a') => Ok (d', (k', a')) | Panic => Panic | Hang => Hang end.
  Proof.
    unfold w_traverse_all, traverse_all. pose proof (same_traverse row user (S (length (w_tenants st))) o t ∅ d k a) as H.
    destruct (w_traverse still st now row user _ o t ∅ d (k, a)) as [[[c1 d1] [k1 a1]]| |],
      (traverse row st now user _ o t ∅ d a) as [[[c2 d2] a2]| |]; cbn in H; try done; [|by exists 0..].
    destruct H as (-> & -> & ->). by exists k1.
  Qed.
  Lemma same_authorize o i q d k ts : w_authorize_loop still st now o i q d k ts = authorize_loop o i st now q d ts.
  Proof.
    revert i d k. induction ts as [|t ts IH]; intros i d k; cbn [w_authorize_loop authorize_loop]; [done|].
    destruct (w_tenants st !! t) as [c|]; [|done]. destruct (target_namespace c q) as [n|]; [|apply IH].
    unfold w_principal_permissions, resolve_principal_permissions.
    destruct (w_reg st !! vt_id c) as [t'|]; [|cbn [rbind fst snd]; apply IH].
    destruct (same_all (perm_row st n (q_scope q)) (q_principal q) (sub (sub o i) 0) t' d k (∅, ∅)) as [k' ->].
    destruct (traverse_all _ _ _ _ _ _ _ _) as [[d1 [sc gl]]| |]; [|done|done]. cbn [rbind fst snd].
    destruct (bool_decide (sc <> ∅)); [|destruct (bool_decide (gl <> ∅)); [|apply IH]];
      (destruct (perms_match _ _ _) as [[]| |]; cbn [rbind]; [done|apply IH|done|done]).
  Qed.
  Lemma same_can o i q roles d k ts : w_can_loop still st now o i q roles d k ts = can_loop o i st now q roles d ts.
  Proof.
    revert i d k. induction ts as [|t ts IH]; intros i d k; cbn [w_can_loop can_loop]; [done|].
    destruct (w_tenants st !! t) as [c|]; [|done]. destruct (target_namespace c q) as [n|]; [|apply IH].
    unfold w_principal_roles, resolve_principal_roles.
    destruct (w_reg st !! vt_id c) as [t'|]; [|cbn [rbind fst snd]; apply IH].
    destruct (same_all (role_row st n) (q_principal q) (sub o i) t' d k ∅) as [k' ->].
    destruct (traverse_all _ _ _ _ _ _ _ _) as [[d1 s]| |]; [|done|done]. cbn [rbind fst snd].
    destruct (bool_decide (s <> ∅)); [|apply IH]. destruct (existsb _ _); [done|apply IH].
  Qed.
End alone.
Lemma same_assign st : vw_assign st (w_assign st) = st.
Proof. by destruct st. Qed.
Lemma authorize_alone st now o q b :
  w_authorize (fun _ => w_assign st) st now o q = Ok b <-> exists st', v2_authorize o st now q = Ok (st', b).
Proof.
  unfold w_authorize, v2_authorize. rewrite same_assign. destruct (find_target_tenants (sub o 0) st q) as [[ts|]| |]; cbn [rbind].
  - rewrite same_authorize. destruct (authorize_loop _ _ _ _ _ _ _) as [[d b']| |]; cbn [rbind fst snd].
    + split; [intros [= ->]; by eexists|intros (st' & [= _ ->]); done].
    + by split; [|intros (? & ?)].
    + by split; [|intros (? & ?)].
  - split; [intros [= <-]; by eexists|intros (st' & [= _ <-]); done].
  - by split; [|intros (? & ?)].
  - by split; [|intros (? & ?)].
Qed.
Lemma can_alone st now o q roles b :
  w_can (fun _ => w_assign st) st now o q roles = Ok b <-> exists st', v2_can o st now q roles = Ok (st', b).
Proof.
  unfold w_can, v2_can. rewrite same_assign. destruct (find_target_tenants (sub o 0) st q) as [[ts|]| |]; cbn [rbind].
  - rewrite same_can. destruct (can_loop _ _ _ _ _ _ _ _) as [[d b']| |]; cbn [rbind fst snd].
    + split; [intros [= ->]; by eexists|intros (st' & [= _ ->]); done].
    + by split; [|intros (? & ?)].
    + by split; [|intros (? & ?)].
  - split; [intros [= <-]; by eexists|intros (st' & [= _ <-]); done].
  - by split; [|intros (? & ?)].
  - by split; [|intros (? & ?)].
Qed.

Lemma c87_some_moment st new views now o q roles b : vreachable st -> distinct_ids st -> growing_views (w_assign st) new views ->
  w_can views st now o q roles = Ok b ->
  right_at_some_moment (fun l => v2_can_allowed (at_moment st l) now q roles) (w_assign st) new b.
Proof. intros Hr%vreachable_wf Hdi Hg H. exact (can_some_moment st now q roles _ new views o b Hr Hdi Hg H). Qed.
Lemma c87_bounds st lo hi views now o q roles b : vreachable st -> distinct_ids st -> within views lo hi ->
  w_can views st now o q roles = Ok b ->
  (v2_can_allowed (at_moment st lo) now q roles -> b = true) /\ (b = true -> v2_can_allowed (at_moment st hi) now q roles).
Proof.
  intros Hr%vreachable_wf Hdi Hin H. destruct (w_can_between views st now lo hi Hin Hr Hdi q o roles b H) as [H1 H2]. by split.
Qed.
Lemma c87_one_leaf st views now o q roles b : vreachable st -> distinct_ids st -> one_leaf st q ->
  w_can views st now o q roles = Ok b -> exists k, b = true <-> v2_can_allowed (at_moment st (views k)) now q roles.
Proof. intros Hr%vreachable_wf Hdi Hl H. exists 1. exact (leaf_can_exact views st now o q roles b Hr Hdi Hl H). Qed.
Lemma c87_returns st lo hi views now o q roles : vreachable st -> within views lo hi -> real_rows st hi ->
  exists b, w_can views st now o q roles = Ok b.
Proof. intros Hr%vreachable_wf Hin Hreal. exact (w_can_returns views st now lo hi Hin Hr Hreal q o roles). Qed.
Lemma c88_unscoped st new views now o q b : vreachable st -> distinct_ids st -> growing_views (w_assign st) new views ->
  q_scope q = "" -> w_authorize views st now o q = Ok b ->
  right_at_some_moment (fun l => v2_allowed (at_moment st l) now q) (w_assign st) new b.
Proof. intros Hr%vreachable_wf Hdi Hg Hq H. exact (authorize_unscoped_moment st now q _ new views o b Hr Hdi Hg Hq H). Qed.
Lemma c88_one_leaf st views now o q b : vreachable st -> distinct_ids st -> one_leaf st q ->
  w_authorize views st now o q = Ok b -> exists k, b = true <-> v2_allowed (at_moment st (views k)) now q.
Proof. intros Hr%vreachable_wf Hdi Hl H. exists 1. exact (leaf_authorize_exact views st now o q b Hr Hdi Hl H). Qed.
Lemma c88_bounds st lo hi views now o q b : vreachable st -> distinct_ids st -> within views lo hi ->
  w_authorize views st now o q = Ok b ->
  (allows (at_moment st lo) (at_moment st hi) now q -> b = true) /\
  (b = true -> allows (at_moment st hi) (at_moment st lo) now q).
Proof.
  intros Hr%vreachable_wf Hdi Hin H. destruct (w_authorize_between views st now lo hi Hin Hr Hdi q o b H) as [H1 H2]. by split.
Qed.
Lemma c88_returns st lo hi views now o q : vreachable st -> distinct_ids st -> within views lo hi -> real_rows st hi ->
  no_loop (at_moment st hi) now q -> exists b, w_authorize views st now o q = Ok b.
Proof. intros Hr%vreachable_wf Hdi Hin Hreal Hn. exact (w_authorize_returns views st now lo hi Hin Hr Hreal q o Hdi Hn). Qed.
