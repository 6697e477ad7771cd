(** Proofs about v2 decisions during which time passes. *)
From Verif Require Import V2Auth V2Inv TickModel TickSpec.

Section between.
  Context {A X : Type}.
  Context (row : dag -> A -> prole -> res (dag * A)) (clock : nat -> Z) (st : vstate) (user : string).
  Context (early late : Z) (Hin : forall k, (early <= clock k <= late)%Z).
  Context (good : dag -> Prop) (has : A -> X -> Prop) (gives : prole -> X -> Prop).
  Hypothesis row_exact : forall d acc pr d' acc',
    good d -> row d acc pr = Ok (d', acc') -> good d' /\ forall x, has acc' x <-> has acc x \/ gives pr x.
  Let has2 (ka : nat * A) (x : X) : Prop := has ka.2 x.

  Definition seen (cs : list nat) (ch : gset string) (ka : nat * A) (ch' : gset string) (ka' : nat * A) : Prop :=
    exists N : list nat,
      (forall n, n ∈ N -> exists c t, c ∈ cs /\ rtc (down st user) c n /\ w_tenants st !! n = Some t /\ vt_id t ∉ ch) /\
      (forall i, i ∈ ch' <-> i ∈ ch \/ exists n t, n ∈ N /\ w_tenants st !! n = Some t /\ vt_id t = i) /\
      (forall c t, c ∈ cs -> w_tenants st !! c = Some t -> vt_id t ∈ ch') /\
      (forall n m t, n ∈ N -> down st user n m -> w_tenants st !! m = Some t -> vt_id t ∈ ch') /\
      (forall x, has2 ka' x -> has2 ka x \/
         exists n t pr, n ∈ N /\ w_tenants st !! n = Some t /\ live_row st early user (vt_id t) pr /\ gives pr x) /\
      (forall x, has2 ka x -> has2 ka' x) /\
      (forall x n t pr, n ∈ N -> w_tenants st !! n = Some t -> live_row st late user (vt_id t) pr -> gives pr x -> has2 ka' x).
  Lemma seen_nil ch ka : seen [] ch ka ch ka.
  Proof.
    exists []. split; [by intros n ?%elem_of_nil|]. split; [|split; [|split; [|split; [|split]]]].
    - intros i. split; [by left|]. intros [?|(n & t & ?%elem_of_nil & _)]; done.
    - by intros c t ?%elem_of_nil.
    - by intros n m t ?%elem_of_nil.
    - by left.
    - done.
    - by intros x n t pr ?%elem_of_nil.
  Qed.
  Lemma seen_app cs1 cs2 ch0 a0 ch1 a1 ch2 a2 : seen cs1 ch0 a0 ch1 a1 -> seen cs2 ch1 a1 ch2 a2 -> seen (cs1 ++ cs2) ch0 a0 ch2 a2.
  Proof.
    intros (N1 & A1 & B1 & C1 & D1 & E1 & F1 & G1) (N2 & A2 & B2 & C2 & D2 & E2 & F2 & G2). exists (N1 ++ N2).
    split; [|split; [|split; [|split; [|split; [|split]]]]].
    - intros n [Hn|Hn]%elem_of_app.
      + destruct (A1 n Hn) as (c & t & Hc & ?). exists c, t. split; [apply elem_of_app; by left|done].
      + destruct (A2 n Hn) as (c & t & Hc & Hr & Ht & Hnc). exists c, t. split; [apply elem_of_app; by right|].
        split; [done|]. split; [done|]. intros H. apply Hnc. apply B1. by left.
    - intros i. rewrite B2, B1. setoid_rewrite elem_of_app. split.
      + intros [[?|(n & t & Hn & ?)]|(n & t & Hn & ?)]; [by left| |]; right; exists n, t; (split; [|done]); by (left + right).
      + intros [?|(n & t & [Hn|Hn] & ?)]; [by left; left| |]; [left; right|right]; by exists n, t.
    - intros c t [Hc|Hc]%elem_of_app Ht; [apply B2; left; by eapply C1|by eapply C2].
    - intros n m t [Hn|Hn]%elem_of_app Hd Ht; [apply B2; left; by eapply D1|by eapply D2].
    - intros x [[?|(n & t & pr & Hn & ?)]%E1|(n & t & pr & Hn & ?)]%E2; [by left| |]; right; exists n, t, pr;
        (split; [apply elem_of_app; by (left + right)|done]).
    - intros x Hx. by apply F2, F1.
    - intros x n t pr [Hn|Hn]%elem_of_app Ht Hl Hg; [apply F2; by eapply G1|by eapply G2].
  Qed.
  Lemma seen_weaken cs cs' ch a ch' a' : (forall c, c ∈ cs <-> c ∈ cs') -> seen cs ch a ch' a' -> seen cs' ch a ch' a'.
  Proof.
    intros H (N & A1 & B1 & C1 & R). exists N. split; [|split; [done|split; [|done]]].
    - intros n Hn. destruct (A1 n Hn) as (c & t & Hc & ?). exists c, t. split; [by apply H|done].
    - intros c t Hc%H. by eapply C1.
  Qed.
  Definition rec_between (rec : oracle -> nat -> gset string -> dag -> nat * A -> res (gset string * dag * (nat * A))) : Prop :=
    forall o c ch d a ch' d' a', good d -> rec o c ch d a = Ok (ch', d', a') -> good d' /\ seen [c] ch a ch' a'.
  Lemma kids_loop_between rec o i cs ch d a ch' d' a' :
    rec_between rec -> good d -> kids_loop rec o i cs ch d a = Ok (ch', d', a') -> good d' /\ seen cs ch a ch' a'.
  Proof.
    intros Hrec. revert i ch d a. induction cs as [|c cs IH]; intros i ch d a Hd; simpl.
    - intros [= <- <- <-]. split; [done|apply seen_nil].
    - intros ([[ch1 d1] a1] & H1 & H2)%rbind_inv. simpl in H2.
      destruct (Hrec _ _ _ _ _ _ _ _ Hd H1) as [Hd1 V1].
      destruct (IH _ _ _ _ Hd1 H2) as [Hd2 V2]. split; [done|].
      apply (seen_app [c] cs _ _ _ _ _ _ V1 V2).
  Qed.
  Lemma manage_loop_between rec o i t ps ch d a ch' d' a' :
    rec_between rec -> good d -> manage_loop st user rec o i t ps ch d a = Ok (ch', d', a') ->
    good d' /\ seen (kids_of st user t ps) ch a ch' a'.
  Proof.
    intros Hrec. revert i ch d a. induction ps as [|p ps IH]; intros i ch d a Hd; simpl.
    - intros [= <- <- <-]. split; [done|apply seen_nil].
    - fold (row_of st p). destruct (row_of st p) as [pr|] eqn:Hpr; [|done].
      destruct (_ && _ && _).
      + intros ([[ch1 d1] a1] & H1 & H2)%rbind_inv. simpl in H2.
        destruct (kids_loop_between _ _ _ _ _ _ _ _ _ _ Hrec Hd H1) as [Hd1 V1].
        destruct (IH _ _ _ _ Hd1 H2) as [Hd2 V2]. split; [done|].
        eapply seen_app; [|exact V2]. eapply seen_weaken; [|exact V1].
        intros c. apply elem_of_ordered.
      + intros H2. destruct (IH _ _ _ _ Hd H2) as [Hd2 V2]. done.
  Qed.
  Lemma kids_hi l t c : w_tenants st !! l = Some t -> c ∈ kids_of st user t (w_assign st) -> down st user l c.
  Proof.
    intros Ht ([k' Hk] & p & pr & Hp & Hpr & ?)%elem_of_kids. exists t, k'. split; [done|]. split; [done|].
    exists pr. split; [|done]. destruct p as [l'|]; [|done]. exists l'. split; [done|done].
  Qed.
  Lemma kids_lo l t c : w_tenants st !! l = Some t -> down st user l c -> c ∈ kids_of st user t (w_assign st).
  Proof.
    intros Ht (t' & k' & Ht' & Hk & pr & (l' & Hl' & Hpr) & ?). cbn in Ht', Hpr, Hl'. rewrite Ht in Ht'. injection Ht' as <-.
    apply elem_of_kids. split; [by exists k'|]. exists (Some l'), pr. split; [done|done].
  Qed.
  Lemma expired_at_early k pr : (expired_at clock k pr).2 = false -> ~ expired early pr.
  Proof.
    unfold expired_at. intros H (e & He & Hlt). rewrite He in H. cbn in H. apply bool_decide_eq_false in H. pose proof (Hin k). lia.
  Qed.
  Lemma expired_at_late k pr : (expired_at clock k pr).2 = true -> expired late pr.
  Proof.
    unfold expired_at. destruct (pr_expiry pr) as [e|] eqn:He; cbn; [|done]. intros H%bool_decide_eq_true. exists e. split; [done|].
    pose proof (Hin k). lia.
  Qed.
  Lemma t_rows_between tid d ka ps d' ka' : good d -> t_rows clock st row user tid d ka ps = Ok (d', ka') ->
    good d' /\ (forall x, has2 ka' x -> has2 ka x \/ exists p pr, p ∈ ps /\ row_of st p = Some pr /\ pr_principal pr = user /\
        pr_tenant pr = tid /\ ~ expired early pr /\ gives pr x) /\
    (forall x, has2 ka x -> has2 ka' x) /\
    (forall x p pr, p ∈ ps -> row_of st p = Some pr -> pr_principal pr = user -> pr_tenant pr = tid -> ~ expired late pr ->
        gives pr x -> has2 ka' x).
  Proof.
    revert d ka. induction ps as [|p ps IH]; intros d ka Hd; cbn [t_rows].
    - intros [= <- <-]. split; [done|]. split; [by left|]. split; [done|]. by intros x p pr ?%elem_of_nil.
    - change (p ≫= (fun l => w_prs st !! l)) with (row_of st p). destruct (row_of st p) as [pr|] eqn:Hp; [|done].
      assert (Hskip : forall ka1, (forall x, has2 ka1 x <-> has2 ka x) ->
        ~ (pr_principal pr = user /\ pr_tenant pr = tid /\ ~ expired late pr) -> t_rows clock st row user tid d ka1 ps = Ok (d', ka') ->
        good d' /\ (forall x, has2 ka' x -> has2 ka x \/ exists p0 pr0, p0 ∈ p :: ps /\ row_of st p0 = Some pr0 /\ pr_principal pr0 = user /\
            pr_tenant pr0 = tid /\ ~ expired early pr0 /\ gives pr0 x) /\
        (forall x, has2 ka x -> has2 ka' x) /\
        (forall x p0 pr0, p0 ∈ p :: ps -> row_of st p0 = Some pr0 -> pr_principal pr0 = user -> pr_tenant pr0 = tid -> ~ expired late pr0 ->
            gives pr0 x -> has2 ka' x)).
      { intros ka1 Hka Hno H. destruct (IH _ _ Hd H) as (Hd' & E & F & G). split; [done|]. split; [|split].
        - intros x [Hx|(p0 & pr0 & ? & ?)]%E; [left; by apply Hka|]. right. exists p0, pr0. split; [by right|done].
        - intros x Hx. by apply F, Hka.
        - intros x p0 pr0 [->|Hp0]%elem_of_cons Hr0 Hu Ht He Hg; [|by eapply G].
          destruct Hno. rewrite Hr0 in Hp. injection Hp as ->. done. }
      destruct (bool_decide (pr_principal pr = user)) eqn:Hu; cbn [andb];
        [|apply Hskip; [done|]; intros (? & _); by apply bool_decide_eq_false in Hu].
      destruct (bool_decide (pr_tenant pr = tid)) eqn:Ht;
        [|apply Hskip; [done|]; intros (_ & ? & _); by apply bool_decide_eq_false in Ht].
      apply bool_decide_eq_true in Hu, Ht. pose proof (expired_at_early ka.1 pr) as He. pose proof (expired_at_late ka.1 pr) as Hl.
      destruct (expired_at clock ka.1 pr) as [k e]. cbn [snd] in He, Hl. destruct e.
      + apply Hskip; [done|]. intros (_ & _ & H). by apply H, Hl.
      + intros ([d1 a1] & Hr & H)%rbind_inv. cbn [fst snd] in H. destruct (row_exact _ _ _ _ _ Hd Hr) as [Hd1 Hx1].
        destruct (IH _ _ Hd1 H) as (Hd' & E & F & G). split; [done|]. split; [|split].
        * intros x [[?|Hg]%Hx1|(p0 & pr0 & ? & ?)]%E; [by left| |]; right.
          -- exists p, pr. split; [left|]. by eauto 10.
          -- exists p0, pr0. split; [by right|done].
        * intros x Hx. apply F, Hx1. by left.
        * intros x p0 pr0 [->|Hp0]%elem_of_cons Hr0 Hu0 Ht0 He0 Hg; [|by eapply G].
          apply F, Hx1. right. rewrite Hr0 in Hp. by injection Hp as ->.
  Qed.
  Lemma rows_between tid d ka d' ka' : good d -> t_rows clock st row user tid d ka (w_assign st) = Ok (d', ka') ->
    good d' /\ (forall x, has2 ka' x -> has2 ka x \/ exists pr, live_row st early user tid pr /\ gives pr x) /\
    (forall x, has2 ka x -> has2 ka' x) /\ (forall x pr, live_row st late user tid pr -> gives pr x -> has2 ka' x).
  Proof.
    intros Hd Hr. destruct (t_rows_between _ _ _ _ _ _ Hd Hr) as (Hd' & E & F & G).
    split; [done|]. split; [|split].
    - intros x [?|(p & pr & Hp & Hpr & ? & ? & ? & ?)]%E; [by left|]. right. exists pr. split; [|done]. split; [|done].
      destruct p as [l|]; [|done]. by exists l.
    - done.
    - intros x pr ((l & Hl & Hpr) & ? & ? & ?) Hg. by apply (G x (Some l) pr).
  Qed.
  Lemma t_traverse_between fuel : rec_between (t_traverse clock st row user fuel).
  Proof.
    induction fuel as [|fuel IH]; intros o c ch d ka ch' d' ka' Hd; simpl; [done|].
    destruct (w_tenants st !! c) as [t|] eqn:Ht; [|done].
    case_bool_decide as Hc.
    - intros [= <- <- <-]. split; [done|]. exists [].
      split; [by intros n ?%elem_of_nil|]. split; [|split; [|split; [|split; [|split]]]].
      + intros i. split; [by left|]. intros [?|(n & t' & ?%elem_of_nil & _)]; done.
      + intros c' t' ->%elem_of_list_singleton Ht'. by simplify_eq.
      + by intros n m t' ?%elem_of_nil.
      + by left.
      + done.
      + by intros x n t' pr ?%elem_of_nil.
    - intros ([d1 ka1] & Hr & Hm)%rbind_inv. simpl in Hm.
      destruct (rows_between _ _ _ _ _ Hd Hr) as (Hd1 & E1 & F1 & G1).
      destruct (manage_loop_between _ _ _ _ _ _ _ _ _ _ _ IH Hd1 Hm) as [Hd2 (N & A2 & B2 & C2 & D2 & E2 & F2 & G2)].
      split; [done|]. exists (c :: N). split; [|split; [|split; [|split; [|split; [|split]]]]].
      + intros n [->|Hn]%elem_of_cons.
        * exists c, t. split; [left|]. done.
        * destruct (A2 n Hn) as (k & tn & Hk & Hkn & Htn & Hnc).
          exists c, tn. split; [left|]. split; [|split; [done|set_solver]].
          eapply rtc_l; [|exact Hkn]. by eapply kids_hi.
      + intros i. rewrite B2, elem_of_union, elem_of_singleton. split.
        * intros [[->|?]|(n & t' & Hn & ?)]; [|by left|].
          -- right. exists c, t. split; [left|done].
          -- right. exists n, t'. split; [by right|done].
        * intros [?|(n & t' & [->|Hn]%elem_of_cons & Ht' & <-)]; [auto| |].
          -- left. left. by simplify_eq.
          -- right. by exists n, t'.
      + intros c' t' ->%elem_of_list_singleton Ht'. simplify_eq. apply B2. left. set_solver.
      + intros n m t' [->|Hn]%elem_of_cons Hnm Ht'.
        * apply (C2 m t'); [|done]. by eapply kids_lo.
        * by eapply D2.
      + intros x [Hx|(n & t' & pr & Hn & ?)]%E2.
        * destruct (E1 x Hx) as [?|(pr & ?)]; [by left|]. right. exists c, t, pr. split; [left|done].
        * right. exists n, t', pr. split; [by right|done].
      + intros x Hx. apply F2. exact (F1 x Hx).
      + intros x n t' pr [->|Hn]%elem_of_cons Ht' Hl Hg.
        * simplify_eq. apply F2. exact (G1 x pr Hl Hg).
        * by eapply G2.
  Qed.
  Lemma t_traverse_all_between o t d ka d' ka' :
    distinct_ids st -> kids_ok st -> (exists c, w_tenants st !! t = Some c) ->
    good d -> t_traverse_all clock st row user o t d ka = Ok (d', ka') ->
    good d' /\
    (forall x, has2 ka' x -> has2 ka x \/ exists n tn pr, rtc (down st user) t n /\ w_tenants st !! n = Some tn /\
        live_row st early user (vt_id tn) pr /\ gives pr x) /\
    (forall x, has2 ka x -> has2 ka' x) /\
    (forall x n tn pr, rtc (down st user) t n -> w_tenants st !! n = Some tn -> live_row st late user (vt_id tn) pr ->
        gives pr x -> has2 ka' x).
  Proof.
    intros Hdi Hk [t0 Ht] Hd. unfold t_traverse_all. intros ([[ch d1] a1] & H & [= <- <-])%rbind_inv.
    destruct (t_traverse_between _ _ _ _ _ _ _ _ _ Hd H) as [Hd1 (N & A1 & B1 & C1 & D1 & E1 & F1 & G1)].
    split; [done|].
    assert (forall i, i ∈ ch -> exists n tn, n ∈ N /\ w_tenants st !! n = Some tn /\ vt_id tn = i) as B1'.
    { intros i [?|?]%B1; [set_solver|done]. }
    assert (forall m tm, w_tenants st !! m = Some tm -> vt_id tm ∈ ch -> m ∈ N) as HN.
    { intros m tm Hm Hi. destruct (B1' _ Hi) as (n & tn & Hn & Htn & He).
      by rewrite <-(Hdi n m tn tm Htn Hm He). }
    assert (forall a b, rtc (down st user) a b -> a ∈ N -> b ∈ N) as Hcl.
    { induction 1 as [|a b b' Hab _ IHr]; [done|]. intros Ha. apply IHr.
      assert (exists tb, w_tenants st !! b = Some tb) as [tb Htb].
      { destruct Hab as (ta & k & Hta & Hkb & _). apply (Hk a ta b Hta).
        apply elem_of_list_fmap. exists (k, b). split; [done|by apply elem_of_map_to_list]. }
      by apply (HN b tb), (D1 a b tb). }
    assert (t ∈ N) as HtN. { apply (HN t t0); [done|]. apply (C1 t t0); [left|done]. }
    split; [|split].
    - intros x [?|(n & tn & pr & Hn & ?)]%E1; [by left|]. right.
      destruct (A1 n Hn) as (c & tn' & ->%elem_of_list_singleton & ? & ? & _). by exists n, tn, pr.
    - exact F1.
    - intros x n tn pr Hn Htn Hl Hg. eapply G1; [by eapply Hcl|done|done|done].
  Qed.
End between.

(** ** Permissions and roles of one tenant *)
Section calls.
  Context (clock : nat -> Z) (st : vstate) (early late : Z) (Hin : forall k, (early <= clock k <= late)%Z).
  Context (Hwf : v2_wf st) (Hdi : distinct_ids st).
  Lemma wpp_between o d k user tid t n scope d' k' ps :
    extends st vr_perms d -> w_reg st !! tid = Some t ->
    t_principal_permissions clock st o d k user tid n scope = Ok (d', (k', ps)) ->
    extends st vr_perms d' /\
    (forall s p, ps = Some s -> p ∈ s -> scoped_perm st early user t n scope p \/
       global_perm st early user t n scope p /\ forall p', ~ scoped_perm st late user t n scope p') /\
    (forall p, scoped_perm st late user t n scope p \/
       global_perm st late user t n scope p /\ (forall p', ~ scoped_perm st early user t n scope p') -> exists s, ps = Some s /\ p ∈ s).
  Proof.
    intros Hd Ht. unfold t_principal_permissions. rewrite Ht. intros ([d1 [k1 [sc gl]]] & Htr & [= <- <- <-])%rbind_inv. simpl.
    destruct (wf_reg st Hwf tid t Ht) as (c & Hc & _).
    destruct (t_traverse_all_between (perm_row st n scope) clock st user early late Hin (extends st vr_perms) perm_has
      (perm_gives st n scope) (perm_row_exact st n scope) o t d (k, (∅, ∅)) d1 (k1, (sc, gl))
      Hdi (wf_kids_ok st Hwf) (ex_intro _ c Hc) Hd Htr) as (Hd1 & E & _ & G).
    split; [done|].
    assert (Hs1 : forall p, p ∈ sc -> scoped_perm st early user t n scope p).
    { intros p Hp. apply (perm_gives_spec st n scope early user t true p). destruct (E (true, p) Hp) as [H|H]; [|exact H].
      unfold perm_has in H. simpl in H. set_solver. }
    assert (Hg1 : forall p, p ∈ gl -> global_perm st early user t n scope p).
    { intros p Hp. apply (perm_gives_spec st n scope early user t false p). destruct (E (false, p) Hp) as [H|H]; [|exact H].
      unfold perm_has in H. simpl in H. set_solver. }
    assert (Hs2 : forall p, scoped_perm st late user t n scope p -> p ∈ sc).
    { intros p Hp. apply (perm_gives_spec st n scope late user t true p) in Hp as (l & tn & pr & H1 & H2 & H3 & H4).
      exact (G (true, p) l tn pr H1 H2 H3 H4). }
    assert (Hg2 : forall p, global_perm st late user t n scope p -> p ∈ gl).
    { intros p Hp. apply (perm_gives_spec st n scope late user t false p) in Hp as (l & tn & pr & H1 & H2 & H3 & H4).
      exact (G (false, p) l tn pr H1 H2 H3 H4). }
    clear E G. case_bool_decide as Hne.
    - split.
      + intros s p [= <-] Hp. left. by apply Hs1.
      + intros p [Hp|[_ Hno]]; [exists sc; auto|]. apply set_choose_L in Hne as [p0 Hp0]. by destruct (Hno p0 (Hs1 _ Hp0)).
    - assert (sc = ∅) as ->. { destruct (decide (sc = ∅)); [done|by destruct Hne]. } clear Hne.
      case_bool_decide as Hne2.
      + split.
        * intros s p [= <-] Hp. right. split; [by apply Hg1|]. intros p' Hp'%Hs2. set_solver.
        * intros p [Hp%Hs2|[Hp%Hg2 _]]; [set_solver|]. by exists gl.
      + assert (gl = ∅) as ->. { destruct (decide (gl = ∅)); [done|by destruct Hne2]. }
        split; [done|]. intros p [Hp%Hs2|[Hp%Hg2 _]]; set_solver.
  Qed.
  Lemma wpr_between o d k user tid t n d' k' rs :
    extends st name_of d -> w_reg st !! tid = Some t ->
    t_principal_roles clock st o d k user tid n = Ok (d', (k', rs)) ->
    extends st name_of d' /\ (forall s x, rs = Some s -> x ∈ s -> holds_role st early user t n x) /\
    (forall x, holds_role st late user t n x -> exists s, rs = Some s /\ x ∈ s).
  Proof.
    intros Hd Ht. unfold t_principal_roles. rewrite Ht. intros ([d1 [k1 s]] & Htr & [= <- <- <-])%rbind_inv. simpl.
    destruct (wf_reg st Hwf tid t Ht) as (c & Hc & _).
    destruct (t_traverse_all_between (role_row st n) clock st user early late Hin (extends st name_of) (fun s x => x ∈ s)
      (role_gives st n) (role_row_exact st n) o t d (k, ∅) d1 (k1, s)
      Hdi (wf_kids_ok st Hwf) (ex_intro _ c Hc) Hd Htr) as (Hd1 & E & _ & G).
    split; [done|].
    assert (H1 : forall x, x ∈ s -> holds_role st early user t n x).
    { intros x Hx. apply (role_gives_spec st n early user t x). destruct (E x Hx) as [H|H]; [|exact H]. simpl in H. set_solver. }
    assert (H2 : forall x, holds_role st late user t n x -> x ∈ s).
    { intros x Hx. apply (role_gives_spec st n late user t x) in Hx as (l & tn & pr & H3 & H4 & H5 & H6). exact (G x l tn pr H3 H4 H5 H6). }
    clear E G. case_bool_decide as Hne; split.
    - intros s' x [= <-]. apply H1.
    - intros x Hx. exists s. auto.
    - done.
    - intros x Hx%H2. exfalso. set_solver.
  Qed.

  (** ** The calls *)
  Context (q : request).
  Definition allows_at (yes no : Z) (t : nat) : Prop :=
    exists c n p, tenant_at st t c /\ uses_namespace c q n /\ matches_perm q p /\
      (scoped_perm st yes (q_principal q) t n (q_scope q) p \/
       global_perm st yes (q_principal q) t n (q_scope q) p /\
         forall p', ~ scoped_perm st no (q_principal q) t n (q_scope q) p').
  Definition can_at (s : Z) (roles : list string) (t : nat) : Prop :=
    exists c n x, tenant_at st t c /\ uses_namespace c q n /\ holds_role st s (q_principal q) t n x /\ x ∈ roles.
  Lemma same_namespace t c c' n n' : tenant_at st t c -> tenant_at st t c' -> uses_namespace c q n -> uses_namespace c' q n' -> n = n'.
  Proof. unfold tenant_at. intros H1 H2 Hn%target_namespace_exact Hn'%target_namespace_exact. congruence. Qed.
  Lemma t_authorize_loop_between o i d k ts d' b :
    extends st vr_perms d -> (forall t, t ∈ ts -> exists c, tenant_at st t c /\ w_reg st !! vt_id c = Some t) ->
    t_authorize_loop clock st o i q d k ts = Ok (d', b) ->
    (b = true -> exists t, t ∈ ts /\ allows_at early late t) /\ ((exists t, t ∈ ts /\ allows_at late early t) -> b = true).
  Proof.
    revert i d k. induction ts as [|t ts IH]; intros i d k Hd Hts; simpl.
    - intros [= <- <-]. split; [done|]. by intros (t & ?%elem_of_nil & _).
    - destruct (Hts t) as (c & Hc & Hreg); [left|].
      assert (Hts' : forall t, t ∈ ts -> exists c, tenant_at st t c /\ w_reg st !! vt_id c = Some t).
      { intros t' Ht'. apply Hts. by right. }
      assert (Hgo : forall d1 k1, extends st vr_perms d1 -> t_authorize_loop clock st o (S i) q d1 k1 ts = Ok (d', b) ->
        ~ allows_at late early t -> (b = true -> exists t', t' ∈ t :: ts /\ allows_at early late t') /\
          ((exists t', t' ∈ t :: ts /\ allows_at late early t') -> b = true)).
      { intros d1 k1 Hd1 Hl Hno. destruct (IH _ _ _ Hd1 Hts' Hl) as [H1 H2]. split.
        - intros Hb. destruct (H1 Hb) as (t' & ? & ?). exists t'. split; [by right|done].
        - intros (t' & [->|Ht']%elem_of_cons & Ha); [done|]. apply H2. by exists t'. }
      pose proof Hc as Hc0. unfold tenant_at in Hc0. rewrite Hc0. destruct (target_namespace c q) as [n|] eqn:Hn.
      + apply target_namespace_exact in Hn. intros ([d1 [k1 ps]] & Hp & Hl)%rbind_inv. simpl in Hl.
        destruct (wpp_between _ _ _ _ _ _ _ _ _ _ _ Hd Hreg Hp) as (Hd1 & Hup & Hdn).
        assert (Hall : allows_at late early t -> exists s p, ps = Some s /\ p ∈ s /\ matches_perm q p).
        { intros (c' & n' & p & Hc' & Hn' & Hm & Hx). rewrite <-(same_namespace t c c' n n' Hc Hc' Hn Hn') in Hx.
          destruct (Hdn p Hx) as (s & ? & ?). by exists s, p. }
        destruct ps as [s|].
        * apply rbind_inv in Hl as (b1 & Hb1 & Hl). pose proof (perms_match_exact _ _ _ _ Hb1) as Hm. destruct b1.
          -- injection Hl as <- <-. split; [|done]. intros _. exists t. split; [left|].
             destruct (proj1 Hm eq_refl) as (p & Hps & Hmp). exists c, n, p. split; [done|]. split; [done|]. split; [done|].
             exact (Hup s p eq_refl Hps).
          -- apply (Hgo d1 k1); [done|done|]. intros (s' & p & [= <-] & Hps & Hmp)%Hall.
             assert (false = true); [|done]. apply Hm. by exists p.
        * apply (Hgo d1 k1); [done|done|]. by intros (s' & p & ? & _)%Hall.
      + intros Hl. apply (Hgo d k); [done|done|]. intros (c' & n & p & Hc' & Hn' & _).
        apply target_namespace_exact in Hn'. unfold tenant_at in Hc'. cbn in Hc'. congruence.
  Qed.
  Lemma t_can_loop_between o i roles d k ts d' b :
    extends st name_of d -> (forall t, t ∈ ts -> exists c, tenant_at st t c /\ w_reg st !! vt_id c = Some t) ->
    t_can_loop clock st o i q roles d k ts = Ok (d', b) ->
    (b = true -> exists t, t ∈ ts /\ can_at early roles t) /\ ((exists t, t ∈ ts /\ can_at late roles t) -> b = true).
  Proof.
    revert i d k. induction ts as [|t ts IH]; intros i d k Hd Hts; simpl.
    - intros [= <- <-]. split; [done|]. by intros (t & ?%elem_of_nil & _).
    - destruct (Hts t) as (c & Hc & Hreg); [left|].
      assert (Hts' : forall t, t ∈ ts -> exists c, tenant_at st t c /\ w_reg st !! vt_id c = Some t).
      { intros t' Ht'. apply Hts. by right. }
      assert (Hgo : forall d1 k1, extends st name_of d1 -> t_can_loop clock st o (S i) q roles d1 k1 ts = Ok (d', b) ->
        ~ can_at late roles t -> (b = true -> exists t', t' ∈ t :: ts /\ can_at early roles t') /\
          ((exists t', t' ∈ t :: ts /\ can_at late roles t') -> b = true)).
      { intros d1 k1 Hd1 Hl Hno. destruct (IH _ _ _ Hd1 Hts' Hl) as [H1 H2]. split.
        - intros Hb. destruct (H1 Hb) as (t' & ? & ?). exists t'. split; [by right|done].
        - intros (t' & [->|Ht']%elem_of_cons & Ha); [done|]. apply H2. by exists t'. }
      pose proof Hc as Hc0. unfold tenant_at in Hc0. rewrite Hc0. destruct (target_namespace c q) as [n|] eqn:Hn.
      + apply target_namespace_exact in Hn. intros ([d1 [k1 rs]] & Hp & Hl)%rbind_inv. simpl in Hl.
        destruct (wpr_between _ _ _ _ _ _ _ _ _ _ Hd Hreg Hp) as (Hd1 & Hup & Hdn).
        assert (Hall : can_at late roles t -> exists s x, rs = Some s /\ x ∈ s /\ x ∈ roles).
        { intros (c' & n' & x & Hc' & Hn' & Hx & Hxr). rewrite <-(same_namespace t c c' n n' Hc Hc' Hn Hn') in Hx.
          destruct (Hdn x Hx) as (s & ? & ?). by exists s, x. }
        destruct rs as [s|].
        * assert (He : existsb (contains roles) (elements s) = true <-> exists x, x ∈ s /\ x ∈ roles).
          { rewrite existsb_exists. setoid_rewrite <-elem_of_list_In. setoid_rewrite elem_of_elements.
            assert (forall l (x : string), contains l x = true <-> x ∈ l) as Hco.
            { induction l as [|y l IHl]; intros x; simpl; [split; [done|by intros ?%elem_of_nil]|].
              rewrite elem_of_cons. destruct (decide (y = x)); [naive_solver|].
              rewrite IHl. naive_solver. }
            by setoid_rewrite Hco. }
          destruct (existsb (contains roles) (elements s)) eqn:Hex.
          -- injection Hl as <- <-. split; [|done]. intros _. exists t. split; [left|].
             destruct (proj1 He eq_refl) as (x & Hxs & Hxr). exists c, n, x. split; [done|]. split; [done|]. split; [|done].
             exact (Hup s x eq_refl Hxs).
          -- apply (Hgo d1 k1); [done|done|]. intros (s' & x & [= <-] & ? & ?)%Hall.
             assert (false = true); [|done]. apply He. by exists x.
        * apply (Hgo d1 k1); [done|done|]. by intros (s' & p & ? & _)%Hall.
      + intros Hl. apply (Hgo d k); [done|done|]. intros (c' & n & p & Hc' & Hn' & _).
        apply target_namespace_exact in Hn'. unfold tenant_at in Hc'. cbn in Hc'. congruence.
  Qed.
  Lemma view_reg o ts t : find_target_tenants o st q = Ok (Some ts) -> t ∈ ts ->
    exists c, tenant_at st t c /\ w_reg st !! vt_id c = Some t.
  Proof.
    intros H Ht. assert (Htg : target st q t) by (eapply find_target_exact; [exact H|by exists ts]).
    assert (exists id, w_reg st !! id = Some t) as [id Hid].
    { destruct Htg as [(name & _ & ?)|[_ (pr & c & _ & _ & _ & ? & _)]]; eauto. }
    destruct (wf_reg st Hwf _ _ Hid) as (c & Hc & <-). by exists c.
  Qed.
  Lemma t_authorize_between o st' b : t_authorize clock st o q = Ok (st', b) ->
    (b = true -> allows_then st early late q) /\ (allows_then st late early q -> b = true).
  Proof.
    unfold t_authorize. intros (ts & Hts & H)%rbind_inv. pose proof (find_target_exact _ _ _ _ Hts) as Htg. destruct ts as [ts|].
    - apply rbind_inv in H as ([d' b'] & Hl & [= <- <-]). cbn [snd].
      destruct (t_authorize_loop_between _ _ _ _ _ _ _ (extends_refl st vr_perms) (fun t Ht => view_reg _ _ t Hts Ht) Hl) as [H1 H2].
      split.
      + intros Hb. destruct (H1 Hb) as (t & Ht & c & n & p & ?). exists t, c, n, p. split; [|done].
        apply Htg. by exists ts.
      + intros (t & c & n & p & Ht & ?). apply H2. exists t. split; [|by exists c, n, p].
        apply Htg in Ht as (l & [= <-] & Ht). done.
    - injection H as <- <-. split; [done|]. intros (t & c & n & p & Ht & _).
      apply Htg in Ht as (l & [=] & _).
  Qed.
  Lemma t_can_between o roles st' b : t_can clock st o q roles = Ok (st', b) ->
    (b = true -> v2_can_allowed st early q roles) /\ (v2_can_allowed st late q roles -> b = true).
  Proof.
    unfold t_can. intros (ts & Hts & H)%rbind_inv. pose proof (find_target_exact _ _ _ _ Hts) as Htg. destruct ts as [ts|].
    - apply rbind_inv in H as ([d' b'] & Hl & [= <- <-]). cbn [snd].
      destruct (t_can_loop_between _ _ _ _ _ _ _ _ (extends_refl st name_of) (fun t Ht => view_reg _ _ t Hts Ht) Hl) as [H1 H2].
      split.
      + intros Hb. destruct (H1 Hb) as (t & Ht & c & n & x & ?). exists t, c, n, x. split; [|done].
        apply Htg. by exists ts.
      + intros (t & c & n & x & Ht & ?). apply H2. exists t. split; [|by exists c, n, x].
        apply Htg in Ht as (l & [= <-] & Ht). done.
    - injection H as <- <-. split; [done|]. intros (t & c & n & p & Ht & _).
      apply Htg in Ht as (l & [=] & _).
  Qed.
End calls.
Lemma allows_then_same st now q : allows_then st now now q <-> v2_allowed st now q.
Proof.
  unfold allows_then, v2_allowed, effective. split; intros (t & c & n & p & ? & ? & ? & H1 & H2); exists t, c, n, p; tauto.
Qed.

(** ** Calls return *)
Lemma rbind_val {A B} (a : A) (f : A -> res B) : rbind (Ok a) f = f a.
Proof. done. Qed.
Section returns.
  Context (clock : nat -> Z) (st : vstate) (Hwf : v2_wf st) (Hreal : ~ broken st).
  Lemma view_rows p : p ∈ w_assign st -> exists pr, row_of st p = Some pr.
  Proof. intros Hp. destruct p as [l|]; [|by destruct Hreal]. by apply (wf_prs st Hwf). Qed.
  Section trav.
    Context {A : Type} (row : dag -> A -> prole -> res (dag * A)) (user : string) (good : dag -> Prop).
    Hypothesis Hrow : forall d acc pr, good d -> exists d' acc', row d acc pr = Ok (d', acc') /\ good d'.
    Lemma t_rows_returns tid d ka ps : (forall p, p ∈ ps -> exists pr, row_of st p = Some pr) -> good d ->
      exists d' ka', t_rows clock st row user tid d ka ps = Ok (d', ka') /\ good d'.
    Proof.
      revert d ka. induction ps as [|p ps IH]; intros d ka Hps Hd; cbn [t_rows]; [eauto|].
      destruct (Hps p) as [pr Hpr]; [left|]. unfold row_of in Hpr. rewrite Hpr.
      assert (forall p, p ∈ ps -> exists pr, row_of st p = Some pr) as Hps'.
      { intros p' Hp'. apply Hps. by right. }
      destruct (_ && _); [|by apply IH]. destruct (expired_at clock ka.1 pr) as [k []]; [by apply IH|].
      destruct (Hrow d ka.2 pr Hd) as (d' & acc' & -> & Hd'). cbn. by apply IH.
    Qed.
    Lemma t_traverse_returns fuel o t checked d ka :
      (exists c, tenant_at st t c) -> good d -> size (all_ids st ∖ checked) < fuel ->
      ends good (t_traverse clock st row user fuel o t checked d ka) checked.
    Proof.
      revert o t checked d ka. induction fuel as [|fuel IH]; intros o t checked d ka [c Hc] Hd Hf; [lia|].
      cbn [t_traverse]. unfold tenant_at in Hc. rewrite Hc. case_bool_decide as Hch; [eexists _, _, _; done|].
      destruct (t_rows_returns (vt_id c) d ka (w_assign st) view_rows Hd)
        as (d1 & a1 & -> & Hd1). rewrite rbind_val. cbn [fst snd].
      assert (Hid : vt_id c ∈ all_ids st).
      { apply elem_of_list_to_set, elem_of_list_fmap. exists c. split; [done|]. by eapply elem_of_list_lookup_2. }
      destruct (manage_loop_returns (fun d (ka : nat * A) pr => Ok (d, ka)) st user good (t_traverse clock st row user fuel) o 0 c (w_assign st)
        ({[vt_id c]} ∪ checked) d1 a1 ({[vt_id c]} ∪ checked)) as (ch2 & d2 & a2 & -> & Hd2 & Hch2);
        [|exact view_rows|done|done|].
      - intros o' c' ch d' a' Hc' HC Hd'. apply IH; [by eapply (wf_kids_ok st Hwf)|done|].
        assert (size (all_ids st ∖ ch) < size (all_ids st ∖ checked)); [|lia]. apply subset_size. set_solver.
      - eexists _, _, _. split; [done|]. split; [done|set_solver].
    Qed.
    Lemma t_traverse_all_returns o t d ka : (exists c, tenant_at st t c) -> good d ->
      exists d' ka', t_traverse_all clock st row user o t d ka = Ok (d', ka') /\ good d'.
    Proof.
      intros Ht Hd. unfold t_traverse_all.
      destruct (t_traverse_returns (S (length (w_tenants st))) o t ∅ d ka Ht Hd) as (ch & d' & a' & -> & Hd' & _);
        [|cbn; by eexists _, _].
      pose proof (all_ids_size st). enough (size (all_ids st ∖ ∅) <= size (all_ids st)) by lia. apply subseteq_size. set_solver.
    Qed.
  End trav.
  Lemma wpp_returns o d k user tid n scope : extends st vr_perms d ->
    exists d' k' ps, t_principal_permissions clock st o d k user tid n scope = Ok (d', (k', ps)) /\ extends st vr_perms d'.
  Proof.
    intros Hd. unfold t_principal_permissions. destruct (w_reg st !! tid) as [t|] eqn:Ht; [|by eexists _, _, _].
    destruct (wf_reg st Hwf tid t Ht) as (c & Hc & _).
    destruct (t_traverse_all_returns (perm_row st n scope) user (extends st vr_perms)
      (fun d0 a pr Hd0 => perm_row_returns st n scope d0 a pr (wf_dag st Hwf) Hd0) o t d (k, (∅, ∅)) (ex_intro _ c Hc) Hd)
      as (d' & [k' a'] & -> & Hd'). cbn. by eexists _, _, _.
  Qed.
  Lemma wpr_returns o d k user tid n : extends st name_of d ->
    exists d' k' rs, t_principal_roles clock st o d k user tid n = Ok (d', (k', rs)) /\ extends st name_of d'.
  Proof.
    intros Hd. unfold t_principal_roles. destruct (w_reg st !! tid) as [t|] eqn:Ht; [|by eexists _, _, _].
    destruct (wf_reg st Hwf tid t Ht) as (c & Hc & _).
    destruct (t_traverse_all_returns (role_row st n) user (extends st name_of)
      (fun d0 a pr Hd0 => role_row_returns st n d0 a pr (wf_dag st Hwf) Hd0) o t d (k, ∅) (ex_intro _ c Hc) Hd)
      as (d' & [k' a'] & -> & Hd'). cbn. by eexists _, _, _.
  Qed.
  Context (q : request).
  Lemma t_can_loop_returns o i roles d k ts : extends st name_of d ->
    (forall t, t ∈ ts -> exists c, tenant_at st t c /\ w_reg st !! vt_id c = Some t) ->
    exists d' b, t_can_loop clock st o i q roles d k ts = Ok (d', b).
  Proof.
    revert i d k. induction ts as [|t ts IH]; intros i d k Hd Hts; simpl; [eauto|].
    destruct (Hts t) as (c & Hc & Hreg); [left|].
    assert (Hts' : forall t, t ∈ ts -> exists c, tenant_at st t c /\ w_reg st !! vt_id c = Some t).
    { intros t' Ht'. apply Hts. by right. }
    unfold tenant_at in Hc. rewrite Hc. destruct (target_namespace c q) as [n|]; [|by apply IH].
    destruct (wpr_returns (sub o i) d k (q_principal q) (vt_id c) n Hd) as (d1 & k1 & rs & -> & Hd1). rewrite rbind_val. cbn [fst snd].
    destruct rs as [s|]; [|by apply IH]. destruct (existsb _ _); [eauto|by apply IH].
  Qed.
  Context (early late : Z) (Hin : forall k, (early <= clock k <= late)%Z).
  Lemma t_authorize_loop_returns o i d k ts : distinct_ids st -> no_loop st early q -> extends st vr_perms d ->
    (forall t, t ∈ ts -> exists c, tenant_at st t c /\ w_reg st !! vt_id c = Some t) ->
    exists d' b, t_authorize_loop clock st o i q d k ts = Ok (d', b).
  Proof.
    intros Hdi Hnl. revert i d k. induction ts as [|t ts IH]; intros i d k Hd Hts; simpl; [eauto|].
    destruct (Hts t) as (c & Hc & Hreg); [left|].
    assert (Hts' : forall t, t ∈ ts -> exists c, tenant_at st t c /\ w_reg st !! vt_id c = Some t).
    { intros t' Ht'. apply Hts. by right. }
    unfold tenant_at in Hc. rewrite Hc. destruct (target_namespace c q) as [n|]; [|by apply IH].
    destruct (wpp_returns (sub (sub o i) 0) d k (q_principal q) (vt_id c) n (q_scope q) Hd) as (d1 & k1 & ps & Hp & Hd1).
    rewrite Hp, rbind_val. cbn [fst snd]. destruct ps as [s|]; [|by apply IH].
    assert (exists b, perms_match (sub (sub o i) 1) q s = Ok b) as [b ->].
    { unfold perms_match. destruct (_ && _); [eauto|]. apply any_match_returns. intros p Hps%elem_of_ordered%elem_of_elements.
      apply (Hnl t n p). destruct (wpp_between clock st early late Hin Hwf Hdi _ _ _ _ _ _ _ _ _ _ _ Hd Hreg Hp) as (_ & H & _).
      destruct (H s p eq_refl Hps) as [?|[? _]]; [by left|by right]. }
    rewrite rbind_val. destruct b; [eauto|by apply IH].
  Qed.
  Lemma view_target_returns o : exists ts, find_target_tenants o st q = Ok ts.
  Proof.
    unfold find_target_tenants. case_bool_decide; [|eauto]. unfold find_principal_tenants.
    assert (Hw : exists m, principal_tenants st (q_principal q) ∅ (w_assign st) = Ok m); [|destruct Hw as [m Hm]].
    { apply principal_tenants_returns; [exact Hwf|exact view_rows]. }
    rewrite Hm. cbn. eauto.
  Qed.
  Lemma t_can_returns o roles : exists st' b, t_can clock st o q roles = Ok (st', b).
  Proof.
    unfold t_can. destruct (view_target_returns (sub o 0)) as [ts Hts]. rewrite Hts, rbind_val. destruct ts as [ts|]; [|eauto].
    destruct (t_can_loop_returns (sub o 1) 0 roles (w_dag st) 0 ts (extends_refl st name_of)
      (fun t Ht => view_reg st Hwf q _ _ t Hts Ht)) as (d' & b & ->). rewrite rbind_val. eauto.
  Qed.
  Lemma t_authorize_returns o : distinct_ids st -> no_loop st early q -> exists st' b, t_authorize clock st o q = Ok (st', b).
  Proof.
    intros Hdi Hnl. unfold t_authorize. destruct (view_target_returns (sub o 0)) as [ts Hts]. rewrite Hts, rbind_val.
    destruct ts as [ts|]; [|eauto].
    destruct (t_authorize_loop_returns (sub o 1) 0 (w_dag st) 0 ts Hdi Hnl (extends_refl st vr_perms)
      (fun t Ht => view_reg st Hwf q _ _ t Hts Ht)) as (d' & b & ->). rewrite rbind_val. eauto.
  Qed.
End returns.
