(** Proofs about v2 decisions beside changes of the list of assignments. *)
From Verif Require Import V2Auth V2Inv CDecModel CDecSpec.

Section between.
  Context {A X : Type}.
  Context (row : dag -> A -> prole -> res (dag * A)) (views : nat -> list (option nat)) (st : vstate) (now : Z) (user : string).
  Context (lo hi : list (option nat)) (Hin : within views lo hi).
  Context (good : dag -> Prop) (has : A -> X -> Prop) (gives : prole -> X -> Prop).
  Hypothesis row_exact : forall d acc pr d' acc',
    good d -> row d acc pr = Ok (d', acc') -> good d' /\ forall x, has acc' x <-> has acc x \/ gives pr x.
  Notation slo := (at_moment st lo).
  Notation shi := (at_moment st hi).
  Let has2 (ka : nat * A) (x : X) : Prop := has ka.2 x.
  Lemma count_row_exact d ka pr d' ka' : good d -> count_row row d ka pr = Ok (d', ka') ->
    good d' /\ forall x, has2 ka' x <-> has2 ka x \/ gives pr x.
  Proof.
    intros Hd. unfold count_row. intros ([d1 a1] & Hr & [= <- <-])%rbind_inv. exact (row_exact _ _ _ _ _ Hd Hr).
  Qed.

  Definition seen (cs : list nat) (ch : gset string) (ka : nat * A) (ch' : gset string) (ka' : nat * A) : Prop :=
    exists N : list nat,
      (forall n, n ∈ N -> exists c t, c ∈ cs /\ rtc (down shi user) c n /\ w_tenants st !! n = Some t /\ vt_id t ∉ ch) /\
      (forall i, i ∈ ch' <-> i ∈ ch \/ exists n t, n ∈ N /\ w_tenants st !! n = Some t /\ vt_id t = i) /\
      (forall c t, c ∈ cs -> w_tenants st !! c = Some t -> vt_id t ∈ ch') /\
      (forall n m t, n ∈ N -> down slo user n m -> w_tenants st !! m = Some t -> vt_id t ∈ ch') /\
      (forall x, has2 ka' x -> has2 ka x \/
         exists n t pr, n ∈ N /\ w_tenants st !! n = Some t /\ live_row shi now user (vt_id t) pr /\ gives pr x) /\
      (forall x, has2 ka x -> has2 ka' x) /\
      (forall x n t pr, n ∈ N -> w_tenants st !! n = Some t -> live_row slo now user (vt_id t) pr -> gives pr x -> has2 ka' x).
  Lemma seen_nil ch ka : seen [] ch ka ch ka.
  Proof.
    exists []. split; [by intros n ?%elem_of_nil|]. split; [|split; [|split; [|split; [|split]]]].
    - intros i. split; [by left|]. intros [?|(n & t & ?%elem_of_nil & _)]; done.
    - by intros c t ?%elem_of_nil.
    - by intros n m t ?%elem_of_nil.
    - by left.
    - done.
    - by intros x n t pr ?%elem_of_nil.
  Qed.
  Lemma seen_app cs1 cs2 ch0 a0 ch1 a1 ch2 a2 : seen cs1 ch0 a0 ch1 a1 -> seen cs2 ch1 a1 ch2 a2 -> seen (cs1 ++ cs2) ch0 a0 ch2 a2.
  Proof.
    intros (N1 & A1 & B1 & C1 & D1 & E1 & F1 & G1) (N2 & A2 & B2 & C2 & D2 & E2 & F2 & G2). exists (N1 ++ N2).
    split; [|split; [|split; [|split; [|split; [|split]]]]].
    - intros n [Hn|Hn]%elem_of_app.
      + destruct (A1 n Hn) as (c & t & Hc & ?). exists c, t. split; [apply elem_of_app; by left|done].
      + destruct (A2 n Hn) as (c & t & Hc & Hr & Ht & Hnc). exists c, t. split; [apply elem_of_app; by right|].
        split; [done|]. split; [done|]. intros H. apply Hnc. apply B1. by left.
    - intros i. rewrite B2, B1. setoid_rewrite elem_of_app. split.
      + intros [[?|(n & t & Hn & ?)]|(n & t & Hn & ?)]; [by left| |]; right; exists n, t; (split; [|done]); by (left + right).
      + intros [?|(n & t & [Hn|Hn] & ?)]; [by left; left| |]; [left; right|right]; by exists n, t.
    - intros c t [Hc|Hc]%elem_of_app Ht; [apply B2; left; by eapply C1|by eapply C2].
    - intros n m t [Hn|Hn]%elem_of_app Hd Ht; [apply B2; left; by eapply D1|by eapply D2].
    - intros x [[?|(n & t & pr & Hn & ?)]%E1|(n & t & pr & Hn & ?)]%E2; [by left| |]; right; exists n, t, pr;
        (split; [apply elem_of_app; by (left + right)|done]).
    - intros x Hx. by apply F2, F1.
    - intros x n t pr [Hn|Hn]%elem_of_app Ht Hl Hg; [apply F2; by eapply G1|by eapply G2].
  Qed.
  Lemma seen_weaken cs cs' ch a ch' a' : (forall c, c ∈ cs <-> c ∈ cs') -> seen cs ch a ch' a' -> seen cs' ch a ch' a'.
  Proof.
    intros H (N & A1 & B1 & C1 & R). exists N. split; [|split; [done|split; [|done]]].
    - intros n Hn. destruct (A1 n Hn) as (c & t & Hc & ?). exists c, t. split; [by apply H|done].
    - intros c t Hc%H. by eapply C1.
  Qed.
  Definition rec_between (rec : oracle -> nat -> gset string -> dag -> nat * A -> res (gset string * dag * (nat * A))) : Prop :=
    forall o c ch d a ch' d' a', good d -> rec o c ch d a = Ok (ch', d', a') -> good d' /\ seen [c] ch a ch' a'.
  Lemma kids_loop_between rec o i cs ch d a ch' d' a' :
    rec_between rec -> good d -> kids_loop rec o i cs ch d a = Ok (ch', d', a') -> good d' /\ seen cs ch a ch' a'.
  Proof.
    intros Hrec. revert i ch d a. induction cs as [|c cs IH]; intros i ch d a Hd; simpl.
    - intros [= <- <- <-]. split; [done|apply seen_nil].
    - intros ([[ch1 d1] a1] & H1 & H2)%rbind_inv. simpl in H2.
      destruct (Hrec _ _ _ _ _ _ _ _ Hd H1) as [Hd1 V1].
      destruct (IH _ _ _ _ Hd1 H2) as [Hd2 V2]. split; [done|].
      apply (seen_app [c] cs _ _ _ _ _ _ V1 V2).
  Qed.
  Lemma manage_loop_between rec o i t ps ch d a ch' d' a' :
    rec_between rec -> good d -> manage_loop st user rec o i t ps ch d a = Ok (ch', d', a') ->
    good d' /\ seen (kids_of st user t ps) ch a ch' a'.
  Proof.
    intros Hrec. revert i ch d a. induction ps as [|p ps IH]; intros i ch d a Hd; simpl.
    - intros [= <- <- <-]. split; [done|apply seen_nil].
    - fold (row_of st p). destruct (row_of st p) as [pr|] eqn:Hpr; [|done].
      destruct (_ && _ && _).
      + intros ([[ch1 d1] a1] & H1 & H2)%rbind_inv. simpl in H2.
        destruct (kids_loop_between _ _ _ _ _ _ _ _ _ _ Hrec Hd H1) as [Hd1 V1].
        destruct (IH _ _ _ _ Hd1 H2) as [Hd2 V2]. split; [done|].
        eapply seen_app; [|exact V2]. eapply seen_weaken; [|exact V1].
        intros c. apply elem_of_ordered.
      + intros H2. destruct (IH _ _ _ _ Hd H2) as [Hd2 V2]. done.
  Qed.
  Lemma kids_hi k l t c : w_tenants st !! l = Some t -> c ∈ kids_of st user t (views k) -> down shi user l c.
  Proof.
    intros Ht ([k' Hk] & p & pr & Hp & Hpr & ?)%elem_of_kids. exists t, k'. split; [done|]. split; [done|].
    exists pr. split; [|done]. destruct p as [l'|]; [|done]. exists l'. split; [by apply (Hin k)|done].
  Qed.
  Lemma kids_lo k l t c : w_tenants st !! l = Some t -> down slo user l c -> c ∈ kids_of st user t (views k).
  Proof.
    intros Ht (t' & k' & Ht' & Hk & pr & (l' & Hl' & Hpr) & ?). cbn in Ht', Hpr, Hl'. rewrite Ht in Ht'. injection Ht' as <-.
    apply elem_of_kids. split; [by exists k'|]. exists (Some l'), pr. split; [by apply (Hin k)|done].
  Qed.
  Lemma rows_between k tid d ka d' ka' : good d -> rows_loop (count_row row) st now user tid d ka (views k) = Ok (d', ka') ->
    good d' /\ (forall x, has2 ka' x -> has2 ka x \/ exists pr, live_row shi now user tid pr /\ gives pr x) /\
    (forall x, has2 ka x -> has2 ka' x) /\ (forall x pr, live_row slo now user tid pr -> gives pr x -> has2 ka' x).
  Proof.
    intros Hd Hr. destruct (rows_loop_exact (count_row row) st now user good has2 gives count_row_exact _ _ _ _ _ _ Hd Hr) as (Hd' & _ & Hx).
    split; [done|]. split; [|split].
    - intros x [?|(p & pr & Hp & Hpr & ? & ? & ? & ?)]%Hx; [by left|]. right. exists pr. split; [|done]. split; [|done].
      destruct p as [l|]; [|done]. exists l. split; [by apply (Hin k)|done].
    - intros x H. apply Hx. by left.
    - intros x pr ((l & Hl & Hpr) & ? & ? & ?) Hg. apply Hx. right. exists (Some l), pr. split; [by apply (Hin k)|]. done.
  Qed.
  Lemma w_traverse_between fuel : rec_between (w_traverse views st now row user fuel).
  Proof.
    induction fuel as [|fuel IH]; intros o c ch d ka ch' d' ka' Hd; simpl; [done|].
    destruct (w_tenants st !! c) as [t|] eqn:Ht; [|done].
    case_bool_decide as Hc.
    - intros [= <- <- <-]. split; [done|]. exists [].
      split; [by intros n ?%elem_of_nil|]. split; [|split; [|split; [|split; [|split]]]].
      + intros i. split; [by left|]. intros [?|(n & t' & ?%elem_of_nil & _)]; done.
      + intros c' t' ->%elem_of_list_singleton Ht'. by simplify_eq.
      + by intros n m t' ?%elem_of_nil.
      + by left.
      + done.
      + by intros x n t' pr ?%elem_of_nil.
    - intros ([d1 ka1] & Hr & Hm)%rbind_inv. simpl in Hm.
      destruct (rows_between _ _ _ _ _ _ Hd Hr) as (Hd1 & E1 & F1 & G1).
      destruct (manage_loop_between _ _ _ _ _ _ _ _ _ _ _ IH Hd1 Hm) as [Hd2 (N & A2 & B2 & C2 & D2 & E2 & F2 & G2)].
      split; [done|]. exists (c :: N). split; [|split; [|split; [|split; [|split; [|split]]]]].
      + intros n [->|Hn]%elem_of_cons.
        * exists c, t. split; [left|]. done.
        * destruct (A2 n Hn) as (k & tn & Hk & Hkn & Htn & Hnc).
          exists c, tn. split; [left|]. split; [|split; [done|set_solver]].
          eapply rtc_l; [|exact Hkn]. by eapply kids_hi.
      + intros i. rewrite B2, elem_of_union, elem_of_singleton. split.
        * intros [[->|?]|(n & t' & Hn & ?)]; [|by left|].
          -- right. exists c, t. split; [left|done].
          -- right. exists n, t'. split; [by right|done].
        * intros [?|(n & t' & [->|Hn]%elem_of_cons & Ht' & <-)]; [auto| |].
          -- left. left. by simplify_eq.
          -- right. by exists n, t'.
      + intros c' t' ->%elem_of_list_singleton Ht'. simplify_eq. apply B2. left. set_solver.
      + intros n m t' [->|Hn]%elem_of_cons Hnm Ht'.
        * apply (C2 m t'); [|done]. by eapply kids_lo.
        * by eapply D2.
      + intros x [Hx|(n & t' & pr & Hn & ?)]%E2.
        * destruct (E1 x Hx) as [?|(pr & ?)]; [by left|]. right. exists c, t, pr. split; [left|done].
        * right. exists n, t', pr. split; [by right|done].
      + intros x Hx. apply F2. exact (F1 x Hx).
      + intros x n t' pr [->|Hn]%elem_of_cons Ht' Hl Hg.
        * simplify_eq. apply F2. exact (G1 x pr Hl Hg).
        * by eapply G2.
  Qed.
  Lemma w_traverse_all_between o t d ka d' ka' :
    distinct_ids st -> kids_ok st -> (exists c, w_tenants st !! t = Some c) ->
    good d -> w_traverse_all views st now row user o t d ka = Ok (d', ka') ->
    good d' /\
    (forall x, has2 ka' x -> has2 ka x \/ exists n tn pr, rtc (down shi user) t n /\ w_tenants st !! n = Some tn /\
        live_row shi now user (vt_id tn) pr /\ gives pr x) /\
    (forall x, has2 ka x -> has2 ka' x) /\
    (forall x n tn pr, rtc (down slo user) t n -> w_tenants st !! n = Some tn -> live_row slo now user (vt_id tn) pr ->
        gives pr x -> has2 ka' x).
  Proof.
    intros Hdi Hk [t0 Ht] Hd. unfold w_traverse_all. intros ([[ch d1] a1] & H & [= <- <-])%rbind_inv.
    destruct (w_traverse_between _ _ _ _ _ _ _ _ _ Hd H) as [Hd1 (N & A1 & B1 & C1 & D1 & E1 & F1 & G1)].
    split; [done|].
    assert (forall i, i ∈ ch -> exists n tn, n ∈ N /\ w_tenants st !! n = Some tn /\ vt_id tn = i) as B1'.
    { intros i [?|?]%B1; [set_solver|done]. }
    assert (forall m tm, w_tenants st !! m = Some tm -> vt_id tm ∈ ch -> m ∈ N) as HN.
    { intros m tm Hm Hi. destruct (B1' _ Hi) as (n & tn & Hn & Htn & He).
      by rewrite <-(Hdi n m tn tm Htn Hm He). }
    assert (forall a b, rtc (down slo user) a b -> a ∈ N -> b ∈ N) as Hcl.
    { induction 1 as [|a b b' Hab _ IHr]; [done|]. intros Ha. apply IHr.
      assert (exists tb, w_tenants st !! b = Some tb) as [tb Htb].
      { destruct Hab as (ta & k & Hta & Hkb & _). apply (Hk a ta b Hta).
        apply elem_of_list_fmap. exists (k, b). split; [done|by apply elem_of_map_to_list]. }
      by apply (HN b tb), (D1 a b tb). }
    assert (t ∈ N) as HtN. { apply (HN t t0); [done|]. apply (C1 t t0); [left|done]. }
    split; [|split].
    - intros x [?|(n & tn & pr & Hn & ?)]%E1; [by left|]. right.
      destruct (A1 n Hn) as (c & tn' & ->%elem_of_list_singleton & ? & ? & _). by exists n, tn, pr.
    - exact F1.
    - intros x n tn pr Hn Htn Hl Hg. eapply G1; [by eapply Hcl|done|done|done].
  Qed.
End between.

(** ** Permissions and roles of one tenant *)
Section calls.
  Context (views : nat -> list (option nat)) (st : vstate) (now : Z) (lo hi : list (option nat)) (Hin : within views lo hi).
  Context (Hwf : v2_wf st) (Hdi : distinct_ids st).
  Notation slo := (at_moment st lo).
  Notation shi := (at_moment st hi).
  Lemma wpp_between o d k user tid t n scope d' k' ps :
    extends st vr_perms d -> w_reg st !! tid = Some t ->
    w_principal_permissions views st now o d k user tid n scope = Ok (d', (k', ps)) ->
    extends st vr_perms d' /\
    (forall s p, ps = Some s -> p ∈ s -> scoped_perm shi now user t n scope p \/
       global_perm shi now user t n scope p /\ forall p', ~ scoped_perm slo now user t n scope p') /\
    (forall p, scoped_perm slo now user t n scope p \/
       global_perm slo now user t n scope p /\ (forall p', ~ scoped_perm shi now user t n scope p') -> exists s, ps = Some s /\ p ∈ s).
  Proof.
    intros Hd Ht. unfold w_principal_permissions. rewrite Ht. intros ([d1 [k1 [sc gl]]] & Htr & [= <- <- <-])%rbind_inv. simpl.
    destruct (wf_reg st Hwf tid t Ht) as (c & Hc & _).
    destruct (w_traverse_all_between (perm_row st n scope) views st now user lo hi Hin (extends st vr_perms) perm_has
      (perm_gives st n scope) (perm_row_exact st n scope) o t d (k, (∅, ∅)) d1 (k1, (sc, gl))
      Hdi (wf_kids_ok st Hwf) (ex_intro _ c Hc) Hd Htr) as (Hd1 & E & _ & G).
    split; [done|].
    assert (Hs1 : forall p, p ∈ sc -> scoped_perm shi now user t n scope p).
    { intros p Hp. apply (perm_gives_spec shi n scope now user t true p). destruct (E (true, p) Hp) as [H|H]; [|exact H].
      unfold perm_has in H. simpl in H. set_solver. }
    assert (Hg1 : forall p, p ∈ gl -> global_perm shi now user t n scope p).
    { intros p Hp. apply (perm_gives_spec shi n scope now user t false p). destruct (E (false, p) Hp) as [H|H]; [|exact H].
      unfold perm_has in H. simpl in H. set_solver. }
    assert (Hs2 : forall p, scoped_perm slo now user t n scope p -> p ∈ sc).
    { intros p Hp. apply (perm_gives_spec slo n scope now user t true p) in Hp as (l & tn & pr & H1 & H2 & H3 & H4).
      exact (G (true, p) l tn pr H1 H2 H3 H4). }
    assert (Hg2 : forall p, global_perm slo now user t n scope p -> p ∈ gl).
    { intros p Hp. apply (perm_gives_spec slo n scope now user t false p) in Hp as (l & tn & pr & H1 & H2 & H3 & H4).
      exact (G (false, p) l tn pr H1 H2 H3 H4). }
    clear E G. case_bool_decide as Hne.
    - split.
      + intros s p [= <-] Hp. left. by apply Hs1.
      + intros p [Hp|[_ Hno]]; [exists sc; auto|]. apply set_choose_L in Hne as [p0 Hp0]. by destruct (Hno p0 (Hs1 _ Hp0)).
    - assert (sc = ∅) as ->. { destruct (decide (sc = ∅)); [done|by destruct Hne]. } clear Hne.
      case_bool_decide as Hne2.
      + split.
        * intros s p [= <-] Hp. right. split; [by apply Hg1|]. intros p' Hp'%Hs2. set_solver.
        * intros p [Hp%Hs2|[Hp%Hg2 _]]; [set_solver|]. by exists gl.
      + assert (gl = ∅) as ->. { destruct (decide (gl = ∅)); [done|by destruct Hne2]. }
        split; [done|]. intros p [Hp%Hs2|[Hp%Hg2 _]]; set_solver.
  Qed.
  Lemma wpr_between o d k user tid t n d' k' rs :
    extends st name_of d -> w_reg st !! tid = Some t ->
    w_principal_roles views st now o d k user tid n = Ok (d', (k', rs)) ->
    extends st name_of d' /\ (forall s x, rs = Some s -> x ∈ s -> holds_role shi now user t n x) /\
    (forall x, holds_role slo now user t n x -> exists s, rs = Some s /\ x ∈ s).
  Proof.
    intros Hd Ht. unfold w_principal_roles. rewrite Ht. intros ([d1 [k1 s]] & Htr & [= <- <- <-])%rbind_inv. simpl.
    destruct (wf_reg st Hwf tid t Ht) as (c & Hc & _).
    destruct (w_traverse_all_between (role_row st n) views st now user lo hi Hin (extends st name_of) (fun s x => x ∈ s)
      (role_gives st n) (role_row_exact st n) o t d (k, ∅) d1 (k1, s)
      Hdi (wf_kids_ok st Hwf) (ex_intro _ c Hc) Hd Htr) as (Hd1 & E & _ & G).
    split; [done|].
    assert (H1 : forall x, x ∈ s -> holds_role shi now user t n x).
    { intros x Hx. apply (role_gives_spec shi n now user t x). destruct (E x Hx) as [H|H]; [|exact H]. simpl in H. set_solver. }
    assert (H2 : forall x, holds_role slo now user t n x -> x ∈ s).
    { intros x Hx. apply (role_gives_spec slo n now user t x) in Hx as (l & tn & pr & H3 & H4 & H5 & H6). exact (G x l tn pr H3 H4 H5 H6). }
    clear E G. case_bool_decide as Hne; split.
    - intros s' x [= <-]. apply H1.
    - intros x Hx. exists s. auto.
    - done.
    - intros x Hx%H2. exfalso. set_solver.
  Qed.

  (** ** The calls *)
  Context (q : request).
  Definition allows_at (yes no : vstate) (t : nat) : Prop :=
    exists c n p, tenant_at yes t c /\ uses_namespace c q n /\ matches_perm q p /\
      (scoped_perm yes now (q_principal q) t n (q_scope q) p \/
       global_perm yes now (q_principal q) t n (q_scope q) p /\
         forall p', ~ scoped_perm no now (q_principal q) t n (q_scope q) p').
  Definition can_at (s : vstate) (roles : list string) (t : nat) : Prop :=
    exists c n x, tenant_at s t c /\ uses_namespace c q n /\ holds_role s now (q_principal q) t n x /\ x ∈ roles.
  Lemma same_namespace t c c' n n' : tenant_at st t c -> tenant_at st t c' -> uses_namespace c q n -> uses_namespace c' q n' -> n = n'.
  Proof. unfold tenant_at. intros H1 H2 Hn%target_namespace_exact Hn'%target_namespace_exact. congruence. Qed.
  Lemma w_authorize_loop_between o i d k ts d' b :
    extends st vr_perms d -> (forall t, t ∈ ts -> exists c, tenant_at st t c /\ w_reg st !! vt_id c = Some t) ->
    w_authorize_loop views st now o i q d k ts = Ok (d', b) ->
    (b = true -> exists t, t ∈ ts /\ allows_at shi slo t) /\ ((exists t, t ∈ ts /\ allows_at slo shi t) -> b = true).
  Proof.
    revert i d k. induction ts as [|t ts IH]; intros i d k Hd Hts; simpl.
    - intros [= <- <-]. split; [done|]. by intros (t & ?%elem_of_nil & _).
    - destruct (Hts t) as (c & Hc & Hreg); [left|].
      assert (Hts' : forall t, t ∈ ts -> exists c, tenant_at st t c /\ w_reg st !! vt_id c = Some t).
      { intros t' Ht'. apply Hts. by right. }
      assert (Hgo : forall d1 k1, extends st vr_perms d1 -> w_authorize_loop views st now o (S i) q d1 k1 ts = Ok (d', b) ->
        ~ allows_at slo shi t -> (b = true -> exists t', t' ∈ t :: ts /\ allows_at shi slo t') /\
          ((exists t', t' ∈ t :: ts /\ allows_at slo shi t') -> b = true)).
      { intros d1 k1 Hd1 Hl Hno. destruct (IH _ _ _ Hd1 Hts' Hl) as [H1 H2]. split.
        - intros Hb. destruct (H1 Hb) as (t' & ? & ?). exists t'. split; [by right|done].
        - intros (t' & [->|Ht']%elem_of_cons & Ha); [done|]. apply H2. by exists t'. }
      pose proof Hc as Hc0. unfold tenant_at in Hc0. rewrite Hc0. destruct (target_namespace c q) as [n|] eqn:Hn.
      + apply target_namespace_exact in Hn. intros ([d1 [k1 ps]] & Hp & Hl)%rbind_inv. simpl in Hl.
        destruct (wpp_between _ _ _ _ _ _ _ _ _ _ _ Hd Hreg Hp) as (Hd1 & Hup & Hdn).
        assert (Hall : allows_at slo shi t -> exists s p, ps = Some s /\ p ∈ s /\ matches_perm q p).
        { intros (c' & n' & p & Hc' & Hn' & Hm & Hx). rewrite <-(same_namespace t c c' n n' Hc Hc' Hn Hn') in Hx.
          destruct (Hdn p Hx) as (s & ? & ?). by exists s, p. }
        destruct ps as [s|].
        * apply rbind_inv in Hl as (b1 & Hb1 & Hl). pose proof (perms_match_exact _ _ _ _ Hb1) as Hm. destruct b1.
          -- injection Hl as <- <-. split; [|done]. intros _. exists t. split; [left|].
             destruct (proj1 Hm eq_refl) as (p & Hps & Hmp). exists c, n, p. split; [done|]. split; [done|]. split; [done|].
             exact (Hup s p eq_refl Hps).
          -- apply (Hgo d1 k1); [done|done|]. intros (s' & p & [= <-] & Hps & Hmp)%Hall.
             assert (false = true); [|done]. apply Hm. by exists p.
        * apply (Hgo d1 k1); [done|done|]. by intros (s' & p & ? & _)%Hall.
      + intros Hl. apply (Hgo d k); [done|done|]. intros (c' & n & p & Hc' & Hn' & _).
        apply target_namespace_exact in Hn'. unfold tenant_at in Hc'. cbn in Hc'. congruence.
  Qed.
  Lemma w_can_loop_between o i roles d k ts d' b :
    extends st name_of d -> (forall t, t ∈ ts -> exists c, tenant_at st t c /\ w_reg st !! vt_id c = Some t) ->
    w_can_loop views st now o i q roles d k ts = Ok (d', b) ->
    (b = true -> exists t, t ∈ ts /\ can_at shi roles t) /\ ((exists t, t ∈ ts /\ can_at slo roles t) -> b = true).
  Proof.
    revert i d k. induction ts as [|t ts IH]; intros i d k Hd Hts; simpl.
    - intros [= <- <-]. split; [done|]. by intros (t & ?%elem_of_nil & _).
    - destruct (Hts t) as (c & Hc & Hreg); [left|].
      assert (Hts' : forall t, t ∈ ts -> exists c, tenant_at st t c /\ w_reg st !! vt_id c = Some t).
      { intros t' Ht'. apply Hts. by right. }
      assert (Hgo : forall d1 k1, extends st name_of d1 -> w_can_loop views st now o (S i) q roles d1 k1 ts = Ok (d', b) ->
        ~ can_at slo roles t -> (b = true -> exists t', t' ∈ t :: ts /\ can_at shi roles t') /\
          ((exists t', t' ∈ t :: ts /\ can_at slo roles t') -> b = true)).
      { intros d1 k1 Hd1 Hl Hno. destruct (IH _ _ _ Hd1 Hts' Hl) as [H1 H2]. split.
        - intros Hb. destruct (H1 Hb) as (t' & ? & ?). exists t'. split; [by right|done].
        - intros (t' & [->|Ht']%elem_of_cons & Ha); [done|]. apply H2. by exists t'. }
      pose proof Hc as Hc0. unfold tenant_at in Hc0. rewrite Hc0. destruct (target_namespace c q) as [n|] eqn:Hn.
      + apply target_namespace_exact in Hn. intros ([d1 [k1 rs]] & Hp & Hl)%rbind_inv. simpl in Hl.
        destruct (wpr_between _ _ _ _ _ _ _ _ _ _ Hd Hreg Hp) as (Hd1 & Hup & Hdn).
        assert (Hall : can_at slo roles t -> exists s x, rs = Some s /\ x ∈ s /\ x ∈ roles).
        { intros (c' & n' & x & Hc' & Hn' & Hx & Hxr). rewrite <-(same_namespace t c c' n n' Hc Hc' Hn Hn') in Hx.
          destruct (Hdn x Hx) as (s & ? & ?). by exists s, x. }
        destruct rs as [s|].
        * assert (He : existsb (contains roles) (elements s) = true <-> exists x, x ∈ s /\ x ∈ roles).
          { rewrite existsb_exists. setoid_rewrite <-elem_of_list_In. setoid_rewrite elem_of_elements.
            assert (forall l (x : string), contains l x = true <-> x ∈ l) as Hco.
            { induction l as [|y l IHl]; intros x; simpl; [split; [done|by intros ?%elem_of_nil]|].
              rewrite elem_of_cons. destruct (decide (y = x)); [naive_solver|].
              rewrite IHl. naive_solver. }
            by setoid_rewrite Hco. }
          destruct (existsb (contains roles) (elements s)) eqn:Hex.
          -- injection Hl as <- <-. split; [|done]. intros _. exists t. split; [left|].
             destruct (proj1 He eq_refl) as (x & Hxs & Hxr). exists c, n, x. split; [done|]. split; [done|]. split; [|done].
             exact (Hup s x eq_refl Hxs).
          -- apply (Hgo d1 k1); [done|done|]. intros (s' & x & [= <-] & ? & ?)%Hall.
             assert (false = true); [|done]. apply He. by exists x.
        * apply (Hgo d1 k1); [done|done|]. by intros (s' & p & ? & _)%Hall.
      + intros Hl. apply (Hgo d k); [done|done|]. intros (c' & n & p & Hc' & Hn' & _).
        apply target_namespace_exact in Hn'. unfold tenant_at in Hc'. cbn in Hc'. congruence.
  Qed.
  Lemma target_mono l1 l2 t : (forall p, p ∈ l1 -> p ∈ l2) -> target (at_moment st l1) q t -> target (at_moment st l2) q t.
  Proof.
    intros Hs [H|(Hn & pr & c & (l & Hl & Hpr) & H)]; [by left|]. right. split; [done|]. exists pr, c. split; [|done].
    exists l. split; [by apply Hs|done].
  Qed.
  Lemma view_reg l o ts t : find_target_tenants o (vw_assign st l) q = Ok (Some ts) -> t ∈ ts ->
    exists c, tenant_at st t c /\ w_reg st !! vt_id c = Some t.
  Proof.
    intros H Ht. assert (Htg : target (at_moment st l) q t) by (eapply find_target_exact; [exact H|by exists ts]).
    assert (exists id, w_reg st !! id = Some t) as [id Hid].
    { destruct Htg as [(name & _ & ?)|[_ (pr & c & _ & _ & _ & ? & _)]]; eauto. }
    destruct (wf_reg st Hwf _ _ Hid) as (c & Hc & <-). by exists c.
  Qed.
  Lemma w_authorize_between o b : w_authorize views st now o q = Ok b ->
    (b = true -> allows shi slo now q) /\ (allows slo shi now q -> b = true).
  Proof.
    unfold w_authorize. intros (ts & Hts & H)%rbind_inv. pose proof (find_target_exact _ _ _ _ Hts) as Htg. destruct ts as [ts|].
    - apply rbind_inv in H as ([d' b'] & Hl & [= <-]). cbn [snd].
      destruct (w_authorize_loop_between _ _ _ _ _ _ _ (extends_refl st vr_perms) (fun t Ht => view_reg _ _ _ t Hts Ht) Hl) as [H1 H2].
      split.
      + intros Hb. destruct (H1 Hb) as (t & Ht & c & n & p & ?). exists t, c, n, p. split; [|done].
        apply (target_mono (views 0)); [intros; by apply (Hin 0)|]. apply Htg. by exists ts.
      + intros (t & c & n & p & Ht & ?). apply H2. exists t. split; [|by exists c, n, p].
        apply (target_mono lo (views 0)) in Ht; [|intros; by apply (Hin 0)]. apply Htg in Ht as (l & [= <-] & Ht). done.
    - injection H as <-. split; [done|]. intros (t & c & n & p & Ht & _).
      apply (target_mono lo (views 0)) in Ht; [|intros; by apply (Hin 0)]. apply Htg in Ht as (l & [=] & _).
  Qed.
  Lemma w_can_between o roles b : w_can views st now o q roles = Ok b ->
    (b = true -> v2_can_allowed shi now q roles) /\ (v2_can_allowed slo now q roles -> b = true).
  Proof.
    unfold w_can. intros (ts & Hts & H)%rbind_inv. pose proof (find_target_exact _ _ _ _ Hts) as Htg. destruct ts as [ts|].
    - apply rbind_inv in H as ([d' b'] & Hl & [= <-]). cbn [snd].
      destruct (w_can_loop_between _ _ _ _ _ _ _ _ (extends_refl st name_of) (fun t Ht => view_reg _ _ _ t Hts Ht) Hl) as [H1 H2].
      split.
      + intros Hb. destruct (H1 Hb) as (t & Ht & c & n & x & ?). exists t, c, n, x. split; [|done].
        apply (target_mono (views 0)); [intros; by apply (Hin 0)|]. apply Htg. by exists ts.
      + intros (t & c & n & x & Ht & ?). apply H2. exists t. split; [|by exists c, n, x].
        apply (target_mono lo (views 0)) in Ht; [|intros; by apply (Hin 0)]. apply Htg in Ht as (l & [= <-] & Ht). done.
    - injection H as <-. split; [done|]. intros (t & c & n & p & Ht & _).
      apply (target_mono lo (views 0)) in Ht; [|intros; by apply (Hin 0)]. apply Htg in Ht as (l & [=] & _).
  Qed.
End calls.
Lemma allows_same st now q : allows st st now q <-> v2_allowed st now q.
Proof.
  unfold allows, v2_allowed, effective. split; intros (t & c & n & p & ? & ? & ? & H1 & H2); exists t, c, n, p; tauto.
Qed.

(** ** Only additions *)
Lemma growing_within v new views : growing_views v new views -> within views v (v ++ new).
Proof.
  intros (time & _ & Hv) k p. rewrite Hv. split; [intros; apply elem_of_app; by left|]. rewrite !elem_of_app.
  intros [?|Hp]; [by left|]. right. rewrite <-(take_drop (time k) new). apply elem_of_app. by left.
Qed.
Lemma end_moment (v new : list (option nat)) : v ++ take (length new) new = v ++ new.
Proof. by rewrite firstn_all. Qed.
Lemma can_some_moment st now q roles v new views o b : v2_wf st -> distinct_ids st -> growing_views v new views ->
  w_can views st now o q roles = Ok b ->
  right_at_some_moment (fun l => v2_can_allowed (at_moment st l) now q roles) v new b.
Proof.
  intros Hwf Hdi Hg H. destruct (w_can_between views st now _ _ (growing_within _ _ _ Hg) Hwf Hdi q o roles b H) as [H1 H2].
  destruct b.
  - exists (length new). rewrite end_moment. split; [intros _; by apply H1|done].
  - exists 0. cbn [take]. rewrite app_nil_r. split; [done|]. intros Ha. by apply H2.
Qed.
Lemma unscoped_allows st1 st2 now q : q_scope q = "" -> allows st1 st2 now q <-> allows st1 st1 now q.
Proof.
  intros Hq.
  assert (Hng : forall s t n p, ~ global_perm s now (q_principal q) t n (q_scope q) p).
  { intros s t n p (pr & _ & Hne & He & _). congruence. }
  split; intros (t & c & n & p & ? & ? & ? & ? & [Hs|[Hgl _]]); try (by apply Hng in Hgl); exists t, c, n, p; tauto.
Qed.
Lemma authorize_unscoped_moment st now q v new views o b : v2_wf st -> distinct_ids st -> growing_views v new views ->
  q_scope q = "" -> w_authorize views st now o q = Ok b ->
  right_at_some_moment (fun l => v2_allowed (at_moment st l) now q) v new b.
Proof.
  intros Hwf Hdi Hg Hq H. destruct (w_authorize_between views st now _ _ (growing_within _ _ _ Hg) Hwf Hdi q o b H) as [H1 H2].
  destruct b.
  - exists (length new). rewrite end_moment. split; [intros _|done]. apply allows_same, (unscoped_allows _ (at_moment st v) now q Hq), H1. done.
  - exists 0. cbn [take]. rewrite app_nil_r. split; [done|]. intros Ha. apply H2, (unscoped_allows _ _ now q Hq), allows_same. done.
Qed.

(** ** A tenant without children *)
Lemma rbind_val {A B} (a : A) (f : A -> res B) : rbind (Ok a) f = f a.
Proof. done. Qed.
Lemma leaf_manage {A} rec st user o i (c : vtenant) ps ch d (a : A) :
  vt_children c = ∅ -> (forall p, p ∈ ps -> exists pr, row_of st p = Some pr) ->
  manage_loop st user rec o i c ps ch d a = Ok (ch, d, a).
Proof.
  intros Hc. revert i. induction ps as [|p ps IH]; intros i Hps; [done|]. cbn [manage_loop].
  destruct (Hps p) as [pr Hpr]; [left|]. unfold row_of in Hpr. rewrite Hpr.
  assert (Hps' : forall p, p ∈ ps -> exists pr, row_of st p = Some pr). { intros p' Hp'. apply Hps. by right. }
  destruct (_ && _ && _); [|by apply IH]. rewrite Hc, map_to_list_empty.
  replace (ordered (sub (sub o i) 0) ([].*2 : list nat)) with (@nil nat).
  - cbn. by apply IH.
  - symmetry. cbn. apply Permutation_nil. symmetry. apply ordered_perm.
Qed.
Lemma leaf_manage_ok {A} rec st user o i (c : vtenant) ps ch d (a : A) r :
  vt_children c = ∅ -> manage_loop st user rec o i c ps ch d a = Ok r -> r = (ch, d, a).
Proof.
  intros Hc. revert i. induction ps as [|p ps IH]; intros i; [by intros [= <-]|]. cbn [manage_loop].
  destruct (p ≫= (fun l => w_prs st !! l)) as [pr|]; [|done].
  destruct (_ && _ && _); [|by apply IH]. rewrite Hc, map_to_list_empty.
  replace (ordered (sub (sub o i) 0) ([].*2 : list nat)) with (@nil nat).
  - cbn. by apply IH.
  - symmetry. cbn. apply Permutation_nil. symmetry. apply ordered_perm.
Qed.
Lemma rows_loop_rows {A} (row : dag -> A -> prole -> res (dag * A)) st now user tid d a ps r :
  rows_loop row st now user tid d a ps = Ok r -> forall p, p ∈ ps -> exists pr, row_of st p = Some pr.
Proof.
  revert d a. induction ps as [|p ps IH]; intros d a; simpl; [by intros _ p ?%elem_of_nil|].
  change (p ≫= (fun l => w_prs st !! l)) with (row_of st p).
  destruct (row_of st p) as [pr|] eqn:Hp; [|done]. intros H p' [->|Hp']%elem_of_cons; [by exists pr|].
  destruct (_ && _ && _).
  - apply rbind_inv in H as (da & _ & H). by eapply IH.
  - by eapply IH.
Qed.
Section leaf.
  Context (views : nat -> list (option nat)) (st : vstate) (now : Z).
  Notation still := (fun _ : nat => views 1).
  Lemma leaf_traverse {A} (row : dag -> A -> prole -> res (dag * A)) user o t c d (a : A) r :
    tenant_at st t c -> vt_children c = ∅ ->
    w_traverse_all views st now row user o t d (1, a) = Ok r -> w_traverse_all still st now row user o t d (1, a) = Ok r.
  Proof.
    intros Ht Hc. unfold w_traverse_all. cbn [w_traverse]. unfold tenant_at in Ht. rewrite Ht, bool_decide_false by set_solver.
    cbn [fst snd]. intros (s & (da & Hda & Hm)%rbind_inv & [= <-])%rbind_inv. rewrite Hda, rbind_val.
    apply leaf_manage_ok in Hm as ->; [|done]. rewrite leaf_manage; [done|done|]. exact (rows_loop_rows _ _ _ _ _ _ _ _ _ Hda).
  Qed.
  Lemma leaf_target l l' o q ts : one_leaf st q ->
    find_target_tenants o (vw_assign st l) q = Ok ts -> find_target_tenants o (vw_assign st l') q = Ok ts /\
      exists t c, ts = Some [t] /\ tenant_at st t c /\ vt_children c = ∅.
  Proof.
    intros (name & t & c & Hn & Ht & Hc & He).
    assert (Hts : forall l, find_target_tenants o (vw_assign st l) q = Ok (Some [t])).
    { intros l0. unfold find_target_tenants. cbn [w_default w_reg vw_assign]. destruct Hn as [Hne Hn].
      assert ((if bool_decide (q_tenant q = "") then w_default st else q_tenant q) = name) as ->.
      { case_bool_decide; destruct Hn as [Hq|[Hq Hd]]; congruence. }
      rewrite bool_decide_false by done. by rewrite Ht. }
    rewrite !Hts. intros [= <-]. split; [done|]. by exists t, c.
  Qed.
  Lemma leaf_authorize o q b : v2_wf st -> one_leaf st q ->
    w_authorize views st now o q = Ok b -> w_authorize still st now o q = Ok b.
  Proof.
    intros Hwf Hone. unfold w_authorize. intros (ts & Hts & H)%rbind_inv.
    destruct (leaf_target _ (views 1) _ _ _ Hone Hts) as (-> & t & c & -> & Ht & Hc). rewrite rbind_val.
    apply rbind_inv in H as ([d' b'] & Hl & [= <-]).
    destruct (view_reg st Hwf q (views 0) _ _ t Hts) as (c' & Hc' & Hreg); [left|].
    assert (c' = c) as -> by (unfold tenant_at in *; congruence).
    cbn [w_authorize_loop] in *. unfold tenant_at in Ht. rewrite Ht in *.
    destruct (target_namespace c q) as [n|]; [|injection Hl as <- <-; done].
    unfold w_principal_permissions in *. rewrite Hreg in *.
    apply rbind_inv in Hl as (dp & (da & Hda & [= <-])%rbind_inv & Hl).
    rewrite (leaf_traverse _ _ _ t c _ _ _ Ht Hc Hda). cbn [rbind fst snd] in *. by rewrite Hl.
  Qed.
  Lemma leaf_can o q roles b : v2_wf st -> one_leaf st q ->
    w_can views st now o q roles = Ok b -> w_can still st now o q roles = Ok b.
  Proof.
    intros Hwf Hone. unfold w_can. intros (ts & Hts & H)%rbind_inv.
    destruct (leaf_target _ (views 1) _ _ _ Hone Hts) as (-> & t & c & -> & Ht & Hc). rewrite rbind_val.
    apply rbind_inv in H as ([d' b'] & Hl & [= <-]).
    destruct (view_reg st Hwf q (views 0) _ _ t Hts) as (c' & Hc' & Hreg); [left|].
    assert (c' = c) as -> by (unfold tenant_at in *; congruence).
    cbn [w_can_loop] in *. unfold tenant_at in Ht. rewrite Ht in *.
    destruct (target_namespace c q) as [n|]; [|injection Hl as <- <-; done].
    unfold w_principal_roles in *. rewrite Hreg in *.
    apply rbind_inv in Hl as (dp & (da & Hda & [= <-])%rbind_inv & Hl).
    rewrite (leaf_traverse _ _ _ t c _ _ _ Ht Hc Hda). cbn [rbind fst snd] in *. by rewrite Hl.
  Qed.
  Lemma leaf_authorize_exact o q b : v2_wf st -> distinct_ids st -> one_leaf st q ->
    w_authorize views st now o q = Ok b -> b = true <-> v2_allowed (at_moment st (views 1)) now q.
  Proof.
    intros Hwf Hdi Hone H%leaf_authorize; [|done|done].
    destruct (w_authorize_between still st now (views 1) (views 1) (fun _ _ => conj (fun H => H) (fun H => H)) Hwf Hdi q o b H) as [H1 H2].
    split; [intros Hb; by apply allows_same, H1|intros Ha; by apply H2, allows_same].
  Qed.
  Lemma leaf_can_exact o q roles b : v2_wf st -> distinct_ids st -> one_leaf st q ->
    w_can views st now o q roles = Ok b -> b = true <-> v2_can_allowed (at_moment st (views 1)) now q roles.
  Proof.
    intros Hwf Hdi Hone H%leaf_can; [|done|done].
    destruct (w_can_between still st now (views 1) (views 1) (fun _ _ => conj (fun H => H) (fun H => H)) Hwf Hdi q o roles b H) as [H1 H2].
    by split.
  Qed.
End leaf.

(** ** Calls return *)
Section returns.
  Context (views : nat -> list (option nat)) (st : vstate) (now : Z) (lo hi : list (option nat)) (Hin : within views lo hi).
  Context (Hwf : v2_wf st) (Hreal : real_rows st hi).
  Lemma view_rows k p : p ∈ views k -> exists pr, row_of st p = Some pr.
  Proof. intros Hp. destruct (Hreal p) as (i & pr & -> & H); [by apply (Hin k)|]. by exists pr. Qed.
  Section trav.
    Context {A : Type} (row : dag -> A -> prole -> res (dag * A)) (user : string) (good : dag -> Prop).
    Hypothesis Hrow : forall d acc pr, good d -> exists d' acc', row d acc pr = Ok (d', acc') /\ good d'.
    Lemma count_row_returns d ka pr : good d -> exists d' ka', count_row row d ka pr = Ok (d', ka') /\ good d'.
    Proof. intros Hd. unfold count_row. destruct (Hrow d ka.2 pr Hd) as (d' & a' & -> & Hd'). cbn. by eexists _, _. Qed.
    Lemma w_traverse_returns fuel o t checked d ka :
      (exists c, tenant_at st t c) -> good d -> size (all_ids st ∖ checked) < fuel ->
      ends good (w_traverse views st now row user fuel o t checked d ka) checked.
    Proof.
      revert o t checked d ka. induction fuel as [|fuel IH]; intros o t checked d ka [c Hc] Hd Hf; [lia|].
      cbn [w_traverse]. unfold tenant_at in Hc. rewrite Hc. case_bool_decide as Hch; [eexists _, _, _; done|].
      destruct (rows_loop_returns (count_row row) st now user good (vt_id c) d ka (views ka.1) count_row_returns (view_rows _) Hd)
        as (d1 & a1 & -> & Hd1). rewrite rbind_val. cbn [fst snd].
      assert (Hid : vt_id c ∈ all_ids st).
      { apply elem_of_list_to_set, elem_of_list_fmap. exists c. split; [done|]. by eapply elem_of_list_lookup_2. }
      destruct (manage_loop_returns (count_row row) st user good (w_traverse views st now row user fuel) o 0 c (views (S ka.1))
        ({[vt_id c]} ∪ checked) d1 (S (S ka.1), a1.2) ({[vt_id c]} ∪ checked)) as (ch2 & d2 & a2 & -> & Hd2 & Hch2);
        [|exact (view_rows _)|done|done|].
      - intros o' c' ch d' a' Hc' HC Hd'. apply IH; [by eapply (wf_kids_ok st Hwf)|done|].
        assert (size (all_ids st ∖ ch) < size (all_ids st ∖ checked)); [|lia]. apply subset_size. set_solver.
      - eexists _, _, _. split; [done|]. split; [done|set_solver].
    Qed.
    Lemma w_traverse_all_returns o t d ka : (exists c, tenant_at st t c) -> good d ->
      exists d' ka', w_traverse_all views st now row user o t d ka = Ok (d', ka') /\ good d'.
    Proof.
      intros Ht Hd. unfold w_traverse_all.
      destruct (w_traverse_returns (S (length (w_tenants st))) o t ∅ d ka Ht Hd) as (ch & d' & a' & -> & Hd' & _);
        [|cbn; by eexists _, _].
      pose proof (all_ids_size st). enough (size (all_ids st ∖ ∅) <= size (all_ids st)) by lia. apply subseteq_size. set_solver.
    Qed.
  End trav.
  Lemma wpp_returns o d k user tid n scope : extends st vr_perms d ->
    exists d' k' ps, w_principal_permissions views st now o d k user tid n scope = Ok (d', (k', ps)) /\ extends st vr_perms d'.
  Proof.
    intros Hd. unfold w_principal_permissions. destruct (w_reg st !! tid) as [t|] eqn:Ht; [|by eexists _, _, _].
    destruct (wf_reg st Hwf tid t Ht) as (c & Hc & _).
    destruct (w_traverse_all_returns (perm_row st n scope) user (extends st vr_perms)
      (fun d0 a pr Hd0 => perm_row_returns st n scope d0 a pr (wf_dag st Hwf) Hd0) o t d (k, (∅, ∅)) (ex_intro _ c Hc) Hd)
      as (d' & [k' a'] & -> & Hd'). cbn. by eexists _, _, _.
  Qed.
  Lemma wpr_returns o d k user tid n : extends st name_of d ->
    exists d' k' rs, w_principal_roles views st now o d k user tid n = Ok (d', (k', rs)) /\ extends st name_of d'.
  Proof.
    intros Hd. unfold w_principal_roles. destruct (w_reg st !! tid) as [t|] eqn:Ht; [|by eexists _, _, _].
    destruct (wf_reg st Hwf tid t Ht) as (c & Hc & _).
    destruct (w_traverse_all_returns (role_row st n) user (extends st name_of)
      (fun d0 a pr Hd0 => role_row_returns st n d0 a pr (wf_dag st Hwf) Hd0) o t d (k, ∅) (ex_intro _ c Hc) Hd)
      as (d' & [k' a'] & -> & Hd'). cbn. by eexists _, _, _.
  Qed.
  Context (q : request).
  Lemma w_can_loop_returns o i roles d k ts : extends st name_of d ->
    (forall t, t ∈ ts -> exists c, tenant_at st t c /\ w_reg st !! vt_id c = Some t) ->
    exists d' b, w_can_loop views st now o i q roles d k ts = Ok (d', b).
  Proof.
    revert i d k. induction ts as [|t ts IH]; intros i d k Hd Hts; simpl; [eauto|].
    destruct (Hts t) as (c & Hc & Hreg); [left|].
    assert (Hts' : forall t, t ∈ ts -> exists c, tenant_at st t c /\ w_reg st !! vt_id c = Some t).
    { intros t' Ht'. apply Hts. by right. }
    unfold tenant_at in Hc. rewrite Hc. destruct (target_namespace c q) as [n|]; [|by apply IH].
    destruct (wpr_returns (sub o i) d k (q_principal q) (vt_id c) n Hd) as (d1 & k1 & rs & -> & Hd1). rewrite rbind_val. cbn [fst snd].
    destruct rs as [s|]; [|by apply IH]. destruct (existsb _ _); [eauto|by apply IH].
  Qed.
  Lemma w_authorize_loop_returns o i d k ts : distinct_ids st -> no_loop (at_moment st hi) now q -> extends st vr_perms d ->
    (forall t, t ∈ ts -> exists c, tenant_at st t c /\ w_reg st !! vt_id c = Some t) ->
    exists d' b, w_authorize_loop views st now o i q d k ts = Ok (d', b).
  Proof.
    intros Hdi Hnl. revert i d k. induction ts as [|t ts IH]; intros i d k Hd Hts; simpl; [eauto|].
    destruct (Hts t) as (c & Hc & Hreg); [left|].
    assert (Hts' : forall t, t ∈ ts -> exists c, tenant_at st t c /\ w_reg st !! vt_id c = Some t).
    { intros t' Ht'. apply Hts. by right. }
    unfold tenant_at in Hc. rewrite Hc. destruct (target_namespace c q) as [n|]; [|by apply IH].
    destruct (wpp_returns (sub (sub o i) 0) d k (q_principal q) (vt_id c) n (q_scope q) Hd) as (d1 & k1 & ps & Hp & Hd1).
    rewrite Hp, rbind_val. cbn [fst snd]. destruct ps as [s|]; [|by apply IH].
    assert (exists b, perms_match (sub (sub o i) 1) q s = Ok b) as [b ->].
    { unfold perms_match. destruct (_ && _); [eauto|]. apply any_match_returns. intros p Hps%elem_of_ordered%elem_of_elements.
      apply (Hnl t n p). destruct (wpp_between views st now lo hi Hin Hwf Hdi _ _ _ _ _ _ _ _ _ _ _ Hd Hreg Hp) as (_ & H & _).
      destruct (H s p eq_refl Hps) as [?|[? _]]; [by left|by right]. }
    rewrite rbind_val. destruct b; [eauto|by apply IH].
  Qed.
  Lemma view_target_returns o : exists ts, find_target_tenants o (vw_assign st (views 0)) q = Ok ts.
  Proof.
    unfold find_target_tenants. case_bool_decide; [|eauto]. unfold find_principal_tenants.
    assert (Hw : exists m, principal_tenants (vw_assign st (views 0)) (q_principal q) ∅ (views 0) = Ok m); [|destruct Hw as [m Hm]].
    { apply principal_tenants_returns; [|exact (view_rows 0)].
      destruct Hwf. split; try done. cbn. intros l Hl. destruct (view_rows 0 (Some l) Hl) as [pr Hpr]. by exists pr. }
    cbn [w_assign vw_assign]. rewrite Hm. cbn. eauto.
  Qed.
  Lemma w_can_returns o roles : exists b, w_can views st now o q roles = Ok b.
  Proof.
    unfold w_can. destruct (view_target_returns (sub o 0)) as [ts Hts]. rewrite Hts, rbind_val. destruct ts as [ts|]; [|eauto].
    destruct (w_can_loop_returns (sub o 1) 0 roles (w_dag st) 1 ts (extends_refl st name_of)
      (fun t Ht => view_reg st Hwf q _ _ _ t Hts Ht)) as (d' & b & ->). rewrite rbind_val. eauto.
  Qed.
  Lemma w_authorize_returns o : distinct_ids st -> no_loop (at_moment st hi) now q -> exists b, w_authorize views st now o q = Ok b.
  Proof.
    intros Hdi Hnl. unfold w_authorize. destruct (view_target_returns (sub o 0)) as [ts Hts]. rewrite Hts, rbind_val.
    destruct ts as [ts|]; [|eauto].
    destruct (w_authorize_loop_returns (sub o 1) 0 (w_dag st) 1 ts Hdi Hnl (extends_refl st vr_perms)
      (fun t Ht => view_reg st Hwf q _ _ _ t Hts Ht)) as (d' & b & ->). rewrite rbind_val. eauto.
  Qed.
End returns.
