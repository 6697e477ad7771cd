(** Taking things back never gives access (v2). *)
From Verif Require Export V2ShrinkSpec V2GrowProofs.
From Verif Require Import V2Inv V2Cor V2Final.
Local Open Scope string_scope.

Lemma rest_ids st st' : rest_kept st st' -> ids_kept st st'.
Proof. intros K l c Hc. destruct (sk_tenant _ _ K l c Hc) as (c' & H1 & H2 & _). by exists c'. Qed.
(** One step down: what there is afterwards was there before. *)
Lemma removal_kept o st x st' y : removal st x -> vstep o st x = Ok (st', y) -> roles_kept st' st /\ rest_kept st' st.
Proof.
  destruct x; simpl; try done.
  - intros _ (s & (r' & Hr & ->)%upd_role_inv & [= <- <-])%rbind_inv. split; [|by apply rest_same]. split; try done. simpl.
    intros n x (l & H1 & H2). destruct (decide (l = r)) as [->|Hne].
    + rewrite list_lookup_insert in H2 by by eapply lookup_lt_Some. injection H2 as <-. exists r'. split; [by exists r|]. split; [done|]. simpl. set_solver.
    + rewrite list_lookup_insert_ne in H2 by done. exists x. split; [|done]. by exists l.
  - intros Hs (s1 & (c & Hc & ->)%upd_tenant_inv & [= <- <-])%rbind_inv. split; [by apply kept_same|].
    split; try done; [|intros pr Hp; exists pr; split; [done|apply outlasts_refl]].
    intros l c' Hl. unfold tenant_at in *. simpl in Hl. destruct (decide (l = t)) as [->|Hne].
    + rewrite list_lookup_insert in Hl by by eapply lookup_lt_Some. injection Hl as <-. exists c. done.
    + rewrite list_lookup_insert_ne in Hl by done. by exists c'.
  - intros _ ([s1 e] & H & [= <- <-])%rbind_inv. simpl. apply v2_remove_inv in H as (E1 & E2 & E3 & E4 & E5 & E6 & E7).
    split; [by apply kept_same|]. split; unfold tenant_at; rewrite ?E2, ?E5; try done.
    + intros l c Hc. by exists c.
    + intros p (l & H1 & H2). exists p. split; [|apply outlasts_refl]. exists l. split; [by apply E7|]. by rewrite <-E3.
  - intros Ha ([s1 er] & (p & Hp & -> & _)%upd_pr_inv & [= <- <-])%rbind_inv. split; [by apply kept_same|].
    split; try done; [intros k c Hc; by exists c|]. intros p' (k & Hk & Hp'). simpl in Hk, Hp'. destruct (decide (k = pr)) as [->|Hne].
    + rewrite list_lookup_insert in Hp' by by eapply lookup_lt_Some. injection Hp' as <-. exists p. split; [by exists pr|].
      unfold set_expiry. case_bool_decide; [apply outlasts_refl|]. split; [by destruct p|].
      intros n Hn (e0 & E0 & Hlt). apply Hn. exists e. split; [done|]. specialize (Ha p e0 Hp E0). lia.
    + rewrite list_lookup_insert_ne in Hp' by done. exists p'. split; [by exists k|apply outlasts_refl].
Qed.
Lemma authorize_back o st x st' y : v2_wf st -> is_authorize x -> vstep o st x = Ok (st', y) ->
  rest_kept st' st /\ forall r p, role_perm st' r p -> role_perm st r p.
Proof.
  intros Hwf Hx Hst. destruct x; try done. simpl in Hst. apply rbind_inv in Hst as ([s3 b3] & H & [= <- <-]).
  apply v2_authorize_sound in H as [(d & -> & Hd1) _]; [|done]. split; [by apply rest_same|].
  intros r p. unfold role_perm at 1. simpl. destruct (d_resolved d !! r) as [s|] eqn:Hs.
  - intros H. apply role_view_perm. by apply (ext_view _ _ _ Hd1 _ _ Hs p).
  - unfold role_perm. rewrite (ext_old _ _ _ Hd1 _ Hs). intros (n & x & Hb & Hreg & Hp). exists n, x.
    split; [eapply rtc_below_ext; [| |exact Hb]; apply Hd1|].
    split; [|done]. eapply registered_ext; [|exact Hreg]. apply Hd1.
Qed.
Lemma can_back o st x st' y : v2_wf st -> is_can x -> vstep o st x = Ok (st', y) ->
  rest_kept st' st /\ forall r p, role_name st' r p -> role_name st r p.
Proof.
  intros Hwf Hx Hst. destruct x; try done. simpl in Hst. apply rbind_inv in Hst as ([s3 b3] & H & [= <- <-]).
  apply v2_can_sound in H as [(d & -> & Hd1) _]; [|done]. split; [by apply rest_same|].
  intros r p. unfold role_name at 1. simpl. destruct (d_resolved d !! r) as [s|] eqn:Hs.
  - intros H. apply role_view_name. by apply (ext_view _ _ _ Hd1 _ _ Hs p).
  - unfold role_name. rewrite (ext_old _ _ _ Hd1 _ Hs). intros (n & x & Hb & Hreg & Hp). exists n, x.
    split; [eapply rtc_below_ext; [| |exact Hb]; apply Hd1|].
    split; [|done]. eapply registered_ext; [|exact Hreg]. apply Hd1.
Qed.
Section kind.
  Variable ask : vop -> Prop.
  Variable P : vstate -> string -> string -> Prop.
  Hypothesis HP : forall st st' r p, roles_kept st st' -> P st r p -> P st' r p.
  Hypothesis Hask : forall o st x st' y, v2_wf st -> ask x -> vstep o st x = Ok (st', y) ->
    rest_kept st' st /\ forall r p, P st' r p -> P st r p.
  Variable Q : vstate -> Prop.
  Hypothesis HQ : forall st st', rest_kept st st' -> (forall r p, P st r p -> P st' r p) -> Q st -> Q st'.
  Lemma comes_down_keeps st st' : v2_wf st -> rtc (comes_down ask) st st' -> distinct_ids st -> v2_wf st' /\ distinct_ids st' /\ (Q st' -> Q st).
  Proof.
    intros Hwf H. revert Hwf. induction H as [st|st st1 st' (o & x & y & Hx & H1) _ IH]; intros Hwf Hd; [done|].
    assert (rest_kept st1 st /\ forall r p, P st1 r p -> P st r p) as [K1 K2].
    { destruct Hx as [Hx|Hx]; [|by eapply Hask]. destruct (removal_kept _ _ _ _ _ Hx H1) as [Kr K]. split; [done|]. intros r p. by apply HP. }
    destruct (IH (vstep_wf _ _ _ _ _ Hwf H1) (ids_distinct _ _ (rest_ids _ _ K1) Hd)) as (Hwf' & Hd' & HQ').
    split; [done|]. split; [done|]. intros Hq. apply (HQ _ _ K1 K2). by apply HQ'.
  Qed.
End kind.

(** ** Time *)
Lemma counts_earlier st now now' u t n pr : (now <= now')%Z -> counts st now' u t n pr -> counts st now u t n pr.
Proof. intros Hle (H1 & H2 & H3 & H4). split; [done|]. split; [done|]. split; [|done]. intros (e & He & Hlt). apply H3. exists e. split; [done|]. lia. Qed.
Lemma can_earlier st now now' q roles : (now <= now')%Z -> v2_can_allowed st now' q roles -> v2_can_allowed st now q roles.
Proof.
  intros Hle (t & c & n & x & H1 & H2 & H3 & (pr & H4 & H5) & H6). exists t, c, n, x. repeat (split; [done|]). split; [|done].
  exists pr. split; [by eapply counts_earlier|done].
Qed.
Lemma somehow_earlier st now now' q : (now <= now')%Z -> somehow st now' q -> somehow st now q.
Proof.
  intros Hle (t & c & n & p & H1 & H2 & H3 & H4 & H5). exists t, c, n, p. repeat (split; [done|]). split; [|done].
  destruct H4 as [(pr & Hk & H4)|(pr & Hk & H4)]; [left|right]; exists pr; (split; [by eapply counts_earlier|done]).
Qed.
Lemma scoped_earlier st now now' q : (now <= now')%Z -> scoped_allowed st now' q -> scoped_allowed st now q.
Proof.
  intros Hle (t & c & n & p & H1 & H2 & H3 & (pr & Hk & H4) & H5). exists t, c, n, p. repeat (split; [done|]). split; [|done].
  exists pr. split; [by eapply counts_earlier|done].
Qed.

Lemma c129_can o o' st now now' q roles s st' s' b : (now <= now')%Z -> vreachable st -> distinct_ids st -> v2_can o st now q roles = Ok (s, false) ->
  rtc (comes_down is_can) st st' -> v2_can o' st' now' q roles = Ok (s', b) -> b = false.
Proof.
  intros Hle Hr Hd H Hs H'. pose proof (vreachable_wf _ Hr) as Hwf.
  destruct (comes_down_keeps is_can role_name kept_name can_back (fun s => v2_can_allowed s now' q roles) (fun s1 s2 => can_grows s1 s2 now' q roles)
    st st' Hwf Hs Hd) as (Hwf' & Hd' & K).
  destruct b; [|done]. exfalso. destruct (v2_can_exact _ _ _ _ _ _ _ Hwf Hd H) as [E _]. destruct (v2_can_exact _ _ _ _ _ _ _ Hwf' Hd' H') as [E' _].
  discriminate (proj2 E (can_earlier _ _ _ _ _ Hle (K (proj1 E' eq_refl)))).
Qed.
Lemma c129_authorize o o' st now now' q s st' s' b : (now <= now')%Z -> vreachable st -> distinct_ids st -> no_scope_given st q -> v2_authorize o st now q = Ok (s, false) ->
  rtc (comes_down is_authorize) st st' -> v2_authorize o' st' now' q = Ok (s', b) -> b = false.
Proof.
  intros Hle Hr Hd Hn H Hs H'. pose proof (vreachable_wf _ Hr) as Hwf.
  destruct (comes_down_keeps is_authorize role_perm kept_perm authorize_back (fun s => somehow s now' q) (fun s1 s2 => somehow_grows s1 s2 now' q)
    st st' Hwf Hs Hd) as (Hwf' & Hd' & K).
  destruct b; [|done]. exfalso. destruct (v2_authorize_exact _ _ _ _ _ _ Hwf Hd H) as [E _]. destruct (v2_authorize_exact _ _ _ _ _ _ Hwf' Hd' H') as [E' _].
  discriminate (proj2 E (somehow_allowed _ _ _ Hn (somehow_earlier _ _ _ _ Hle (K (allowed_somehow _ _ _ (proj1 E' eq_refl)))))).
Qed.
Lemma all_scoped_less st st' user : rest_kept st' st -> all_scoped st user -> all_scoped st' user.
Proof.
  intros K H pr Ha Hu. destruct (sk_assigned _ _ K pr Ha) as (pr' & Ha' & (F1 & _ & F3 & _)%outlasts_fields).
  rewrite <-F3. apply H; [done|]. by rewrite F1.
Qed.
Lemma c129_scoped o o' st now now' q s st' s' b : (now <= now')%Z -> vreachable st -> distinct_ids st -> all_scoped st (q_principal q) -> v2_authorize o st now q = Ok (s, false) ->
  rtc (comes_down is_authorize) st st' -> v2_authorize o' st' now' q = Ok (s', b) -> b = false.
Proof.
  intros Hle Hr Hd Hn H Hs H'. pose proof (vreachable_wf _ Hr) as Hwf.
  destruct (comes_down_keeps is_authorize role_perm kept_perm authorize_back (fun s => scoped_allowed s now' q) (fun s1 s2 => scoped_grows s1 s2 now' q)
    st st' Hwf Hs Hd) as (Hwf' & Hd' & K).
  destruct (comes_down_keeps is_authorize role_perm kept_perm authorize_back (fun s => ~ all_scoped s (q_principal q))
    (fun s1 s2 K1 _ N A => N (all_scoped_less _ _ _ K1 A)) st st' Hwf Hs Hd) as (_ & _ & Ks).
  destruct b; [|done]. exfalso. destruct (v2_authorize_exact _ _ _ _ _ _ Hwf Hd H) as [E _]. destruct (v2_authorize_exact _ _ _ _ _ _ Hwf' Hd' H') as [E' _].
  assert (~ ~ all_scoped st' (q_principal q)) as Hnn by (intros N; exact (Ks N Hn)).
  apply Hnn. intros Hn'.
  discriminate (proj2 E (scoped_is_allowed _ _ _ (scoped_earlier _ _ _ _ Hle (K (allowed_scoped _ _ _ Hn' (proj1 E' eq_refl)))))).
Qed.
