(** Different permissions are different (v2). *)
From Verif Require Export PermSpec V2GrowProofs.
From Verif Require Import RoleModel RoleOps RoleSpec V2Auth V2Inv PermSpec.
Local Open Scope string_scope.

Lemma vp_attr p : vp_string p = attr_string (Attr (vp_resource p) (vp_action p)).
Proof. done. Qed.
Lemma vp_collide p p' : vp_string p = vp_string p' <->
  vp_resource p = vp_resource p' /\ vp_action p = vp_action p'
  \/ (exists m, vp_resource p' = glue (vp_resource p) m /\ vp_action p = glue m (vp_action p'))
  \/ (exists m, vp_resource p = glue (vp_resource p') m /\ vp_action p' = glue m (vp_action p)).
Proof.
  rewrite !vp_attr. rewrite attr_string_eq. simpl. split.
  - intros [[= H1 H2]|H]; [by left|by right].
  - intros [[-> ->]|H]; [by left|by right].
Qed.
Lemma vp_inj p p' : told_apart p p' -> vp_string p <> vp_string p'.
Proof.
  intros [Hne Hs] E. apply Hne. rewrite !vp_attr in E. apply attr_string_inj_nospace in E; [|done]. by injection E as -> ->.
Qed.

(** Changing the permissions of one role object. *)
Section change.
  Variables (st : vstate) (l : nat) (f : vrole -> vrole) (st' : vstate).
  Hypothesis Hf : upd_role st l f = Ok st'.
  Hypothesis Hname : forall c, vr_name (f c) = vr_name c.
  Variable P : string -> Prop.
  Hypothesis Hp : forall c p, P p -> (p ∈ vr_perms (f c) <-> p ∈ vr_perms c).
  Lemma change_registered n r : registered (w_roles st) (w_dag st) n r ->
    exists r', registered (w_roles st') (w_dag st') n r' /\ forall p, P p -> (p ∈ vr_perms r' <-> p ∈ vr_perms r).
  Proof.
    destruct (upd_role_inv _ _ _ _ Hf) as (c & Hc & ->). intros (k & H1 & H2). simpl. destruct (decide (k = l)) as [->|Hne].
    - rewrite Hc in H2. injection H2 as <-. exists (f c). split; [|apply Hp]. exists l. split; [done|]. apply list_lookup_insert. by eapply lookup_lt_Some.
    - exists r. split; [|done]. exists k. split; [done|]. by rewrite list_lookup_insert_ne.
  Qed.
  Lemma change_registered_back n r' : registered (w_roles st') (w_dag st') n r' ->
    exists r, registered (w_roles st) (w_dag st) n r /\ forall p, P p -> (p ∈ vr_perms r' <-> p ∈ vr_perms r).
  Proof.
    destruct (upd_role_inv _ _ _ _ Hf) as (c & Hc & ->). intros (k & H1 & H2). simpl in *. destruct (decide (k = l)) as [->|Hne].
    - rewrite list_lookup_insert in H2 by by eapply lookup_lt_Some. injection H2 as <-. exists c. split; [|apply Hp]. by exists l.
    - rewrite list_lookup_insert_ne in H2 by done. exists r'. split; [|done]. by exists k.
  Qed.
  Lemma change_edges : d_edges (w_dag st') = d_edges (w_dag st).
  Proof. by destruct (upd_role_inv _ _ _ _ Hf) as (c & Hc & ->). Qed.
  Lemma change_resolved : d_resolved (w_dag st') = d_resolved (w_dag st).
  Proof. by destruct (upd_role_inv _ _ _ _ Hf) as (c & Hc & ->). Qed.
  Lemma change_below a b : rtc (below (w_roles st) (w_dag st)) a b <-> rtc (below (w_roles st') (w_dag st')) a b.
  Proof.
    split; induction 1 as [|a b c [[r Hr] Hc] _ IH]; try done; (eapply rtc_l; [|exact IH]); split.
    - destruct (change_registered _ _ Hr) as (r' & H & _). by exists r'.
    - by rewrite change_edges.
    - destruct (change_registered_back _ _ Hr) as (r' & H & _). by exists r'.
    - by rewrite <-change_edges.
  Qed.
  Lemma change_confers n p : P p -> confers (w_roles st') (w_dag st') n p <-> confers (w_roles st) (w_dag st) n p.
  Proof.
    intros Hpp. split; intros (m & r & Hb & Hr & Hin).
    - destruct (change_registered_back _ _ Hr) as (r' & H & Hi). exists m, r'. split; [by apply change_below|]. split; [done|]. by apply Hi.
    - destruct (change_registered _ _ Hr) as (r' & H & Hi). exists m, r'. split; [by apply change_below|]. split; [done|]. by apply Hi.
  Qed.
  Lemma change_perm n p : P p -> role_perm st' n p <-> role_perm st n p.
  Proof. intros Hpp. unfold role_perm. rewrite change_resolved. destruct (d_resolved (w_dag st) !! n); [done|]. by apply change_confers. Qed.
  Lemma change_rest : rest_kept st st' /\ rest_kept st' st.
  Proof. destruct (upd_role_inv _ _ _ _ Hf) as (c & Hc & ->). split; by apply rest_same. Qed.
End change.

Lemma apart_notin p ps : Forall (told_apart p) ps -> vp_string p ∉ vp_string <$> ps.
Proof. intros H (p' & E & Hin)%elem_of_list_fmap. rewrite Forall_forall in H. by apply (vp_inj p p' (H p' Hin)). Qed.
Lemma add_perm_keep ps x c : x ∉ vp_string <$> ps -> x ∈ vr_perms (VRole (vr_name c) (list_to_set (vp_string <$> ps) ∪ vr_perms c)) <-> x ∈ vr_perms c.
Proof. intros H. simpl. rewrite elem_of_union, elem_of_list_to_set. tauto. Qed.
Lemma remove_perm_keep ps x c : x ∉ vp_string <$> ps -> x ∈ vr_perms (VRole (vr_name c) (vr_perms c ∖ list_to_set (vp_string <$> ps))) <-> x ∈ vr_perms c.
Proof. intros H. simpl. rewrite elem_of_difference, elem_of_list_to_set. tauto. Qed.

Lemma c128_add st l ps st' n p : add_permissions st l ps = Ok st' -> Forall (told_apart p) ps -> gives st' n p <-> gives st n p.
Proof.
  intros H Ha. apply (change_confers st l _ st' H (fun x => x ∉ vp_string <$> ps)); [|by apply apart_notin].
  intros c x. apply add_perm_keep.
Qed.
Lemma c128_remove st l ps st' n p : remove_permissions st l ps = Ok st' -> Forall (told_apart p) ps -> gives st' n p <-> gives st n p.
Proof.
  intros H Ha. apply (change_confers st l _ st' H (fun x => x ∉ vp_string <$> ps)); [|by apply apart_notin].
  intros c x. apply remove_perm_keep.
Qed.
(** ** Decisions *)
Lemma somehow_through st st' now q : rest_kept st st' -> (forall r p, matches_perm q p -> role_perm st r p -> role_perm st' r p) -> somehow st now q -> somehow st' now q.
Proof.
  intros K Kr (t & c & n & p & H1 & H2 & H3 & H4 & H5).
  destruct (sk_tenant _ _ K t c H2) as (c' & Hc' & _ & _ & Hu & _). exists t, c', n, p.
  split; [by eapply target_kept|]. split; [done|]. split; [by apply Hu|]. split; [|done].
  destruct H4 as [(pr & Hk & Hs & Hp)|(pr & Hk & Hs & Hs' & Hp)]; [left|right];
    destruct (counts_kept _ _ _ _ _ _ _ K Hk) as (pr' & Hk' & F1 & F2); exists pr'; rewrite F1, F2;
    repeat (split; [done|]); by apply Kr.
Qed.
Lemma scope_given_same st st' q : rest_kept st' st -> no_scope_given st q -> no_scope_given st' q.
Proof.
  intros K [H|H]; [by left|right]. intros pr Ha Hu. destruct (sk_assigned _ _ K pr Ha) as (pr' & Ha' & (F1 & _ & F3 & _)%outlasts_fields).
  rewrite <-F3. apply H; [done|]. by rewrite F1.
Qed.
Lemma bool_same (b1 b2 : bool) (A B : Prop) : (b1 = true <-> A) -> (b2 = true <-> B) -> (A <-> B) -> b1 = b2.
Proof. destruct b1, b2; naive_solver. Qed.
Lemma change_decision st l f st' (P : string -> Prop) q : upd_role st l f = Ok st' ->
  (forall c p, P p -> (p ∈ vr_perms (f c) <-> p ∈ vr_perms c)) -> (forall p, matches_perm q p -> P p) -> (forall c, vr_name (f c) = vr_name c) ->
  vreachable st -> distinct_ids st -> no_scope_given st q -> v2_wf st' -> forall o o' now s b s' b',
  v2_authorize o st now q = Ok (s, b) -> v2_authorize o' st' now q = Ok (s', b') -> b' = b.
Proof.
  intros Hf Hp Hq Hname Hr Hd Hn Hwf' o o' now s b s' b' H H'.
  destruct (change_rest st l f st' Hf) as [K K'].
  assert (distinct_ids st') as Hd'.
  { intros a c ta tc Ha Hc. destruct (upd_role_inv _ _ _ _ Hf) as (x & _ & ->). exact (Hd a c ta tc Ha Hc). }
  assert (forall r p, matches_perm q p -> role_perm st' r p <-> role_perm st r p) as Hrp.
  { intros r p Hm. apply (change_perm st l f st' Hf P Hp). by apply Hq. }
  eapply bool_same; [apply (v2_authorize_exact _ _ _ _ _ _ Hwf' Hd' H')|apply (v2_authorize_exact _ _ _ _ _ _ (vreachable_wf _ Hr) Hd H)|]. split; intros Ha.
  - apply somehow_allowed; [done|]. eapply somehow_through; [exact K'| |by apply allowed_somehow]. intros r p Hm. by apply Hrp.
  - apply somehow_allowed; [by eapply scope_given_same|]. eapply somehow_through; [exact K| |by apply allowed_somehow]. intros r p Hm. by apply Hrp.
Qed.
Lemma concerns_notin q ps x : Forall (fun p => ~ concerns q p) ps -> matches_perm q x -> x ∉ vp_string <$> ps.
Proof. intros H Hm (p & -> & Hin)%elem_of_list_fmap. rewrite Forall_forall in H. by apply (H p Hin). Qed.
Lemma vp_pair_string p : perm_string (vp_resource p, vp_action p) = vp_string p.
Proof. done. Qed.
Lemma add_is_step o st l ps st' : add_permissions st l ps = Ok st' -> vstep o st (VRoleAdd l ((fun p => (vp_resource p, vp_action p)) <$> ps)) = Ok (st', WUnit).
Proof.
  unfold add_permissions. simpl. intros (c & Hc & ->)%upd_role_inv. unfold upd_role. rewrite Hc. simpl. unfold vrole_add. by rewrite <-list_fmap_compose.
Qed.
Lemma remove_is_step o st l ps st' : remove_permissions st l ps = Ok st' -> vstep o st (VRoleRemove l ((fun p => (vp_resource p, vp_action p)) <$> ps)) = Ok (st', WUnit).
Proof.
  unfold remove_permissions. simpl. intros (c & Hc & ->)%upd_role_inv. unfold upd_role. rewrite Hc. simpl. unfold vrole_remove. by rewrite <-list_fmap_compose.
Qed.
Lemma c128_add_decision st l ps st' o o' now q s b s' b' : vreachable st -> distinct_ids st -> no_scope_given st q ->
  add_permissions st l ps = Ok st' -> Forall (fun p => ~ concerns q p) ps ->
  v2_authorize o st now q = Ok (s, b) -> v2_authorize o' st' now q = Ok (s', b') -> b' = b.
Proof.
  intros Hr Hd Hn H Hc. apply (change_decision st l _ st' (fun x => x ∉ vp_string <$> ps) q H); try done.
  - intros c x. apply add_perm_keep.
  - intros x. by apply concerns_notin.
  - eapply vstep_wf; [by apply vreachable_wf|]. by apply (add_is_step id_oracle).
Qed.
Lemma c128_remove_decision st l ps st' o o' now q s b s' b' : vreachable st -> distinct_ids st -> no_scope_given st q ->
  remove_permissions st l ps = Ok st' -> Forall (fun p => ~ concerns q p) ps ->
  v2_authorize o st now q = Ok (s, b) -> v2_authorize o' st' now q = Ok (s', b') -> b' = b.
Proof.
  intros Hr Hd Hn H Hc. apply (change_decision st l _ st' (fun x => x ∉ vp_string <$> ps) q H); try done.
  - intros c x. apply remove_perm_keep.
  - intros x. by apply concerns_notin.
  - eapply vstep_wf; [by apply vreachable_wf|]. by apply (remove_is_step id_oracle).
Qed.
