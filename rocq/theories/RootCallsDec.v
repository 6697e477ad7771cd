(** Root decisions told from the calls made. *)
From Verif Require Import NameProofs TenProofs RootCor.
From Verif Require Export RootCallsTell.
From Verif Require Import RootCallsSpec.

(** ** The whole program *)
Lemma run_last o i st ops x st' outs : run o i st (ops ++ [x]) = Ok (st', outs) ->
  exists st1 outs1 y, run o i st ops = Ok (st1, outs1) /\ step (sub o (i + length ops)) st1 x = Ok (st', y) /\ outs = outs1 ++ [y] /\ length ops = length outs1.
Proof.
  revert i st outs. induction ops as [|z ops IH]; intros i st outs H; cbn in H.
  - apply rbind_ok in H as ([st1 r] & H1 & [= <- <-]). exists st, [], r. cbn [length]. rewrite Nat.add_0_r. split; [reflexivity|]. split; [exact H1|]. split; reflexivity.
  - apply rbind_ok in H as ([st1 r] & H1 & H). apply rbind_ok in H as ([st2 outs2] & H2 & [= <- <-]). destruct (IH (S i) st1 outs2 H2) as (st3 & outs3 & y & H3 & H4 & E & L).
    exists st3, (r :: outs3), y. cbn. rewrite H1. cbn. cbn in H3. rewrite H3. cbn. split; [reflexivity|]. rewrite Nat.add_succ_r. split; [exact H4|]. cbn [snd] in E. rewrite E, L. split; reflexivity.
Qed.
Lemma log_last ops outs x y : length ops = length outs -> log_of (ops ++ [x]) (outs ++ [y]) = (x, y) :: log_of ops outs.
Proof. intros L. unfold log_of. rewrite zip_with_app by exact L. cbn. rewrite reverse_snoc. reflexivity. Qed.
Lemma tells_all o ops st outs : run o 0 init_state ops = Ok (st, outs) -> groups_made (log_of ops outs) -> tells (log_of ops outs) st.
Proof.
  revert st outs. induction ops as [|x ops IH] using rev_ind; intros st outs H GM.
  - injection H as <- <-. exact tells_start.
  - pose proof H as H0. apply run_last in H as (s1 & outs1 & y & H1 & H2 & -> & L). rewrite (log_last _ _ _ _ L) in *.
    apply (tells_step _ _ s1 _ _ _ (IH _ _ H1 (proj2 GM)) GM H2). exists o, (ops ++ [x]), (outs1 ++ [y]). exact H0.
Qed.

(** ** The rows a decision looks at *)
Section rows.
  Context (made : data -> Prop).
  Definition row_in (p : string) (t : any) : Prop := exists d, made d /\ principal d = AStr p /\ meant (tenant d) t.
  Definition enters_by (p : string) (t : any) (q : opts) : Prop :=
    let scope_free d := meant (scope d) (o_scope q) /\ (principal d = AStr p \/ principal d = ANil /\ open_to (namespace d) (o_namespace q)) in
    match asked (o_tenant q), asked (o_namespace q), asked (o_scope q) with
    | true, false, false => row_in p t
    | true, true, false => exists d, made d /\ meant (tenant d) t /\ meant (namespace d) (o_namespace q) /\ open_to (principal d) (AStr p)
    | true, false, true => exists d, made d /\ meant (tenant d) t /\ meant (scope d) (o_scope q) /\ open_to (principal d) (AStr p)
    | true, true, true => exists d, made d /\ meant (tenant d) t /\ scope_free d
    | false, true, true => exists t' d, row_in p t' /\ made d /\ tenant d = t' /\ scope_free d
    | false, _, _ => False
    end.
  Definition does_by (allows : string -> string -> string -> Prop) (p : string) (t : any) (q : opts) : Prop :=
    exists g a t' d r, o_group q = AStr g /\ o_activity q = AStr a
      /\ (if asked (o_tenant q) then t' = t else row_in p t')
      /\ made d /\ counts p t' q d /\ role d = AStr r /\ allows r g a.
End rows.
Lemma enters_more (m1 m2 : data -> Prop) p t q : (forall d, m1 d -> m2 d) -> enters_by m1 p t q -> enters_by m2 p t q.
Proof.
  intros M. unfold enters_by, row_in. destruct (asked (o_tenant q)), (asked (o_namespace q)), (asked (o_scope q)); try exact (fun H => H);
    try (intros (d & Hd & H); exists d; split; [apply M; exact Hd|exact H]).
  intros (t' & d & (d0 & Hd0 & H0) & Hd & H). exists t', d. split; [exists d0; split; [apply M; exact Hd0|exact H0]|]. split; [apply M; exact Hd|exact H].
Qed.
Lemma does_more (m1 m2 : data -> Prop) A p t q : (forall d, m1 d -> m2 d) -> does_by m1 A p t q -> does_by m2 A p t q.
Proof.
  intros M (g & a & t' & d & r & Hg & Ha & Ht & Hd & H). exists g, a, t', d, r. split; [exact Hg|]. split; [exact Ha|]. split.
  - destruct (asked (o_tenant q)); [exact Ht|]. destruct Ht as (d0 & Hd0 & H0). exists d0. split; [apply M; exact Hd0|exact H0].
  - split; [apply M; exact Hd|exact H].
Qed.
Lemma asked_nil v : asked v = negb (is_nil v).
Proof. destruct v; reflexivity. Qed.
Lemma shape_asked q : shape_of q = match asked (o_tenant q), asked (o_namespace q), asked (o_scope q) with
  | true, false, false => FT | true, true, false => FTN | true, false, true => FTS | true, true, true => FTNS | false, true, true => FNS | false, _, _ => FNone end.
Proof. unfold shape_of. rewrite !asked_nil. destruct (is_nil (o_tenant q)), (is_nil (o_namespace q)), (is_nil (o_scope q)); reflexivity. Qed.
Lemma membership_by st p t q : grants_membership st p (set_o_tenant q t) (shape_of q) <-> enters_by (stored st) p t q.
Proof.
  rewrite shape_asked. unfold enters_by, row_in, meant, open_to. destruct (asked (o_tenant q)), (asked (o_namespace q)), (asked (o_scope q)); cbn [grants_membership set_o_tenant o_tenant o_namespace o_scope];
    unfold for_principal, unset_or; try reflexivity.
  - split; intros (d & H); exists d; tauto.
  - split; intros (d & H); exists d; tauto.
  - split; intros (d & H); exists d; tauto.
  - split.
    + intros (d0 & d & H1 & H2 & H3 & H4 & H5 & H6). exists (tenant d), d. split; [exists d0; split; [exact H1|]; split; [exact H2|]; split; [exact (eq_sym H5)|exact H3]|]. tauto.
    + intros (t' & d & (d0 & H1 & H2 & H3 & H4) & H5 & H6 & H7). exists d0, d. split; [exact H1|]. split; [exact H2|]. split; [exact H4|]. split; [exact H5|]. split; [congruence|tauto].
Qed.
Lemma activity_by st p t q : grants_activity st p (set_o_tenant q t) (shape_of q)
  <-> does_by (stored st) (fun r g a => exists l, m_roles st !! r = Some l /\ permits (s_heap st) l g a []) p t q.
Proof.
  assert (RT : forall t', role_tenant st p (set_o_tenant q t) (shape_of q) t' -> shape_of q <> FNone -> if asked (o_tenant q) then t' = t else row_in (stored st) p t').
  { intros t'. rewrite shape_asked. unfold role_tenant, row_in, meant. destruct (asked (o_tenant q)), (asked (o_namespace q)), (asked (o_scope q)); cbn [set_o_tenant o_tenant]; try tauto.
    intros (d0 & H1 & H2 & H3 & ->) _. exists d0. tauto. }
  assert (TR : forall t', (if asked (o_tenant q) then t' = t else row_in (stored st) p t') -> shape_of q <> FNone -> role_tenant st p (set_o_tenant q t) (shape_of q) t').
  { intros t'. rewrite shape_asked. unfold role_tenant, row_in, meant. destruct (asked (o_tenant q)), (asked (o_namespace q)), (asked (o_scope q)); cbn [set_o_tenant o_tenant]; try tauto.
    intros (d0 & H1 & H2 & H3 & H4) _. exists d0. rewrite <- H3. tauto. }
  assert (C : forall t' d r, role d = AStr r -> role_row p t' (set_o_tenant q t) (shape_of q) d <-> counts p t' q d).
  { intros t' d r Hr. rewrite shape_asked. unfold role_row, counts, meant, open_to, unset_or. assert (N : role d <> ANil) by (rewrite Hr; discriminate).
    destruct (asked (o_tenant q)), (asked (o_namespace q)), (asked (o_scope q)); cbn [set_o_tenant o_tenant o_namespace o_scope]; tauto. }
  assert (N : forall t' d, counts p t' q d -> shape_of q <> FNone).
  { intros t' d. rewrite shape_asked. unfold counts. destruct (asked (o_tenant q)), (asked (o_namespace q)), (asked (o_scope q)); intros H; try contradiction; discriminate. }
  unfold grants_activity, does_by. cbn [set_o_tenant o_group o_activity]. split.
  - intros (g & a & t' & d & r & l & Hg & Ha & Ht & Hd & Hc & Hr & Hl). apply (C _ _ _ Hr) in Hc. exists g, a, t', d, r. split; [exact Hg|]. split; [exact Ha|]. split; [exact (RT _ Ht (N _ _ Hc))|].
    split; [exact Hd|]. split; [exact Hc|]. split; [exact Hr|exists l; exact Hl].
  - intros (g & a & t' & d & r & Hg & Ha & Ht & Hd & Hc & Hr & l & Hl). exists g, a, t', d, r, l. split; [exact Hg|]. split; [exact Ha|]. split; [exact (TR _ Ht (N _ _ Hc))|].
    split; [exact Hd|]. split; [apply (C _ _ _ Hr); exact Hc|]. split; [exact Hr|exact Hl].
Qed.
Lemma asks_asked q : asks_activity q <-> asked (o_group q) && asked (o_activity q) = true.
Proof.
  assert (E : forall v, v <> ANil <-> asked v = true) by (intros v; destruct v; cbn; split; intros H; try reflexivity; try discriminate; destruct (H eq_refl)).
  unfold asks_activity. rewrite andb_true_iff, !E. reflexivity.
Qed.
Lemma grants_by st p t q : grants st p (set_o_tenant q t) (shape_of q)
  <-> if asked (o_group q) && asked (o_activity q) then does_by (stored st) (fun r g a => exists l, m_roles st !! r = Some l /\ permits (s_heap st) l g a []) p t q else enters_by (stored st) p t q.
Proof.
  unfold grants. assert (A : asks_activity (set_o_tenant q t) <-> asks_activity q) by reflexivity. rewrite A, asks_asked, membership_by, activity_by.
  destruct (asked (o_group q) && asked (o_activity q)); split; intros H; try (destruct H as [[H1 H2]|[H1 H2]]; [exact H2 || discriminate H1|exact H2 || destruct (H1 eq_refl)]); [left; split; [reflexivity|exact H]|right; split; [discriminate|exact H]].
Qed.
Lemma set_same q : set_o_tenant q (o_tenant q) = q.
Proof. destruct q. reflexivity. Qed.
Lemma allows_more (m : data -> Prop) (A B : string -> string -> string -> Prop) p t q : (forall r g a, A r g a <-> B r g a) -> does_by m A p t q <-> does_by m B p t q.
Proof.
  intros E. unfold does_by. split; intros (g & a & t' & d & r & H1 & H2 & H3 & H4 & H5 & H6 & H7); exists g, a, t', d, r;
    (split; [exact H1|]); (split; [exact H2|]); (split; [exact H3|]); (split; [exact H4|]); (split; [exact H5|]); (split; [exact H6|]); apply E; exact H7.
Qed.

(** ** Everything allowed was granted *)
Section told.
  Context (h : log) (st : state) (T : tells h st).
  Lemma told_known q : valid_request st q <-> known h q.
  Proof.
    unfold valid_request, known. split; (intros (H1 & H2 & H3); split; [|split]).
    - destruct H1 as [H1|(t & l & H1 & H4)]; [left; exact H1|right]. exists t, l. split; [exact H1|apply (tl_reg _ _ T); exact H4].
    - destruct H2 as [H2|(n & H2 & H4)]; [left; exact H2|right]. exists n. split; [exact H2|apply (tl_ns _ _ T); exact H4].
    - destruct H3 as [H3|(n & H3 & H4)]; [left; exact H3|right]. exists n. split; [exact H3|apply (tl_sc _ _ T); exact H4].
    - destruct H1 as [H1|(t & l & H1 & H4)]; [left; exact H1|right]. exists t, l. split; [exact H1|apply (tl_reg _ _ T); exact H4].
    - destruct H2 as [H2|(n & H2 & H4)]; [left; exact H2|right]. exists n. split; [exact H2|apply (tl_ns _ _ T); exact H4].
    - destruct H3 as [H3|(n & H3 & H4)]; [left; exact H3|right]. exists n. split; [exact H3|apply (tl_sc _ _ T); exact H4].
  Qed.
  Lemma told_heap_wf : wf_heap (s_heap st).
  Proof. exact (wf_roles_heap _ (proj1 (reachable_hierarchy st (tl_reach _ _ T)))). Qed.
  Lemma told_allows r g a : (exists l, m_roles st !! r = Some l /\ permits (s_heap st) l g a []) <-> role_allows h r g a.
  Proof. exact (told_permits h st told_heap_wf (tl_heap _ _ T) (tl_rreg _ _ T) r g a). Qed.
  Lemma told_grants p t q : grants st p (set_o_tenant q t) (shape_of q)
    -> if asked (o_group q) && asked (o_activity q) then does h p t q else enters h p t q.
  Proof.
    intros H. apply grants_by in H. destruct (asked (o_group q) && asked (o_activity q)).
    - apply (allows_more _ _ (role_allows h) _ _ _ told_allows) in H. exact (does_more _ (row_made h) _ _ _ _ (tl_rows _ _ T) H).
    - exact (enters_more _ (row_made h) _ _ _ (tl_rows _ _ T) H).
  Qed.
  Lemma told_granted o p q st' : authorize o st p q = Ok (st', true) -> granted h p q.
  Proof.
    intros H. apply authorize_ok in H as [(? & _)|(Hp & U & (o2 & H2) & Hb)]; [discriminate|]. destruct (proj1 Hb eq_refl) as (_ & Hne & Hv & Hg).
    assert (HU : forall u, u ∈ U -> reaches h p u) by (intros u Hu; exact (told_implicit _ _ T _ _ _ _ _ H2 Hu)).
    split; [apply (tl_pr _ _ T); exact Hp|]. split.
    { apply set_choose_L in Hne as [u Hu]. destruct (HU u Hu) as [Ho|(t0 & (d & Hd & H1 & H3 & _) & _)]; [exists u; exact Ho|]. exists t0, d. split; [exact Hd|split; assumption]. }
    split; [apply told_known; exact Hv|]. destruct Hg as [Hg|(u & Hu & Hg)].
    - exists (o_tenant q). split; [left; reflexivity|]. apply told_grants. rewrite set_same. exact Hg.
    - exists (AStr u). split; [right; exists u; split; [reflexivity|exact (HU u Hu)]|]. apply told_grants. exact Hg.
  Qed.
End told.
Lemma c110_sound o ops st outs o' p q st' : run o 0 init_state ops = Ok (st, outs) -> groups_made (log_of ops outs) ->
  authorize o' st p q = Ok (st', true) -> granted (log_of ops outs) p q.
Proof. intros H GM. exact (told_granted _ _ (tells_all _ _ _ _ H GM) o' p q st'). Qed.
