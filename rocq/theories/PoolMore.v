(** Concurrent decisions: where mixed results come from, and schedules without overlap. *)
From Verif Require Export PoolInv.

(** ** Everything read was inserted by some goroutine *)
Definition somebodys (ths : list (list job)) (x : string) : Prop :=
  exists js j, js ∈ ths /\ j ∈ js /\ (x ∈ j_scoped j \/ x ∈ j_global j).
Definition todo_ok (j : job) (ph : phase) : Prop :=
  match ph with PFill g s ts tg => ts ⊆ j_scoped j /\ tg ⊆ j_global j | _ => True end.
Record source_inv (ths : list (list job)) (M : machine) : Prop := {
  src_heap : forall m xs x, mc_heap M !! m = Some xs -> x ∈ xs -> somebodys ths x;
  src_thread : forall i t, mc_threads M !! i = Some t -> exists js0 fin, ths !! i = Some js0 /\ js0 = fin ++ th_jobs t /\
    (forall j js, th_jobs t = j :: js -> todo_ok j (th_phase t)) /\
    (th_answer t = Some true -> exists j x, j ∈ js0 /\ j_match j x = true /\ somebodys ths x)
}.
Lemma thread_step_source ths i M t c M' t' es :
  thread_step i M t c = Some (M', t', es) -> source_inv ths M -> mc_threads M !! i = Some t ->
  (forall m xs x, mc_heap M' !! m = Some xs -> x ∈ xs -> somebodys ths x) /\
  exists js0 fin, ths !! i = Some js0 /\ js0 = fin ++ th_jobs t' /\
    (forall j js, th_jobs t' = j :: js -> todo_ok j (th_phase t')) /\
    (th_answer t' = Some true -> exists j x, j ∈ js0 /\ j_match j x = true /\ somebodys ths x).
Proof.
  intros H [Hheap Hth] Ht. destruct (Hth _ _ Ht) as (js0 & fin & Hjs0 & E & Htodo & _).
  assert (forall s f heap', upd_map (mc_heap M) s f = Some heap' ->
    (forall xs x, mc_heap M !! s = Some xs -> x ∈ f xs -> somebodys ths x) ->
    forall m xs x, heap' !! m = Some xs -> x ∈ xs -> somebodys ths x) as Hupd.
  { intros s f heap' (y & Hy & ->)%upd_map_inv Hf m xs x Hm Hx. destruct (decide (m = s)) as [->|Hne].
    - rewrite list_lookup_insert in Hm by by eapply lookup_lt_Some. injection Hm as <-. by eapply Hf.
    - rewrite list_lookup_insert_ne in Hm by done. by eapply Hheap. }
  assert (forall free c' m0 free' heap' , pool_get free (mc_heap M) c' = Some (m0, free', heap') ->
    forall m xs x, heap' !! m = Some xs -> x ∈ xs -> somebodys ths x) as Hget.
  { intros free c' m0 free' heap' [[_ ->]|(_ & _ & ->)]%pool_get_perm m xs x Hm Hx; [by eapply Hheap|].
    apply lookup_app_Some in Hm as [Hm|[_ Hm]]; [by eapply Hheap|].
    apply list_lookup_singleton_Some in Hm as [_ <-]. by apply not_elem_of_empty in Hx. }
  destruct M as [heap ps pg thr]. simpl in Hheap, Ht, Hupd, Hget. step_cases H; rewrite ?Hjobs in *; simpl in *.
  - split; [done|]. by exists js0, fin.
  - destruct (j_uses_global j); apply bind_Some in H as ([[m pg'] heap'] & Hg & [= <- <- <-]); simpl.
    + split; [by eapply Hget|]. exists js0, fin. split; [done|]. split; [done|]. split; [by intros ? ? [= <- <-]|done].
    + split; [by eapply Hget|]. exists js0, fin. split; [done|]. split; [done|]. split; [by intros ? ? [= <- <-]|done].
  - apply bind_Some in H as ([[m pg'] heap'] & Hg & [= <- <- <-]); simpl.
    split; [by eapply Hget|]. exists js0, fin. split; [done|]. split; [done|]. split; [by intros ? ? [= <- <-]|done].
  - destruct c; try done. apply bind_Some in H as (heap' & Hg & [= <- <- <-]). simpl. split.
    + eapply Hupd; [exact Hg|]. by intros xs x _ ?%not_elem_of_empty.
    + exists js0, fin. split; [done|]. split; [done|]. split; [by intros ? ? [= <- <-]|done].
  - destruct c; try done. apply bind_Some in H as (heap' & Hg & [= <- <- <-]). simpl. split.
    + destruct g as [g|]; [|by injection Hg as <-]. eapply Hupd; [exact Hg|]. by intros xs x _ ?%not_elem_of_empty.
    + exists js0, fin. split; [done|]. split; [done|]. split; [|done]. intros ? ? [= <- <-]. simpl. destruct g; set_solver.
  - assert (j ∈ js0) as Hj. { rewrite E. apply elem_of_app. right. left. }
    specialize (Htodo j js eq_refl). destruct Htodo as [H1 H2].
    assert (js0 ∈ ths) as Hin by by eapply elem_of_list_lookup_2.
    destruct c; try done.
    + case_bool_decide as Hx; [|done]. apply bind_Some in H as (heap' & Hg & [= <- <- <-]). simpl. split.
      * eapply Hupd; [exact Hg|]. intros xs y Hxs [->%elem_of_singleton|Hy]%elem_of_union; [|by eapply Hheap].
        exists js0, j. split; [done|]. split; [done|]. left. set_solver.
      * exists js0, fin. split; [done|]. split; [done|]. split; [|done]. intros ? ? [= <- <-]. simpl. set_solver.
    + destruct g as [g|]; [|done]. case_bool_decide as Hx; [|done]. apply bind_Some in H as (heap' & Hg & [= <- <- <-]). simpl. split.
      * eapply Hupd; [exact Hg|]. intros xs y Hxs [->%elem_of_singleton|Hy]%elem_of_union; [|by eapply Hheap].
        exists js0, j. split; [done|]. split; [done|]. right. set_solver.
      * exists js0, fin. split; [done|]. split; [done|]. split; [|done]. intros ? ? [= <- <-]. simpl. set_solver.
    + case_bool_decide as Hx; [|done]. apply bind_Some in H as (ret & Hret & [= <- <- <-]). simpl.
      split; [done|]. exists js0, fin. split; [done|]. split; [done|]. split; [by intros ? ? [= <- <-]|done].
  - destruct c; try done. injection H as <- <- <-. simpl. split; [done|]. exists js0, fin.
    split; [done|]. split; [done|]. split; [|done]. intros ? ? [= <- <-]. by destruct g.
  - destruct c; try done. injection H as <- <- <-. simpl. split; [done|]. exists js0, fin.
    split; [done|]. split; [done|]. split; [by intros ? ? [= <- <-]|done].
  - apply bind_Some in H as (xs & Hxs & H). destruct c; try done.
    + case_bool_decide as Hx; [|done]. destruct (j_match j x) eqn:Hm; injection H as <- <- <-; simpl; (split; [done|]).
      * exists js0, fin. split; [done|]. split; [done|]. split; [by intros ? ? [= <- <-]|]. intros _.
        exists j, x. split; [rewrite E; apply elem_of_app; right; left|]. split; [done|]. eapply Hheap; [exact Hxs|apply Hx].
      * exists js0, fin. split; [done|]. split; [done|]. split; [by intros ? ? [= <- <-]|done].
    + case_bool_decide; [|done]. injection H as <- <- <-. simpl. split; [done|]. exists js0, (fin ++ [j]).
      split; [done|]. split; [by rewrite <- app_assoc|]. done.
  - destruct c; try done. injection H as <- <- <-. simpl. split; [done|]. exists js0, (fin ++ [j]).
    split; [done|]. split; [by rewrite <- app_assoc|]. done.
Qed.
Lemma traced_source ths es M : traced ths es M -> source_inv ths M.
Proof.
  induction 1 as [|es M x M' es' Htr IH H].
  - split; [done|]. intros i t Ht. simpl in Ht. rewrite list_lookup_fmap in Ht.
    destruct (ths !! i) as [js|] eqn:Hi; [|done]. injection Ht as <-. exists js, []. done.
  - destruct x as [k c|k|k]; simpl in H.
    + apply bind_Some in H as (tk & Htk & H). apply bind_Some in H as ([[M1 t'] es1] & Hs & [= <- <-]).
      pose proof (thread_step_owned _ _ _ _ _ _ _ Hs) as (Hths & _).
      destruct (thread_step_source _ _ _ _ _ _ _ _ Hs IH Htk) as [Hh Ht'].
      split; [done|]. simpl. intros i t Hi. rewrite Hths in Hi. destruct (decide (i = k)) as [->|Hne].
      * rewrite list_lookup_insert in Hi by by eapply lookup_lt_Some. by injection Hi as <-.
      * rewrite list_lookup_insert_ne in Hi by done. by apply (src_thread _ _ IH).
    + apply bind_Some in H as (m & Hm & [= <- <-]). by destruct IH.
    + apply bind_Some in H as (m & Hm & [= <- <-]). by destruct IH.
Qed.
Lemma c41_sources ths xs M es i js :
  mrun (start ths) xs = Some (M, es) -> ths !! i = Some js -> answered M i true ->
  exists j x, j ∈ js /\ j_match j x = true /\
    exists k js' j', ths !! k = Some js' /\ j' ∈ js' /\ (x ∈ j_scoped j' \/ x ∈ j_global j').
Proof.
  intros H%mrun_start%traced_source Hi (t & Ht & Ha). destruct (src_thread _ _ H _ _ Ht) as (js0 & fin & Hjs & -> & _ & Hx).
  simplify_eq. destruct (Hx Ha) as (j & x & Hj & Hm & js' & j' & [k Hk]%elem_of_list_lookup & Hj' & Hin).
  exists j, x. split; [done|]. split; [done|]. by exists k, js', j'.
Qed.

(** ** Nobody disturbs itself *)
Definition reading (t : thread) : Prop :=
  match th_phase t with PPut _ _ _ | PPutG _ _ | PRead _ _ => True | _ => False end.
Lemma thread_step_events i M t c M' t' es :
  thread_step i M t c = Some (M', t', es) ->
  (es = [] /\ (reading t -> reading t' \/ th_jobs t = [])) \/
  (exists m, es = [EGet i m] /\ ~ reading t) \/ (exists m, es = [EReturn i m] /\ reading t') \/ es = [EEnd i].
Proof.
  destruct M as [heap ps pg thr]. intros H. unfold reading. step_cases H; rewrite ?Hjobs; simpl in *.
  - left. split; [done|]. by right.
  - destruct (j_uses_global j); apply bind_Some in H as ([[m pg'] heap'] & Hg & [= <- <- <-]); simpl; right; left; (exists m; split; [done|tauto]).
  - apply bind_Some in H as ([[m pg'] heap'] & Hg & [= <- <- <-]); simpl; right; left; (exists m; split; [done|tauto]).
  - destruct c; try done. apply bind_Some in H as (heap' & Hg & [= <- <- <-]). left. split; [done|tauto].
  - destruct c; try done. apply bind_Some in H as (heap' & Hg & [= <- <- <-]). left. split; [done|tauto].
  - destruct c; try done.
    + case_bool_decide; [|done]. apply bind_Some in H as (heap' & Hg & [= <- <- <-]). left. split; [done|tauto].
    + destruct g as [g|]; [|done]. case_bool_decide; [|done]. apply bind_Some in H as (heap' & Hg & [= <- <- <-]). left. split; [done|tauto].
    + case_bool_decide; [|done]. apply bind_Some in H as ([m|] & Hret & [= <- <- <-]); simpl.
      * right. right. left. by exists m.
      * left. split; [done|]. tauto.
  - destruct c; try done. injection H as <- <- <-. left. split; [done|]. left. by destruct g.
  - destruct c; try done. injection H as <- <- <-. left. split; [done|]. by left.
  - apply bind_Some in H as (xs & Hxs & H). destruct c; try done.
    + case_bool_decide; [|done]. destruct (j_match j x); injection H as <- <- <-; simpl; [by right; right; right|].
      left. split; [done|]. by left.
    + case_bool_decide; [|done]. injection H as <- <- <-. by right; right; right.
  - destruct c; try done. injection H as <- <- <-. by right; right; right.
Qed.
#[local] Instance event_eq_dec : EqDecision event.
Proof. solve_decision. Defined.
Definition self_inv (es : list event) (M : machine) : Prop :=
  (forall i t, mc_threads M !! i = Some t -> (th_jobs t = [] -> ~ reading t) /\
     forall es1 m es2, es = es1 ++ EReturn i m :: es2 -> EEnd i ∉ es2 -> reading t) /\
  forall i es1 m es2 m' es3, es = es1 ++ EReturn i m :: es2 ++ EGet i m' :: es3 -> EEnd i ∈ es2.
Lemma snoc_split {A} (es : list A) e es1 x es2 :
  es ++ [e] = es1 ++ x :: es2 -> (es2 = [] /\ e = x /\ es = es1) \/ exists es2', es2 = es2' ++ [e] /\ es = es1 ++ x :: es2'.
Proof.
  destruct es2 as [|y es2 _] using rev_ind.
  - intros E. apply app_inj_tail in E as [-> ->]. by left.
  - intros E. right. rewrite app_comm_cons, app_assoc in E. apply app_inj_tail in E as [-> ->]. by exists es2.
Qed.
Lemma idle_jobs i M t c M' t' es : thread_step i M t c = Some (M', t', es) ->
  th_jobs t' = [] -> ~ reading t'.
Proof.
  destruct M as [heap ps pg thr]. intros H. unfold reading. step_cases H; simpl in *.
  - tauto.
  - destruct (j_uses_global j); apply bind_Some in H as ([[m pg'] heap'] & Hg & [= <- <- <-]); done.
  - apply bind_Some in H as ([[m pg'] heap'] & Hg & [= <- <- <-]); done.
  - destruct c; try done. apply bind_Some in H as (heap' & Hg & [= <- <- <-]). done.
  - destruct c; try done. apply bind_Some in H as (heap' & Hg & [= <- <- <-]). done.
  - destruct c; try done.
    + case_bool_decide; [|done]. apply bind_Some in H as (heap' & Hg & [= <- <- <-]). done.
    + destruct g as [g|]; [|done]. case_bool_decide; [|done]. apply bind_Some in H as (heap' & Hg & [= <- <- <-]). done.
    + case_bool_decide; [|done]. apply bind_Some in H as (ret & Hret & [= <- <- <-]). done.
  - destruct c; try done. by injection H as <- <- <-.
  - destruct c; try done. by injection H as <- <- <-.
  - apply bind_Some in H as (xs & Hxs & H). destruct c; try done.
    + case_bool_decide; [|done]. destruct (j_match j x); by injection H as <- <- <-.
    + case_bool_decide; [|done]. injection H as <- <- <-. simpl. tauto.
  - destruct c; try done. injection H as <- <- <-. simpl. tauto.
Qed.
Lemma traced_self ths es M : traced ths es M -> self_inv es M.
Proof.
  induction 1 as [|es M x M' es' Htr IH H].
  - split.
    + intros i t Ht. simpl in Ht. rewrite list_lookup_fmap in Ht. destruct (ths !! i); [|done]. injection Ht as <-.
      split; [intros _ []|]. intros [|? ?] m es2 [=].
    + intros i [|? ?] m es2 m' es3 [=].
  - destruct x as [k c|k|k]; simpl in H;
      [|apply bind_Some in H as (m & Hm & [= <- <-]); by rewrite app_nil_r..].
    apply bind_Some in H as (tk & Htk & H). apply bind_Some in H as ([[M1 t'] es1] & Hs & [= <- <-]).
    pose proof (thread_step_owned _ _ _ _ _ _ _ Hs) as (Hths & _).
    pose proof (thread_step_events _ _ _ _ _ _ _ Hs) as Hev. pose proof (idle_jobs _ _ _ _ _ _ _ Hs) as Hidle.
    destruct IH as [IH1 IH2]. destruct (IH1 _ _ Htk) as [Hk0 Hk1].
    split.
    + simpl. intros i t Hi. rewrite Hths in Hi.
      assert ((i = k /\ t = t') \/ (i <> k /\ mc_threads M !! i = Some t)) as [[-> ->]|[Hne Hi']].
      { destruct (decide (i = k)) as [->|Hne].
        - rewrite list_lookup_insert in Hi by by eapply lookup_lt_Some. left. naive_solver.
        - rewrite list_lookup_insert_ne in Hi by done. by right. }
      * split; [done|]. intros e1 m e2 E He.
        destruct Hev as [[-> Hr]|[(m' & -> & Hr)|[(m' & -> & Hr)| ->]]]; [|apply snoc_split in E..].
        -- rewrite app_nil_r in E. destruct (Hr (Hk1 _ _ _ E He)) as [?|Hj]; [done|]. by destruct (Hk0 Hj (Hk1 _ _ _ E He)).
        -- destruct E as [(-> & ? & _)|(e2' & -> & E)]; [done|]. destruct Hr. eapply Hk1; [exact E|].
           intros ?. apply He. apply elem_of_app. by left.
        -- done.
        -- destruct E as [(-> & ? & _)|(e2' & -> & E)]; [done|]. destruct He. apply elem_of_app. right. left.
      * destruct (IH1 _ _ Hi') as [H0 H1]. split; [done|]. intros e1 m e2 E He.
        destruct Hev as [[-> Hr]|[(m' & -> & Hr)|[(m' & -> & Hr)| ->]]]; [|apply snoc_split in E..].
        -- rewrite app_nil_r in E. by eapply H1.
        -- destruct E as [(-> & ? & _)|(e2' & -> & E)]; [done|]. eapply H1; [exact E|]. intros ?. apply He. apply elem_of_app. by left.
        -- destruct E as [(-> & E & _)|(e2' & -> & E)]; [congruence|]. eapply H1; [exact E|]. intros ?. apply He. apply elem_of_app. by left.
        -- destruct E as [(-> & ? & _)|(e2' & -> & E)]; [done|]. eapply H1; [exact E|]. intros ?. apply He. apply elem_of_app. by left.
    + intros i e1 m e2 m' e3 E.
      assert (forall e, es1 = [e] -> (forall m'', e <> EGet i m'') -> EEnd i ∈ e2) as Hother.
      { intros e -> He. rewrite app_comm_cons, app_assoc in E. apply snoc_split in E as [(_ & -> & _)|(e3' & -> & E)]; [by destruct (He m')|].
        eapply (IH2 i e1 m e2 m' e3'). rewrite E. by rewrite <- app_assoc, app_comm_cons. }
      destruct Hev as [[-> Hr]|[(m0 & -> & Hr)|[(m0 & -> & Hr)| ->]]].
      * rewrite app_nil_r in E. by eapply IH2.
      * rewrite app_comm_cons, app_assoc in E. apply snoc_split in E as [(_ & [= -> ->] & E)|(e3' & -> & E)].
        -- destruct (decide (EEnd i ∈ e2)) as [|Hn]; [done|]. destruct Hr. by eapply Hk1.
        -- eapply (IH2 i e1 m e2 m' e3'). rewrite E. by rewrite <- app_assoc, app_comm_cons.
      * by eapply Hother.
      * by eapply Hother.
Qed.
Lemma c41_no_overlap ths xs M es i js b :
  mrun (start ths) xs = Some (M, es) -> ths !! i = Some js ->
  (forall es1 m es2 k m' es3, es = es1 ++ EReturn i m :: es2 ++ EGet k m' :: es3 -> k <> i -> EEnd i ∈ es2) ->
  answered M i b -> (b = true <-> granted js).
Proof.
  intros H Hi Hno. eapply c41_undisturbed; [exact H|done|]. intros es1 m es2 k es3 E.
  destruct (decide (k = i)) as [->|Hne]; [|by eapply Hno].
  apply mrun_start, traced_self in H as [_ H]. by eapply H.
Qed.
Lemma thread_step_lt ths es M : traced ths es M -> length (mc_threads M) = length ths.
Proof.
  induction 1 as [|es M x M' es' Htr IH H]; [simpl; by rewrite fmap_length|].
  destruct x as [k c|k|k]; simpl in H.
  - apply bind_Some in H as (tk & Htk & H). apply bind_Some in H as ([[M1 t'] es1] & Hs & [= <- <-]).
    pose proof (thread_step_owned _ _ _ _ _ _ _ Hs) as (Hths & _). simpl. by rewrite insert_length, Hths.
  - apply bind_Some in H as (m & Hm & [= <- <-]). done.
  - apply bind_Some in H as (m & Hm & [= <- <-]). done.
Qed.
Lemma traced_get ths es M k m : traced ths es M -> EGet k m ∈ es -> k < length ths.
Proof.
  intros Htr. revert k m. induction Htr as [|es M x M' es' Htr IH H]; intros k m; [by intros ?%elem_of_nil|].
  rewrite elem_of_app. intros [Hin|Hin]; [by eapply IH|]. destruct x as [i c|i|i]; simpl in H.
  - apply bind_Some in H as (tk & Htk & H). apply bind_Some in H as ([[M1 t'] es1] & Hs & [= <- <-]).
    apply thread_step_events in Hs. apply lookup_lt_Some in Htk. rewrite (thread_step_lt _ _ _ Htr) in Htk.
    destruct Hs as [[-> _]|[(m' & -> & _)|[(m' & -> & _)| ->]]]; apply elem_of_cons in Hin as [Hin|Hin] || apply elem_of_nil in Hin; try done;
      try (by apply elem_of_nil in Hin). by injection Hin as -> _.
  - apply bind_Some in H as (m' & Hm & [= <- <-]). by apply elem_of_nil in Hin.
  - apply bind_Some in H as (m' & Hm & [= <- <-]). by apply elem_of_nil in Hin.
Qed.
Lemma c41_alone js xs M es b :
  mrun (start [js]) xs = Some (M, es) -> answered M 0 b -> (b = true <-> granted js).
Proof.
  intros H. eapply (c41_no_overlap [js]); [exact H|done|]. intros es1 m es2 k m' es3 E Hk.
  apply mrun_start in H. assert (k < length [js]) as Hlt. { eapply traced_get; [exact H|]. rewrite E, elem_of_app. right. right. apply elem_of_app. right. left. }
  simpl in Hlt. lia.
Qed.
