(** Proofs about concurrent calls on a role graph: locks, no deadlock, no cycles, races. *)
From Verif Require Import DagProofs V2Trav CDagModel CDagSpec.

Lemma grun_app calls st s1 s2 : grun calls st (s1 ++ s2) = st' ← grun calls st s1; grun calls st' s2.
Proof.
  revert st. induction s1 as [|i s1 IH]; intros st; simpl; [done|].
  destruct (gstep calls st i); simpl; [apply IH|done].
Qed.
Lemma gstep_inv calls s pcs i st' : gstep calls (s, pcs) i = Some st' ->
  exists c pc s' pc', calls !! i = Some c /\ pcs !! i = Some pc /\ gthread_step i s c pc = Some (s', pc') /\
    st' = (s', <[i := pc']> pcs).
Proof.
  unfold gstep. cbn [fst snd]. destruct (calls !! i) as [c|]; cbn; [|discriminate].
  destruct (pcs !! i) as [pc|]; cbn; [|discriminate].
  destruct (gthread_step i s c pc) as [[s' pc']|] eqn:E; cbn; [|discriminate]. intros [= <-].
  by exists c, pc, s', pc'.
Qed.
(** Induction over a run *)
Lemma met_ind (P : gsh * list gpc -> Prop) h d calls :
  P (gstart h d calls) -> (forall s pcs i st', P (s, pcs) -> gstep calls (s, pcs) i = Some st' -> P st') ->
  forall st, met h d calls st -> P st.
Proof.
  intros H0 HS st [sched Hr]. revert H0 Hr. generalize (gstart h d calls). induction sched as [|i sched IH]; intros st0 H0; simpl.
  - by intros [= <-].
  - destruct (gstep calls st0 i) as [st1|] eqn:E; simpl; [|discriminate]. apply IH. destruct st0. by eapply HS.
Qed.

(** ** Locks *)
Definition in_write (pc : gpc) : bool :=
  match pc with PRoleIn _ | PChildIn | PChildOk | PChildOut _ | PLoop _ _ _ | PStored _ => true | _ => false end.
Definition in_read (pc : gpc) : bool := match pc with PRead | PHit _ | PMiss => true | _ => false end.
Definition in_role (c : gcall) (pc : gpc) : option nat :=
  match c, pc with CPerm _ l _, PPermIn _ => Some l | _, _ => None end.
(** The positions a call passes *)
Definition okpc (c : gcall) (pc : gpc) : bool :=
  match c, pc with
  | _, PStart | _, PDone _ => true
  | CAddRole _, PRoleIn _ => true
  | CAddChild _ _, (PChildIn | PChildOk | PChildOut _) => true
  | CResolve _ _, (PRead | PHit _ | PMiss | PWait | PLoop _ _ _ | PStored _) => true
  | CPerm _ _ _, PPermIn _ => true
  | _, _ => false
  end.
Record locks (calls : list gcall) (st : gsh * list gpc) : Prop := {
  lo_len : length st.2 = length calls;
  lo_ok : forall i c pc, calls !! i = Some c -> st.2 !! i = Some pc -> okpc c pc = true;
  lo_w : forall i, g_writer st.1 = Some i <-> exists pc, st.2 !! i = Some pc /\ in_write pc = true;
  lo_r : forall i, i ∈ g_readers st.1 <-> exists pc, st.2 !! i = Some pc /\ in_read pc = true;
  lo_h : forall l i, g_held st.1 !! l = Some i <->
           exists c pc, calls !! i = Some c /\ st.2 !! i = Some pc /\ in_role c pc = Some l;
  lo_ex : forall i, g_writer st.1 = Some i -> g_readers st.1 = ∅
}.
Lemma locks_start h d calls : locks calls (gstart h d calls).
Proof.
  constructor; simpl.
  - apply replicate_length.
  - intros i c pc _ [-> _]%lookup_replicate. by destruct c.
  - intros i. split; [discriminate|]. intros (pc & [-> _]%lookup_replicate & H). discriminate.
  - intros i. split; [set_solver|]. intros (pc & [-> _]%lookup_replicate & H). discriminate.
  - intros l i. rewrite lookup_empty. split; [discriminate|].
    intros (c & pc & _ & [-> _]%lookup_replicate & H). by destruct c.
  - discriminate.
Qed.
(** How a step changes the locks *)
Inductive lock_change (i : nat) (c : gcall) (s s' : gsh) (pc pc' : gpc) : Prop :=
| lc_none : in_write pc = in_write pc' -> in_read pc = in_read pc' -> in_role c pc = in_role c pc' ->
    g_writer s' = g_writer s -> g_readers s' = g_readers s -> g_held s' = g_held s -> lock_change i c s s' pc pc'
| lc_lock : in_write pc = false -> in_write pc' = true -> in_read pc = in_read pc' -> in_role c pc = in_role c pc' ->
    g_writer s = None -> g_readers s = ∅ -> g_writer s' = Some i -> g_readers s' = g_readers s -> g_held s' = g_held s ->
    lock_change i c s s' pc pc'
| lc_unlock : in_write pc = true -> in_write pc' = false -> in_read pc = in_read pc' -> in_role c pc = in_role c pc' ->
    g_writer s' = None -> g_readers s' = g_readers s -> g_held s' = g_held s -> lock_change i c s s' pc pc'
| lc_rlock : in_write pc = in_write pc' -> in_read pc = false -> in_read pc' = true -> in_role c pc = in_role c pc' ->
    g_writer s = None -> g_writer s' = g_writer s -> g_readers s' = {[i]} ∪ g_readers s -> g_held s' = g_held s ->
    lock_change i c s s' pc pc'
| lc_runlock : in_write pc = in_write pc' -> in_read pc = true -> in_read pc' = false -> in_role c pc = in_role c pc' ->
    g_writer s' = g_writer s -> g_readers s' = g_readers s ∖ {[i]} -> g_held s' = g_held s -> lock_change i c s s' pc pc'
| lc_hold l : in_write pc = in_write pc' -> in_read pc = in_read pc' -> in_role c pc = None -> in_role c pc' = Some l ->
    g_writer s' = g_writer s -> g_readers s' = g_readers s -> g_held s !! l = None -> g_held s' = <[l := i]> (g_held s) ->
    lock_change i c s s' pc pc'
| lc_drop l : in_write pc = in_write pc' -> in_read pc = in_read pc' -> in_role c pc = Some l -> in_role c pc' = None ->
    g_writer s' = g_writer s -> g_readers s' = g_readers s -> g_held s' = delete l (g_held s) -> lock_change i c s s' pc pc'.
Lemma loop_round_pc k h d V R c q pc' : loop_round k h d V R c q = Some pc' -> exists V' R' q', pc' = PLoop V' R' q'.
Proof.
  unfold loop_round. case_bool_decide; [intros [= <-]; eauto|].
  destruct (d_roles d !! c) as [l|]; [|intros [= <-]; eauto].
  destruct (h !! l); simpl; [intros [= <-]; eauto|discriminate].
Qed.
Lemma g_lock_inv s i s' : g_lock s i = Some s' -> g_writer s = None /\ g_readers s = ∅ /\ s' = g_set_writer s (Some i).
Proof. unfold g_lock. case_bool_decide as H; [|discriminate]. intros [= <-]. tauto. Qed.
Lemma g_rlock_inv s i s' : g_rlock s i = Some s' -> g_writer s = None /\ s' = g_set_readers s ({[i]} ∪ g_readers s).
Proof. unfold g_rlock. case_bool_decide as H; [|discriminate]. intros [= <-]. tauto. Qed.
Lemma step_locks i s c pc s' pc' :
  gthread_step i s c pc = Some (s', pc') -> okpc c pc' = true /\ lock_change i c s s' pc pc'.
Proof.
  intros H. destruct c as [ls|p cs|k name|add l ps|name]; destruct pc; cbn in H; try discriminate.
  - destruct (g_lock s i) as [s1|] eqn:E; cbn in H; [|discriminate]. injection H as <- <-.
    apply g_lock_inv in E as (E1 & E2 & ->). split; [done|]. by apply lc_lock.
  - destruct ls0 as [|l ls0].
    + injection H as <- <-. split; [done|]. by apply lc_unlock.
    + destruct (g_heap s !! l) as [r|]; cbn in H; [|discriminate]. injection H as <- <-. split; [done|]. by apply lc_none.
  - destruct (g_lock s i) as [s1|] eqn:E; cbn in H; [|discriminate]. injection H as <- <-.
    apply g_lock_inv in E as (E1 & E2 & ->). split; [done|]. by apply lc_lock.
  - destruct (check_circular _ p cs) as [[e|]| |]; try discriminate; injection H as <- <-; (split; [done|]); by apply lc_none.
  - injection H as <- <-. split; [done|]. by apply lc_none.
  - injection H as <- <-. split; [done|]. by apply lc_unlock.
  - destruct (g_rlock s i) as [s1|] eqn:E; cbn in H; [|discriminate]. injection H as <- <-.
    apply g_rlock_inv in E as (E1 & ->). split; [done|]. by apply lc_rlock.
  - injection H as <- <-. destruct (d_resolved (g_dag s) !! name); (split; [done|]); by apply lc_none.
  - injection H as <- <-. split; [done|]. by apply lc_runlock.
  - injection H as <- <-. split; [done|]. by apply lc_runlock.
  - destruct (g_lock s i) as [s1|] eqn:E; cbn in H; [|discriminate]. injection H as <- <-.
    apply g_lock_inv in E as (E1 & E2 & ->). split; [done|]. by apply lc_lock.
  - destruct queue as [|x q].
    + injection H as <- <-. split; [done|]. by apply lc_none.
    + destruct (loop_round k _ _ visited result x q) as [pc1|] eqn:E; cbn in H; [|discriminate]. injection H as <- <-.
      apply loop_round_pc in E as (V' & R' & q' & ->). split; [done|]. by apply lc_none.
  - injection H as <- <-. split; [done|]. by apply lc_unlock.
  - destruct (g_held s !! l) eqn:E; [discriminate|]. injection H as <- <-. split; [done|]. by apply (lc_hold _ _ _ _ _ _ l).
  - destruct ps0 as [|x ps0].
    + injection H as <- <-. split; [done|]. by apply (lc_drop _ _ _ _ _ _ l).
    + destruct (g_heap s !! l) as [r|]; cbn in H; [|discriminate]. injection H as <- <-. split; [done|]. by apply lc_none.
  - injection H as <- <-. split; [done|]. by apply lc_none.
Qed.
Lemma locks_step calls s pcs i st' : locks calls (s, pcs) -> gstep calls (s, pcs) i = Some st' -> locks calls st'.
Proof.
  intros [Hlen Hok Hw Hr Hh Hex] (c & pc & s' & pc' & Hc & Hpc & Hs & ->)%gstep_inv. cbn [fst snd] in *.
  apply step_locks in Hs as [Hok' Hl].
  assert (Hi : i < length pcs) by (eapply lookup_lt_Some; exact Hpc).
  assert (Hself : forall x, x ≠ i -> <[i:=pc']> pcs !! x = pcs !! x) by (intros x Hx; by apply list_lookup_insert_ne).
  assert (Hnew : <[i:=pc']> pcs !! i = Some pc') by (by apply list_lookup_insert).
  (* the three books, for the goroutine that moved and for the others *)
  assert (W : (forall x, x <> i -> (g_writer s' = Some x <-> g_writer s = Some x)) ->
              (g_writer s' = Some i <-> in_write pc' = true) ->
              forall x, g_writer s' = Some x <-> exists p, <[i:=pc']> pcs !! x = Some p /\ in_write p = true).
  { intros H1 H2 x. destruct (decide (x = i)) as [->|Hx].
    - rewrite H2, Hnew. split; [intros ?; by exists pc'|intros (p & [= <-] & ?); done].
    - rewrite H1 by done. rewrite Hself by done. apply Hw. }
  assert (R : (forall x, x <> i -> (x ∈ g_readers s' <-> x ∈ g_readers s)) ->
              (i ∈ g_readers s' <-> in_read pc' = true) ->
              forall x, x ∈ g_readers s' <-> exists p, <[i:=pc']> pcs !! x = Some p /\ in_read p = true).
  { intros H1 H2 x. destruct (decide (x = i)) as [->|Hx].
    - rewrite H2, Hnew. split; [intros ?; by exists pc'|intros (p & [= <-] & ?); done].
    - rewrite H1 by done. rewrite Hself by done. apply Hr. }
  assert (D : (forall l x, x <> i -> (g_held s' !! l = Some x <-> g_held s !! l = Some x)) ->
              (forall l, g_held s' !! l = Some i <-> in_role c pc' = Some l) ->
              forall l x, g_held s' !! l = Some x <->
                exists c0 p, calls !! x = Some c0 /\ <[i:=pc']> pcs !! x = Some p /\ in_role c0 p = Some l).
  { intros H1 H2 l x. destruct (decide (x = i)) as [->|Hx].
    - rewrite H2, Hnew. split; [intros ?; by exists c, pc'|].
      intros (c0 & p & Hc0 & [= <-] & ?). rewrite Hc in Hc0. injection Hc0 as <-. done.
    - rewrite H1 by done. rewrite Hself by done. apply Hh. }
  assert (Wi : g_writer s = Some i <-> in_write pc = true).
  { rewrite Hw, Hpc. split; [intros (p & [= <-] & ?); done|intros ?; by exists pc]. }
  assert (Ri : i ∈ g_readers s <-> in_read pc = true).
  { rewrite Hr, Hpc. split; [intros (p & [= <-] & ?); done|intros ?; by exists pc]. }
  assert (Di : forall l, g_held s !! l = Some i <-> in_role c pc = Some l).
  { intros l. rewrite Hh. split; [|intros ?; by exists c, pc].
    intros (c0 & p & Hc0 & Hp & ?). rewrite Hc in Hc0. injection Hc0 as <-. rewrite Hpc in Hp. by injection Hp as <-. }
  assert (Ws : g_writer s' = g_writer s -> in_write pc = in_write pc' ->
               forall x, g_writer s' = Some x <-> exists p, <[i:=pc']> pcs !! x = Some p /\ in_write p = true).
  { intros E1 E2. apply W; [intros x _|]; rewrite E1; [done|]. by rewrite Wi, E2. }
  assert (Rs : g_readers s' = g_readers s -> in_read pc = in_read pc' ->
               forall x, x ∈ g_readers s' <-> exists p, <[i:=pc']> pcs !! x = Some p /\ in_read p = true).
  { intros E1 E2. apply R; [intros x _|]; rewrite E1; [done|]. by rewrite Ri, E2. }
  assert (Ds : g_held s' = g_held s -> in_role c pc = in_role c pc' ->
               forall l x, g_held s' !! l = Some x <->
                exists c0 p, calls !! x = Some c0 /\ <[i:=pc']> pcs !! x = Some p /\ in_role c0 p = Some l).
  { intros E1 E2. apply D; [intros l x _|intros l]; rewrite E1; [done|]. by rewrite Di, E2. }
  assert (L : length (<[i:=pc']> pcs) = length calls) by (by rewrite insert_length).
  assert (K : forall x c0 p, calls !! x = Some c0 -> <[i:=pc']> pcs !! x = Some p -> okpc c0 p = true).
  { intros x c0 p Hc0 Hp. destruct (decide (x = i)) as [->|Hx].
    - rewrite Hnew in Hp. injection Hp as <-. rewrite Hc in Hc0. by injection Hc0 as <-.
    - rewrite Hself in Hp by done. by eapply Hok. }
  destruct Hl as [a b e w r h|a a' b e n n' w r h|a a' b e w r h|a b b' e n w r h|a b b' e w r h|l a b e e' w r n h|l a b e e' w r h].
  - constructor; cbn [fst snd]; auto. intros x. rewrite w, r. apply Hex.
  - constructor; cbn [fst snd]; auto.
    + apply W; rewrite w; [intros x Hx|]; [|by rewrite a']. rewrite n. split; congruence.
    + intros x _. by rewrite r.
  - constructor; cbn [fst snd]; auto.
    + apply W; rewrite w; [intros x Hx|].
      * split; [discriminate|]. intros Hg. apply Wi in a. congruence.
      * rewrite a'. split; discriminate.
    + intros x. rewrite w. discriminate.
  - constructor; cbn [fst snd]; auto.
    + apply R; rewrite r; [intros x Hx; set_solver|]. rewrite b'. set_solver.
    + intros x. rewrite w, n. discriminate.
  - constructor; cbn [fst snd]; auto.
    + apply R; rewrite r; [intros x Hx; set_solver|]. rewrite b'. split; [set_solver|discriminate].
    + intros x Hx. rewrite w in Hx. rewrite r, (Hex x Hx). set_solver.
  - constructor; cbn [fst snd]; auto.
    + apply D; rewrite h; [intros l' x Hx|intros l'].
      * destruct (decide (l' = l)) as [->|Hl']; [rewrite lookup_insert, n; split; congruence|by rewrite lookup_insert_ne].
      * rewrite e'. destruct (decide (l' = l)) as [->|Hl']; [by rewrite lookup_insert|].
        rewrite lookup_insert_ne by done. rewrite Di, e. split; congruence.
    + intros x. rewrite w, r. apply Hex.
  - assert (Hli : g_held s !! l = Some i) by (by apply Di).
    constructor; cbn [fst snd]; auto.
    + apply D; rewrite h; [intros l' x Hx|intros l'].
      * destruct (decide (l' = l)) as [->|Hl']; [rewrite lookup_delete; split; congruence|by rewrite lookup_delete_ne].
      * rewrite e'. destruct (decide (l' = l)) as [->|Hl']; [rewrite lookup_delete; split; discriminate|].
        rewrite lookup_delete_ne by done. rewrite Di, e. split; congruence.
    + intros x. rewrite w, r. apply Hex.
Qed.
Lemma met_locks h d calls st : met h d calls st -> locks calls st.
Proof. apply met_ind; [apply locks_start|]. intros s pcs i st' H. by apply locks_step. Qed.

(** ** Objects and names *)
Record objects (h0 : list vrole) (calls : list gcall) (st : gsh * list gpc) : Prop := {
  ob_names : vr_name <$> g_heap st.1 = vr_name <$> h0;
  ob_dag : dag_wf (g_heap st.1) (g_dag st.1);
  ob_rest : forall i ls, st.2 !! i = Some (PRoleIn ls) -> forall l, l ∈ ls -> is_Some (h0 !! l)
}.
Lemma names_some (h0 h : list vrole) l : vr_name <$> h = vr_name <$> h0 -> is_Some (h0 !! l) <-> is_Some (h !! l).
Proof.
  intros E. assert (E' : (vr_name <$> h) !! l = (vr_name <$> h0) !! l) by (by rewrite E).
  rewrite !list_lookup_fmap in E'. destruct (h0 !! l), (h !! l); simpl in E'; split; intros [x Hx]; try discriminate; by eexists.
Qed.
Lemma perm_update_name add r ps : vr_name (perm_update add r ps) = vr_name r.
Proof. by destruct add. Qed.
Lemma step_objects h0 calls s pcs i st' :
  Forall (valid_call h0) calls -> objects h0 calls (s, pcs) -> gstep calls (s, pcs) i = Some st' -> objects h0 calls st'.
Proof.
  intros Hv [Hn Hd Hrest] (c & pc & s' & pc' & Hc & Hpc & Hs & ->)%gstep_inv. cbn [fst snd] in *.
  rewrite Forall_lookup in Hv. specialize (Hv _ _ Hc).
  assert (Hi : i < length pcs) by (eapply lookup_lt_Some; exact Hpc).
  (* steps that change neither the objects nor the names registered, and lead to no list of roles *)
  assert (Hno : g_heap s' = g_heap s -> d_roles (g_dag s') = d_roles (g_dag s) -> (forall ls, pc' <> PRoleIn ls) ->
                objects h0 calls (s', <[i:=pc']> pcs)).
  { intros E1 E2 E3. constructor; cbn [fst snd].
    - by rewrite E1.
    - intros x l. rewrite E1, E2. apply Hd.
    - intros x ls. destruct (decide (x = i)) as [->|Hx].
      + rewrite list_lookup_insert by done. intros [= H]. by apply E3 in H.
      + rewrite list_lookup_insert_ne by done. apply Hrest. }
  destruct c as [ls|p cs|k name|add l ps|name]; destruct pc; cbn in Hs; try discriminate.
  - destruct (g_lock s i) as [s1|] eqn:E; cbn in Hs; [|discriminate]. injection Hs as <- <-.
    apply g_lock_inv in E as (_ & _ & ->). constructor; cbn [fst snd g_heap g_dag g_set_writer]; [done|done|].
    intros x ls1. destruct (decide (x = i)) as [->|Hx].
    + rewrite list_lookup_insert by done. intros [= <-]. exact Hv.
    + rewrite list_lookup_insert_ne by done. apply Hrest.
  - destruct ls0 as [|l ls0].
    + injection Hs as <- <-. apply Hno; done.
    + destruct (g_heap s !! l) as [r|] eqn:El; cbn in Hs; [|discriminate]. injection Hs as <- <-.
      constructor; cbn [fst snd g_heap g_dag g_set_dag]; [done| |].
      * intros x l'. cbn [d_roles]. intros [[<- <-]|[_ H]]%lookup_insert_Some; [by exists r|]. by eapply Hd.
      * intros x ls1. destruct (decide (x = i)) as [->|Hx].
        -- rewrite list_lookup_insert by done. intros [= <-] l' Hl'. apply (Hrest i _ Hpc). by right.
        -- rewrite list_lookup_insert_ne by done. apply Hrest.
  - destruct (g_lock s i) as [s1|] eqn:E; cbn in Hs; [|discriminate]. injection Hs as <- <-.
    apply g_lock_inv in E as (_ & _ & ->). apply Hno; done.
  - destruct (check_circular _ p cs) as [[e|]| |]; try discriminate; injection Hs as <- <-; apply Hno; done.
  - injection Hs as <- <-. apply Hno; done.
  - injection Hs as <- <-. apply Hno; done.
  - destruct (g_rlock s i) as [s1|] eqn:E; cbn in Hs; [|discriminate]. injection Hs as <- <-.
    apply g_rlock_inv in E as (_ & ->). apply Hno; done.
  - injection Hs as <- <-. apply Hno; [done|done|]. intros ls. by destruct (d_resolved (g_dag s) !! name).
  - injection Hs as <- <-. apply Hno; done.
  - injection Hs as <- <-. apply Hno; done.
  - destruct (g_lock s i) as [s1|] eqn:E; cbn in Hs; [|discriminate]. injection Hs as <- <-.
    apply g_lock_inv in E as (_ & _ & ->). apply Hno; done.
  - destruct queue as [|x q].
    + injection Hs as <- <-. apply Hno; done.
    + destruct (loop_round k _ _ visited result x q) as [pc1|] eqn:E; cbn in Hs; [|discriminate]. injection Hs as <- <-.
      apply loop_round_pc in E as (V' & R' & q' & ->). apply Hno; done.
  - injection Hs as <- <-. apply Hno; done.
  - destruct (g_held s !! l) eqn:E; [discriminate|]. injection Hs as <- <-. apply Hno; done.
  - destruct ps0 as [|x ps0].
    + injection Hs as <- <-. apply Hno; done.
    + destruct (g_heap s !! l) as [r|] eqn:El; cbn in Hs; [|discriminate]. injection Hs as <- <-.
      assert (En : vr_name <$> <[l:=perm_update add r [x]]> (g_heap s) = vr_name <$> g_heap s).
      { rewrite list_fmap_insert, perm_update_name. apply list_insert_id. by rewrite list_lookup_fmap, El. }
      constructor; cbn [fst snd g_heap g_dag g_set_heap].
      * by rewrite En.
      * intros y l' Hy. destruct (Hd y l' Hy) as [r' Hr'].
        assert (Hs : is_Some (<[l:=perm_update add r [x]]> (g_heap s) !! l')).
        { apply (names_some (g_heap s)); [exact En|by exists r']. }
        exact Hs.
      * intros y ls1. destruct (decide (y = i)) as [->|Hx].
        -- rewrite list_lookup_insert by done. discriminate.
        -- rewrite list_lookup_insert_ne by done. apply Hrest.
  - injection Hs as <- <-. apply Hno; done.
Qed.
Lemma met_objects h d calls st : Forall (valid_call h) calls -> dag_wf h d -> met h d calls st -> objects h calls st.
Proof.
  intros Hv Hd. apply met_ind.
  - constructor; cbn; [done|done|]. intros i ls [H _]%lookup_replicate. discriminate.
  - intros s pcs i st' H. by apply step_objects.
Qed.

(** ** No deadlock *)
Lemma inside_moves h0 calls s pcs i c pc : locks calls (s, pcs) -> objects h0 calls (s, pcs) -> Forall (valid_call h0) calls ->
  calls !! i = Some c -> pcs !! i = Some pc ->
  in_write pc = true \/ in_read pc = true \/ is_Some (in_role c pc) -> is_Some (gstep calls (s, pcs) i).
Proof.
  intros HL [Hn Hd Hrest] Hv Hc Hpc Hin. cbn [fst snd] in *.
  pose proof (lo_ok _ _ HL i c pc Hc Hpc) as Hok. rewrite Forall_lookup in Hv. specialize (Hv _ _ Hc).
  assert (Hgo : is_Some (gthread_step i s c pc) -> is_Some (gstep calls (s, pcs) i)).
  { intros [[s' pc'] E]. unfold gstep. cbn [fst snd]. rewrite Hc, Hpc. cbn. rewrite E. cbn. by eexists. }
  apply Hgo. clear Hgo HL.
  assert (Hno : ~ (false = true \/ false = true \/ is_Some (@None nat))) by (intros [?|[?|[? ?]]]; discriminate).
  destruct c as [ls|p cs|k name|add l ps|name]; destruct pc; cbn in Hok, Hin |- *; try discriminate; try (by apply Hno in Hin); try (by eexists).
  - destruct ls0 as [|l ls0]; [by eexists|].
    destruct (proj1 (names_some h0 (g_heap s) l Hn)) as [r Hr]; [apply (Hrest i _ Hpc); left|]. rewrite Hr. by eexists.
  - destruct (check_circular_ok (d_edges (g_dag s)) p cs) as [[e|] E]; rewrite E; by eexists.
  - destruct queue as [|x q]; [by eexists|]. unfold loop_round. case_bool_decide; [by eexists|].
    destruct (d_roles (g_dag s) !! x) as [l|] eqn:El; [|by eexists]. destruct (Hd _ _ El) as [r Hr]. rewrite Hr. by eexists.
  - destruct ps0 as [|x ps0]; [by eexists|].
    destruct (proj1 (names_some h0 (g_heap s) l Hn) Hv) as [r Hr]. rewrite Hr. by eexists.
Qed.
Lemma first_of {A} (P : A -> bool) (l : list A) :
  (exists i x, l !! i = Some x /\ P x = true) \/ (forall i x, l !! i = Some x -> P x = false).
Proof.
  induction l as [|x l IH]; [right; intros i x; by rewrite lookup_nil|].
  destruct (P x) eqn:E; [left; by exists 0, x|]. destruct IH as [(i & y & Hy & HP)|H].
  - left. by exists (S i), y.
  - right. intros [|i] y; simpl; [intros [= <-]; done|apply H].
Qed.
Lemma no_deadlock h d calls s pcs : Forall (valid_call h) calls -> dag_wf h d -> met h d calls (s, pcs) ->
  Forall over pcs \/ exists i st', gstep calls (s, pcs) i = Some st'.
Proof.
  intros Hv Hd Hm. pose proof (met_locks _ _ _ _ Hm) as HL. pose proof (met_objects _ _ _ _ Hv Hd Hm) as HO.
  assert (Hcall : forall i pc, pcs !! i = Some pc -> exists c, calls !! i = Some c).
  { intros i pc Hpc. apply lookup_lt_is_Some_2. pose proof (lo_len _ _ HL) as E. cbn in E. rewrite <-E.
    by eapply lookup_lt_Some. }
  destruct (first_of (fun pc => in_write pc || in_read pc || match pc with PPermIn _ => true | _ => false end) pcs)
    as [(i & pc & Hpc & Hin)|Hout].
  - right. destruct (Hcall i pc Hpc) as [c Hc].
    destruct (inside_moves h calls s pcs i c pc HL HO Hv Hc Hpc) as [st' E]; [|by exists i, st'].
    apply orb_true_iff in Hin as [Hin|Hin]; [apply orb_true_iff in Hin; tauto|]. right. right.
    destruct pc; try discriminate. pose proof (lo_ok _ _ HL i c _ Hc Hpc) as Hok. destruct c; try discriminate. by eexists.
  - assert (Hw : g_writer s = None).
    { destruct (g_writer s) as [i|] eqn:E; [|done]. apply (lo_w _ _ HL) in E as (pc & Hpc & Hin). cbn in Hpc.
      apply Hout in Hpc. rewrite Hin in Hpc. discriminate. }
    assert (Hr : g_readers s = ∅).
    { apply set_eq. intros i. split; [|set_solver]. intros E. apply (lo_r _ _ HL) in E as (pc & Hpc & Hin). cbn in Hpc.
      apply Hout in Hpc. rewrite Hin, orb_true_r in Hpc. discriminate. }
    assert (Hh : forall l, g_held s !! l = None).
    { intros l. destruct (g_held s !! l) as [i|] eqn:E; [|done]. apply (lo_h _ _ HL) in E as (c & pc & Hc & Hpc & Hin).
      cbn in Hpc. apply Hout in Hpc. destruct c, pc; discriminate. }
    destruct (first_of (fun pc => match pc with PDone _ => false | _ => true end) pcs) as [(i & pc & Hpc & Hnd)|Hall].
    + right. destruct (Hcall i pc Hpc) as [c Hc]. exists i.
      pose proof (lo_ok _ _ HL i c pc Hc Hpc) as Hok. specialize (Hout i pc Hpc).
      unfold gstep. cbn [fst snd]. rewrite Hc, Hpc. cbn [mbind option_bind].
      assert (El : g_lock s i = Some (g_set_writer s (Some i))) by (unfold g_lock; by rewrite bool_decide_true).
      assert (Er : g_rlock s i = Some (g_set_readers s ({[i]} ∪ g_readers s))) by (unfold g_rlock; by rewrite bool_decide_true).
      destruct c as [ls|p cs|k name|add l ps|name]; destruct pc; try discriminate;
        cbn; rewrite ?El, ?Er, ?Hh; cbn; by eexists.
    + left. apply Forall_lookup. intros i pc Hpc. specialize (Hall i pc Hpc). destruct pc; try discriminate. by eexists.
Qed.

(** ** No cycles *)
Lemma child_ok_acyclic h d calls st : acyclic (d_edges d) -> met h d calls st ->
  acyclic (d_edges (g_dag st.1)) /\
  forall i p cs, calls !! i = Some (CAddChild p cs) -> st.2 !! i = Some PChildOk ->
    check_circular (d_edges (g_dag st.1)) p cs = Ok None.
Proof.
  intros Ha Hm. assert (HL : locks calls st /\ acyclic (d_edges (g_dag st.1)) /\
    forall i p cs, calls !! i = Some (CAddChild p cs) -> st.2 !! i = Some PChildOk ->
      check_circular (d_edges (g_dag st.1)) p cs = Ok None); [|tauto].
  revert st Hm. apply met_ind.
  - split; [apply locks_start|]. split; [done|]. intros i p cs _ [H _]%lookup_replicate. discriminate.
  - intros s pcs i st' (HL & Hac & Hok) Hst. split; [by eapply locks_step|].
    pose proof Hst as (c & pc & s' & pc' & Hc & Hpc & Hs & ->)%gstep_inv. cbn [fst snd] in *.
    assert (Hi : i < length pcs) by (eapply lookup_lt_Some; exact Hpc).
    assert (Hno : d_edges (g_dag s') = d_edges (g_dag s) ->
              (forall p cs, c = CAddChild p cs -> pc' = PChildOk -> check_circular (d_edges (g_dag s)) p cs = Ok None) ->
              acyclic (d_edges (g_dag s')) /\
              forall j p cs, calls !! j = Some (CAddChild p cs) -> <[i:=pc']> pcs !! j = Some PChildOk ->
                check_circular (d_edges (g_dag s')) p cs = Ok None).
    { intros E1 E2. rewrite E1. split; [done|]. intros j p cs Hj. destruct (decide (j = i)) as [->|Hne].
      - rewrite list_lookup_insert by done. intros [= ->]. rewrite Hc in Hj. injection Hj as ->. by apply E2.
      - rewrite list_lookup_insert_ne by done. by apply Hok. }
    destruct c as [ls|p cs|k name|add l ps|name]; destruct pc; cbn in Hs; try discriminate.
    + destruct (g_lock s i) as [s1|] eqn:E; cbn in Hs; [|discriminate]. injection Hs as <- <-.
      apply g_lock_inv in E as (_ & _ & ->). apply Hno; done.
    + destruct ls0 as [|l ls0]; [injection Hs as <- <-; apply Hno; done|].
      destruct (g_heap s !! l); cbn in Hs; [|discriminate]. injection Hs as <- <-. apply Hno; done.
    + destruct (g_lock s i) as [s1|] eqn:E; cbn in Hs; [|discriminate]. injection Hs as <- <-.
      apply g_lock_inv in E as (_ & _ & ->). apply Hno; done.
    + destruct (check_circular _ p cs) as [[e|]| |] eqn:E; try discriminate; injection Hs as <- <-; apply Hno; try done.
      intros p' cs' [= <- <-] _. exact E.
    + injection Hs as <- <-. cbn [g_dag g_set_dag d_edges].
      assert (Hadd : dag_add_child (g_dag s) p cs = Ok (Dag (d_roles (g_dag s))
                (<[p := edges_of (d_edges (g_dag s)) p ++ cs]> (d_edges (g_dag s))) (d_resolved (g_dag s)), None)).
      { unfold dag_add_child. rewrite (Hok i p cs Hc Hpc). done. }
      split; [exact (dag_add_child_acyclic _ _ _ _ _ Hac Hadd)|].
      intros j p' cs' Hj Hpj. exfalso. destruct (decide (j = i)) as [->|Hne].
      * rewrite list_lookup_insert in Hpj by done. discriminate.
      * rewrite list_lookup_insert_ne in Hpj by done.
        assert (E1 : g_writer s = Some i) by (apply (lo_w _ _ HL); by eexists).
        assert (E2 : g_writer s = Some j) by (apply (lo_w _ _ HL); by eexists). congruence.
    + injection Hs as <- <-. apply Hno; done.
    + destruct (g_rlock s i) as [s1|] eqn:E; cbn in Hs; [|discriminate]. injection Hs as <- <-.
      apply g_rlock_inv in E as (_ & ->). apply Hno; done.
    + injection Hs as <- <-. apply Hno; done.
    + injection Hs as <- <-. apply Hno; done.
    + injection Hs as <- <-. apply Hno; done.
    + destruct (g_lock s i) as [s1|] eqn:E; cbn in Hs; [|discriminate]. injection Hs as <- <-.
      apply g_lock_inv in E as (_ & _ & ->). apply Hno; done.
    + destruct queue as [|x q]; [injection Hs as <- <-; apply Hno; done|].
      destruct (loop_round k _ _ visited result x q) as [pc1|] eqn:E; cbn in Hs; [|discriminate]. injection Hs as <- <-.
      apply Hno; done.
    + injection Hs as <- <-. apply Hno; done.
    + destruct (g_held s !! l) eqn:E; [discriminate|]. injection Hs as <- <-. apply Hno; done.
    + destruct ps0 as [|x ps0]; [injection Hs as <- <-; apply Hno; done|].
      destruct (g_heap s !! l) as [r|]; cbn in Hs; [|discriminate]. injection Hs as <- <-. apply Hno; done.
    + injection Hs as <- <-. apply Hno; done.
Qed.
Lemma met_acyclic h d calls st : acyclic (d_edges d) -> met h d calls st -> acyclic (d_edges (g_dag st.1)).
Proof. intros Ha Hm. exact (proj1 (child_ok_acyclic h d calls st Ha Hm)). Qed.

(** ** Races *)
Lemma race_kinds h d calls st x i j : met h d calls st -> race calls st x i j ->
  (x = VRoles /\ (exists ls, calls !! i = Some (CAddRole ls)) /\ exists name, calls !! j = Some (CGet name)) \/
  exists l add ps name V R y q, x = VPerms l /\ calls !! i = Some (CPerm add l ps) /\ calls !! j = Some (CResolve true name) /\
    st.2 !! j = Some (PLoop V R (y :: q)) /\ d_roles (g_dag st.1) !! y = Some l.
Proof.
  intros Hm (ci & cj & pi & pj & b & Hci & Hcj & Hpi & Hpj & Hne & Hti & Htj).
  pose proof (met_locks _ _ _ _ Hm) as HL.
  assert (Hex : in_write pi = true -> in_write pj = true -> False).
  { intros H1 H2. assert (E1 : g_writer st.1 = Some i) by (apply (lo_w _ _ HL); by eexists).
    assert (E2 : g_writer st.1 = Some j) by (apply (lo_w _ _ HL); by eexists). congruence. }
  assert (Hex2 : in_write pi = true -> in_read pj = true -> False).
  { intros H1 H2. assert (E1 : g_writer st.1 = Some i) by (apply (lo_w _ _ HL); by eexists).
    assert (E2 : j ∈ g_readers st.1) by (apply (lo_r _ _ HL); by eexists).
    rewrite (lo_ex _ _ HL i E1) in E2. set_solver. }
  assert (Hex3 : forall l, in_role ci pi = Some l -> in_role cj pj = Some l -> False).
  { intros l H1 H2. assert (E1 : g_held st.1 !! l = Some i) by (apply (lo_h _ _ HL); by eexists _, _).
    assert (E2 : g_held st.1 !! l = Some j) by (apply (lo_h _ _ HL); by eexists _, _). congruence. }
  destruct ci as [ls|p cs|k name|add l ps|name]; destruct pi as [|lsi| | |ei| |si| | |Vi Ri [|yi qi]|si|[|psi psr]|oi];
    cbn in Hti; try (by apply elem_of_nil in Hti).
  - destruct lsi as [|l0 lsi]; [by apply elem_of_nil in Hti|]. apply elem_of_list_singleton in Hti. injection Hti as ->.
    left. split; [done|]. split; [by eexists|].
    destruct cj as [ls'|p' cs'|k' name'|add' l' ps'|name']; destruct pj as [|lsj| | |ej| |sj| | |Vj Rj [|yj qj]|sj|[|psj psr]|oj];
      cbn in Htj; try (by apply elem_of_nil in Htj); try (exfalso; apply Hex; done); try (exfalso; by apply Hex2).
    + apply elem_of_list_singleton in Htj. discriminate.
    + by eexists.
  - apply elem_of_list_singleton in Hti. discriminate.
  - apply elem_of_list_singleton in Hti. injection Hti as ->. exfalso.
    destruct cj as [ls'|p' cs'|k' name'|add' l' ps'|name']; destruct pj as [|lsj| | |ej| |sj| | |Vj Rj [|yj qj]|sj|[|psj psr]|oj];
      cbn in Htj; try (by apply elem_of_nil in Htj); try (apply Hex; done); try (by apply Hex2);
      apply elem_of_list_singleton in Htj; discriminate.
  - apply elem_of_list_singleton in Hti. discriminate.
  - apply elem_of_list_singleton in Hti. injection Hti as ->. exfalso.
    destruct cj as [ls'|p' cs'|k' name'|add' l' ps'|name']; destruct pj as [|lsj| | |ej| |sj| | |Vj Rj [|yj qj]|sj|[|psj psr]|oj];
      cbn in Htj; try (by apply elem_of_nil in Htj); try (apply Hex; done); try (by apply Hex2);
      apply elem_of_list_singleton in Htj; discriminate.
  - exfalso. case_bool_decide; [by apply elem_of_nil in Hti|].
    apply elem_of_cons in Hti as [Hti|Hti]; [discriminate|]. destruct (d_roles (g_dag st.1) !! yi); [|by apply elem_of_nil in Hti].
    apply elem_of_cons in Hti as [Hti|Hti]; [discriminate|]. destruct k; [|by apply elem_of_nil in Hti].
    apply elem_of_list_singleton in Hti. discriminate.
  - apply elem_of_list_singleton in Hti. injection Hti as ->. right.
    destruct cj as [ls'|p' cs'|k' name'|add' l' ps'|name']; destruct pj as [|lsj| | |ej| |sj| | |Vj Rj [|yj qj]|sj|[|psj psr']|oj];
      cbn in Htj; try (by apply elem_of_nil in Htj); try (apply elem_of_list_singleton in Htj; discriminate).
    + destruct lsj; [by apply elem_of_nil in Htj|]. apply elem_of_list_singleton in Htj. discriminate.
    + case_bool_decide; [by apply elem_of_nil in Htj|]. apply elem_of_cons in Htj as [Htj|Htj]; [discriminate|].
      destruct (d_roles (g_dag st.1) !! yj) as [ly|] eqn:Ey; [|by apply elem_of_nil in Htj].
      apply elem_of_cons in Htj as [Htj|Htj]; [discriminate|]. destruct k'; [|by apply elem_of_nil in Htj].
      apply elem_of_list_singleton in Htj. injection Htj as -> ->. by exists ly, add, ps, name', Vj, Rj, yj, qj.
    + apply elem_of_list_singleton in Htj. injection Htj as -> _. exfalso. by apply (Hex3 l').
  - apply elem_of_list_singleton in Hti. discriminate.
Qed.
