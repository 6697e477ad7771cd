(** Calls that do not get in each other's way act as if made one after the other. *)
From Verif Require Import DagProofs V2Trav CDagModel CDagProofs CDagSpec.

Lemma in_turn_snoc calls hd order hd1 outs i c hd' out :
  in_turn calls hd order hd1 outs -> calls !! i = Some c -> alone hd1 c = Ok (hd', out) ->
  in_turn calls hd (order ++ [i]) hd' (outs ++ [out]).
Proof.
  induction 1 as [hd|hd j cj hd2 oj order hd3 outs Hj Ha H IH]; intros Hi Ho; simpl.
  - by eapply in_turn_cons; [| |constructor].
  - eapply in_turn_cons; [done|done|]. by apply IH.
Qed.

(** *** The sequential functions read names and contributions only *)
Lemma names_lookup (h h' : list vrole) l : vr_name <$> h = vr_name <$> h' -> vr_name <$> h !! l = vr_name <$> h' !! l.
Proof. intros E. rewrite <-!list_lookup_fmap. by rewrite E. Qed.
Lemma add_roles_ext h h' d ls : vr_name <$> h = vr_name <$> h' -> dag_add_roles h d ls = dag_add_roles h' d ls.
Proof.
  intros E. revert d. induction ls as [|l ls IH]; intros d; simpl; [done|].
  pose proof (names_lookup h h' l E) as El. destruct (h !! l) as [r|], (h' !! l) as [r'|]; simpl in El; try discriminate; [|done].
  injection El as ->. apply IH.
Qed.
Lemma add_roles_app h d l1 l2 : dag_add_roles h d (l1 ++ l2) = let! d' := dag_add_roles h d l1 in dag_add_roles h d' l2.
Proof. revert d. induction l1 as [|l l1 IH]; intros d; simpl; [done|]. destruct (h !! l); [apply IH|done]. Qed.
Lemma add_roles_rest h d ls d' : dag_add_roles h d ls = Ok d' -> d_edges d' = d_edges d /\ d_resolved d' = d_resolved d.
Proof.
  revert d. induction ls as [|l ls IH]; intros d; simpl; [by intros [= <-]|].
  destruct (h !! l); [|discriminate]. intros H. by apply IH in H.
Qed.
Lemma bfs_ext contrib fuel h h' d V R Q : (forall l, contrib <$> h !! l = contrib <$> h' !! l) ->
  bfs contrib fuel h d V R Q = bfs contrib fuel h' d V R Q.
Proof.
  intros E. revert V R Q. induction fuel as [|fuel IH]; intros V R Q; simpl; [done|].
  destruct Q as [|x Q]; [done|]. case_bool_decide; [apply IH|]. destruct (d_roles d !! x) as [l|]; [|apply IH].
  specialize (E l). destruct (h !! l) as [r|], (h' !! l) as [r'|]; simpl in E; try discriminate; [|done].
  injection E as ->. apply IH.
Qed.
Lemma resolve_ext contrib h h' d name : (forall l, contrib <$> h !! l = contrib <$> h' !! l) ->
  resolve contrib h d name = resolve contrib h' d name.
Proof. intros E. unfold resolve. destruct (d_resolved d !! name); [done|]. by rewrite (bfs_ext contrib _ h h'). Qed.
Lemma name_of_ext (h h' : list vrole) l : vr_name <$> h = vr_name <$> h' -> name_of <$> h !! l = name_of <$> h' !! l.
Proof.
  intros E. pose proof (names_lookup h h' l E) as El. destruct (h !! l) as [r|], (h' !! l) as [r'|]; simpl in El; try discriminate; [|done].
  injection El as El. simpl. unfold name_of. by rewrite El.
Qed.
Lemma alone_resolve hd k name : alone hd (CResolve k name) = let! r := resolve (contrib_of k) hd.1 hd.2 name in Ok (hd.1, r.1, OSet r.2).
Proof. by destruct k. Qed.
Lemma perm_update_nil add r : perm_update add r [] = r.
Proof. destruct r as [n s]. destruct add; cbn; unfold vrole_add, vrole_remove; cbn; f_equal; set_solver. Qed.
Lemma perm_update_snoc add r ps p : perm_update add (perm_update add r ps) [p] = perm_update add r (ps ++ [p]).
Proof.
  destruct add; cbn; unfold vrole_add, vrole_remove; cbn; f_equal; rewrite fmap_app, list_to_set_app_L; simpl; set_solver.
Qed.

(** *** The invariant *)
(** Where the call inside stands, the graph having been [D] when it entered *)
Definition mid (h0 : list vrole) (D : dag) (c : gcall) (pc : gpc) (dg : dag) : Prop :=
  match c, pc with
  | CAddRole ls, PRoleIn rest => exists pre, ls = pre ++ rest /\ dag_add_roles h0 D pre = Ok dg
  | CAddChild _ _, PChildIn => dg = D
  | CAddChild p cs, PChildOk => dg = D /\ check_circular (d_edges D) p cs = Ok None
  | CAddChild p cs, PChildOut e => dag_add_child D p cs = Ok (dg, e)
  | CResolve k name, PLoop V R Q => dg = D /\ exists fuel,
      bfs (contrib_of k) fuel h0 D V R Q = bfs (contrib_of k) (2 + edge_count (d_edges D)) h0 D ∅ ∅ [name]
  | CResolve k name, PStored a => resolve (contrib_of k) h0 D name = Ok (dg, a)
  | _, _ => False
  end.
Definition dag_ok (calls : list gcall) (h0 : list vrole) (D : dag) (s : gsh) (pcs : list gpc) : Prop :=
  match g_writer s with
  | None => g_dag s = D
  | Some i => exists c pc, calls !! i = Some c /\ pcs !! i = Some pc /\ mid h0 D c pc (g_dag s)
  end.
Definition heap_ok (calls : list gcall) (H : list vrole) (s : gsh) (pcs : list gpc) : Prop :=
  forall l, match g_held s !! l with
            | None => g_heap s !! l = H !! l
            | Some i => exists add ps pre rest r, calls !! i = Some (CPerm add l ps) /\ pcs !! i = Some (PPermIn rest) /\
                          ps = pre ++ rest /\ H !! l = Some r /\ g_heap s !! l = Some (perm_update add r pre)
            end.
(** What was found in the cache at the start *)
Definition found (d0 : dag) (c : gcall) (pc : gpc) : Prop :=
  match c, pc with
  | CResolve _ name, PHit a => d_resolved d0 !! name = Some a
  | CResolve _ name, (PMiss | PWait | PLoop _ _ _ | PStored _) => d_resolved d0 !! name = None
  | _, _ => True
  end.
Record turn (calls : list gcall) (h0 : list vrole) (d0 : dag) (s : gsh) (pcs : list gpc)
    (done : list nat) (outs : list gout) (H : list vrole) (D : dag) : Prop := {
  tu_run : in_turn calls (h0, d0) done (H, D) outs;
  tu_outs : Forall2 (fun i out => pcs !! i = Some (PDone out)) done outs;
  tu_nodup : NoDup done;
  tu_all : forall i out, pcs !! i = Some (PDone out) -> i ∈ done;
  tu_dag : dag_ok calls h0 D s pcs;
  tu_heap : heap_ok calls H s pcs;
  tu_cache : forall i k name, calls !! i = Some (CResolve k name) -> i ∉ done -> d_resolved D !! name = d_resolved d0 !! name;
  tu_found : forall i c pc, calls !! i = Some c -> pcs !! i = Some pc -> found d0 c pc;
  tu_names : vr_name <$> H = vr_name <$> h0;
  tu_perm : (forall j add l ps, calls !! j <> Some (CPerm add l ps)) -> H = h0
}.
Lemma outs_in {pcs : list gpc} {done outs} :
  Forall2 (fun i out => pcs !! i = Some (PDone out)) done outs -> forall i, i ∈ done -> exists out, pcs !! i = Some (PDone out).
Proof.
  induction 1 as [|j o done outs Hj Hr IH]; intros i Hi; [by apply elem_of_nil in Hi|].
  apply elem_of_cons in Hi as [->|Hi]; [by exists o|by apply IH].
Qed.
Lemma outs_insert (pcs : list gpc) done outs i pc' : i ∉ done ->
  Forall2 (fun j out => pcs !! j = Some (PDone out)) done outs ->
  Forall2 (fun j out => <[i := pc']> pcs !! j = Some (PDone out)) done outs.
Proof.
  intros Hi H. induction H as [|j o done outs Hj Hr IH]; constructor.
  - rewrite list_lookup_insert_ne; [done|]. intros ->. apply Hi. left.
  - apply IH. intros Hx. apply Hi. by right.
Qed.
Lemma dag_ok_frame calls h0 D s pcs s' i pc' : dag_ok calls h0 D s pcs -> g_writer s <> Some i ->
  g_writer s' = g_writer s -> g_dag s' = g_dag s -> dag_ok calls h0 D s' (<[i := pc']> pcs).
Proof.
  intros Hd Hw E1 E2. unfold dag_ok in *. rewrite E1, E2. destruct (g_writer s) as [j|]; [|done].
  destruct Hd as (c & pc & Hc & Hpc & Hm). exists c, pc. split; [done|]. split; [|done].
  rewrite list_lookup_insert_ne; [done|]. congruence.
Qed.
Lemma dag_ok_self calls h0 D s' (pcs : list gpc) i c pc' : i < length pcs -> calls !! i = Some c ->
  g_writer s' = Some i -> mid h0 D c pc' (g_dag s') -> dag_ok calls h0 D s' (<[i := pc']> pcs).
Proof.
  intros Hi Hc E1 Hm. unfold dag_ok. rewrite E1. exists c, pc'. split; [done|]. split; [|done]. by apply list_lookup_insert.
Qed.
Lemma heap_ok_frame calls H s pcs s' i pc' : heap_ok calls H s pcs -> (forall l, g_held s !! l <> Some i) ->
  g_held s' = g_held s -> g_heap s' = g_heap s -> heap_ok calls H s' (<[i := pc']> pcs).
Proof.
  intros Hh Hi E1 E2 l. specialize (Hh l). specialize (Hi l). rewrite E1, E2. destruct (g_held s !! l) as [j|]; [|done].
  destruct Hh as (add & ps & pre & rest & r & Hc & Hpc & Hr). exists add, ps, pre, rest, r. split; [done|].
  split; [|done]. rewrite list_lookup_insert_ne; [done|]. congruence.
Qed.

Section turn.
  Context (calls : list gcall) (h0 : list vrole) (d0 : dag).
  Context (Hv : Forall (valid_call h0) calls) (Hap : apart d0 calls).

  Lemma not_done s pcs done outs H D i pc : turn calls h0 d0 s pcs done outs H D -> pcs !! i = Some pc ->
    (forall out, pc <> PDone out) -> i ∉ done.
  Proof.
    intros W Hpc Hn Hi. destruct (outs_in (tu_outs _ _ _ _ _ _ _ _ _ W) i Hi) as [out E]. rewrite Hpc in E.
    injection E as ->. by apply (Hn out).
  Qed.
  Lemma turn_stay s pcs done outs H D i c pc s' pc' : turn calls h0 d0 s pcs done outs H D ->
    calls !! i = Some c -> pcs !! i = Some pc -> (forall out, pc <> PDone out) -> (forall out, pc' <> PDone out) ->
    found d0 c pc' -> dag_ok calls h0 D s' (<[i := pc']> pcs) -> heap_ok calls H s' (<[i := pc']> pcs) ->
    turn calls h0 d0 s' (<[i := pc']> pcs) done outs H D.
  Proof.
    intros W Hc Hpc Hn Hn' Hf Hd Hh. pose proof (not_done _ _ _ _ _ _ _ _ W Hpc Hn) as Hnd.
    assert (Hi : i < length pcs) by (eapply lookup_lt_Some; exact Hpc).
    destruct W. constructor; try assumption.
    - by apply outs_insert.
    - intros j out. destruct (decide (j = i)) as [->|Hne].
      + rewrite list_lookup_insert by done. intros [= E]. by apply Hn' in E.
      + rewrite list_lookup_insert_ne by done. apply tu_all0.
    - intros j cj pj Hcj. destruct (decide (j = i)) as [->|Hne].
      + rewrite list_lookup_insert by done. intros [= <-]. rewrite Hc in Hcj. by injection Hcj as <-.
      + rewrite list_lookup_insert_ne by done. by apply tu_found0.
  Qed.
  Lemma turn_commit s pcs done outs H D i c pc s' out H' D' : turn calls h0 d0 s pcs done outs H D ->
    calls !! i = Some c -> pcs !! i = Some pc -> (forall o, pc <> PDone o) -> alone (H, D) c = Ok (H', D', out) ->
    dag_ok calls h0 D' s' (<[i := PDone out]> pcs) -> heap_ok calls H' s' (<[i := PDone out]> pcs) ->
    turn calls h0 d0 s' (<[i := PDone out]> pcs) (done ++ [i]) (outs ++ [out]) H' D'.
  Proof.
    intros W Hc Hpc Hn Ha Hd Hh. pose proof (not_done _ _ _ _ _ _ _ _ W Hpc Hn) as Hnd.
    assert (Hi : i < length pcs) by (eapply lookup_lt_Some; exact Hpc).
    destruct W. constructor; try assumption.
    - by eapply in_turn_snoc.
    - apply Forall2_app; [by apply outs_insert|]. constructor; [by apply list_lookup_insert|constructor].
    - apply NoDup_app. split; [done|]. split; [|apply NoDup_singleton]. intros x Hx ->%elem_of_list_singleton. done.
    - intros j o. destruct (decide (j = i)) as [->|Hne].
      + intros _. apply elem_of_app. right. by apply elem_of_list_singleton.
      + rewrite list_lookup_insert_ne by done. intros Ho. apply elem_of_app. left. by eapply tu_all0.
    - intros j k name Hj Hjd. assert (Hj1 : j ∉ done) by (intros Hx; apply Hjd; apply elem_of_app; by left).
      assert (Hji : i <> j). { intros ->. apply Hjd, elem_of_app. right. by apply elem_of_list_singleton. }
      rewrite <-(tu_cache0 j k name Hj Hj1).
      destruct c as [ls|p cs|k' name'|add l ps|name'].
      + cbn in Ha. apply rbind_inv in Ha as (d1 & E & [= <- <- <-]). apply add_roles_rest in E as [_ E]. by rewrite E.
      + cbn in Ha. apply rbind_inv in Ha as (r & E & [= <- <- <-]). destruct r as [d1 e]. unfold dag_add_child in E.
        apply rbind_inv in E as (er & _ & [= E]). destruct er; injection E as <- <-; done.
      + rewrite alone_resolve in Ha. apply rbind_inv in Ha as (r & E & [= <- <- <-]). cbn [fst snd] in E.
        unfold resolve in E. destruct (d_resolved D !! name') as [a|] eqn:Ea.
        * injection E as <-. done.
        * apply rbind_inv in E as (a & _ & [= <-]). cbn [fst d_resolved].
          rewrite lookup_insert_ne; [done|]. intros ->.
          destruct (ap_once _ _ Hap i j k' k name Hc Hj Hji) as [b Hb].
          rewrite (tu_cache0 j k name Hj Hj1), Hb in Ea. discriminate.
      + cbn in Ha. destruct (H !! l); [|discriminate]. by injection Ha as <- <- <-.
      + cbn in Ha. by injection Ha as <- <- <-.
    - intros j cj pj Hcj. destruct (decide (j = i)) as [->|Hne].
      + rewrite list_lookup_insert by done. intros [= <-]. by destruct cj.
      + rewrite list_lookup_insert_ne by done. by apply tu_found0.
    - rewrite <-tu_names0. clear -Ha. destruct c as [ls|p cs|k' name'|add l ps|name'].
      + cbn in Ha. by apply rbind_inv in Ha as (d1 & E & [= <- <- <-]).
      + cbn in Ha. by apply rbind_inv in Ha as (r & E & [= <- <- <-]).
      + rewrite alone_resolve in Ha. by apply rbind_inv in Ha as (r & E & [= <- <- <-]).
      + cbn in Ha. destruct (H !! l) as [r|] eqn:E; [|discriminate]. injection Ha as <- <- <-.
        rewrite list_fmap_insert. apply list_insert_id. rewrite list_lookup_fmap, E. by destruct add.
      + cbn in Ha. by injection Ha as <- <- <-.
    - intros Hp. rewrite <-(tu_perm0 Hp). clear -Ha Hp Hc. destruct c as [ls|p cs|k' name'|add l ps|name'].
      + cbn in Ha. by apply rbind_inv in Ha as (d1 & E & [= <- <- <-]).
      + cbn in Ha. by apply rbind_inv in Ha as (r & E & [= <- <- <-]).
      + rewrite alone_resolve in Ha. by apply rbind_inv in Ha as (r & E & [= <- <- <-]).
      + by apply Hp in Hc.
      + cbn in Ha. by injection Ha as <- <- <-.
  Qed.
  (** The heap of names never changes, and no heap does while permissions are resolved. *)
  Lemma heap_names H s pcs : heap_ok calls H s pcs -> forall l, vr_name <$> g_heap s !! l = vr_name <$> H !! l.
  Proof.
    intros Hh l. specialize (Hh l). destruct (g_held s !! l) as [i|]; [|by rewrite Hh].
    destruct Hh as (add & ps & pre & rest & r & _ & _ & _ & -> & ->). simpl. by rewrite perm_update_name.
  Qed.
  Lemma contrib_H s pcs done outs H D i k name : turn calls h0 d0 s pcs done outs H D -> calls !! i = Some (CResolve k name) ->
    d_resolved d0 !! name = None -> forall l, contrib_of k <$> H !! l = contrib_of k <$> h0 !! l.
  Proof.
    intros W Hc Hn l. destruct k; cbn [contrib_of].
    - rewrite (tu_perm _ _ _ _ _ _ _ _ _ W); [done|]. intros j add l' ps Hj.
      destruct (ap_perm _ _ Hap j i add l' ps name Hj Hc) as [a Ha]. congruence.
    - apply name_of_ext. exact (tu_names _ _ _ _ _ _ _ _ _ W).
  Qed.
  Lemma contrib_heap s pcs done outs H D i k name : turn calls h0 d0 s pcs done outs H D -> calls !! i = Some (CResolve k name) ->
    d_resolved d0 !! name = None -> forall l, contrib_of k <$> g_heap s !! l = contrib_of k <$> h0 !! l.
  Proof.
    intros W Hc Hn l. rewrite <-(contrib_H _ _ _ _ _ _ _ _ _ W Hc Hn). pose proof (tu_heap _ _ _ _ _ _ _ _ _ W) as Hh. destruct k; cbn [contrib_of].
    - specialize (Hh l). destruct (g_held s !! l) as [j|]; [|by rewrite Hh].
      destruct Hh as (add & ps & pre & rest & r & Hj & _).
      destruct (ap_perm _ _ Hap j i add l ps name Hj Hc) as [a Ha]. congruence.
    - pose proof (heap_names H s pcs Hh l) as E. destruct (g_heap s !! l) as [r|], (H !! l) as [r'|]; simpl in E; try discriminate; [|done].
      injection E as E. simpl. unfold name_of. by rewrite E.
  Qed.

  Definition turns (st : gsh * list gpc) (done : list nat) : Prop :=
    locks calls st /\ exists outs H D, turn calls h0 d0 st.1 st.2 done outs H D.
  Lemma turns_start : turns (gstart h0 d0 calls) [].
  Proof.
    split; [apply locks_start|]. exists [], h0, d0. constructor; cbn.
    - constructor.
    - constructor.
    - constructor.
    - intros i out [H _]%lookup_replicate. discriminate.
    - done.
    - intros l. reflexivity.
    - done.
    - intros i c pc _ [-> _]%lookup_replicate. by destruct c.
    - done.
    - done.
  Qed.
  Lemma turns_step s pcs i st' done : turns (s, pcs) done -> gstep calls (s, pcs) i = Some st' ->
    exists more, turns st' (done ++ more).
  Proof.
    intros [HL (outs & H & D & W)] Hst.
    enough (exists more outs H D, turn calls h0 d0 st'.1 st'.2 (done ++ more) outs H D) as (more & Hm).
    { exists more. split; [by eapply locks_step|exact Hm]. }
    apply gstep_inv in Hst as (c & pc & s' & pc' & Hc & Hpc & Hs & ->). cbn [fst snd] in *.
    assert (Hi : i < length pcs) by (eapply lookup_lt_Some; exact Hpc).
    assert (Hwi : g_writer s = Some i <-> in_write pc = true).
    { rewrite (lo_w _ _ HL). cbn [fst snd]. rewrite Hpc. split; [intros (p & [= <-] & ?); done|intros ?; by exists pc]. }
    assert (Hhi : forall l, g_held s !! l = Some i <-> in_role c pc = Some l).
    { intros l. rewrite (lo_h _ _ HL). cbn [fst snd]. split; [|intros ?; by exists c, pc].
      intros (c0 & p & Hc0 & Hp & ?). rewrite Hc in Hc0. injection Hc0 as <-. rewrite Hpc in Hp. by injection Hp as <-. }
    pose proof (tu_dag _ _ _ _ _ _ _ _ _ W) as Wd. pose proof (tu_heap _ _ _ _ _ _ _ _ _ W) as Wh.
    pose proof (tu_found _ _ _ _ _ _ _ _ _ W i c pc Hc Hpc) as Wf.
    assert (Hfree : in_role c pc = None -> forall l, g_held s !! l <> Some i).
    { intros E l E'. apply Hhi in E'. congruence. }
    assert (Hout : in_write pc = false -> g_writer s <> Some i) by (intros E E'; apply Hwi in E'; congruence).
    assert (Hin : in_write pc = true -> mid h0 D c pc (g_dag s)).
    { intros E. apply Hwi in E. unfold dag_ok in Wd. rewrite E in Wd. destruct Wd as (c0 & p & Hc0 & Hp & Hm).
      rewrite Hc in Hc0. injection Hc0 as <-. rewrite Hpc in Hp. by injection Hp as <-. }
    assert (Hstay : (forall out, pc <> PDone out) -> (forall out, pc' <> PDone out) -> found d0 c pc' ->
       dag_ok calls h0 D s' (<[i := pc']> pcs) -> heap_ok calls H s' (<[i := pc']> pcs) ->
       exists more outs H D, turn calls h0 d0 s' (<[i := pc']> pcs) (done ++ more) outs H D).
    { intros. exists [], outs, H, D. rewrite app_nil_r. by eapply turn_stay. }
    assert (Hcommit : forall out H' D', pc' = PDone out -> (forall o, pc <> PDone o) -> alone (H, D) c = Ok (H', D', out) ->
       dag_ok calls h0 D' s' (<[i := PDone out]> pcs) -> heap_ok calls H' s' (<[i := PDone out]> pcs) ->
       exists more outs H D, turn calls h0 d0 s' (<[i := pc']> pcs) (done ++ more) outs H D).
    { intros out H' D' -> ? ? ? ?. exists [i], (outs ++ [out]), H', D'. by eapply turn_commit. }
    assert (Hnames : vr_name <$> H = vr_name <$> h0) by exact (tu_names _ _ _ _ _ _ _ _ _ W).
    destruct c as [ls|p cs|k name|add l ps|name]; destruct pc; cbn in Hs; try discriminate.
    - (* AddRole, lock *)
      destruct (g_lock s i) as [s1|] eqn:E; cbn in Hs; [|discriminate]. injection Hs as <- <-.
      apply g_lock_inv in E as (E1 & E2 & ->). apply Hstay; try done.
      + eapply dag_ok_self; [done|done|done|]. cbn. exists []. split; [done|]. unfold dag_ok in Wd. rewrite E1 in Wd. cbn. by rewrite Wd.
      + eapply heap_ok_frame; [exact Wh|by apply Hfree|done|done].
    - destruct (Hin eq_refl) as (pre & Hls & Hadd). destruct ls0 as [|l ls0].
      + injection Hs as <- <-. rewrite app_nil_r in Hls. subst pre. eapply (Hcommit _ H (g_dag s)); try done.
        * cbn [alone fst snd]. rewrite (add_roles_ext H h0) by done. rewrite Hadd. done.
        * eapply heap_ok_frame; [exact Wh|by apply Hfree|done|done].
      + destruct (g_heap s !! l) as [r|] eqn:El; cbn in Hs; [|discriminate]. injection Hs as <- <-. apply Hstay; try done.
        * eapply dag_ok_self; [done|done|by apply Hwi|]. cbn. exists (pre ++ [l]). split; [by rewrite <-app_assoc|].
          rewrite add_roles_app, Hadd. cbn. pose proof (heap_names H s pcs Wh l) as En.
          rewrite El, (names_lookup _ _ l Hnames) in En. destruct (h0 !! l) as [r'|]; [|discriminate]. injection En as En.
          by rewrite En.
        * eapply heap_ok_frame; [exact Wh|by apply Hfree|done|done].
    - destruct (g_lock s i) as [s1|] eqn:E; cbn in Hs; [|discriminate]. injection Hs as <- <-.
      apply g_lock_inv in E as (E1 & E2 & ->). apply Hstay; try done.
      + eapply dag_ok_self; [done|done|done|]. cbn. unfold dag_ok in Wd. by rewrite E1 in Wd.
      + eapply heap_ok_frame; [exact Wh|by apply Hfree|done|done].
    - pose proof (Hin eq_refl) as Hm. cbn in Hm.
      destruct (check_circular _ p cs) as [[e|]| |] eqn:E; try discriminate; injection Hs as <- <-; apply Hstay; try done.
      + eapply dag_ok_self; [done|done|by apply Hwi|]. cbn. unfold dag_add_child. rewrite <-Hm, E. done.
      + eapply heap_ok_frame; [exact Wh|by apply Hfree|done|done].
      + eapply dag_ok_self; [done|done|by apply Hwi|]. cbn. split; [done|]. by rewrite <-Hm.
      + eapply heap_ok_frame; [exact Wh|by apply Hfree|done|done].
    - destruct (Hin eq_refl) as [Hm Hck]. injection Hs as <- <-. apply Hstay; try done.
      + eapply dag_ok_self; [done|done|by apply Hwi|]. cbn. unfold dag_add_child. rewrite Hck. cbn. by rewrite Hm.
      + eapply heap_ok_frame; [exact Wh|by apply Hfree|done|done].
    - pose proof (Hin eq_refl) as Hm. cbn in Hm. injection Hs as <- <-. eapply (Hcommit _ H (g_dag s)); try done.
      + cbn [alone fst snd]. rewrite Hm. done.
      + eapply heap_ok_frame; [exact Wh|by apply Hfree|done|done].
    - destruct (g_rlock s i) as [s1|] eqn:E; cbn in Hs; [|discriminate]. injection Hs as <- <-.
      apply g_rlock_inv in E as (E1 & ->). apply Hstay; try done.
      + eapply dag_ok_frame; [exact Wd|by apply Hout|done|done].
      + eapply heap_ok_frame; [exact Wh|by apply Hfree|done|done].
    - injection Hs as <- <-.
      assert (HD : g_dag s = D).
      { unfold dag_ok in Wd. destruct (g_writer s) as [j|] eqn:Ej; [|done]. exfalso.
        assert (Hr : i ∈ g_readers s) by (apply (lo_r _ _ HL); by exists PRead).
        pose proof (lo_ex _ _ HL j Ej) as Hx. cbn in Hx. rewrite Hx in Hr. set_solver. }
      assert (Hnd : i ∉ done) by (eapply not_done; [exact W|exact Hpc|done]).
      pose proof (tu_cache _ _ _ _ _ _ _ _ _ W i k name Hc Hnd) as Ec.
      assert (Hf : found d0 (CResolve k name) match d_resolved (g_dag s) !! name with Some a => PHit a | None => PMiss end).
      { rewrite HD, Ec. destruct (d_resolved d0 !! name) eqn:E; exact E. }
      apply Hstay; try done.
      + intros out. by destruct (d_resolved (g_dag s) !! name).
      + eapply dag_ok_frame; [exact Wd|by apply Hout|done|done].
      + eapply heap_ok_frame; [exact Wh|by apply Hfree|done|done].
    - injection Hs as <- <-. assert (Hnd : i ∉ done) by (eapply not_done; [exact W|exact Hpc|done]).
      pose proof (tu_cache _ _ _ _ _ _ _ _ _ W i k name Hc Hnd) as Ec. cbn in Wf. rewrite Wf in Ec.
      eapply (Hcommit _ H D); try done.
      + rewrite alone_resolve. cbn [fst snd]. unfold resolve. rewrite Ec. done.
      + eapply dag_ok_frame; [exact Wd|by apply Hout|done|done].
      + eapply heap_ok_frame; [exact Wh|by apply Hfree|done|done].
    - injection Hs as <- <-. apply Hstay; try done.
      + eapply dag_ok_frame; [exact Wd|by apply Hout|done|done].
      + eapply heap_ok_frame; [exact Wh|by apply Hfree|done|done].
    - destruct (g_lock s i) as [s1|] eqn:E; cbn in Hs; [|discriminate]. injection Hs as <- <-.
      apply g_lock_inv in E as (E1 & E2 & ->). apply Hstay; try done.
      + eapply dag_ok_self; [done|done|done|]. cbn. unfold dag_ok in Wd. rewrite E1 in Wd. split; [exact Wd|]. exists (2 + edge_count (d_edges D)). reflexivity.
      + eapply heap_ok_frame; [exact Wh|by apply Hfree|done|done].
    - destruct (Hin eq_refl) as [Hm [fuel Hb]]. cbn in Wf.
      assert (Hnd : i ∉ done) by (eapply not_done; [exact W|exact Hpc|done]).
      pose proof (tu_cache _ _ _ _ _ _ _ _ _ W i k name Hc Hnd) as Ec. rewrite Wf in Ec.
      destruct fuel as [|fuel].
      { exfalso. apply (resolve_not_hang (contrib_of k) h0 D name). unfold resolve. rewrite Ec, <-Hb. done. }
      destruct queue as [|x q].
      + injection Hs as <- <-. apply Hstay; try done.
        * eapply dag_ok_self; [done|done|by apply Hwi|]. cbn [mid g_dag g_set_dag]. unfold resolve. rewrite Ec, <-Hb. cbn. by rewrite Hm.
        * eapply heap_ok_frame; [exact Wh|by apply Hfree|done|done].
      + destruct (loop_round k _ _ visited result x q) as [pc1|] eqn:E; cbn in Hs; [|discriminate]. injection Hs as <- <-.
        assert (Hmid : mid h0 D (CResolve k name) pc1 (g_dag s)).
        { unfold loop_round in E. cbn [bfs] in Hb. case_bool_decide as Hx.
          - injection E as <-. split; [done|]. by exists fuel.
          - rewrite Hm in E. destruct (d_roles D !! x) as [l|] eqn:El.
            + pose proof (contrib_heap _ _ _ _ _ _ _ _ _ W Hc Wf l) as Econ.
              destruct (g_heap s !! l) as [r|]; cbn in E; [|discriminate]. injection E as <-.
              destruct (h0 !! l) as [r'|]; [|discriminate]. injection Econ as Econ. split; [done|]. exists fuel. by rewrite Econ.
            + injection E as <-. split; [done|]. by exists fuel. }
        apply loop_round_pc in E as (V' & R' & q' & ->). apply Hstay; try done.
        * eapply dag_ok_self; [done|done|by apply Hwi|]. exact Hmid.
        * eapply heap_ok_frame; [exact Wh|by apply Hfree|done|done].
    - pose proof (Hin eq_refl) as Hm. cbn in Hm, Wf. injection Hs as <- <-. eapply (Hcommit _ H (g_dag s)); try done.
      + rewrite alone_resolve. cbn [fst snd]. rewrite (resolve_ext _ H h0), Hm; [done|]. by eapply contrib_H.
      + eapply heap_ok_frame; [exact Wh|by apply Hfree|done|done].
    - destruct (g_held s !! l) eqn:E; [discriminate|]. injection Hs as <- <-. apply Hstay; try done.
      + eapply dag_ok_frame; [exact Wd|by apply Hout|done|done].
      + intros l'. cbn [g_held g_set_held g_heap]. destruct (decide (l' = l)) as [->|Hl'].
        * rewrite lookup_insert. pose proof (Wh l) as Wl. rewrite E in Wl. rewrite Forall_lookup in Hv. specialize (Hv _ _ Hc). cbn in Hv.
          assert (Hl : is_Some (H !! l)) by (by apply (names_some h0)). destruct Hl as [r Hr].
          exists add, ps, [], ps, r. split; [done|]. split; [by apply list_lookup_insert|]. split; [done|].
          rewrite perm_update_nil. split; [done|]. by rewrite Wl.
        * rewrite lookup_insert_ne by done. specialize (Wh l'). specialize (Hfree eq_refl l').
          destruct (g_held s !! l') as [j|]; [|done]. destruct Wh as (a & qs & pre & rest & r & Hcj & Hpj & Hr).
          exists a, qs, pre, rest, r. split; [done|]. split; [|done]. rewrite list_lookup_insert_ne; [done|congruence].
    - assert (Hli : g_held s !! l = Some i) by (by apply Hhi). pose proof (Wh l) as Wl. rewrite Hli in Wl.
      destruct Wl as (a & qs & pre & rest & r & Hcj & Hpj & Hqs & Hr & Hr').
      rewrite Hc in Hcj. injection Hcj as <- <-. rewrite Hpc in Hpj. injection Hpj as <-.
      assert (Hoth : forall l' j, l' <> l -> g_held s !! l' = Some j -> j <> i).
      { intros l' j Hne Hj ->. apply Hhi in Hj. cbn in Hj. congruence. }
      destruct ps0 as [|x ps0].
      + injection Hs as <- <-. rewrite app_nil_r in Hqs. subst pre.
        eapply (Hcommit _ (<[l := perm_update add r ps]> H) D); try done.
        * cbn [alone fst snd]. rewrite Hr. done.
        * eapply dag_ok_frame; [exact Wd|by apply Hout|done|done].
        * intros l'. cbn [g_held g_set_held g_heap]. destruct (decide (l' = l)) as [->|Hl'].
          -- rewrite lookup_delete, Hr', list_lookup_insert; [done|]. by eapply lookup_lt_Some.
          -- rewrite lookup_delete_ne by done. specialize (Wh l'). specialize (Hoth l').
             rewrite list_lookup_insert_ne by done.
             destruct (g_held s !! l') as [j|]; [|done]. destruct Wh as (a & qs & pre' & rest & r0 & Hcj & Hpj & Hr0).
             exists a, qs, pre', rest, r0. split; [done|]. split; [|done]. rewrite list_lookup_insert_ne; [done|].
             intros ->. by apply (Hoth j).
      + rewrite Hr' in Hs. cbn in Hs. injection Hs as <- <-. apply Hstay; try done.
        * eapply dag_ok_frame; [exact Wd|by apply Hout|done|done].
        * intros l'. cbn [g_held g_set_heap g_heap]. destruct (decide (l' = l)) as [->|Hl'].
          -- rewrite Hli. exists add, ps, (pre ++ [x]), ps0, r. split; [done|]. split; [by apply list_lookup_insert|].
             split; [by rewrite <-app_assoc|]. split; [done|]. rewrite perm_update_snoc.
             apply list_lookup_insert. by eapply lookup_lt_Some.
          -- specialize (Wh l'). specialize (Hoth l'). rewrite list_lookup_insert_ne by done.
             destruct (g_held s !! l') as [j|]; [|done]. destruct Wh as (a & qs & pre' & rest & r0 & Hcj & Hpj & Hr0).
             exists a, qs, pre', rest, r0. split; [done|]. split; [|done]. rewrite list_lookup_insert_ne; [done|].
             intros ->. by apply (Hoth j).
    - injection Hs as <- <-. eapply (Hcommit _ H D); try done.
      + cbn [alone fst snd]. do 3 f_equal. unfold dag_ok in Wd. destruct (g_writer s) as [j|] eqn:Ej; [|by rewrite Wd].
        destruct Wd as (cj & pj & Hcj & Hpj & Hm). f_equal. clear -Hm Hcj Hc Hap.
        destruct cj as [ls|p cs|k name'|add l ps|name']; destruct pj; cbn in Hm; try done.
        * exfalso. by apply (ap_get _ _ Hap i j name ls Hc).
        * by rewrite Hm.
        * destruct Hm as [-> _]. done.
        * unfold dag_add_child in Hm. apply rbind_inv in Hm as (er & _ & [= E]). destruct er; injection E as <- <-; done.
        * destruct Hm as [-> _]. done.
        * unfold resolve in Hm. destruct (d_resolved D !! name'); [by injection Hm as <- <-|].
          apply rbind_inv in Hm as (a & _ & [= <- <-]). done.
      + eapply dag_ok_frame; [exact Wd|by apply Hout|done|done].
      + eapply heap_ok_frame; [exact Wh|by apply Hfree|done|done].
  Qed.
  Lemma turns_run sched st st' done : turns st done -> grun calls st sched = Some st' ->
    exists more, turns st' (done ++ more) /\
      forall now later st1, sched = now ++ later -> grun calls st now = Some st1 ->
        exists m1 m2, more = m1 ++ m2 /\ turns st1 (done ++ m1).
  Proof.
    revert st done. induction sched as [|i sched IH]; intros st done HT; simpl.
    - intros [= <-]. exists []. rewrite app_nil_r. split; [done|]. intros now later st1 E Hr.
      symmetry in E. apply app_nil in E as [-> ->]. injection Hr as <-. exists [], []. split; [reflexivity|]. by rewrite app_nil_r.
    - destruct (gstep calls st i) as [st1|] eqn:E; simpl; [|discriminate]. intros Hr. destruct st as [s pcs].
      destruct (turns_step _ _ _ _ _ HT E) as [m1 H1]. destruct (IH _ _ H1 Hr) as (m2 & H2 & Hsplit).
      exists (m1 ++ m2). rewrite app_assoc. split; [done|]. intros now later st2 Es Hr2. destruct now as [|j now].
      + injection Hr2 as <-. exists [], (m1 ++ m2). split; [reflexivity|]. by rewrite app_nil_r.
      + injection Es as <- Es. simpl in Hr2. rewrite E in Hr2. simpl in Hr2.
        destruct (Hsplit now later st2 Es Hr2) as (n1 & n2 & -> & Ht). exists (m1 ++ n1), n2. split; [by rewrite app_assoc|]. by rewrite app_assoc.
  Qed.
  Lemma apart_in_turn : as_if_in_turn h0 d0 calls.
  Proof.
    intros sched s pcs Hm Hover.
    destruct (turns_run _ _ _ _ turns_start Hm) as (done & [HL (outs & H & D & W)] & Hsplit). cbn [fst snd app] in W. rewrite Forall_lookup in Hover.
    assert (Hd : g_dag s = D).
    { pose proof (tu_dag _ _ _ _ _ _ _ _ _ W) as Wd. unfold dag_ok in Wd. destruct (g_writer s) as [i|] eqn:E; [|done].
      apply (lo_w _ _ HL) in E as (pc & Hpc & Hin). destruct (Hover _ _ Hpc) as [o ->]. discriminate. }
    assert (Hh : g_heap s = H).
    { apply list_eq. intros l. pose proof (tu_heap _ _ _ _ _ _ _ _ _ W l) as Wh. destruct (g_held s !! l) as [i|] eqn:E; [|done].
      apply (lo_h _ _ HL) in E as (c & pc & _ & Hpc & Hin). destruct (Hover _ _ Hpc) as [o ->]. by destruct c. }
    pose proof (lo_len _ _ HL) as Hlen. cbn in Hlen.
    assert (Hall : forall i, i < length calls -> i ∈ done).
    { intros i Hi. destruct (lookup_lt_is_Some_2 pcs i) as [pc Hpc]; [lia|]. destruct (Hover _ _ Hpc) as [o ->]. by eapply tu_all. }
    exists done, outs. rewrite Hd, Hh. split; [|split; [exact (tu_run _ _ _ _ _ _ _ _ _ W)|split; [exact (tu_outs _ _ _ _ _ _ _ _ _ W)|]]].
    - apply NoDup_Permutation; [exact (tu_nodup _ _ _ _ _ _ _ _ _ W)|apply NoDup_seq|]. intros i. rewrite elem_of_seq. split.
      + intros Hi. destruct (outs_in (tu_outs _ _ _ _ _ _ _ _ _ W) i Hi) as [o Ho]. apply lookup_lt_Some in Ho. lia.
      + intros [_ Hi]. by apply Hall.
    - intros now later st1 i j out Es Hnow Hi Hj.
      destruct (Hsplit now later st1 Es Hnow) as (m1 & m2 & -> & [HL1 (outs1 & H1 & D1 & W1)]). cbn [app] in W1.
      exists m1, m2. split; [done|]. split; [by eapply (tu_all _ _ _ _ _ _ _ _ _ W1)|].
      assert (Hjd : j ∈ m1 ++ m2).
      { apply Hall. apply lookup_lt_Some in Hj. pose proof (lo_len _ _ HL1) as Hl. lia. }
      apply elem_of_app in Hjd as [Hjd|Hjd]; [|done].
      destruct (outs_in (tu_outs _ _ _ _ _ _ _ _ _ W1) j Hjd) as [o Ho]. rewrite Hj in Ho. discriminate.
  Qed.
End turn.
