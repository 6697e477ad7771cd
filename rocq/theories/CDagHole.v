(** What can go wrong when calls on a role graph overlap. *)
From Verif Require Import DagProofs V2Trav CDagModel CDagProofs CDagTurn CDagSpec.

(** ** Running *)
Definition hops (calls : list gcall) (st st' : gsh * list gpc) : Prop := exists sched, grun calls st sched = Some st'.
Lemma hops_refl calls st : hops calls st st.
Proof. by exists []. Qed.
Lemma hops_trans calls st1 st2 st3 : hops calls st1 st2 -> hops calls st2 st3 -> hops calls st1 st3.
Proof. intros [a Ha] [b Hb]. exists (a ++ b). rewrite grun_app, Ha. exact Hb. Qed.
Lemma hops_one calls s pcs i c pc s' pc' st : calls !! i = Some c -> pcs !! i = Some pc ->
  gthread_step i s c pc = Some (s', pc') -> hops calls (s', <[i := pc']> pcs) st -> hops calls (s, pcs) st.
Proof.
  intros Hc Hpc Hs [b Hb]. exists (i :: b). cbn [grun]. unfold gstep. rewrite Hc. cbn [fst snd mbind option_bind].
  rewrite Hpc. cbn [mbind option_bind]. rewrite Hs. exact Hb.
Qed.
Lemma loop_hops calls i k name h d w rd hl pcs fuel V R Q R' : calls !! i = Some (CResolve k name) ->
  pcs !! i = Some (PLoop V R Q) -> bfs (contrib_of k) fuel h d V R Q = Ok R' ->
  hops calls (GSh h d w rd hl, pcs)
    (GSh h (Dag (d_roles d) (d_edges d) (<[name := R']> (d_resolved d))) w rd hl, <[i := PStored R']> pcs).
Proof.
  intros Hc. revert pcs V R Q. induction fuel as [|fuel IH]; intros pcs V R Q Hpc; cbn [bfs]; [discriminate|].
  assert (Hi : i < length pcs) by (eapply lookup_lt_Some; exact Hpc).
  assert (Hgo : forall V' R1 Q', gthread_step i (GSh h d w rd hl) (CResolve k name) (PLoop V R Q) = Some (GSh h d w rd hl, PLoop V' R1 Q') ->
     bfs (contrib_of k) fuel h d V' R1 Q' = Ok R' ->
     hops calls (GSh h d w rd hl, pcs)
       (GSh h (Dag (d_roles d) (d_edges d) (<[name := R']> (d_resolved d))) w rd hl, <[i := PStored R']> pcs)).
  { intros V' R1 Q' Hs Hb. eapply hops_one; [exact Hc|exact Hpc|exact Hs|].
    specialize (IH (<[i := PLoop V' R1 Q']> pcs) V' R1 Q' (list_lookup_insert _ _ _ Hi) Hb).
    rewrite list_insert_insert in IH. exact IH. }
  destruct Q as [|x Q].
  - intros [= ->]. eapply hops_one; [exact Hc|exact Hpc|reflexivity|]. apply hops_refl.
  - intros Hb. cbn [gthread_step g_dag g_heap] in Hgo. unfold loop_round in Hgo. case_bool_decide as Hx.
    + by eapply Hgo.
    + destruct (d_roles d !! x) as [l|].
      * destruct (h !! l) as [r|]; [|discriminate]. by eapply Hgo.
      * by eapply Hgo.
Qed.
Definition remembered (d : dag) (name : string) (a : gset string) : dag :=
  Dag (d_roles d) (d_edges d) (<[name := a]> (d_resolved d)).
(** From the second lock on, alone *)
Lemma rest_hops calls i k name h d hl (pcs : list gpc) fuel a : calls !! i = Some (CResolve k name) -> pcs !! i = Some PWait ->
  bfs (contrib_of k) fuel h d ∅ ∅ [name] = Ok a ->
  hops calls (GSh h d None ∅ hl, pcs) (GSh h (remembered d name a) None ∅ hl, <[i := PDone (OSet a)]> pcs).
Proof.
  intros Hc Hpc Hb. assert (Hi : i < length pcs) by (eapply lookup_lt_Some; exact Hpc).
  eapply hops_one; [exact Hc|exact Hpc|reflexivity|]. eapply hops_trans.
  { eapply loop_hops; [exact Hc|by apply list_lookup_insert|exact Hb]. }
  rewrite list_insert_insert.
  eapply hops_one; [exact Hc|by apply list_lookup_insert|reflexivity|]. rewrite list_insert_insert. apply hops_refl.
Qed.
(** Up to the second lock, nothing being remembered *)
Lemma miss_hops calls i k name h d hl (pcs : list gpc) : calls !! i = Some (CResolve k name) -> pcs !! i = Some PStart ->
  d_resolved d !! name = None ->
  hops calls (GSh h d None ∅ hl, pcs) (GSh h d None ∅ hl, <[i := PWait]> pcs).
Proof.
  intros Hc Hpc Hn. assert (Hi : i < length pcs) by (eapply lookup_lt_Some; exact Hpc).
  eapply hops_one; [exact Hc|exact Hpc|reflexivity|].
  eapply hops_one; [exact Hc|by apply list_lookup_insert|reflexivity|]. rewrite list_insert_insert.
  cbn [g_dag g_set_readers]. rewrite Hn.
  eapply hops_one; [exact Hc|by apply list_lookup_insert|reflexivity|]. rewrite list_insert_insert.
  unfold g_runlock, g_set_readers. cbn. replace ((({[i]} ∪ ∅) ∖ {[i]}) : gset nat) with (∅ : gset nat) by set_solver.
  apply hops_refl.
Qed.
Lemma child_hops calls i p cs h d d' hl (pcs : list gpc) : calls !! i = Some (CAddChild p cs) -> pcs !! i = Some PStart ->
  dag_add_child d p cs = Ok (d', None) ->
  hops calls (GSh h d None ∅ hl, pcs) (GSh h d' None ∅ hl, <[i := PDone (OErr None)]> pcs).
Proof.
  intros Hc Hpc Ha. assert (Hi : i < length pcs) by (eapply lookup_lt_Some; exact Hpc).
  unfold dag_add_child in Ha. apply rbind_inv in Ha as (er & E & Ha). destruct er as [e|]; [discriminate|].
  eapply hops_one; [exact Hc|exact Hpc|reflexivity|].
  eapply hops_one; [exact Hc|by apply list_lookup_insert|cbn [gthread_step g_dag g_set_writer]; rewrite E; reflexivity|]. rewrite list_insert_insert.
  eapply hops_one; [exact Hc|by apply list_lookup_insert|reflexivity|]. rewrite list_insert_insert.
  eapply hops_one; [exact Hc|by apply list_lookup_insert|reflexivity|]. rewrite list_insert_insert.
  injection Ha as <-. apply hops_refl.
Qed.

(** ** Two resolutions of one role, an edge being added meanwhile *)
Definition two_and_edge (k : bool) (name p : string) (cs : list string) : list gcall :=
  [CResolve k name; CAddChild p cs; CResolve k name].
Lemma two_answers k h d name p cs d1 fuel1 a fuel2 b : d_resolved d !! name = None -> dag_add_child d p cs = Ok (d1, None) ->
  bfs (contrib_of k) fuel1 h d ∅ ∅ [name] = Ok a -> bfs (contrib_of k) fuel2 h d1 ∅ ∅ [name] = Ok b ->
  met h d (two_and_edge k name p cs)
    (GSh h (remembered d1 name b) None ∅ ∅, [PDone (OSet a); PDone (OErr None); PDone (OSet b)]).
Proof.
  intros Hn Ha H1 H2. unfold met, gstart. cbn [length two_and_edge replicate].
  change (hops (two_and_edge k name p cs) (GSh h d None ∅ ∅, [PStart; PStart; PStart])
    (GSh h (remembered d1 name b) None ∅ ∅, [PDone (OSet a); PDone (OErr None); PDone (OSet b)])).
  eapply hops_trans; [eapply (miss_hops _ 0); [reflexivity|reflexivity|exact Hn]|]. cbn [insert list_insert].
  eapply hops_trans; [eapply (miss_hops _ 2); [reflexivity|reflexivity|exact Hn]|]. cbn [insert list_insert].
  eapply hops_trans; [eapply (rest_hops _ 0); [reflexivity|reflexivity|exact H1]|]. cbn [insert list_insert].
  assert (Ha' : dag_add_child (remembered d name a) p cs = Ok (remembered d1 name a, None)).
  { unfold dag_add_child in *. cbn [remembered d_edges d_roles d_resolved]. apply rbind_inv in Ha as (er & E & Ha). rewrite E.
    destruct er as [e|]; [discriminate|]. injection Ha as <-. reflexivity. }
  eapply hops_trans; [eapply (child_hops _ 1); [reflexivity|reflexivity|exact Ha']|]. cbn [insert list_insert].
  assert (H2' : bfs (contrib_of k) fuel2 h (remembered d1 name a) ∅ ∅ [name] = Ok b).
  { rewrite <-H2. clear. generalize (∅ : gset string) at 1 3 as V. generalize (∅ : gset string) as R. generalize [name] as Q.
    intros Q R V. revert Q R V. induction fuel2 as [|f IH]; intros Q R V; [reflexivity|]. cbn [bfs].
    destruct Q as [|x Q]; [reflexivity|]. cbn [remembered d_edges d_roles]. case_bool_decide; [apply IH|].
    destruct (d_roles d1 !! x) as [l|]; [|apply IH]. destruct (h !! l); [apply IH|reflexivity]. }
  eapply hops_trans; [eapply (rest_hops _ 2); [reflexivity|reflexivity|exact H2']|]. cbn [insert list_insert].
  unfold remembered. cbn [d_edges d_roles d_resolved]. rewrite insert_insert. apply hops_refl.
Qed.
(** One after the other, all resolutions of a role agree. *)
Lemma alone_keeps hd c hd1 out name a : alone hd c = Ok (hd1, out) -> d_resolved hd.2 !! name = Some a ->
  d_resolved hd1.2 !! name = Some a /\ forall k, c = CResolve k name -> out = OSet a.
Proof.
  intros Ha Hn. destruct hd as [H D]. destruct c as [ls|p cs|k' name'|add l ps|name']; cbn [fst snd] in *.
  - cbn in Ha. apply rbind_inv in Ha as (d1 & E & [= <- <-]). apply add_roles_rest in E as [_ E]. cbn. rewrite E. split; [done|]. discriminate.
  - cbn in Ha. apply rbind_inv in Ha as (r & E & [= <- <-]). destruct r as [d1 e]. unfold dag_add_child in E.
    apply rbind_inv in E as (er & _ & [= E]). split; [|discriminate]. destruct er; injection E as <- <-; done.
  - rewrite alone_resolve in Ha. apply rbind_inv in Ha as (r & E & [= <- <-]). cbn [fst snd] in *. unfold resolve in E.
    destruct (decide (name' = name)) as [->|Hne].
    + rewrite Hn in E. injection E as <-. cbn. split; [done|]. done.
    + split; [|congruence]. destruct (d_resolved D !! name') as [x|] eqn:Ex; [by injection E as <-|].
      apply rbind_inv in E as (x & _ & [= <-]). cbn. by rewrite lookup_insert_ne.
  - cbn in Ha. destruct (H !! l); [|discriminate]. injection Ha as <- <-. split; [done|]. discriminate.
  - cbn in Ha. injection Ha as <- <-. split; [done|]. discriminate.
Qed.
Lemma turn_keeps calls hd order hd' outs name a : in_turn calls hd order hd' outs -> d_resolved hd.2 !! name = Some a ->
  Forall2 (fun i out => forall k, calls !! i = Some (CResolve k name) -> out = OSet a) order outs.
Proof.
  induction 1 as [hd|hd i c hd1 out order hd' outs Hi Ha H IH]; intros Hn; constructor.
  - intros k Hk. rewrite Hi in Hk. injection Hk as ->. by apply (alone_keeps _ _ _ _ _ _ Ha Hn) with k.
  - apply IH. exact (proj1 (alone_keeps _ _ _ _ _ _ Ha Hn)).
Qed.
Lemma turn_agrees calls hd order hd' outs name : in_turn calls hd order hd' outs ->
  exists a, Forall2 (fun i out => forall k, calls !! i = Some (CResolve k name) -> out = OSet a) order outs.
Proof.
  induction 1 as [hd|hd i c hd1 out order hd' outs Hi Ha H IH]; [exists ∅; constructor|].
  assert (Hdec : (exists k, c = CResolve k name) \/ ~ exists k, c = CResolve k name).
  { destruct c as [ls|p cs|k n|add l ps|n]; try (right; intros [k' E]; discriminate).
    destruct (decide (n = name)) as [->|Hne]; [left; by exists k|]. right. intros [k' [= E1 E2]]. done. }
  destruct Hdec as [[k ->]|Hno].
  - rewrite alone_resolve in Ha. apply rbind_inv in Ha as (r & E & [= <- <-]). exists r.2. constructor; [done|].
    eapply turn_keeps; [exact H|]. cbn [snd]. unfold resolve in E. destruct (d_resolved hd.2 !! name) as [x|] eqn:Ex.
    + injection E as <-. exact Ex.
    + apply rbind_inv in E as (x & _ & [= <-]). cbn. apply lookup_insert.
  - destruct IH as [a Hr]. exists a. constructor; [|exact Hr]. intros k Hk. exfalso. apply Hno. exists k. congruence.
Qed.

Lemma bfs_full k h d name : dag_wf h d -> exists a, bfs (contrib_of k) (2 + edge_count (d_edges d)) h d ∅ ∅ [name] = Ok a.
Proof. intros Hwf. apply (bfs_returns (contrib_of k) h d _ ∅ ∅ [name] (d_edges d)); [done|done|simpl; lia]. Qed.
Lemma add_child_roles d p cs d1 e : dag_add_child d p cs = Ok (d1, e) -> d_roles d1 = d_roles d.
Proof. intros Ha. unfold dag_add_child in Ha. apply rbind_inv in Ha as (er & _ & [= E]). by destruct er; injection E as <- <-. Qed.
Lemma hole_two h d name p cs d1 : dag_wf h d -> d_resolved d !! name = None -> dag_add_child d p cs = Ok (d1, None) ->
  exists s a b, met h d (two_and_edge true name p cs) (s, [PDone (OSet a); PDone (OErr None); PDone (OSet b)]) /\
    (forall x, x ∈ a <-> confers h d name x) /\ (forall x, x ∈ b <-> confers h d1 name x) /\
    d_resolved (g_dag s) !! name = Some b.
Proof.
  intros Hwf Hn Ha. destruct (bfs_full true h d name Hwf) as [a H1].
  assert (Hwf1 : dag_wf h d1). { intros n l Hl. rewrite (add_child_roles _ _ _ _ _ Ha) in Hl. by apply (Hwf n). }
  destruct (bfs_full true h d1 name Hwf1) as [b H2].
  eexists _, a, b. split; [exact (two_answers true h d name p cs d1 _ a _ b Hn Ha H1 H2)|].
  split; [exact (bfs_exact _ _ _ _ _ _ H1)|]. split; [exact (bfs_exact _ _ _ _ _ _ H2)|]. apply lookup_insert.
Qed.
Lemma hole_two_children h d name p cs d1 : dag_wf h d -> d_resolved d !! name = None -> dag_add_child d p cs = Ok (d1, None) ->
  exists s a b, met h d (two_and_edge false name p cs) (s, [PDone (OSet a); PDone (OErr None); PDone (OSet b)]) /\
    (forall x, x ∈ a <-> includes h d name x) /\ (forall x, x ∈ b <-> includes h d1 name x) /\
    d_resolved (g_dag s) !! name = Some b.
Proof.
  intros Hwf Hn Ha. destruct (bfs_full false h d name Hwf) as [a H1].
  assert (Hwf1 : dag_wf h d1). { intros n l Hl. rewrite (add_child_roles _ _ _ _ _ Ha) in Hl. by apply (Hwf n). }
  destruct (bfs_full false h d1 name Hwf1) as [b H2].
  eexists _, a, b. split; [exact (two_answers false h d name p cs d1 _ a _ b Hn Ha H1 H2)|].
  assert (Hinc : forall d' x, (exists n r, rtc (below h d') name n /\ registered h d' n r /\ x ∈ name_of r) <-> includes h d' name x).
  { intros d' x. split; intros (n & r & Hr & Hg & Hx); exists n, r; (split; [done|]); (split; [done|]).
    - unfold name_of in Hx. by apply elem_of_singleton in Hx.
    - unfold name_of. by apply elem_of_singleton. }
  split; [intros x; rewrite <-Hinc; apply (bfs_exact _ _ _ _ _ _ H1)|].
  split; [intros x; rewrite <-Hinc; apply (bfs_exact _ _ _ _ _ _ H2)|]. apply lookup_insert.
Qed.
(** Whenever the edge makes a difference, no order explains the answers. *)
Lemma no_order k name p cs h d hd' order outs a b o : order ≡ₚ seq 0 3 ->
  in_turn (two_and_edge k name p cs) (h, d) order hd' outs ->
  Forall2 (fun i out => [PDone (OSet a); PDone o; PDone (OSet b)] !! i = Some (PDone out)) order outs -> a = b.
Proof.
  intros Hp Ht Ho. destruct (turn_agrees _ _ _ _ _ name Ht) as [c Hc].
  assert (H : forall i k' out, i ∈ order -> two_and_edge k name p cs !! i = Some (CResolve k' name) ->
    [PDone (OSet a); PDone o; PDone (OSet b)] !! i = Some (PDone out) -> out = OSet c).
  { clear Ht Hp. intros i k' out Hi Hk Hout. apply elem_of_list_lookup in Hi as [n Hi].
    destruct (Forall2_lookup_l _ _ _ _ _ Ho Hi) as (out1 & H1 & E1). destruct (Forall2_lookup_l _ _ _ _ _ Hc Hi) as (out2 & H2 & E2).
    rewrite H1 in H2. injection H2 as <-. rewrite E1 in Hout. injection Hout as <-. by apply E2 with k'. }
  assert (E0 : OSet a = OSet c) by (apply (H 0 k); [rewrite Hp; apply elem_of_seq; lia|reflexivity|reflexivity]).
  assert (E2 : OSet b = OSet c) by (apply (H 2 k); [rewrite Hp; apply elem_of_seq; lia|reflexivity|reflexivity]).
  congruence.
Qed.
Lemma hole_not_in_turn h d name p cs d1 x : dag_wf h d -> d_resolved d !! name = None -> dag_add_child d p cs = Ok (d1, None) ->
  confers h d1 name x -> ~ confers h d name x -> ~ as_if_in_turn h d (two_and_edge true name p cs).
Proof.
  intros Hwf Hn Ha H1 H0 H. destruct (hole_two h d name p cs d1 Hwf Hn Ha) as (s & a & b & [sched Hm] & HA & HB & _).
  destruct (H sched s _ Hm) as (order & outs & Hp & Ht & Ho & _).
  { repeat (constructor; [by eexists|]). constructor. }
  pose proof (no_order _ _ _ _ _ _ _ _ _ _ _ _ Hp Ht Ho) as ->. apply H0, HA, HB, H1.
Qed.

(** ** Permissions granted one by one *)
Lemma perm_hops calls i add l qs h d w rd hl (pcs : list gpc) r ps1 ps2 : calls !! i = Some (CPerm add l qs) ->
  pcs !! i = Some (PPermIn (ps1 ++ ps2)) -> h !! l = Some r ->
  hops calls (GSh h d w rd hl, pcs) (GSh (<[l := perm_update add r ps1]> h) d w rd hl, <[i := PPermIn ps2]> pcs).
Proof.
  intros Hc. revert h r pcs. induction ps1 as [|p ps1 IH]; intros h r pcs Hpc Hl.
  - cbn [app] in Hpc. rewrite perm_update_nil, (list_insert_id h l r Hl), (list_insert_id pcs i _ Hpc). apply hops_refl.
  - assert (Hi : i < length pcs) by (eapply lookup_lt_Some; exact Hpc).
    assert (Hll : l < length h) by (eapply lookup_lt_Some; exact Hl).
    eapply hops_one; [exact Hc|exact Hpc|cbn [gthread_step app g_heap]; rewrite Hl; reflexivity|].
    specialize (IH (<[l := perm_update add r [p]]> h) (perm_update add r [p]) (<[i := PPermIn (ps1 ++ ps2)]> pcs)
      (list_lookup_insert _ _ _ Hi) (list_lookup_insert _ _ _ Hll)).
    rewrite !list_insert_insert in IH.
    assert (E : perm_update add (perm_update add r [p]) ps1 = perm_update add r (p :: ps1)).
    { clear. destruct add; cbn; unfold vrole_add, vrole_remove; cbn; f_equal; set_solver. }
    rewrite E in IH. exact IH.
Qed.
Lemma hole_half h d name l r ps1 ps2 : dag_wf h d -> d_resolved d !! name = None -> h !! l = Some r ->
  exists s a, met h d [CResolve true name; CPerm true l (ps1 ++ ps2)] (s, [PDone (OSet a); PDone OUnit]) /\
    (forall x, x ∈ a <-> confers (<[l := vrole_add r ps1]> h) d name x) /\ d_resolved (g_dag s) !! name = Some a /\
    g_heap s = <[l := vrole_add r (ps1 ++ ps2)]> h.
Proof.
  intros Hwf Hn Hl. assert (Hll : l < length h) by (eapply lookup_lt_Some; exact Hl).
  assert (Hwf1 : dag_wf (<[l := vrole_add r ps1]> h) d).
  { intros n m Hm. destruct (Hwf n m Hm) as [r' Hr']. destruct (decide (m = l)) as [->|Hne].
    - exists (vrole_add r ps1). by apply list_lookup_insert.
    - exists r'. by rewrite list_lookup_insert_ne. }
  destruct (bfs_full true _ d name Hwf1) as [a H1].
  eexists (GSh (<[l := vrole_add r (ps1 ++ ps2)]> h) (remembered d name a) None ∅ ∅), a.
  split; [|split; [exact (bfs_exact _ _ _ _ _ _ H1)|split; [apply lookup_insert|reflexivity]]].
  unfold met, gstart. cbn [length replicate].
  change (hops [CResolve true name; CPerm true l (ps1 ++ ps2)] (GSh h d None ∅ ∅, [PStart; PStart])
    (GSh (<[l := vrole_add r (ps1 ++ ps2)]> h) (remembered d name a) None ∅ ∅, [PDone (OSet a); PDone OUnit])).
  eapply (hops_one _ _ _ 1); [reflexivity|reflexivity|reflexivity|]. cbn [insert list_insert].
  eapply hops_trans; [eapply (perm_hops _ 1); [reflexivity|reflexivity|exact Hl]|]. cbn [insert list_insert].
  eapply hops_trans; [eapply (miss_hops _ 0); [reflexivity|reflexivity|exact Hn]|]. cbn [insert list_insert].
  eapply hops_trans; [eapply (rest_hops _ 0); [reflexivity|reflexivity|exact H1]|]. cbn [insert list_insert].
  assert (E2 : PPermIn ps2 = PPermIn (ps2 ++ [])) by (by rewrite app_nil_r).
  eapply hops_trans.
  { eapply (perm_hops _ 1 true l _ _ _ _ _ _ _ (vrole_add r ps1) ps2 []); [reflexivity|cbn; by rewrite E2|by apply list_lookup_insert]. }
  cbn [insert list_insert].
  eapply (hops_one _ _ _ 1); [reflexivity|reflexivity|reflexivity|]. cbn [insert list_insert].
  unfold g_set_held. cbn [g_heap g_dag g_writer g_readers g_held].
  exists []. cbn [grun]. do 3 f_equal.
  - cbn [perm_update]. rewrite list_insert_insert. f_equal. clear.
    unfold vrole_add. cbn. f_equal. rewrite fmap_app, list_to_set_app_L. set_solver.
  - by rewrite delete_insert.
Qed.
