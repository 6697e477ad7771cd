(** While the graph only grows, answers lie between what held at the start and what holds now. *)
From Verif Require Import DagProofs V2Trav CDagModel CDagProofs CDagTurn CDagSpec.

Lemma gives_iff k h d name x : gives k h d name x <->
  exists n r, rtc (below h d) name n /\ registered h d n r /\ x ∈ contrib_of k r.
Proof.
  destruct k; cbn [gives contrib_of].
  - reflexivity.
  - split; intros (n & r & Hr & Hg & Hx); exists n, r; (split; [done|]); (split; [done|]).
    + unfold name_of. by apply elem_of_singleton.
    + unfold name_of in Hx. by apply elem_of_singleton in Hx.
Qed.
Record grows (h : list vrole) (d : dag) (h' : list vrole) (d' : dag) : Prop := {
  gw_roles : forall n l, d_roles d !! n = Some l -> d_roles d' !! n = Some l;
  gw_edges : forall a b, child (d_edges d) a b -> child (d_edges d') a b;
  gw_heap : forall l r, h !! l = Some r -> exists r', h' !! l = Some r' /\ vr_name r' = vr_name r /\ vr_perms r ⊆ vr_perms r'
}.
Lemma grows_refl h d : grows h d h d.
Proof. constructor; [done|done|]. intros l r H. by exists r. Qed.
Lemma grows_trans h1 d1 h2 d2 h3 d3 : grows h1 d1 h2 d2 -> grows h2 d2 h3 d3 -> grows h1 d1 h3 d3.
Proof.
  intros [A1 A2 A3] [B1 B2 B3]. constructor; [by eauto|by eauto|]. intros l r H.
  destruct (A3 l r H) as (r1 & H1 & E1 & S1). destruct (B3 l r1 H1) as (r2 & H2 & E2 & S2). exists r2.
  split; [done|]. split; [congruence|set_solver].
Qed.
Lemma contrib_grows k r r' : vr_name r' = vr_name r -> vr_perms r ⊆ vr_perms r' -> contrib_of k r ⊆ contrib_of k r'.
Proof. intros E S. destruct k; cbn; [done|]. unfold name_of. rewrite E. done. Qed.
Lemma registered_grows h d h' d' n r : grows h d h' d' -> registered h d n r ->
  exists r', registered h' d' n r' /\ vr_name r' = vr_name r /\ vr_perms r ⊆ vr_perms r'.
Proof.
  intros [A1 A2 A3] (l & Hl & Hr). destruct (A3 l r Hr) as (r' & Hr' & E & S). exists r'. split; [|done]. exists l. split; [by apply A1|done].
Qed.
Lemma below_grows h d h' d' a b : grows h d h' d' -> below h d a b -> below h' d' a b.
Proof.
  intros G [[r Hr] Hc]. destruct (registered_grows _ _ _ _ _ _ G Hr) as (r' & Hr' & _). split; [by exists r'|]. by apply (gw_edges _ _ _ _ G).
Qed.
Lemma path_grows h d h' d' a b : grows h d h' d' -> rtc (below h d) a b -> rtc (below h' d') a b.
Proof.
  intros G. induction 1 as [x|x y z Hxy Hyz IH]; [apply rtc_refl|]. eapply rtc_l; [|exact IH]. by eapply below_grows.
Qed.
Lemma gives_grows k h d h' d' name x : grows h d h' d' -> gives k h d name x -> gives k h' d' name x.
Proof.
  intros G H. apply gives_iff in H as (n & r & Hp & Hr & Hx). apply gives_iff.
  destruct (registered_grows _ _ _ _ _ _ G Hr) as (r' & Hr' & E & S). exists n, r'. split; [by eapply path_grows|]. split; [done|].
  by apply (contrib_grows k r r' E S).
Qed.

Section between.
  Context (calls : list gcall) (h0 : list vrole) (d0 : dag) (k : bool).
  Context (Hv : Forall (valid_call h0) calls) (Hwf : dag_wf h0 d0) (Hgr : growing h0 d0 k calls).

  Definition good (name : string) (a : gset string) (h : list vrole) (d : dag) : Prop :=
    (forall x, gives k h0 d0 name x -> x ∈ a) /\ forall x, x ∈ a -> gives k h d name x.
  Definition pc_good (name : string) (pc : gpc) (h : list vrole) (d : dag) : Prop :=
    match pc with
    | PHit a | PStored a | PDone (OSet a) => good name a h d
    | PLoop V R Q =>
        (exists fuel Rlo, Rlo ⊆ R /\
           bfs (contrib_of k) fuel h0 d V Rlo Q = bfs (contrib_of k) (2 + edge_count (d_edges d)) h0 d ∅ ∅ [name]) /\
        (forall x, x ∈ Q -> rtc (below h d) name x) /\ (forall x, x ∈ R -> gives k h d name x)
    | _ => True
    end.
  Record bet (st : gsh * list gpc) : Prop := {
    be_grow : grows h0 d0 (g_heap st.1) (g_dag st.1);
    be_roles : forall n l, d_roles (g_dag st.1) !! n = Some l ->
      d_roles d0 !! n = Some l \/ offered calls l /\ exists r, h0 !! l = Some r /\ vr_name r = n;
    be_cache : forall name a, d_resolved d0 !! name = None -> d_resolved (g_dag st.1) !! name = Some a ->
      good name a (g_heap st.1) (g_dag st.1);
    be_pc : forall i k' name pc, calls !! i = Some (CResolve k' name) -> d_resolved d0 !! name = None -> st.2 !! i = Some pc ->
      pc_good name pc (g_heap st.1) (g_dag st.1);
    be_rest : forall i ls rest, calls !! i = Some (CAddRole ls) -> st.2 !! i = Some (PRoleIn rest) -> forall l, l ∈ rest -> l ∈ ls
  }.
  Lemma good_grows name a h d h' d' : grows h d h' d' -> good name a h d -> good name a h' d'.
  Proof. intros G [A B]. split; [done|]. intros x Hx. eapply gives_grows; [exact G|by apply B]. Qed.
  Lemma pc_good_grows name pc h d h' d' : grows h d h' d' -> (in_write pc = true -> d' = d) -> pc_good name pc h d -> pc_good name pc h' d'.
  Proof.
    intros G Hd. destruct pc; cbn [pc_good]; try done; try apply (good_grows _ _ _ _ _ _ G).
    - rewrite (Hd eq_refl) in *. intros (A & B & C). split; [done|]. split.
      + intros x Hx. eapply path_grows; [exact G|by apply B].
      + intros x Hx. eapply gives_grows; [exact G|by apply C].
    - destruct out; [done|done|apply (good_grows _ _ _ _ _ _ G)|done].
  Qed.
  Lemma bet_start : bet (gstart h0 d0 calls).
  Proof.
    constructor; cbn.
    - apply grows_refl.
    - intros n l H. by left.
    - intros name a H1 H2. congruence.
    - intros i k' name pc _ _ [-> _]%lookup_replicate. done.
    - intros i ls rest _ [[=] _]%lookup_replicate.
  Qed.
  (** Enough to show for a step *)
  Lemma bet_frame s pcs i c pc s' pc' : locks calls (s, pcs) -> bet (s, pcs) -> calls !! i = Some c -> pcs !! i = Some pc ->
    grows (g_heap s) (g_dag s) (g_heap s') (g_dag s') -> (g_dag s' = g_dag s \/ in_write pc = true) ->
    (forall n l, d_roles (g_dag s') !! n = Some l -> d_roles (g_dag s) !! n = Some l \/
       offered calls l /\ exists r, h0 !! l = Some r /\ vr_name r = n) ->
    (forall name a, d_resolved d0 !! name = None -> d_resolved (g_dag s') !! name = Some a ->
       d_resolved (g_dag s) !! name = Some a \/ good name a (g_heap s') (g_dag s')) ->
    (forall k' name, c = CResolve k' name -> d_resolved d0 !! name = None -> pc_good name pc' (g_heap s') (g_dag s')) ->
    (forall ls rest, c = CAddRole ls -> pc' = PRoleIn rest -> forall l, l ∈ rest -> l ∈ ls) ->
    bet (s', <[i := pc']> pcs).
  Proof.
    intros HL [B1 B2 B3 B4 B5] Hc Hpc G Hd Hr Ha Hp He. cbn [fst snd] in *.
    assert (Hi : i < length pcs) by (eapply lookup_lt_Some; exact Hpc). constructor; cbn [fst snd].
    - by eapply grows_trans.
    - intros n l Hl. destruct (Hr n l Hl) as [Hl'|Hl']; [by apply B2|by right].
    - intros name a Hn Hna. destruct (Ha name a Hn Hna) as [Hx|Hx]; [|done]. eapply good_grows; [exact G|]. by apply B3.
    - intros j k' name pj Hcj Hn. destruct (decide (j = i)) as [->|Hne].
      + rewrite list_lookup_insert by done. intros [= <-]. rewrite Hc in Hcj. injection Hcj as ->. by apply (Hp k' name).
      + rewrite list_lookup_insert_ne by done. intros Hpj. eapply pc_good_grows; [exact G| |by eapply B4].
        intros Hw. destruct Hd as [Hd|Hd]; [done|]. exfalso. apply Hne.
        assert (E1 : g_writer s = Some i) by (apply (lo_w _ _ HL); by exists pc).
        assert (E2 : g_writer s = Some j) by (apply (lo_w _ _ HL); by exists pj).
        congruence.
    - intros j ls rest Hcj. destruct (decide (j = i)) as [->|Hne].
      + rewrite list_lookup_insert by done. intros [= E]. rewrite Hc in Hcj. injection Hcj as ->. by apply He.
      + rewrite list_lookup_insert_ne by done. by apply B5.
  Qed.
  Lemma perm_grows r ps : vr_name (perm_update true r ps) = vr_name r /\ vr_perms r ⊆ vr_perms (perm_update true r ps).
  Proof. split; [done|]. cbn. set_solver. Qed.
  Lemma bet_step s pcs i st' : locks calls (s, pcs) -> objects h0 calls (s, pcs) -> bet (s, pcs) ->
    gstep calls (s, pcs) i = Some st' -> bet st'.
  Proof.
    intros HL HO HB Hst. apply gstep_inv in Hst as (c & pc & s' & pc' & Hc & Hpc & Hs & ->).
    pose proof HB as [B1 B2 B3 B4 B5]. cbn [fst snd] in *.
    assert (Hnames : vr_name <$> g_heap s = vr_name <$> h0) by exact (ob_names _ _ _ HO).
    assert (Hsame : g_heap s' = g_heap s -> g_dag s' = g_dag s ->
      (forall k' name, c = CResolve k' name -> d_resolved d0 !! name = None -> pc_good name pc' (g_heap s) (g_dag s)) ->
      (forall ls rest, c = CAddRole ls -> pc' = PRoleIn rest -> forall l, l ∈ rest -> l ∈ ls) ->
      bet (s', <[i := pc']> pcs)).
    { intros E1 E2 Hp He. eapply bet_frame; [exact HL|exact HB|exact Hc|exact Hpc|..]; rewrite ?E1, ?E2; try (by auto).
      apply grows_refl. }
    destruct c as [ls|p cs|k' name|add l ps|name]; destruct pc; cbn in Hs; try discriminate.
    - destruct (g_lock s i) as [s1|] eqn:E; cbn in Hs; [|discriminate]. injection Hs as <- <-.
      apply g_lock_inv in E as (E1 & E2 & ->). apply Hsame; [done|done|done|]. by intros ls' rest [= <-] [= <-].
    - destruct ls0 as [|l ls0].
      + injection Hs as <- <-. by apply Hsame.
      + destruct (g_heap s !! l) as [r|] eqn:El; cbn in Hs; [|discriminate]. injection Hs as <- <-.
        assert (Hoff : offered calls l).
        { exists ls. split; [by eapply elem_of_list_lookup_2|]. apply (B5 _ _ _ Hc Hpc). left. }
        assert (Hr0 : exists r0, h0 !! l = Some r0 /\ vr_name r0 = vr_name r).
        { pose proof (names_lookup _ _ l Hnames) as E. rewrite El in E. destruct (h0 !! l) as [r0|]; [|discriminate].
          injection E as E. by exists r0. }
        destruct Hr0 as (r0 & Hr0 & Er0).
        assert (Hsub : forall n l', d_roles (g_dag s) !! n = Some l' -> <[vr_name r := l]> (d_roles (g_dag s)) !! n = Some l').
        { intros n l' Hl'. destruct (decide (n = vr_name r)) as [->|Hne]; [|by rewrite lookup_insert_ne].
          rewrite lookup_insert. f_equal. symmetry. destruct (B2 _ _ Hl') as [Hx|(Hx & r1 & Hr1 & Er1)].
          - rewrite <-Er0 in Hx. by eapply (gr_new _ _ _ _ Hgr).
          - eapply (gr_one _ _ _ _ Hgr); [exact Hx|exact Hoff|exact Hr1|exact Hr0|]. congruence. }
        eapply bet_frame; [exact HL|exact HB|exact Hc|exact Hpc|..]; cbn.
        * constructor; cbn; [exact Hsub|done|]. intros l' r' Hl'. by exists r'.
        * by right.
        * intros n l' Hn. destruct (decide (n = vr_name r)) as [->|Hne].
          -- rewrite lookup_insert in Hn. injection Hn as <-. right. split; [done|]. by exists r0.
          -- rewrite lookup_insert_ne in Hn by done. by left.
        * intros. by left.
        * discriminate.
        * intros ls' rest [= <-] [= <-] l' Hl'. apply (B5 _ _ _ Hc Hpc). by right.
    - destruct (g_lock s i) as [s1|] eqn:E; cbn in Hs; [|discriminate]. injection Hs as <- <-.
      apply g_lock_inv in E as (E1 & E2 & ->). by apply Hsame.
    - destruct (check_circular _ p cs) as [[e|]| |] eqn:E; try discriminate; injection Hs as <- <-; by apply Hsame.
    - injection Hs as <- <-. eapply bet_frame; [exact HL|exact HB|exact Hc|exact Hpc|..]; cbn.
      + constructor; cbn; [done| |intros l' r' Hl'; by exists r']. intros a b Hab. apply child_with_children. by left.
      + by right.
      + intros. by left.
      + intros. by left.
      + discriminate.
      + discriminate.
    - injection Hs as <- <-. by apply Hsame.
    - destruct (g_rlock s i) as [s1|] eqn:E; cbn in Hs; [|discriminate]. injection Hs as <- <-.
      apply g_rlock_inv in E as (E1 & ->). by apply Hsame.
    - injection Hs as <- <-. apply Hsame; [done|done| |discriminate]. intros k1 n [= <- <-] Hn.
      destruct (d_resolved (g_dag s) !! name) as [a|] eqn:E; [|done]. cbn. by apply B3.
    - injection Hs as <- <-. apply Hsame; [done|done| |discriminate]. intros k1 n [= <- <-] Hn. exact (B4 _ _ _ _ Hc Hn Hpc).
    - injection Hs as <- <-. by apply Hsame.
    - destruct (g_lock s i) as [s1|] eqn:E; cbn in Hs; [|discriminate]. injection Hs as <- <-.
      apply g_lock_inv in E as (E1 & E2 & ->). apply Hsame; [done|done| |discriminate]. intros k1 n [= <- <-] Hn. cbn [pc_good]. split; [|split].
      + by exists (2 + edge_count (d_edges (g_dag s))), ∅.
      + intros x ->%elem_of_list_singleton. apply rtc_refl.
      + set_solver.
    - assert (Hk : k' = k) by (apply (gr_calls _ _ _ _ Hgr (CResolve k' name)); by eapply elem_of_list_lookup_2). subst k'.
      destruct queue as [|x q].
      + injection Hs as <- <-.
        assert (Hg : d_resolved d0 !! name = None -> good name result (g_heap s) (g_dag s)).
        { intros Hn. destruct (B4 _ _ _ _ Hc Hn Hpc) as ((fuel & Rlo & Hsub & Hb) & _ & Hup). split; [|exact Hup].
          intros x Hx. apply Hsub.
          assert (Hx1 : gives k h0 (g_dag s) name x).
          { eapply gives_grows; [|exact Hx]. constructor; [apply (gw_roles _ _ _ _ B1)|apply (gw_edges _ _ _ _ B1)|].
            intros l r Hr. by exists r. }
          destruct fuel as [|fuel]; cbn [bfs] in Hb.
          - exfalso. symmetry in Hb. revert Hb.
            apply (bfs_not_hang (contrib_of k) h0 (g_dag s) _ ∅ ∅ [name] (d_edges (g_dag s))); [done|simpl; lia].
          - symmetry in Hb. apply (bfs_exact _ _ _ _ _ _ Hb). by apply gives_iff. }
        assert (G : grows (g_heap s) (g_dag s) (g_heap s)
          (Dag (d_roles (g_dag s)) (d_edges (g_dag s)) (<[name := result]> (d_resolved (g_dag s))))).
        { constructor; cbn; [done|done|]. intros l r Hr. by exists r. }
        eapply bet_frame; [exact HL|exact HB|exact Hc|exact Hpc|..]; cbn [g_set_dag g_heap g_dag].
        * exact G.
        * by right.
        * intros. by left.
        * intros n a Hn. cbn. destruct (decide (n = name)) as [->|Hne].
          -- rewrite lookup_insert. intros [= <-]. right. eapply good_grows; [exact G|by apply Hg].
          -- rewrite lookup_insert_ne by done. by left.
        * intros k1 n [= <- <-] Hn. cbn [pc_good]. eapply good_grows; [exact G|by apply Hg].
        * discriminate.
      + destruct (loop_round k _ _ visited result x q) as [pc1|] eqn:E; cbn in Hs; [|discriminate]. injection Hs as <- <-.
        apply Hsame; [done|done| |discriminate]. intros k1 n [= <- <-] Hn.
        destruct (B4 _ _ _ _ Hc Hn Hpc) as ((fuel & Rlo & Hsub & Hb) & Hq & Hup).
        assert (Hfuel : exists f, fuel = S f).
        { destruct fuel as [|f]; [|by exists f]. exfalso. symmetry in Hb. revert Hb.
          apply (bfs_not_hang (contrib_of k) h0 (g_dag s) _ ∅ ∅ [name] (d_edges (g_dag s))); [done|simpl; lia]. }
        destruct Hfuel as [f ->]. cbn [bfs] in Hb. unfold loop_round in E.
        assert (Hq' : forall y, y ∈ q -> rtc (below (g_heap s) (g_dag s)) name y) by (intros y Hy; apply Hq; by right).
        case_bool_decide as Hx.
        * injection E as <-. cbn [pc_good]. split; [by exists f, Rlo|]. done.
        * destruct (d_roles (g_dag s) !! x) as [l|] eqn:El.
          -- destruct (g_heap s !! l) as [r|] eqn:Er; cbn in E; [|discriminate]. injection E as <-.
             assert (Hreg : registered (g_heap s) (g_dag s) x r) by (by exists l).
             cbn [pc_good]. split; [|split].
             ++ destruct (h0 !! l) as [r0|] eqn:Er0.
                ** exists f, (contrib_of k r0 ∪ Rlo). split; [|done].
                   destruct (gw_heap _ _ _ _ B1 l r0 Er0) as (r' & Hr' & En & Sp). rewrite Er in Hr'. injection Hr' as <-.
                   pose proof (contrib_grows k r0 r En Sp). set_solver.
                ** exfalso. pose proof (names_lookup _ _ l Hnames) as En. rewrite Er, Er0 in En. discriminate.
             ++ intros y [Hy|Hy]%elem_of_app; [by apply Hq'|]. eapply rtc_r; [apply Hq; left|]. split; [by exists r|].
                by apply child_edges_of.
             ++ intros y [Hy|Hy]%elem_of_union; [|by apply Hup]. apply gives_iff. exists x, r. split; [apply Hq; left|done].
          -- injection E as <-. cbn [pc_good]. split; [by exists f, Rlo|]. done.
    - injection Hs as <- <-. apply Hsame; [done|done| |discriminate]. intros k1 n [= <- <-] Hn. exact (B4 _ _ _ _ Hc Hn Hpc).
    - destruct (g_held s !! l) eqn:E; [discriminate|]. injection Hs as <- <-. by apply Hsame.
    - destruct ps0 as [|x ps0].
      + injection Hs as <- <-. by apply Hsame.
      + destruct (g_heap s !! l) as [r|] eqn:Er; cbn in Hs; [|discriminate]. injection Hs as <- <-.
        assert (Hadd : add = true) by (apply (gr_calls _ _ _ _ Hgr (CPerm add l ps)); by eapply elem_of_list_lookup_2). subst add.
        destruct (perm_grows r [x]) as [En Sp].
        eapply bet_frame; [exact HL|exact HB|exact Hc|exact Hpc|..]; cbn [g_set_heap g_heap g_dag].
        * constructor; [done|done|]. intros l' r' Hl'. destruct (decide (l' = l)) as [->|Hne].
          -- rewrite Er in Hl'. injection Hl' as <-. exists (perm_update true r [x]). split; [|done].
             apply list_lookup_insert. by eapply lookup_lt_Some.
          -- exists r'. by rewrite list_lookup_insert_ne.
        * by left.
        * intros. by left.
        * intros. by left.
        * discriminate.
        * discriminate.
    - injection Hs as <- <-. by apply Hsame.
  Qed.
  Lemma met_bet st : met h0 d0 calls st -> bet st.
  Proof.
    intros Hm. enough (H : met h0 d0 calls st /\ bet st) by exact (proj2 H). revert st Hm.
    apply (met_ind (fun st => met h0 d0 calls st /\ bet st)).
    - split; [by exists []|apply bet_start].
    - intros s pcs i st' [Hm HB] Hst. split.
      + destruct Hm as [sched Hm]. exists (sched ++ [i]). rewrite grun_app, Hm. cbn. by rewrite Hst.
      + eapply bet_step; [by eapply met_locks|by apply (met_objects h0 d0)|exact HB|exact Hst].
  Qed.
  Lemma answers_between s pcs i name a : met h0 d0 calls (s, pcs) -> calls !! i = Some (CResolve k name) -> d_resolved d0 !! name = None ->
    pcs !! i = Some (PDone (OSet a)) ->
    (forall x, gives k h0 d0 name x -> x ∈ a) /\ forall x, x ∈ a -> gives k (g_heap s) (g_dag s) name x.
  Proof. intros Hm Hc Hn Hp. exact (be_pc _ (met_bet _ Hm) i k name _ Hc Hn Hp). Qed.
End between.
