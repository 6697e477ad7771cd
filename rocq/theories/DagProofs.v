(** Proofs about the v2 role graph. *)
From Verif Require Export DagSpec.

Lemma child_edges_of e r c : child e r c <-> c ∈ edges_of e r.
Proof.
  unfold child, edges_of. destruct (e !! r) as [cs|]; simpl; [naive_solver|].
  split; [intros (?&?&?); done|by intros ?%elem_of_nil].
Qed.
Lemma edges_of_none e r : r ∉ dom e -> edges_of e r = [].
Proof. intros H. unfold edges_of. by rewrite (not_elem_of_dom_1 _ _ H). Qed.

(** ** The recursion of checkCircularDependency always ends. *)
Lemma circ_loop_ok rec (P : gset string -> Prop) cs V :
  (forall V c, P V -> exists V' b, rec V c = Ok (V', b) /\ P V') -> P V ->
  exists V' x, circ_loop rec V cs = Ok (V', x) /\ P V'.
Proof.
  intros Hrec. revert V. induction cs as [|c cs IH]; intros V HP; simpl; [eauto|].
  destruct (Hrec V c HP) as (V1 & b & -> & H1). simpl.
  destruct b; [eauto|]. by apply IH.
Qed.
Lemma circ_dfs_ok fuel e V r :
  size (dom e ∖ V) < fuel -> exists V' b, circ_dfs fuel e V r = Ok (V', b) /\ V ⊆ V'.
Proof.
  revert V r. induction fuel as [|fuel IH]; intros V r Hf; [lia|]. simpl.
  case_bool_decide as Hr; [eauto|].
  destruct (decide (r ∈ dom e)) as [Hd|Hd].
  - assert (size (dom e ∖ ({[r]} ∪ V)) < size (dom e ∖ V)) as Hlt.
    { apply subset_size. set_solver. }
    destruct (circ_loop_ok (circ_dfs fuel e) (fun W => {[r]} ∪ V ⊆ W) (edges_of e r) ({[r]} ∪ V))
      as (V' & x & -> & HV); [|done|].
    + intros W c HW. destruct (IH W c) as (W' & b & -> & ?).
      * enough (size (dom e ∖ W) <= size (dom e ∖ ({[r]} ∪ V))) by lia.
        apply subseteq_size. set_solver.
      * eexists _, _. split; [done|set_solver].
    + simpl. eexists _, _. split; [done|set_solver].
  - rewrite edges_of_none by done. simpl. eexists _, _. split; [done|set_solver].
Qed.
Lemma check_circular_ok e p cs : exists err, check_circular e p cs = Ok err.
Proof.
  unfold check_circular.
  destruct (circ_loop_ok (circ_dfs (S (size e)) e) (fun _ => True) cs {[p]}) as (V' & x & -> & _); [|done|].
  - intros V c _. destruct (circ_dfs_ok (S (size e)) e V c) as (V' & b & -> & _); [|eauto].
    rewrite <-size_dom. enough (size (dom e ∖ V) <= size (dom e)) by lia.
    apply subseteq_size. set_solver.
  - simpl. eauto.
Qed.

(** ** What it accepts. *)
Lemma listing_det e cs l l' : listing e cs l -> listing e cs l' -> l = l'.
Proof.
  intros H. revert l'. induction H as [|r rs b rest _ IH1 _ IH2]; intros l' H'; inversion H'; subst; [done|].
  f_equal. f_equal; eauto.
Qed.
Lemma listing_one e r b : listing e (edges_of e r) b -> listing e [r] (r :: b).
Proof. intros H. rewrite <-(app_nil_r b). constructor; [done|constructor]. Qed.
Lemma listing_one_inv e r l : listing e [r] l -> exists b, l = r :: b /\ listing e (edges_of e r) b.
Proof.
  inversion 1 as [|? ? b rest H1 H2]; subst. inversion H2; subst. rewrite app_nil_r. eauto.
Qed.
Definition fresh_listing (e : gmap string (list string)) (V : gset string) (cs l : list string) : Prop :=
  listing e cs l /\ NoDup l /\ (forall x, x ∈ l -> x ∉ V).

Lemma circ_loop_accepts e rec V V' cs :
  (forall V V' c, rec V c = Ok (V', false) ->
     exists l, fresh_listing e V [c] l /\ forall x, x ∈ V' <-> x ∈ V \/ x ∈ l) ->
  circ_loop rec V cs = Ok (V', None) ->
  exists l, fresh_listing e V cs l /\ forall x, x ∈ V' <-> x ∈ V \/ x ∈ l.
Proof.
  intros Hrec. revert V. induction cs as [|c cs IH]; intros V; simpl.
  - injection 1 as <-. exists []. split; [|set_solver].
    split; [constructor|]. split; [constructor|set_solver].
  - destruct (rec V c) as [[V1 b]| |] eqn:Hr; [|done|done]. simpl. destruct b; [done|].
    intros Hl. destruct (Hrec _ _ _ Hr) as (l1 & (Hl1 & Hn1 & Hd1) & HV1).
    destruct (IH _ Hl) as (l2 & (Hl2 & Hn2 & Hd2) & HV2).
    apply listing_one_inv in Hl1 as (b & -> & Hb).
    exists (c :: b ++ l2). split.
    + split; [by constructor|]. split.
      * rewrite app_comm_cons. apply NoDup_app. split; [done|]. split; [|done].
        intros x Hx Hx2. apply (Hd2 x Hx2). apply HV1. by right.
      * rewrite app_comm_cons. intros x [Hx|Hx]%elem_of_app; [by apply Hd1|].
        intros HV. apply (Hd2 x Hx), HV1. by left.
    + intros x. rewrite HV2, HV1, app_comm_cons, elem_of_app. tauto.
Qed.
Lemma circ_dfs_accepts fuel e V V' r :
  circ_dfs fuel e V r = Ok (V', false) ->
  exists l, fresh_listing e V [r] l /\ forall x, x ∈ V' <-> x ∈ V \/ x ∈ l.
Proof.
  revert V V' r. induction fuel as [|fuel IH]; intros V V' r; simpl; [done|].
  case_bool_decide as Hr; [done|].
  destruct (circ_loop (circ_dfs fuel e) ({[r]} ∪ V) (edges_of e r)) as [[V1 x]| |] eqn:Hl; [|done|done].
  simpl. destruct x; [done|]. intros [= <-].
  destruct (circ_loop_accepts e _ _ _ _ (fun V V' c => IH V V' c) Hl) as (l & (Hl' & Hn & Hd) & HV).
  exists (r :: l). split.
  - split; [by apply listing_one|]. split.
    + constructor; [|done]. intros Hin. apply (Hd r Hin). set_solver.
    + intros y [->|Hy]%elem_of_cons; [done|]. specialize (Hd y Hy). set_solver.
  - intros y. rewrite HV. set_solver.
Qed.

Lemma circ_loop_rejects e rec V V' cs c l :
  (forall V V' c, rec V c = Ok (V', false) ->
     exists l, fresh_listing e V [c] l /\ forall x, x ∈ V' <-> x ∈ V \/ x ∈ l) ->
  (forall V V' c l, rec V c = Ok (V', true) -> ~ fresh_listing e V [c] l) ->
  circ_loop rec V cs = Ok (V', Some c) -> ~ fresh_listing e V cs l.
Proof.
  intros Hacc Hrej. revert V l. induction cs as [|c' cs IH]; intros V l; simpl; [done|].
  destruct (rec V c') as [[V1 b]| |] eqn:Hr; [|done|done]. simpl. intros Hl (Hli & Hn & Hd).
  inversion Hli as [|? ? b' rest Hb Hrest]; subst.
  rewrite app_comm_cons in Hn, Hd. apply NoDup_app in Hn as (Hn1 & Hn12 & Hn2).
  destruct b.
  - apply (Hrej _ _ _ (c' :: b') Hr). split; [by apply listing_one|]. split; [done|].
    intros x Hx. apply Hd, elem_of_app. by left.
  - destruct (Hacc _ _ _ Hr) as (l1 & (Hl1 & _ & _) & HV1).
    assert (l1 = c' :: b') as -> by (eapply listing_det; [done|by apply listing_one]).
    apply (IH V1 rest Hl). split; [done|]. split; [done|].
    intros x Hx [HV|Hx']%HV1; [|by apply (Hn12 x)].
    apply (Hd x); [apply elem_of_app; by right|done].
Qed.
Lemma circ_dfs_rejects fuel e V V' r l :
  circ_dfs fuel e V r = Ok (V', true) -> ~ fresh_listing e V [r] l.
Proof.
  revert V V' r l. induction fuel as [|fuel IH]; intros V V' r l; simpl; [done|].
  case_bool_decide as Hr.
  - intros _ (Hl & _ & Hd). apply listing_one_inv in Hl as (b & -> & _).
    apply (Hd r); [left|done].
  - destruct (circ_loop (circ_dfs fuel e) ({[r]} ∪ V) (edges_of e r)) as [[V1 x]| |] eqn:Hl; [|done|done].
    simpl. destruct x as [c|]; [|done]. intros _ (Hli & Hn & Hd).
    apply listing_one_inv in Hli as (b & -> & Hb).
    apply NoDup_cons in Hn as [Hrb Hn].
    apply (circ_loop_rejects e _ _ _ _ _ b (fun V V' c => circ_dfs_accepts fuel e V V' c)
             (fun V V' c l => IH V V' c l) Hl).
    split; [done|]. split; [done|]. intros x Hx. specialize (Hd x).
    assert (x <> r) by (intros ->; done). set_solver.
Qed.

Lemma check_circular_accepts e p cs :
  check_circular e p cs = Ok None <-> exists l, listing e cs l /\ NoDup (p :: l).
Proof.
  unfold check_circular. split.
  - destruct (circ_loop _ _ _) as [[V x]| |] eqn:Hl; [|done|done]. simpl.
    destruct x; [done|]. intros _.
    destruct (circ_loop_accepts e _ _ _ _ (fun V V' c => circ_dfs_accepts (S (size e)) e V V' c) Hl)
      as (l & (Hli & Hn & Hd) & _).
    exists l. split; [done|]. constructor; [|done]. intros Hp. apply (Hd p Hp). set_solver.
  - intros (l & Hli & [Hp Hn]%NoDup_cons).
    destruct (check_circular_ok e p cs) as [err Herr]. unfold check_circular in Herr.
    destruct (circ_loop _ _ _) as [[V x]| |] eqn:Hl; [|done|done].
    destruct x as [c|]; [|done]. exfalso.
    apply (circ_loop_rejects e _ _ _ _ _ l (fun V V' c => circ_dfs_accepts (S (size e)) e V V' c)
             (fun V V' c l => circ_dfs_rejects (S (size e)) e V V' c l) Hl).
    split; [done|]. split; [done|]. intros x Hx. rewrite elem_of_singleton. by intros ->.
Qed.

(** The graph changes exactly when the call is accepted. *)
Lemma dag_add_child_ok d p cs : exists d' err, dag_add_child d p cs = Ok (d', err).
Proof.
  unfold dag_add_child. destruct (check_circular_ok (d_edges d) p cs) as [[e|] ->]; simpl; eauto.
Qed.
Lemma dag_add_child_error d p cs d' err :
  dag_add_child d p cs = Ok (d', Some err) -> d' = d.
Proof. unfold dag_add_child. destruct (check_circular _ _ _) as [[e|]| |]; naive_solver. Qed.
Lemma dag_add_child_accepts d p cs :
  (exists d', dag_add_child d p cs = Ok (d', None)) <->
  exists l, listing (d_edges d) cs l /\ NoDup (p :: l).
Proof.
  rewrite <-check_circular_accepts. unfold dag_add_child.
  destruct (check_circular _ _ _) as [[e|]| |]; simpl; naive_solver.
Qed.
Lemma dag_add_child_success d p cs d' :
  dag_add_child d p cs = Ok (d', None) ->
  d' = Dag (d_roles d) (with_children (d_edges d) p cs) (d_resolved d).
Proof. unfold dag_add_child. destruct (check_circular _ _ _) as [[e|]| |]; naive_solver. Qed.

(** ** Acyclicity *)
Lemma child_with_children e p cs a b :
  child (with_children e p cs) a b <-> child e a b \/ a = p /\ b ∈ cs.
Proof.
  rewrite !child_edges_of. unfold edges_of, with_children.
  destruct (decide (a = p)) as [->|Ha].
  - rewrite lookup_insert. simpl. rewrite elem_of_app. tauto.
  - rewrite lookup_insert_ne by done. naive_solver.
Qed.
Lemma listing_closed e cs l :
  listing e cs l -> (forall x, x ∈ cs -> x ∈ l) /\ (forall x y, x ∈ l -> child e x y -> y ∈ l).
Proof.
  induction 1 as [|r rs b rest _ [IH1 IH1'] _ [IH2 IH2']].
  - split; set_solver.
  - split.
    + intros x [->|Hx]%elem_of_cons; [left|right; apply elem_of_app; auto].
    + intros x y Hx Hc. right. apply elem_of_app.
      apply elem_of_cons in Hx as [->|[Hx|Hx]%elem_of_app]; [left|left; eauto|right; eauto].
      apply IH1. by apply child_edges_of in Hc.
Qed.
Lemma with_children_acyclic e p cs l :
  acyclic e -> listing e cs l -> NoDup (p :: l) -> acyclic (with_children e p cs).
Proof.
  intros Hac Hli [Hp _]%NoDup_cons. destruct (listing_closed e cs l Hli) as [Hcs Hcl].
  assert (forall a b, tc (child (with_children e p cs)) a b ->
    (a ∈ l -> tc (child e) a b /\ b ∈ l) /\ (b ∉ l -> tc (child e) a b)) as H.
  { assert (forall a b, child (with_children e p cs) a b ->
      (a ∈ l -> child e a b /\ b ∈ l) /\ (b ∉ l -> child e a b)) as H1.
    { intros a b Hc. apply child_with_children in Hc as [Hc|[-> Hb]].
      - split; [|done]. intros Ha. split; [done|]. by eapply Hcl.
      - split; [done|]. intros Hn. exfalso. by apply Hn, Hcs. }
    induction 1 as [a b Hc|a b c Hc Htc [IHa IHb]].
    - destruct (H1 _ _ Hc) as [Ha Hb]. split.
      + intros Hin. destruct (Ha Hin). split; [by apply tc_once|done].
      + intros Hin. by apply tc_once, Hb.
    - destruct (H1 _ _ Hc) as [Ha Hb]. split.
      + intros Hin. destruct (Ha Hin) as [Hc' Hbl]. destruct (IHa Hbl) as [Htc' Hcl'].
        split; [|done]. by eapply tc_l.
      + intros Hin. eapply tc_l; [|by apply IHb]. apply Hb. intros Hbl. by apply Hin, IHa. }
  intros r Hr. destruct (H r r Hr) as [Ha Hb].
  destruct (decide (r ∈ l)) as [Hin|Hin]; [|by apply (Hac r), Hb].
  apply (Hac r). by apply Ha.
Qed.
Lemma dag_add_child_acyclic d p cs d' err :
  acyclic (d_edges d) -> dag_add_child d p cs = Ok (d', err) -> acyclic (d_edges d').
Proof.
  intros Hac Hd. destruct err as [err|].
  - by apply dag_add_child_error in Hd as ->.
  - destruct (proj1 (dag_add_child_accepts d p cs)) as (l & Hl & Hn); [by eexists|].
    apply dag_add_child_success in Hd as ->. simpl. by eapply with_children_acyclic.
Qed.
Lemma empty_acyclic : acyclic ∅.
Proof.
  intros r Hr. assert (forall a b : string, tc (child ∅) a b -> False) as H; [|by eapply H].
  induction 1 as [a b Hc|a b c Hc]; by destruct Hc as (?&?%lookup_empty_Some&?).
Qed.

(** Acyclic graphs have a listing for every list of roles. *)
Lemma listing_exists_below e n A cs :
  acyclic e -> (forall a c, a ∈ A -> c ∈ cs -> tc (child e) a c) ->
  size (dom e ∖ A) <= n -> exists l, listing e cs l.
Proof.
  intros Hac. revert A cs. induction n as [|n IH]; intros A cs.
  - intros HA Hs. induction cs as [|r cs IHc]; [exists []; constructor|].
    destruct IHc as [rest Hrest]. { intros a c Ha Hc. apply HA; [done|by right]. }
    destruct (decide (r ∈ dom e)) as [Hd|Hd].
    + exfalso. destruct (decide (r ∈ A)) as [HrA|HrA].
      * apply (Hac r), HA; [done|left].
      * assert (size (dom e ∖ A) = 0) as H0 by lia. apply size_empty_iff in H0. set_solver.
    + exists (r :: [] ++ rest). constructor; [|done]. change (default [] (e !! r)) with (edges_of e r).
      rewrite edges_of_none by done. constructor.
  - intros HA Hs. induction cs as [|r cs IHc]; [exists []; constructor|].
    destruct IHc as [rest Hrest]. { intros a c Ha Hc. apply HA; [done|by right]. }
    destruct (decide (r ∈ dom e)) as [Hd|Hd].
    + assert (r ∉ A) as HrA. { intros HrA. apply (Hac r), HA; [done|left]. }
      destruct (IH ({[r]} ∪ A) (edges_of e r)) as [b Hb].
      * intros a c [->%elem_of_singleton|Ha]%elem_of_union Hc.
        -- apply tc_once. by apply child_edges_of.
        -- eapply tc_r; [apply HA; [done|left]|]. by apply child_edges_of.
      * assert (size (dom e ∖ ({[r]} ∪ A)) < size (dom e ∖ A)); [|lia].
        apply subset_size. set_solver.
      * exists (r :: b ++ rest). by constructor.
    + exists (r :: [] ++ rest). constructor; [|done]. change (default [] (e !! r)) with (edges_of e r).
      rewrite edges_of_none by done. constructor.
Qed.
Lemma listing_exists e cs : acyclic e -> exists l, listing e cs l.
Proof.
  intros Hac. apply (listing_exists_below e (size (dom e ∖ ∅)) ∅ cs Hac); [set_solver|done].
Qed.
(** AddChildRole rejects exactly when some role would be written twice. *)
Lemma dag_add_child_rejects d p cs :
  acyclic (d_edges d) ->
  (exists err, dag_add_child d p cs = Ok (d, Some err)) <->
  exists l, listing (d_edges d) cs l /\ ~ NoDup (p :: l).
Proof.
  intros Hac. destruct (listing_exists (d_edges d) cs Hac) as [l Hl].
  destruct (dag_add_child_ok d p cs) as (d' & err & Hd). split.
  - intros [e He]. exists l. split; [done|]. intros Hn.
    destruct (proj2 (dag_add_child_accepts d p cs)) as [d'' Hd'']; [by eexists|].
    rewrite He in Hd''. discriminate Hd''.
  - intros (l' & Hl' & Hn). assert (l' = l) as -> by by eapply listing_det.
    destruct err as [err|].
    + exists err. rewrite Hd. f_equal. f_equal. by eapply dag_add_child_error.
    + exfalso. apply Hn. destruct (proj1 (dag_add_child_accepts d p cs)) as (l' & Hl2 & Hn2); [by eexists|].
      assert (l' = l) as -> by by eapply listing_det. done.
Qed.
(** Every addition that would create a cycle is rejected. *)
Lemma dag_add_child_cycle d p cs c :
  acyclic (d_edges d) -> c ∈ cs -> rtc (child (d_edges d)) c p ->
  exists err, dag_add_child d p cs = Ok (d, Some err).
Proof.
  intros Hac Hc Hr. apply dag_add_child_rejects; [done|].
  destruct (listing_exists (d_edges d) cs Hac) as [l Hl]. exists l. split; [done|].
  intros [Hp _]%NoDup_cons. apply Hp. destruct (listing_closed _ _ _ Hl) as [Hcs Hcl].
  assert (forall x y, rtc (child (d_edges d)) x y -> x ∈ l -> y ∈ l) as H.
  { induction 1; eauto. }
  eapply H; eauto.
Qed.

(** ** The queue loop of ResolvePermissions and ResolveChildRoles *)
Lemma edge_count_delete e k cs :
  e !! k = Some cs -> edge_count e = length cs + edge_count (delete k e).
Proof.
  intros He. unfold edge_count. by rewrite <-(map_to_list_delete e k cs He).
Qed.
Lemma bfs_returns contrib h d fuel V R Q m :
  dag_wf h d -> (forall k, k ∉ V -> d_edges d !! k = m !! k) ->
  length Q + edge_count m < fuel -> exists R', bfs contrib fuel h d V R Q = Ok R'.
Proof.
  intros Hwf. revert V R Q m. induction fuel as [|fuel IH]; intros V R Q m Hm Hf; [lia|].
  destruct Q as [|c q]; simpl; [eauto|]. simpl in Hf.
  case_bool_decide as Hc; [by apply (IH V R q m); [|lia]|].
  destruct (d_roles d !! c) as [l|] eqn:Hl.
  - destruct (Hwf _ _ Hl) as [r ->].
    apply (IH _ _ _ (delete c m)).
    + intros k Hk. rewrite lookup_delete_ne by set_solver. apply Hm. set_solver.
    + rewrite app_length. unfold edges_of. rewrite (Hm c Hc).
      destruct (m !! c) as [cs|] eqn:Hmc; simpl.
      * rewrite (edge_count_delete m c cs Hmc) in Hf. lia.
      * rewrite delete_notin by done. lia.
  - apply (IH _ _ _ m); [|lia]. intros k Hk. apply Hm. set_solver.
Qed.
Lemma bfs_not_hang contrib h d fuel V R Q m :
  (forall k, k ∉ V -> d_edges d !! k = m !! k) ->
  length Q + edge_count m < fuel -> bfs contrib fuel h d V R Q <> Hang.
Proof.
  revert V R Q m. induction fuel as [|fuel IH]; intros V R Q m Hm Hf; [lia|].
  destruct Q as [|c q]; simpl; [done|]. simpl in Hf.
  case_bool_decide as Hc; [by apply (IH V R q m); [|lia]|].
  destruct (d_roles d !! c) as [l|] eqn:Hl.
  - destruct (h !! l) as [r|]; [|done].
    apply (IH _ _ _ (delete c m)).
    + intros k Hk. rewrite lookup_delete_ne by set_solver. apply Hm. set_solver.
    + rewrite app_length. unfold edges_of. rewrite (Hm c Hc).
      destruct (m !! c) as [cs|] eqn:Hmc; simpl.
      * rewrite (edge_count_delete m c cs Hmc) in Hf. lia.
      * rewrite delete_notin by done. lia.
  - apply (IH _ _ _ m); [|lia]. intros k Hk. apply Hm. set_solver.
Qed.
Lemma bfs_sound_complete contrib h d root fuel V R Q R' :
  (forall n, n ∈ V \/ n ∈ Q -> rtc (below h d) root n) ->
  (forall n m, n ∈ V -> below h d n m -> m ∈ V \/ m ∈ Q) ->
  root ∈ V \/ root ∈ Q ->
  (forall x, x ∈ R <-> exists n r, n ∈ V /\ registered h d n r /\ x ∈ contrib r) ->
  bfs contrib fuel h d V R Q = Ok R' ->
  forall x, x ∈ R' <-> exists n r, rtc (below h d) root n /\ registered h d n r /\ x ∈ contrib r.
Proof.
  revert V R Q. induction fuel as [|fuel IH]; intros V R Q Ha Hb Hc Hd; simpl; [done|].
  destruct Q as [|c q].
  - intros [= <-] x. rewrite Hd. split.
    + intros (n & r & Hn & Hr & Hx). exists n, r. split; [apply Ha; by left|done].
    + intros (n & r & Hn & Hr & Hx). exists n, r. split; [|done].
      assert (forall a b, rtc (below h d) a b -> a ∈ V -> b ∈ V) as Hcl.
      { induction 1 as [|a b b' Hab _ IHr]; [done|]. intros HV. apply IHr.
        destruct (Hb a b HV Hab) as [?|?%elem_of_nil]; done. }
      eapply Hcl; [done|]. destruct Hc as [?|?%elem_of_nil]; done.
  - case_bool_decide as Hcv.
    + apply IH.
      * intros n [?|?]; apply Ha; [by left|right; by right].
      * intros n m Hn Hm. destruct (Hb n m Hn Hm) as [?|[->|?]%elem_of_cons]; auto.
      * destruct Hc as [?|[->|?]%elem_of_cons]; auto.
      * done.
    + destruct (d_roles d !! c) as [l|] eqn:Hl.
      * destruct (h !! l) as [r|] eqn:Hr; [|done].
        assert (registered h d c r) as Hreg by by exists l.
        apply IH.
        -- intros n [[->%elem_of_singleton|Hn]%elem_of_union|[Hn|Hn]%elem_of_app].
           ++ apply Ha. right. left.
           ++ apply Ha. by left.
           ++ apply Ha. right. by right.
           ++ eapply rtc_r; [apply (Ha c); right; left|]. split; [by exists r|by apply child_edges_of].
        -- intros n m Hn Hm. rewrite elem_of_union, elem_of_app.
           destruct (decide (n = c)) as [->|Hne].
           ++ right. right. by apply child_edges_of, Hm.
           ++ assert (n ∈ V) as HnV by set_solver.
              destruct (Hb n m HnV Hm) as [?|[->|?]%elem_of_cons]; [by left; right| |by right; left].
              left. left. by apply elem_of_singleton.
        -- rewrite elem_of_union, elem_of_app, elem_of_singleton.
           destruct Hc as [?|[->|?]%elem_of_cons]; auto.
        -- intros x. rewrite elem_of_union, Hd. split.
           ++ intros [Hx|(n & r' & Hn & Hr' & Hx)].
              ** exists c, r. split; [set_solver|done].
              ** exists n, r'. split; [set_solver|done].
           ++ intros (n & r' & [->%elem_of_singleton|Hn]%elem_of_union & Hr' & Hx).
              ** left. destruct Hr' as (l' & Hl' & Hr'). by simplify_eq.
              ** right. by exists n, r'.
      * assert (forall r, ~ registered h d c r) as Hnr. { intros r (l & Hl' & _). congruence. }
        apply IH.
        -- intros n [[->%elem_of_singleton|Hn]%elem_of_union|Hn].
           ++ apply Ha. right. left.
           ++ apply Ha. by left.
           ++ apply Ha. right. by right.
        -- intros n m Hn Hm. rewrite elem_of_union.
           destruct (decide (n = c)) as [->|Hne].
           ++ destruct Hm as [[r Hr] _]. by apply Hnr in Hr.
           ++ assert (n ∈ V) as HnV by set_solver.
              destruct (Hb n m HnV Hm) as [?|[->|?]%elem_of_cons]; [by left; right| |by right].
              left. left. by apply elem_of_singleton.
        -- rewrite elem_of_union, elem_of_singleton.
           destruct Hc as [?|[->|?]%elem_of_cons]; auto.
        -- intros x. rewrite Hd. split.
           ++ intros (n & r' & Hn & Hr' & Hx). exists n, r'. split; [set_solver|done].
           ++ intros (n & r' & [->%elem_of_singleton|Hn]%elem_of_union & Hr' & Hx).
              ** by apply Hnr in Hr'.
              ** by exists n, r'.
Qed.
Lemma bfs_exact contrib h d root fuel R' :
  bfs contrib fuel h d ∅ ∅ [root] = Ok R' ->
  forall x, x ∈ R' <-> exists n r, rtc (below h d) root n /\ registered h d n r /\ x ∈ contrib r.
Proof.
  apply (bfs_sound_complete contrib h d root fuel ∅ ∅ [root]).
  - intros n [?| ->%elem_of_list_singleton]; [set_solver|done].
  - set_solver.
  - right. left.
  - intros x. split; [set_solver|]. intros (n & r & Hn & _). set_solver.
Qed.

(** ** resolve *)
Lemma resolve_returns contrib h d name : dag_wf h d -> exists d' s, resolve contrib h d name = Ok (d', s).
Proof.
  intros Hwf. unfold resolve. destruct (d_resolved d !! name) as [s|]; [eauto|].
  destruct (bfs_returns contrib h d (2 + edge_count (d_edges d)) ∅ ∅ [name] (d_edges d)) as [s Hs];
    [done|done|simpl; lia|]. rewrite Hs. simpl. eauto.
Qed.
Lemma resolve_not_hang contrib h d name : resolve contrib h d name <> Hang.
Proof.
  unfold resolve. destruct (d_resolved d !! name) as [s|]; [done|].
  pose proof (bfs_not_hang contrib h d (2 + edge_count (d_edges d)) ∅ ∅ [name] (d_edges d)
    (fun _ _ => eq_refl) ltac:(simpl; lia)) as H.
  by destruct (bfs _ _ _ _ _ _ _).
Qed.
Lemma resolve_cached contrib h d name s :
  d_resolved d !! name = Some s -> resolve contrib h d name = Ok (d, s).
Proof. intros H. unfold resolve. by rewrite H. Qed.
Lemma resolve_first contrib h d name d' s :
  d_resolved d !! name = None -> resolve contrib h d name = Ok (d', s) ->
  d' = Dag (d_roles d) (d_edges d) (<[name := s]> (d_resolved d)) /\
  forall x, x ∈ s <-> exists n r, rtc (below h d) name n /\ registered h d n r /\ x ∈ contrib r.
Proof.
  intros Hn. unfold resolve. rewrite Hn.
  destruct (bfs _ _ _ _ _ _ _) as [s'| |] eqn:Hb; simpl; [|done|done].
  intros [= <- <-]. split; [done|]. by eapply bfs_exact.
Qed.
