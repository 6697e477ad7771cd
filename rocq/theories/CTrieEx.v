(** Concrete concurrent insertions. *)
From Verif Require Export CTrieFin DataModel.

Definition row5 (t n s p r : string) : data := Data (AStr t) (AStr n) (AStr s) (AStr p) (AStr r) ANil.
Definition d_alice := row5 "acme" "hr" "page" "alice" "admin".
Definition d_bob := row5 "acme" "hr" "page" "bob" "admin".
Definition d_carol := row5 "umbrella" "hr" "page" "carol" "admin".
Definition start (ds : list data) (h : list (cnode data)) : cstate data := (h, cinsert data_keys <$> ds).
Definition heap_after (h : list (cnode data)) (ds : list data) (sched : list nat) : list (cnode data) :=
  match crun (start ds h) sched with Some st => st.1 | None => [] end.
Definition all_done (ds : list data) (r : option (cstate data)) : bool :=
  match r with Some st => bool_decide (length st.2 = length ds) && forallb (fun t => match t with CDone _ => true | _ => false end) st.2 | None => false end.
Lemma done_inserted h ds sched : ctrie_reachable data_keys h -> all_done ds (crun (start ds h) sched) = true ->
  inserted data_keys h ds (heap_after h ds sched).
Proof.
  intros G%ctrie_good H. exists sched. unfold heap_after, all_done in *. change (h, cinsert data_keys <$> ds) with (start ds h).
  destruct (crun (start ds h) sched) as [[h' ths]|] eqn:E; [|done]. simpl in *. apply andb_true_iff in H as [Hl Hd].
  apply bool_decide_eq_true in Hl. pose proof (cinv_run _ _ _ _ _ _ (cinv_start _ h ds G) E) as I.
  f_equal. f_equal. apply list_eq. intros i. rewrite list_lookup_fmap. destruct (ds !! i) as [d|] eqn:Ed.
  - destruct (ths !! i) as [t|] eqn:Et.
    + pose proof (ci_threads _ _ _ _ I i t d Et Ed) as Ht. rewrite forallb_forall in Hd.
      specialize (Hd t). destruct t; try (exfalso; by specialize (Hd (proj1 (elem_of_list_In _ _) (elem_of_list_lookup_2 _ _ _ Et)))).
      simpl in Ht. by subst.
    + apply lookup_ge_None in Et. apply lookup_lt_Some in Ed. lia.
  - apply lookup_ge_None in Ed. apply lookup_ge_None. lia.
Qed.

(** Two rows of a tenant that is new: both goroutines find it missing (one step each), the first one completes, the
    second one puts its own node over it. *)
Definition w77_sched : list nat := [0; 1] ++ replicate 12 0 ++ replicate 12 1.
Lemma c77_lost : exists h', inserted data_keys ctrie_new [d_alice; d_bob] h' /\
  row_at h' (row_path data_keys d_bob) d_bob /\ forall p, ~ row_at h' p d_alice.
Proof.
  exists (heap_after ctrie_new [d_alice; d_bob] w77_sched).
  assert (inserted data_keys ctrie_new [d_alice; d_bob] (heap_after ctrie_new [d_alice; d_bob] w77_sched)) as Hi.
  { apply done_inserted; [constructor|]. vm_compute. reflexivity. }
  split; [done|]. split.
  - apply row_at_find. vm_compute. reflexivity.
  - intros p Hp. destruct Hi as [sched Hs]. pose proof (only_inserted _ _ _ _ _ _ _ _ (ctrie_init data_keys) Hs Hp) as [Ho|[_ <-]].
    + destruct Ho as ([|m] & c & _ & Hc & He & _); [|done]. injection Hc as <-. done.
    + apply row_at_find in Hp. vm_compute in Hp. discriminate.
Qed.
(** Same two rows, then two of different tenants: the batch is safe. *)
Lemma c77_apart_empty : part_ways data_keys ctrie_new [d_alice; d_carol].
Proof.
  intros i j di dj p Hij Hi Hj Hpi Hpj. assert (p = []) as ->; [|exists 0; constructor].
  destruct p as [|k p]; [done|]. exfalso.
  destruct i as [|[|i]], j as [|[|j]]; try done; simpl in Hi, Hj; injection Hi as <-; injection Hj as <-;
    destruct Hpi as [r Hr]; destruct Hpj as [r' Hr']; vm_compute in Hr, Hr'; congruence.
Qed.
Definition w77_half : list nat := replicate 12 0.
Lemma c77_reader : half_written (heap_after ctrie_new [d_alice; d_bob] w77_half)
  /\ exists ths, crun (start [d_alice; d_bob] ctrie_new) w77_half = Some (heap_after ctrie_new [d_alice; d_bob] w77_half, ths).
Proof.
  split; [apply half_find with (row_path data_keys d_alice); vm_compute; reflexivity|].
  unfold heap_after. destruct (crun (start [d_alice; d_bob] ctrie_new) w77_half) as [[h ths]|] eqn:E; [by exists ths|].
  vm_compute in E. discriminate.
Qed.
(** A batch of three against a trie that knows the tenant, namespace and scope. *)
Definition h_alice := heap_after ctrie_new [d_alice] (replicate 13 0).
Definition d_dave := row5 "acme" "hr" "page" "dave" "admin".
Definition w77_mix : list nat := [2; 0; 0; 0; 2; 2; 0; 1; 2; 1; 1; 0; 2; 1; 2; 1; 2; 0; 0; 1; 2; 2; 0; 2; 0; 1; 2; 2; 1; 2; 1; 0; 1].
Lemma h_alice_one : one_by_one data_keys [d_alice] h_alice.
Proof.
  change [d_alice] with ([] ++ [d_alice]). eapply obo_snoc; [constructor|]. apply done_inserted; [constructor|]. vm_compute. reflexivity.
Qed.
Lemma h_alice_reach : ctrie_reachable data_keys h_alice.
Proof. exact (obo_reachable _ _ _ h_alice_one). Qed.
Lemma c77_apart : part_ways data_keys h_alice [d_bob; d_dave; d_carol] /\ NoDup (row_path data_keys <$> [d_bob; d_dave; d_carol]).
Proof.
  split; [|apply (bool_decide_unpack _); vm_compute; exact I].
  assert (Hp : forall p, p `prefix_of` take 3 (row_path data_keys d_bob) -> exists m, leads h_alice 0 p m).
  { intros p [r Hr]. assert (exists m, leads h_alice 0 (p ++ r) m) as (m & (x & Hx & _)%leads_app); [|by exists x].
    rewrite <-Hr. exists 3. apply leads_goes. vm_compute. reflexivity. }
  assert (Hcut : forall (l1 l2 p : list any) a b, p `prefix_of` l1 -> p `prefix_of` l2 -> l1 !! 3 = Some a -> l2 !! 3 = Some b -> a <> b -> p `prefix_of` take 3 l1).
  { intros l1 l2 p a b [r1 ->] [r2 ->] H1 H2 Hab. destruct (decide (length p <= 3)) as [Hle|Hle].
    - exists (take (3 - length p) r1). by rewrite take_app_ge.
    - exfalso. apply Hab. rewrite lookup_app_l in H1, H2 by lia. congruence. }
  assert (H0 : forall (l1 l2 p : list any) a b, p `prefix_of` l1 -> p `prefix_of` l2 -> l1 !! 0 = Some a -> l2 !! 0 = Some b -> a <> b -> p = []).
  { intros l1 l2 [|x p] a b [r1 ->] [r2 ->] H1 H2 Hab; [done|]. simpl in H1, H2. congruence. }
  intros i j di dj p Hij Hi Hj Hpi Hpj.
  destruct i as [|[|[|i]]], j as [|[|[|j]]]; try done; simpl in Hi, Hj; injection Hi as <-; injection Hj as <-;
    first [ assert (p = []) as -> by (eapply H0; [exact Hpi|exact Hpj|vm_compute; reflexivity|vm_compute; reflexivity|discriminate]);
            exists 0; constructor
          | apply Hp; change (take 3 (row_path data_keys d_bob)) with (take 3 (row_path data_keys d_dave));
            eapply Hcut; [exact Hpi|exact Hpj|vm_compute; reflexivity|vm_compute; reflexivity|discriminate]
          | apply Hp;
            eapply Hcut; [exact Hpi|exact Hpj|vm_compute; reflexivity|vm_compute; reflexivity|discriminate] ].
Qed.
Lemma c77_mixed : inserted data_keys h_alice [d_bob; d_dave; d_carol]
    (heap_after h_alice [d_bob; d_dave; d_carol] w77_mix).
Proof. apply done_inserted; [exact h_alice_reach|]. vm_compute. reflexivity. Qed.
Lemma c77_old : row_at h_alice (row_path data_keys d_alice) d_alice
  /\ row_at (heap_after h_alice [d_bob; d_dave; d_carol] w77_mix) (row_path data_keys d_alice) d_alice
  /\ row_at (heap_after h_alice [d_bob; d_dave; d_carol] w77_mix) (row_path data_keys d_dave) d_dave.
Proof. split_and!; apply row_at_find; vm_compute; reflexivity. Qed.
Lemma added_found_false : ~ (forall (h : list (cnode data)) (ds : list data) (h' : list (cnode data)) (d : data),
  ctrie_reachable data_keys h -> inserted data_keys h ds h' -> d ∈ ds ->
  exists d', d' ∈ ds /\ row_path data_keys d' = row_path data_keys d /\ row_at h' (row_path data_keys d) d').
Proof.
  intros H. destruct c77_lost as (h' & Hi & _ & Hno).
  destruct (H ctrie_new _ h' d_alice (ctrie_init _) Hi) as (d' & Hd & E & Hr); [by left|].
  apply elem_of_cons in Hd as [->|Hd]; [by eapply Hno|]. apply elem_of_list_singleton in Hd as ->.
  revert E. vm_compute. discriminate.
Qed.
Lemma never_half_false : ~ (forall (h : list (cnode data)) (ds : list data) (sched : list nat) (h' : list (cnode data)) (ths : list (cthread data)),
  ctrie_reachable data_keys h -> crun (h, cinsert data_keys <$> ds) sched = Some (h', ths) -> ~ half_written h').
Proof.
  intros H. destruct c77_reader as [Hh [ths Hr]]. exact (H _ _ _ _ _ (ctrie_init _) Hr Hh).
Qed.
