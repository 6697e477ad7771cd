(** Concrete concurrent registrations. *)
From Verif Require Export CRegProofs.

(** Objects as pointers: an id and an address. *)
Definition ptr : Type := string * nat.
Definition ptr_id (p : ptr) : string := p.1.
Lemma keyed_empty : keyed ptr_id ∅.
Proof. intros id y H. by rewrite lookup_empty in H. Qed.

(** Somebody offers one object alone. *)
Lemma alone {V} (id_of : V -> string) reg0 x rs reg' : registered id_of reg0 [x] rs reg' ->
  match reg0 !! id_of x with
  | Some y => rs = [y] /\ reg' = reg0
  | None => rs = [x] /\ reg' = <[id_of x := x]> reg0
  end.
Proof.
  intros [Hl [sched Hr]]. destruct rs as [|r [|r2 rs]]; try done.
  assert (Hdone : forall reg1 y z s st, rgrun id_of (reg1, [RDone y z]) s = Some st -> s = [] /\ st = (reg1, [RDone y z])).
  { intros reg1 y z [|[|i] s] st H; simpl in H; [by injection H as <-|done|done]. }
  destruct sched as [|[|i] sched]; simpl in Hr; [done| |done].
  unfold rgstep in Hr. simpl in Hr. destruct (reg0 !! id_of x) as [y|] eqn:E.
  - apply Hdone in Hr as [_ Hr]. injection Hr as -> ->. done.
  - destruct sched as [|[|i] sched]; simpl in Hr; [done| |done]. unfold rgstep in Hr. simpl in Hr.
    apply Hdone in Hr as [_ Hr]. injection Hr as -> ->. done.
Qed.

Lemma c79_refuted : ~ (forall (reg0 : gmap string ptr) (xs rs : list ptr) (reg' : gmap string ptr),
  keyed ptr_id reg0 -> registered ptr_id reg0 xs rs reg' -> agreed ptr_id xs rs reg').
Proof.
  intros H.
  destruct (rival_split ptr_id ∅ [("admin", 0); ("admin", 1)] 0 1 ("admin", 0) ("admin", 1)) as (rs & reg' & Hr & Hi & _ & Hreg); try done.
  specialize (H ∅ _ rs reg' keyed_empty Hr 0 ("admin", 0) ("admin", 0) eq_refl Hi). unfold ptr_id in *. simpl in *. congruence.
Qed.
(** Two goroutines offer the registered id, two the same new object, one another one. *)
Definition w79_reg : gmap string ptr := {["admin" := ("admin", 7)]}.
Definition w79_objs : list ptr := [("admin", 1); ("editor", 2); ("admin", 3); ("editor", 2); ("viewer", 4)].
Definition w79_sched : list nat := [1; 4; 3; 0; 1; 3; 2; 4].
Lemma c79_ex : keyed ptr_id w79_reg /\ no_rivals ptr_id w79_reg w79_objs
  /\ exists rs reg', registered ptr_id w79_reg w79_objs rs reg' /\ rs = [("admin", 7); ("editor", 2); ("admin", 7); ("editor", 2); ("viewer", 4)].
Proof.
  split; [|split].
  - intros id y H. unfold w79_reg in H. apply lookup_singleton_Some in H as [<- <-]. done.
  - intros x y Hx Hy. unfold w79_objs in *. rewrite !elem_of_cons, elem_of_nil in Hx, Hy.
    destruct Hx as [->|[->|[->|[->|[->|[]]]]]], Hy as [->|[->|[->|[->|[->|[]]]]]]; try done.
  - assert (H : snd <$> rgrun ptr_id (w79_reg, RGet <$> w79_objs) w79_sched =
                Some (zip_with RDone w79_objs [("admin", 7); ("editor", 2); ("admin", 7); ("editor", 2); ("viewer", 4)])).
    { vm_compute. reflexivity. }
    destruct (rgrun ptr_id (w79_reg, RGet <$> w79_objs) w79_sched) as [[reg' ths]|] eqn:E; [|discriminate].
    injection H as H. eexists _, reg'. split; [|reflexivity]. split; [done|]. exists w79_sched. rewrite E. simpl in H |- *. by rewrite H.
Qed.
