(** Concrete cases for concurrent assignment. *)
From Verif Require Import CAssignHole CAssignProofs CAssignSpec.

Definition xp (p r : string) : prole := PRole p "acme" "" "" r None false.
Definition x_prs : list prole := [xp "ann" "reader"; xp "bob" "writer"; xp "cat" "reader"].
Definition x_ann : prole := PRole "ann" "" "" "" "" None false.
Lemma x_hyps : (forall x, x ∈ [0; 1] -> is_Some (x_prs !! x)) /\ is_Some (x_prs !! 2) /\
  (exists x, x ∈ [0; 1] /\ row_fits x_prs x_ann x) /\ ~ row_fits x_prs x_ann 2.
Proof.
  split; [|split; [|split]].
  - intros x [->|[->|H%elem_of_nil]%elem_of_cons]%elem_of_cons; [| |done]; by eexists.
  - by eexists.
  - exists 0. split; [left|]. exists (xp "ann" "reader"). split; [done|].
    repeat split; ((by left) || (by right)).
  - intros (pr & H & [[Hp|Hp] _]); [discriminate|]. injection H as <-. discriminate.
Qed.
Definition in_turn_always : Prop := forall (prs : list prole) (old : list (option nat)) (ts : list athread),
  Forall starting ts -> as_if_in_turn prs old ts.
Lemma in_turn_false : ~ in_turn_always.
Proof.
  intros H. destruct x_hyps as (H1 & H2 & H3 & H4).
  destruct (hole_lost x_prs [0; 1] x_ann 2 H1 H2 H3 H4) as (sched & st' & Hf & _ & _ & Hno).
  destruct (H x_prs (Some <$> [0; 1]) [AWait [2]; XLen x_ann]) with (sched := sched) (st' := st') as (s' & Ho & Hf').
  - constructor; [left; by eexists|]. constructor; [right; by eexists|constructor].
  - exact Hf.
  - exact (Hno s' Ho Hf').
Qed.
(** Two calls, the second one starts (and waits for the lock) while the first one is inside. *)
Lemma x_adds : exists sched st', finishes x_prs [Some 0] (AWait <$> [[1]; [2; 0]]) sched st' /\
  as_list st' = [Some 0; Some 2; Some 0; Some 1].
Proof.
  exists [1; 1; 1; 1; 1; 1; 0; 0; 0; 0]. eexists. split; [split; [vm_compute; reflexivity|]|reflexivity].
  constructor; [by left|]. constructor; [by left|constructor].
Qed.
(** The lock is held: the other call cannot enter. *)
Lemma x_waits : exists st', arun x_prs (AState [Some 0] None (AWait <$> [[1]; [2; 0]])) [1; 1] = Some st' /\
  astep x_prs st' 0 = None /\ is_Some (astep x_prs st' 1).
Proof. eexists. split; [vm_compute; reflexivity|]. split; [vm_compute; reflexivity|]. vm_compute. by eexists. Qed.
