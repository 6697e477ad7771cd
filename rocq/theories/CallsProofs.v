(** Reading lists of calls. *)
From Verif Require Export CallsSpec.

Lemma first_skip {E A} (says : list E -> E -> A -> Prop) h e a : (forall b, ~ says h e b) -> first_of says (e :: h) a <-> first_of says h a.
Proof. intros N. cbn. split; [intros [H|[_ H]]; [exact H|destruct (N _ H)]|left; assumption]. Qed.
Lemma last_skip {E A} (says : list E -> E -> A -> Prop) h e a : (forall b, ~ says h e b) -> last_of says (e :: h) a <-> last_of says h a.
Proof. intros N. cbn. split; [intros [H|[_ H]]; [destruct (N _ H)|exact H]|intros H; right; split; assumption]. Qed.
Lemma ever_skip {E} (says : list E -> E -> Prop) h e : ~ says h e -> ever says (e :: h) <-> ever says h.
Proof. intros N. cbn. tauto. Qed.
Lemma first_of_fun {E A} (says : list E -> E -> A -> Prop) h a b : (forall h e a b, says h e a -> says h e b -> a = b) -> first_of says h a -> first_of says h b -> a = b.
Proof.
  intros F. induction h as [|e h IH]; cbn; [contradiction|]. intros [Ha|[Na Ha]] [Hb|[Nb Hb]]; [auto|destruct (Nb _ Ha)|destruct (Na _ Hb)|eauto].
Qed.
(** The first that said anything, against a map entry *)
Lemma first_entry {E A} (says : list E -> E -> A -> Prop) h e (old new : option A) (Q : A -> Prop) :
  (forall a, first_of says h a <-> old = Some a) -> (forall a, says h e a <-> Q a) ->
  (forall a, new = Some a <-> old = Some a \/ old = None /\ Q a) -> forall a, first_of says (e :: h) a <-> new = Some a.
Proof.
  intros O S N a. cbn [first_of]. rewrite N, O, S. assert (D : (forall b, ~ first_of says h b) <-> old = None); [|tauto].
  split.
  - intros M. destruct old as [z|]; [destruct (M z); apply O; reflexivity|reflexivity].
  - intros -> b Hb. apply O in Hb. discriminate.
Qed.
Lemma always_app {E} (P : list E -> E -> Prop) h1 h2 : always P (h1 ++ h2) -> always P h2.
Proof. induction h1 as [|e h1 IH]; cbn; [exact (fun H => H)|]. intros [_ H]. exact (IH H). Qed.
(** Another way to write the calls down *)
Section map.
  Context {E F A : Type} (f : E -> F).
  Lemma first_map (P : list E -> E -> A -> Prop) (Q : list F -> F -> A -> Prop) h a :
    (forall h e a, P h e a <-> Q (f <$> h) (f e) a) -> first_of P h a <-> first_of Q (f <$> h) a.
  Proof.
    intros H. revert a. induction h as [|e h IH]; intros a; cbn; [reflexivity|]. rewrite IH, (H h e a).
    assert (D : (forall b, ~ first_of P h b) <-> forall b, ~ first_of Q (f <$> h) b); [|tauto]. split; intros N b Hb; apply (N b), IH, Hb.
  Qed.
  Lemma ever_map (P : list E -> E -> Prop) (Q : list F -> F -> Prop) h : (forall h e, P h e <-> Q (f <$> h) (f e)) -> ever P h <-> ever Q (f <$> h).
  Proof. intros H. induction h as [|e h IH]; cbn; [reflexivity|]. rewrite IH, (H h e). reflexivity. Qed.
  Lemma elem_map (c : E) (d : F) (h : list E) : (forall e, e = c <-> f e = d) -> c ∈ h <-> d ∈ f <$> h.
  Proof.
    intros H. rewrite elem_of_list_fmap. split.
    - intros Hc. exists c. split; [symmetry; apply H; reflexivity|exact Hc].
    - intros (e & D & He). symmetry in D. apply H in D. subst e. exact He.
  Qed.
End map.
