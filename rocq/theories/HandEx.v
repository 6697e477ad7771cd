(** Witnesses for rows that the caller keeps pointers to. *)
From Verif Require Export RoleCor HandWrite.

Definition of_principal (p : string) (row : data) : bool := filter_func (row_filter ANil ANil ANil (AStr p)) row.
Definition clerk (p : string) : data := Data (AStr "acme") ANil ANil (AStr p) (AStr "clerk") (ABool true).

Definition found_in (ops : list hop) (cb : data -> bool) : list nat :=
  (filter (fun x => reads ops cb x = true) (survivors fst (hlog h_start ops))).*2.
Lemma found_is ops cb L o : found_in ops cb = L -> h_search o (hrun ops) cb ≡ₚ L.
Proof. intros H. rewrite h_search_spec. by rewrite <- H. Qed.
Lemma found_nil ops cb o : found_in ops cb = [] -> h_search o (hrun ops) cb = [].
Proof. intros H. apply (found_is ops cb [] o) in H. by apply Permutation_nil. Qed.
Lemma found_one ops cb o p : found_in ops cb = [p] -> h_search o (hrun ops) cb = [p].
Proof. intros H. apply (found_is ops cb [p] o) in H. apply Permutation_singleton_r in H. done. Qed.
Ltac computed := vm_compute; reflexivity.

(** A row that was handed out is changed: the assignment moves from ann to eve. *)
Definition w124_copy : list hop := [HNew (clerk "ann"); HAdd 0].
Lemma c124_copies_refuted : exists ops p d (cb cb' : data -> bool), forall o,
  h_search o (hrun ops) cb = [p] /\ h_search o (hrun ops) cb' = []
  /\ h_search o (hrun (ops ++ [HSet p d])) cb = [] /\ h_search o (hrun (ops ++ [HSet p d])) cb' = [p].
Proof.
  exists w124_copy, 0, (clerk "eve"), (of_principal "ann"), (of_principal "eve"). intros o.
  split; [apply found_one; computed|]. split; [apply found_nil; computed|]. split; [apply found_nil; computed|]. apply found_one; computed.
Qed.

(** One variable is used for two rows: the first one is lost, the second one stands there twice. *)
Definition w124_reuse : list hop := [HNew (clerk "ann"); HAdd 0; HSet 0 (clerk "bob"); HAdd 0].
Lemma w124_entered : entered w124_reuse [clerk "ann"; clerk "bob"].
Proof.
  change (entered (([] ++ [HNew (clerk "ann")] ++ [HAdd 0]) ++ [HSet 0 (clerk "bob")] ++ [HAdd 0]) ([clerk "ann"] ++ [clerk "bob"])). rewrite !app_assoc.
  apply entered_add; [apply entered_other; [|discriminate]; apply (entered_add _ [])|]; [apply entered_other; [constructor|discriminate]| |].
  - exists [], (HNew (clerk "ann")), []. split; [done|]. split; [by left|]. intros d' H. by apply not_elem_of_nil in H.
  - exists [HNew (clerk "ann"); HAdd 0], (HSet 0 (clerk "bob")), []. split; [done|]. split; [right; split; [done|apply (bool_decide_unpack _); done]|]. intros d' H. by apply not_elem_of_nil in H.
Qed.
Lemma c124_reuse_refuted : exists ops log d p, entered ops log /\ NoDup (path <$> log) /\ d ∈ log /\ forall o,
  h_search o (hrun ops) (fun r => bool_decide (r = d)) = [] /\ h_search o (hrun ops) (fun _ => true) ≡ₚ [p; p].
Proof.
  exists w124_reuse, [clerk "ann"; clerk "bob"], (clerk "ann"), 0. split; [exact w124_entered|]. split; [|split; [left|]].
  - apply (bool_decide_unpack _). computed.
  - intros o. split; [apply found_nil; computed|]. apply found_is; computed.
Qed.

(** A row that was changed goes when a row like it was before is added. *)
Definition w124_lost : list hop := [HNew (clerk "ann"); HAdd 0; HSet 0 (clerk "eve"); HNew (clerk "ann")].
Lemma c124_lost_refuted : exists ops p p' d d', holds ops p d /\ holds ops p' d' /\ path d <> path d'
  /\ forall o, h_search o (hrun ops) (fun _ => true) = [p] /\ p ∉ h_search o (hrun (ops ++ [HAdd p'])) (fun _ => true).
Proof.
  exists w124_lost, 0, 1, (clerk "eve"), (clerk "ann"). split; [apply holds_lookup; computed|]. split; [apply holds_lookup; computed|].
  split; [by apply (bool_decide_unpack _)|]. intros o. split; [apply found_one; computed|].
  rewrite (found_one (w124_lost ++ [HAdd 1]) (fun _ => true) o 1) by computed. intros H. by apply elem_of_list_singleton in H.
Qed.

(** ** Decisions *)
Definition w124_ops : list op :=
  [ONewGroup "backend"; OGroupAdd 0 [Attr "/doc" "GET"]; OAddGroup 0; ONewTenant "acme"; OAddTenant 0; OAddNamespace "hr"; OTenantAddNamespaces 0 ["hr"]; ONewRole "clerk"; OAddRole 0;
   OAddPermissionsToRole "clerk" "backend" [Attr "/doc" "GET"]; OAddPrincipal "ann"; OAddPrincipal "eve"; OTenantAddPrincipal 0 "ann" true ["clerk"]].
Definition w124_q : opts := Opts (AStr "acme") (AStr "hr") ANil (AStr "backend") (AStr "/doc GET").
Definition w124_st : state := ops_state w124_ops.
Definition w124_row : data := clerk "ann".
Definition decision (st : state) (p : string) : option bool := answer (authorize id_oracle st p w124_q).
Lemma c124_decisions_refuted : exists st old new p p' q, reachable st /\ (forall o, old ∈ trie_data o (m_trie st))
  /\ (forall o d, d ∈ trie_data o (m_trie st) -> principal d <> AStr p')
  /\ answer (authorize id_oracle st p q) = Some true /\ answer (authorize id_oracle st p' q) = Some false
  /\ answer (authorize id_oracle (write_row st old new) p q) = Some false
  /\ answer (authorize id_oracle (write_row st old new) p' q) = Some true.
Proof.
  exists w124_st, w124_row, (clerk "eve"), "ann", "eve", w124_q. split; [reach_ops w124_ops|].
  assert (E : forall o d, d ∈ trie_data o (m_trie w124_st) <-> d ∈ [Data (AStr "acme") (AStr "hr") ANil ANil ANil ANil; clerk "ann"]).
  { intros o d. unfold trie_data, trie_search. rewrite dfs_all.
    replace (prows (m_trie w124_st)).*2 with [Data (AStr "acme") (AStr "hr") ANil ANil ANil ANil; clerk "ann"] by (vm_compute; reflexivity).
    rewrite elem_of_list_filter. tauto. }
  split; [intros o; apply E; right; left|]. split.
  - intros o d H. apply E in H. apply elem_of_cons in H as [->|H]; [discriminate|]. apply elem_of_list_singleton in H as ->. discriminate.
  - split; [computed|]. split; [computed|]. split; computed.
Qed.

(** ** Concrete cases *)
Definition w124_left : list hop := [HNew (clerk "ann"); HSet 0 (clerk "bob"); HAdd 0; HNew (clerk "ann"); HAdd 1; HAdd 7; HNew (clerk "bob"); HAdd 2].
Lemma w124_left_alone : left_alone w124_left.
Proof.
  intros l1 l2 p d E H. assert (K : HSet p d ∈ drop 2 w124_left).
  { destruct l1 as [|x1 [|x2 l1]]; [discriminate|discriminate|]. injection E as _ _ E. change (drop 2 w124_left) with [HAdd 0; HNew (clerk "ann"); HAdd 1; HAdd 7; HNew (clerk "bob"); HAdd 2]. rewrite E. apply elem_of_app. right. by right. }
  cbn [w124_left drop] in K. repeat (apply elem_of_cons in K as [K|K]; [discriminate|]). by apply not_elem_of_nil in K.
Qed.
Lemma c124_ex : forall o, h_search o (hrun w124_reuse) (of_principal "bob") ≡ₚ [0; 0]
  /\ h_search o (hrun w124_left) (of_principal "bob") = [2] /\ h_search o (hrun w124_left) (fun _ => true) ≡ₚ [1; 2]
  /\ h_search o (hrun (w124_left ++ [HSet 2 (clerk "ann")])) (of_principal "ann") ≡ₚ [1; 2].
Proof. intros o. split; [apply found_is; computed|]. split; [apply found_one; computed|]. split; [apply found_is|apply found_is]; computed. Qed.
Fixpoint hvals (h : hstate) (ops : list hop) : list data :=
  match ops with
  | [] => []
  | x :: ops' => match x with HAdd p => match h_rows h !! p with Some d => [d] | None => [] end | _ => [] end ++ hvals (hstep h x) ops'
  end.
Lemma hvals_snoc h ops x : hvals h (ops ++ [x]) = hvals h ops ++ match x with HAdd p => match h_rows (foldl hstep h ops) !! p with Some d => [d] | None => [] end | _ => [] end.
Proof. revert h. induction ops as [|y ops IH]; intros h; simpl; [by rewrite app_nil_r|]. by rewrite IH, app_assoc. Qed.
Lemma entered_vals ops : entered ops (hvals h_start ops).
Proof.
  induction ops as [|x ops IH] using rev_ind; [constructor|]. rewrite hvals_snoc. destruct x as [d|p|p d]; try (rewrite app_nil_r; by apply entered_other).
  change (foldl hstep h_start ops) with (hrun ops). destruct (h_rows (hrun ops) !! p) as [d|] eqn:E.
  - apply entered_add; [done|]. by apply holds_lookup.
  - rewrite app_nil_r. apply entered_nil; [done|]. intros d H. apply holds_lookup in H. congruence.
Qed.
Lemma w124_left_entered : entered w124_left [clerk "bob"; clerk "ann"; clerk "bob"].
Proof. exact (entered_vals w124_left). Qed.
Lemma c124_untouched_ex : left_alone w124_left /\ entered w124_left [clerk "bob"; clerk "ann"; clerk "bob"].
Proof. split; [exact w124_left_alone|exact w124_left_entered]. Qed.
