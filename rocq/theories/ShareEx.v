(** Concrete cases for rows and answers shared with the caller. *)
From Verif Require Import RootEx RowProofs HeldProofs RowSpec HeldSpec.

(** ** Rows *)
Definition row_state (ops : list row_op) : row_store := match row_run no_rows ops with Some s => s | None => no_rows end.
Lemma row_runs ops : match row_run no_rows ops with Some _ => true | None => false end = true -> row_run no_rows ops = Some (row_state ops).
Proof. unfold row_state. by destruct (row_run no_rows ops). Qed.
Definition w89_row (t p : string) : data := Data (AStr t) ANil ANil (AStr p) (AStr "clerk") (ABool false).
Definition w89_ops : list row_op := [RowAlloc (w89_row "acme" "ann"); RowAdd 0; RowAlloc (w89_row "acme" "bob"); RowAdd 1].
Definition w89_written : list row_op := w89_ops ++ [RowWrite 0 (w89_row "acme" "eve")].
Definition w89_api : list op :=
  [ONewTenant "acme"; OAddTenant 0; OAddPrincipal "ann"; OAddPrincipal "bob"; OAddPrincipal "eve"].
Lemma c89_refuted : exists ops s, row_run no_rows ops = Some s /\ ~ shown_as_added ops s.
Proof.
  exists w89_written, (row_state w89_written). split; [apply row_runs; vm_compute; reflexivity|]. intros H.
  specialize (H id_oracle (fun d => any_eq (principal d) (AStr "eve"))). apply Permutation_length in H. vm_compute in H. discriminate H.
Qed.
Lemma c89_verdict : let st := ops_state w89_api in
  row_run no_rows w89_ops = Some (row_state w89_ops)
  /\ w89_written = w89_ops ++ [RowWrite 0 (w89_row "acme" "eve")] /\ row_run no_rows w89_written = Some (row_state w89_written)
  /\ added w89_written = added w89_ops
  /\ let ask s p := verdict (authorize id_oracle (seen_state st s) p (tenant_only "acme")) in
     (ask (row_state w89_ops) "ann", ask (row_state w89_ops) "bob", ask (row_state w89_ops) "eve") = (Some true, Some true, Some false)
     /\ (ask (row_state w89_written) "ann", ask (row_state w89_written) "bob", ask (row_state w89_written) "eve") = (Some false, Some true, Some true).
Proof. cbn zeta. split_and!; vm_compute; reflexivity. Qed.
Lemma c89_ex : left_alone w89_ops /\ (remaining w89_ops).*2 = [w89_row "acme" "ann"; w89_row "acme" "bob"].
Proof.
  split; [|vm_compute; reflexivity]. intros ops1 l d ops2 E. exfalso.
  assert (H : RowWrite l d ∈ w89_ops) by (rewrite E; apply elem_of_app; right; left). unfold w89_ops in H.
  rewrite !elem_of_cons, elem_of_nil in H. destruct H as [H|[H|[H|[H|[]]]]]; discriminate H.
Qed.
Lemma c89_reuse_ex : let ds := [w89_row "acme" "ann"; w89_row "acme" "bob"; w89_row "globex" "eve"] in
  NoDup (row_path data_keys <$> ds)
  /\ let s := row_state (RowAlloc (w89_row "" "") :: through_one 0 ds) in
     row_run no_rows (RowAlloc (w89_row "" "") :: through_one 0 ds) = Some s
     /\ contents s (row_search id_oracle s (fun _ => true)) = [w89_row "globex" "eve"; w89_row "globex" "eve"; w89_row "globex" "eve"].
Proof.
  split; [|split; vm_compute; reflexivity]. cbn. repeat (apply NoDup_cons; split; [|]); try apply NoDup_nil_2.
  all: rewrite ?elem_of_cons, elem_of_nil; try tauto.
  all: intros H; repeat destruct H as [H|H]; try discriminate H; try exact H.
Qed.

(** ** Answers *)
Definition w90_ops : list op :=
  [ONewTenant "acme"; OAddTenant 0; OAddNamespace "hr"; OTenantAddNamespaces 0 ["hr"]; OAddPrincipal "ann"; OAddPrincipal "eve"; OAddPrincipal "bob";
   ONewRole "clerk"; OAddRole 0; OTenantAddPrincipal 0 "ann" false ["clerk"]; OTenantAddPrincipal 0 "bob" false ["clerk"];
   OImplicitTenants "eve"; OImplicitTenants "ann"].
Definition w90_hr : opts := Opts (AStr "acme") (AStr "hr") ANil ANil ANil.
Lemma not_same st st' p o q : answer (authorize o st p q) = Some false -> answer (authorize o st' p q) = Some true -> ~ same_verdicts st st' p.
Proof.
  intros Hf Ht H. apply answer_ok in Ht, Hf. destruct (H o q true) as [_ H']. destruct (H' (ex_intro _ _ Ht)) as [st1 H1].
  rewrite Hf in H1. discriminate H1.
Qed.
Definition edited (st : state) (p : string) (s : list string) : state :=
  with_cache st (<[p := list_to_set s]> (m_cache st)).
Lemma edited_is st p s : bool_decide (is_Some (m_cache st !! p)) = true -> edit_tenants st p (list_to_set s) = Some (edited st p s).
Proof. intros [x Hx]%bool_decide_eq_true. unfold edit_tenants. by rewrite Hx. Qed.
Lemma c90_refuted : exists st, reachable st /\ ~ answers_are_copies st.
Proof.
  exists (ops_state w90_ops). split; [reach_ops w90_ops|]. intros H.
  assert (He : edit_tenants (ops_state w90_ops) "eve" (list_to_set ["x"]) = Some (edited (ops_state w90_ops) "eve" ["x"]))
    by (apply edited_is; vm_compute; reflexivity).
  refine (not_same _ _ "eve" id_oracle w90_hr _ _ (H "eve" (list_to_set ["x"]) _ "eve" He)); vm_compute; reflexivity.
Qed.
Lemma c90_verdicts : let st := ops_state w90_ops in
  let ask st p := verdict (authorize rev_oracle st p w90_hr) in
  edit_tenants st "eve" (list_to_set ["x"]) = Some (edited st "eve" ["x"])
  /\ edit_tenants st "ann" (list_to_set []) = Some (edited st "ann" [])
  /\ (ask st "eve", ask st "ann", ask st "bob") = (Some false, Some true, Some true)
  /\ (ask (edited st "eve" ["x"]) "eve", ask (edited st "eve" ["x"]) "ann", ask (edited st "eve" ["x"]) "bob") = (Some true, Some true, Some true)
  /\ (ask (edited st "ann" []) "eve", ask (edited st "ann" []) "ann", ask (edited st "ann" []) "bob") = (Some false, Some false, Some true).
Proof. split; [apply edited_is; vm_compute; reflexivity|]. split; [apply edited_is; vm_compute; reflexivity|]. cbn zeta. split_and!; vm_compute; reflexivity. Qed.

Definition w90c_ops : list op :=
  [ONewTenant "acme"; OAddTenant 0; ONewTenant "branch"; OAddTenant 1; ONewTenant "globex"; OAddTenant 2; OTenantAddDescendant 0 [1];
   OAddNamespace "hr"; OTenantAddNamespaces 2 ["hr"]; OAddPrincipal "ann"; OAddPrincipal "bob"; ONewRole "clerk"; OAddRole 0;
   OTenantAddPrincipal 0 "ann" true ["clerk"]; OTenantAddPrincipal 0 "bob" true ["clerk"]; OImplicitTenants "bob"; OTenantChildren "acme"].
Definition w90c_hr : opts := Opts (AStr "branch") (AStr "hr") ANil ANil ANil.
Definition edited_c (st : state) (t : string) (ds : list any) : state := with_hierarchy st (<[t := ds]> (m_hierarchy st)).
Lemma edited_c_is st t ds : match m_hierarchy st !! t with Some ds0 => Nat.eqb (length ds) (length ds0) | None => false end = true ->
  edit_children st t ds = Some (edited_c st t ds).
Proof.
  unfold edit_children. destruct (m_hierarchy st !! t); [|done]. cbn. intros H%Nat.eqb_eq. by rewrite bool_decide_true.
Qed.
Lemma c90c_refuted : exists st, reachable st /\ ~ children_are_copies st.
Proof.
  exists (ops_state w90c_ops). split; [reach_ops w90c_ops|]. intros H.
  assert (He : edit_children (ops_state w90c_ops) "acme" [AStr "globex"] = Some (edited_c (ops_state w90c_ops) "acme" [AStr "globex"]))
    by (apply edited_c_is; vm_compute; reflexivity).
  refine (not_same _ _ "ann" id_oracle w90c_hr _ _ (H "acme" [AStr "globex"] _ "ann" He)); vm_compute; reflexivity.
Qed.
Lemma only_of_list st p t l : trie_data id_oracle (m_trie st) = l ->
  (exists d, d ∈ l /\ principal d = AStr p /\ tenant d = AStr t) ->
  (forall d, d ∈ l -> principal d = AStr p -> tenant d = AStr t /\ manage d = ABool true) -> manages_only st p t.
Proof.
  intros <- Hex Hall. split; [exact Hex|]. intros d Hd Hp _. exact (Hall d Hd Hp).
Qed.
Lemma w90c_manages : manages_only (ops_state w90c_ops) "ann" "acme".
Proof.
  apply (only_of_list _ _ _
    [Data (AStr "globex") (AStr "hr") ANil ANil ANil ANil; Data (AStr "acme") ANil ANil (AStr "ann") (AStr "clerk") (ABool true);
     Data (AStr "acme") ANil ANil (AStr "bob") (AStr "clerk") (ABool true)]); [vm_compute; reflexivity| |].
  - eexists. split; [right; left|]. split; reflexivity.
  - intros d Hd Hp. rewrite !elem_of_cons, elem_of_nil in Hd.
    destruct Hd as [->|[->|[->|[]]]]; [discriminate Hp|split; reflexivity|discriminate Hp].
Qed.
Lemma c90c_ex : let st := ops_state w90c_ops in
  manages_only st "ann" "acme" /\ m_cache st !! "ann" = None
  /\ edit_children st "acme" [AStr "globex"] = Some (edited_c st "acme" [AStr "globex"])
  /\ let ask st p := verdict (authorize rev_oracle st p w90c_hr) in
     (ask st "ann", ask st "bob") = (Some false, Some false)
     /\ (ask (edited_c st "acme" [AStr "globex"]) "ann", ask (edited_c st "acme" [AStr "globex"]) "bob") = (Some true, Some false).
Proof.
  split; [exact w90c_manages|]. split; [vm_compute; reflexivity|]. split; [apply edited_c_is; vm_compute; reflexivity|].
  cbn zeta. split_and!; vm_compute; reflexivity.
Qed.
