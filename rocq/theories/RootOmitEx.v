(** Concrete cases for requests to the root package that name less. *)
From Verif Require Export RootOmitProofs RootEx.

Lemma narrow_wide (st : state) p q q' : verdict (authorize id_oracle st p q) = Some true ->
  verdict (authorize id_oracle (final (authorize id_oracle st p q)) p q') = Some false ->
  exists st' st'', authorize id_oracle st p q = Ok (st', true) /\ authorize id_oracle st' p q' = Ok (st'', false).
Proof. intros H1%answer_ok H2%answer_ok. eauto. Qed.
(** "ann" has the scope "s" in "acme", and nothing in the namespace "hr". *)
Definition w131 : list op :=
  [ONewTenant "acme"; OAddTenant 0; OAddNamespace "hr"; OAddScope "s"; OAddPrincipal "ann"; ONewRole "clerk"; OAddRole 0;
   ORoleAddPermission 0 "page" [Attr "/orders" "GET"]; OTenantAssignScopes 0 "ann" true ["s"]].
Definition q131 : opts := Opts (AStr "acme") (AStr "hr") (AStr "s") ANil ANil.
Lemma c131_scope_refuted : exists st p q, reachable st /\ m_cache st !! p = None /\ ~ asks_activity q /\ exists st' st'',
  authorize id_oracle st p q = Ok (st', true) /\ authorize id_oracle st' p (without_scope q) = Ok (st'', false).
Proof.
  exists (ops_state w131), "ann", q131. split; [reach_ops w131|]. split; [vm_compute; reflexivity|]. split; [by intros [? _]|].
  apply narrow_wide; vm_compute; reflexivity.
Qed.
Definition q131_page : opts := Opts (AStr "acme") (AStr "hr") (AStr "s") (AStr "page") (AStr "/orders GET").
Definition w131_hr : list op := w131 ++ [OTenantAddPrincipalInNamespace 0 "ann" "hr" "clerk"].
Lemma c131_activity_refuted : exists st p q, reachable st /\ m_cache st !! p = None /\ asks_activity q /\ exists st' st'',
  authorize id_oracle st p q = Ok (st', true) /\ authorize id_oracle st' p (tenant_alone q) = Ok (st'', false).
Proof.
  exists (ops_state w131_hr), "ann", q131_page. split; [reach_ops w131_hr|]. split; [vm_compute; reflexivity|]. split; [done|].
  apply narrow_wide; vm_compute; reflexivity.
Qed.
(** A role given for the scope "s", in no tenant. *)
Definition w131_row : list op := w131 ++ [OAddData (Data ANil ANil (AStr "s") (AStr "ann") (AStr "clerk") ANil)].
Lemma c131_row_refuted : exists st p q, reachable st /\ m_cache st !! p = None /\ asks_activity q /\ exists st' st'',
  authorize id_oracle st p q = Ok (st', true) /\ authorize id_oracle st' p (without_scope q) = Ok (st'', false).
Proof.
  exists (ops_state w131_row), "ann", q131_page. split; [reach_ops w131_row|]. split; [vm_compute; reflexivity|]. split; [done|].
  apply narrow_wide; vm_compute; reflexivity.
Qed.
Lemma given_somewhere_list st p : Forall (fun d => principal d <> AStr p \/ role d = ANil \/ match tenant d with AStr _ => True | _ => False end) (trie_data id_oracle (m_trie st)) ->
  given_somewhere st p.
Proof.
  intros H d Hd Hp Hr. rewrite Forall_forall in H. destruct (H d Hd) as [?|[?|Ht]]; [done|done|].
  destruct (tenant d); try done; eauto.
Qed.
Lemma c131_ex : let st := ops_state w131_hr in let st' := final (authorize id_oracle st "ann" q131_page) in
  reachable st /\ m_cache st !! "ann" = None /\ given_somewhere st "ann" /\ asks_activity q131_page
  /\ verdict (authorize id_oracle st "ann" q131_page) = Some true
  /\ verdict (authorize rev_oracle st' "ann" (without_scope q131_page)) = Some true
  /\ verdict (authorize rev_oracle st' "ann" (without_namespace q131_page)) = Some true
  /\ verdict (authorize rev_oracle st' "ann" (without_tenant q131_page)) = Some true
  /\ verdict (authorize rev_oracle st' "ann" (Opts (AStr "acme") (AStr "hr") ANil (AStr "page") (AStr "/orders PUT"))) = Some false
  /\ verdict (authorize rev_oracle st' "ann" (Opts ANil (AStr "hr") (AStr "s") (AStr "page") (AStr "/orders PUT"))) = Some false.
Proof.
  split; [reach_ops w131_hr|]. split; [vm_compute; reflexivity|].
  split. { apply given_somewhere_list. vm_compute. repeat (constructor; [by auto|]). constructor. }
  split; [done|]. split_and!; vm_compute; reflexivity.
Qed.
Lemma c131_membership_ex : let st := ops_state w131 in let st' := final (authorize id_oracle st "ann" q131) in
  reachable st /\ m_cache st !! "ann" = None /\ ~ asks_activity q131
  /\ verdict (authorize id_oracle st "ann" q131) = Some true
  /\ verdict (authorize rev_oracle st' "ann" (without_namespace q131)) = Some true
  /\ verdict (authorize rev_oracle st' "ann" (tenant_alone q131)) = Some true.
Proof.
  split; [reach_ops w131|]. split; [vm_compute; reflexivity|]. split; [by intros [? _]|]. split_and!; vm_compute; reflexivity.
Qed.
