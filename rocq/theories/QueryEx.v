(** Witnesses and corollaries for the listing queries. *)
From Verif Require Export QueryPerm.

Definition row (t n s p r : string) : data :=
  let c x := if decide (x = "") then ANil else AStr x in Data (c t) (c n) (c s) (c p) (c r) ANil.

Definition w66_ops : list op :=
  [OAddData (row "acme" "" "" "ann" "admin"); OAddData (row "acme" "east" "" "" "");
   OAddData (row "acme" "west" "" "bob" ""); OAddData (row "acme" "east" "desk" "" "");
   OAddData (row "acme" "" "till" "ann" ""); OAddData (row "bolt" "east" "shop" "bob" "clerk");
   OAddData (row "bolt" "north" "safe" "ann" "clerk")].
Lemma w66_reach : reachable (ops_state w66_ops).
Proof. reach_ops w66_ops. Qed.
Lemma w66_lists :
  let st := ops_state w66_ops in
  get_scopes_by_principal id_oracle st (AStr "ann")
    = [row "acme" "" "till" "ann" ""; row "bolt" "north" "safe" "ann" "clerk"]
  /\ get_namespaces_by_tenant id_oracle st (AStr "acme")
    = [row "acme" "east" "" "" ""; row "acme" "east" "desk" "" ""; row "acme" "west" "" "bob" ""]
  /\ get_scopes_for_principal_by_tenant id_oracle st (AStr "ann") (AStr "acme")
    = [row "acme" "east" "desk" "" ""; row "acme" "" "till" "ann" ""]
  /\ get_namespaces_by_principal id_oracle st (AStr "ann")
    = [row "acme" "east" "" "" ""; row "acme" "east" "desk" "" ""; row "bolt" "north" "safe" "ann" "clerk"].
Proof. vm_compute. repeat split. Qed.

(** ** C67 *)
Lemma c67_tn_refuted : exists st p t n d, reachable st
  /\ d ∈ get_roles_tn id_oracle st p t n /\ principal d <> p /\ tenant d <> t.
Proof.
  exists (ops_state w66_ops), (AStr "ann"), (AStr "acme"), (AStr "east"), (row "bolt" "east" "shop" "bob" "clerk").
  split; [exact w66_reach|]. split; [|by split].
  apply (bool_decide_unpack _). vm_compute. exact I.
Qed.
Lemma c67_ts_refuted : exists st p t s d, reachable st
  /\ d ∈ get_roles_ts id_oracle st p t s /\ principal d <> p /\ tenant d <> t.
Proof.
  exists (ops_state w66_ops), (AStr "ann"), (AStr "acme"), (AStr "shop"), (row "bolt" "east" "shop" "bob" "clerk").
  split; [exact w66_reach|]. split; [|by split].
  apply (bool_decide_unpack _). vm_compute. exact I.
Qed.
Lemma c67_tns_refuted : exists st p t n s d, reachable st
  /\ d ∈ get_roles_tns id_oracle st p t n s /\ tenant d <> t.
Proof.
  exists (ops_state w66_ops), (AStr "ann"), (AStr "acme"), (AStr "north"), (AStr "desk"), (row "bolt" "north" "safe" "ann" "clerk").
  split; [exact w66_reach|]. split; [|done].
  apply (bool_decide_unpack _). vm_compute. exact I.
Qed.
Lemma c67_scopes_refuted : exists st p t n d, reachable st
  /\ d ∈ get_scopes_for_principal_by_tenant_and_namespace id_oracle st p t n
  /\ namespace d <> ANil /\ namespace d <> n.
Proof.
  exists (ops_state w66_ops), (AStr "ann"), (AStr "bolt"), (AStr "east"), (row "bolt" "north" "safe" "ann" "clerk").
  split; [exact w66_reach|]. split; [|by split].
  apply (bool_decide_unpack _). vm_compute. exact I.
Qed.
Lemma c67_partial o st p t n s : reachable st ->
  (forall d, stored st d -> role d <> ANil -> namespace d = n /\ namespace d <> ANil \/ scope d = s /\ scope d <> ANil ->
     principal d = p /\ tenant d = t) ->
  forall d, d ∈ get_roles_tn o st p t n \/ d ∈ get_roles_ts o st p t s \/ d ∈ get_roles_tns o st p t n s ->
    principal d = p /\ tenant d = t.
Proof.
  intros Hr H d. rewrite (proj2 (roles_tn_rows o st p t n Hr)), (proj2 (roles_ts_rows o st p t s Hr)),
    (proj2 (roles_tns_rows o st p t n s Hr)). clear Hr.
  intros [(Hd & Hx & [?|?])|[(Hd & Hx & [?|?])|(Hd & Hx & ? & ? & [?|[?|?]])]]; try (specialize (H d Hd Hx)); tauto.
Qed.

(** ** C68 *)
Lemma stored_rows st l : trie_data id_oracle (m_trie st) = l -> forall d, stored st d <-> d ∈ l.
Proof. intros <- d. done. Qed.
Definition w66_rows : list data := trie_data id_oracle (m_trie (ops_state w66_ops)).
Definition not_for (s p : any) (d : data) : bool :=
  negb (any_eq (scope d) s && (is_nil (principal d) || any_eq (principal d) p)).
Lemma c68_scopes_refuted : exists st p t n st' resp s r, reachable st
  /\ get_scopes_with_roles id_oracle st p t n = Ok (st', resp) /\ lists_role resp s r
  /\ forall d, stored st d -> scope d = s -> principal d <> ANil /\ principal d <> p.
Proof.
  exists (ops_state w66_ops), (AStr "ann"), (AStr "bolt"), (AStr "east"),
    (final (get_scopes_with_roles id_oracle (ops_state w66_ops) (AStr "ann") (AStr "bolt") (AStr "east"))),
    [(AStr "shop", [AStr "clerk"]); (AStr "safe", [AStr "clerk"])], (AStr "shop"), (AStr "clerk").
  split; [exact w66_reach|]. split; [answered|]. split; [exists [AStr "clerk"]; split; left|].
  intros d Hd Hs.
  assert (H : forallb (not_for (AStr "shop") (AStr "ann")) w66_rows = true) by (vm_compute; reflexivity).
  rewrite forallb_forall in H. specialize (H d). rewrite <-elem_of_list_In in H. specialize (H Hd). clear Hd.
  unfold not_for in H. apply negb_true_iff, andb_false_iff in H as [H|H].
  - rewrite Hs in H. vm_compute in H. discriminate.
  - apply orb_false_iff in H as [H1 H2]. split; [by apply is_nil_false|].
    intros E. rewrite E in H2. vm_compute in H2. discriminate.
Qed.
Lemma c68_roles_refuted : exists st p t n st' resp s, reachable st
  /\ get_scopes_with_roles id_oracle st p t n = Ok (st', resp) /\ lists_role resp s ANil.
Proof.
  exists (ops_state w66_ops), (AStr "ann"), (AStr "acme"), ANil,
    (final (get_scopes_with_roles id_oracle (ops_state w66_ops) (AStr "ann") (AStr "acme") ANil)),
    [(AStr "desk", [AStr "admin"; ANil]); (AStr "till", [AStr "admin"; ANil])], (AStr "desk").
  split; [exact w66_reach|]. split; [answered|]. eexists. split; [left|]. right. left.
Qed.
Lemma c68_tenant_refuted : exists st p t n st1 resp1 st2 resp2, reachable st
  /\ get_scopes_with_roles id_oracle st p t n = Ok (st1, resp1)
  /\ get_scopes_with_roles rev_oracle st p t n = Ok (st2, resp2)
  /\ (forall s, ~ scope_of st t s) /\ resp1 <> []
  /\ exists s, s ∈ resp1.*1 /\ s ∉ resp2.*1.
Proof.
  exists (ops_state w66_ops), (AStr "ann"), (AStr "branch"), ANil,
    (final (get_scopes_with_roles id_oracle (ops_state w66_ops) (AStr "ann") (AStr "branch") ANil)),
    [(AStr "shop", [AStr "clerk"]); (AStr "safe", [AStr "clerk"; AStr "clerk"])],
    (final (get_scopes_with_roles rev_oracle (ops_state w66_ops) (AStr "ann") (AStr "branch") ANil)),
    [(AStr "desk", [ANil; AStr "admin"]); (AStr "till", [ANil; AStr "admin"])].
  split; [exact w66_reach|]. split; [answered|]. split; [answered|]. split.
  - intros s (d & Hd & Ht & _).
    assert (H : forallb (fun d => negb (any_eq (tenant d) (AStr "branch"))) w66_rows = true) by (vm_compute; reflexivity).
    rewrite forallb_forall in H. specialize (H d). rewrite <-elem_of_list_In in H. specialize (H Hd).
    rewrite Ht in H. vm_compute in H. discriminate.
  - split; [done|]. exists (AStr "shop"). split; [left|]. apply (bool_decide_unpack _). vm_compute. exact I.
Qed.
Lemma c68_partial o st p t n st' resp s r : has_row st p t ->
  get_scopes_with_roles o st p t n = Ok (st', resp) -> lists_role resp s r ->
  st' = st /\ scope_of st t s /\ holds_role st p t r.
Proof.
  intros Hrow H Hl. apply scopes_with_roles_exact in H as (_ & T & HT & H). apply H in Hl. clear H.
  destruct HT as [(_ & -> & ->)|[Hno _]]; [|done]. split; [done|].
  destruct Hl as [[[Hs|[_ Hs]] Hr]|(d & ? & ? & ? & ? & ? & ? & ? & ? & ?)].
  - split; [|done]. destruct Hs as (d & ? & ? & ? & ? & ? & ? & ?). by exists d.
  - done.
  - split; by exists d.
Qed.

(** ** C69 *)
Definition w69_ops : list op :=
  [ONewRole "boss"; ONewRole "clerk"; ORoleAddDescendant 0 [1];
   ORoleAddPermission 0 "page" [Attr "/x" "GET"]; ORoleAddPermission 1 "page" [Attr "/x" "GET"; Attr "/y" "GET"];
   OAddRole 0; OAddRole 1].
Definition w69_resp : gmap string (list (attr * list string)) :=
  match get_roles_for_available_permissions id_oracle (ops_state w69_ops) with Ok m => m | _ => ∅ end.
Definition is_ok {A} (x : res A) : bool := match x with Ok _ => true | _ => false end.
Lemma w69_ok : get_roles_for_available_permissions id_oracle (ops_state w69_ops) = Ok w69_resp.
Proof.
  unfold w69_resp.
  assert (H : is_ok (get_roles_for_available_permissions id_oracle (ops_state w69_ops)) = true) by (vm_compute; reflexivity).
  destruct (get_roles_for_available_permissions id_oracle (ops_state w69_ops)); [done|discriminate H..].
Qed.
Lemma c69_refuted : exists st m grp al a rs, reachable st
  /\ get_roles_for_available_permissions id_oracle st = Ok m
  /\ m !! grp = Some al /\ (a, rs) ∈ al /\ ~ NoDup rs.
Proof.
  exists (ops_state w69_ops), w69_resp, "page", (default [] (w69_resp !! "page")), (Attr "/x" "GET"), ["boss"; "boss"; "clerk"].
  split; [reach_ops w69_ops|]. split; [exact w69_ok|]. split; [vm_compute; reflexivity|]. split.
  - apply (bool_decide_unpack _). vm_compute. exact I.
  - intros H%(bool_decide_pack _). vm_compute in H. exact H.
Qed.
Lemma w69_ex : reachable (ops_state w69_ops)
  /\ get_roles_for_available_permissions id_oracle (ops_state w69_ops) = Ok w69_resp
  /\ lists_attr w69_resp "page" (Attr "/y" "GET") "boss" /\ ~ lists_attr w69_resp "page" (Attr "/z" "GET") "boss".
Proof.
  split; [reach_ops w69_ops|]. split; [exact w69_ok|]. split.
  - exists (default [] (w69_resp !! "page")), ["boss"; "clerk"]. split; [vm_compute; reflexivity|].
    split; apply (bool_decide_unpack _); vm_compute; exact I.
  - intros (l & rs & Hl & Hin & _). assert (E : l = default [] (w69_resp !! "page")) by by rewrite Hl.
    subst l. clear Hl. apply (elem_of_list_fmap_1 fst) in Hin. revert Hin. apply (bool_decide_unpack _). vm_compute. exact I.
Qed.
