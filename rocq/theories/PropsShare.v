(** C89, C90: rows and answers that the manager of the root package shares with its caller. *)
From Verif Require Import RootEx RowProofs HeldProofs ShareEx RowSpec HeldSpec.

(** ** C89: AddData takes the row as it is *)
Theorem C89_as_added_refuted : exists (ops : list row_op) (s : row_store), row_run no_rows ops = Some s /\ ~ shown_as_added ops s.
Proof. exact c89_refuted. Qed.
Print Assumptions C89_as_added_refuted.
(** The listings show what the structs contain now; which structs are listed was settled by what they contained when they were added. *)
Theorem C89_listing_exact (ops : list row_op) (s : row_store) (o : oracle) (cb : data -> bool) : row_run no_rows ops = Some s ->
  contents s (row_search o s cb) ≡ₚ filter (fun d => cb d = true) (omap (fun ld => rw_cells s !! ld.1) (remaining ops)).
Proof. exact (listing_exact ops s o cb). Qed.
Print Assumptions C89_listing_exact.
(** The property holds when no struct is changed after it was added ... *)
Theorem C89_left_alone_partial (ops : list row_op) (s : row_store) : row_run no_rows ops = Some s -> left_alone ops -> shown_as_added ops s.
Proof. exact (shown_left_alone ops s). Qed.
Print Assumptions C89_left_alone_partial.
(** ... and then the manager behaves as if it had stored the rows themselves. *)
Theorem C89_values (ops : list row_op) (s : row_store) (st : state) : row_run no_rows ops = Some s -> left_alone ops ->
  seen_state st s = with_trie st (trie_of data_keys (added ops).*2).
Proof. exact (seen_left_alone ops s st). Qed.
Print Assumptions C89_values.
(** Writing to a stored struct puts any row whatever into the manager, without a call. *)
Theorem C89_written (ops : list row_op) (s : row_store) (l : nat) (d d' : data) (o : oracle) (cb : data -> bool) :
  row_run no_rows ops = Some s -> (l, d) ∈ remaining ops -> cb d' = true ->
  exists s', row_run no_rows (ops ++ [RowWrite l d']) = Some s' /\ added (ops ++ [RowWrite l d']) = added ops
  /\ d' ∈ contents s' (row_search o s' cb).
Proof. exact (write_listed ops s l d d' o cb). Qed.
Print Assumptions C89_written.
(** Rows added through one struct all become the last one. *)
Theorem C89_reuse (d0 : data) (ds : list data) (s : row_store) (o : oracle) (cb : data -> bool) :
  NoDup (row_path data_keys <$> ds) -> row_run no_rows (RowAlloc d0 :: through_one 0 ds) = Some s ->
  contents s (row_search o s cb) ≡ₚ filter (fun d => cb d = true) (replicate (length ds) (List.last ds d0)).
Proof. exact (through_one_lists d0 ds s o cb). Qed.
Print Assumptions C89_reuse.
(** The decisions follow the contents of the structs: these are the rows that C12 and C13 speak about. *)
Theorem C89_stored (ops : list row_op) (s : row_store) (st : state) (d : data) : row_run no_rows ops = Some s ->
  stored (seen_state st s) d <-> exists ld, ld ∈ remaining ops /\ rw_cells s !! ld.1 = Some d.
Proof. exact (stored_seen ops s st d). Qed.
Print Assumptions C89_stored.
Example C89_verdict : let st := ops_state w89_api in
  row_run no_rows w89_ops = Some (row_state w89_ops)
  /\ w89_written = w89_ops ++ [RowWrite 0 (w89_row "acme" "eve")] /\ row_run no_rows w89_written = Some (row_state w89_written)
  /\ added w89_written = added w89_ops
  /\ let ask s p := verdict (authorize id_oracle (seen_state st s) p (tenant_only "acme")) in
     (ask (row_state w89_ops) "ann", ask (row_state w89_ops) "bob", ask (row_state w89_ops) "eve") = (Some true, Some true, Some false)
     /\ (ask (row_state w89_written) "ann", ask (row_state w89_written) "bob", ask (row_state w89_written) "eve") = (Some false, Some true, Some true).
Proof. exact c89_verdict. Qed.
Example C89_ex : left_alone w89_ops /\ (remaining w89_ops).*2 = [w89_row "acme" "ann"; w89_row "acme" "bob"].
Proof. exact c89_ex. Qed.
Example C89_reuse_ex : let ds := [w89_row "acme" "ann"; w89_row "acme" "bob"; w89_row "globex" "eve"] in
  NoDup (row_path data_keys <$> ds)
  /\ let s := row_state (RowAlloc (w89_row "" "") :: through_one 0 ds) in
     row_run no_rows (RowAlloc (w89_row "" "") :: through_one 0 ds) = Some s
     /\ contents s (row_search id_oracle s (fun _ => true)) = [w89_row "globex" "eve"; w89_row "globex" "eve"; w89_row "globex" "eve"].
Proof. exact c89_reuse_ex. Qed.

(** ** C90: no verdict depends on what a caller does with an answer *)
Theorem C90_tenants_refuted : exists st : state, reachable st /\ ~ answers_are_copies st.
Proof. exact c90_refuted. Qed.
Print Assumptions C90_tenants_refuted.
Theorem C90_children_refuted : exists st : state, reachable st /\ ~ children_are_copies st.
Proof. exact c90c_refuted. Qed.
Print Assumptions C90_children_refuted.
(** Whoever changes the answer of GetImplicitTenants decides with it ... *)
Theorem C90_edited (st : state) (p : string) (s : gset string) (st' : state) (o : oracle) (q : opts) (st1 : state) (b : bool) :
  edit_tenants st p s = Some st' -> authorize o st' p q = Ok (st1, b) -> (b = true <-> authorized st s p q).
Proof. exact (edited_verdict st p s st' o q st1 b). Qed.
Print Assumptions C90_edited.
(** ... for good, ... *)
Theorem C90_for_good (st : state) (p : string) (s : gset string) (st' : state) (o : oracle) (i : nat) (ops : list op) (st1 : state)
    (outs : list out) (o' : oracle) (q : opts) (st2 : state) (b : bool) :
  edit_tenants st p s = Some st' -> run o i st' ops = Ok (st1, outs) -> authorize o' st1 p q = Ok (st2, b) ->
  (b = true <-> authorized st1 s p q).
Proof. exact (edited_later st p s st' o i ops st1 outs o' q st2 b). Qed.
Print Assumptions C90_for_good.
(** ... by clearing it locks the principal out, ... *)
Theorem C90_cleared (st : state) (p : string) (st' : state) (o : oracle) (i : nat) (ops : list op) (st1 : state)
    (outs : list out) (o' : oracle) (q : opts) (st2 : state) (b : bool) :
  edit_tenants st p ∅ = Some st' -> run o i st' ops = Ok (st1, outs) -> authorize o' st1 p q = Ok (st2, b) -> b = false.
Proof. exact (cleared st p st' o i ops st1 outs o' q st2 b). Qed.
Print Assumptions C90_cleared.
(** ... and nobody else is concerned. *)
Theorem C90_others_partial (st : state) (p : string) (s : gset string) (st' : state) (p' : string) :
  edit_tenants st p s = Some st' -> p' <> p -> same_verdicts st st' p'.
Proof. exact (others_unaffected st p s st' p'). Qed.
Print Assumptions C90_others_partial.
(** Whoever writes into the answer of TenantChildren decides what the tenant's managers, not yet asked about, inherit ... *)
Theorem C90_children_edited (st : state) (t : string) (ds : list any) (st' : state) (p : string) (o : oracle) (q : opts) (st1 : state) (b : bool) :
  edit_children st t ds = Some st' -> m_cache st !! p = None -> manages_only st p t -> authorize o st' p q = Ok (st1, b) ->
  (b = true <-> authorized st ({[t]} ∪ strings ds) p q).
Proof. exact (fun He Hc Hm => edited_children_verdict st t ds st' p o q st1 b He Hc (proj1 Hm) (proj2 Hm)). Qed.
Print Assumptions C90_children_edited.
(** ... while the others keep what they had. *)
Theorem C90_children_asked (st : state) (t : string) (ds : list any) (st' : state) (p : string) (U : gset string) (o : oracle) (q : opts)
    (st1 : state) (b : bool) :
  edit_children st t ds = Some st' -> m_cache st !! p = Some U -> authorize o st' p q = Ok (st1, b) -> (b = true <-> authorized st U p q).
Proof. exact (children_asked st t ds st' p U o q st1 b). Qed.
Print Assumptions C90_children_asked.
Example C90_ex : let st := ops_state w90_ops in
  let ask st p := verdict (authorize rev_oracle st p w90_hr) in
  edit_tenants st "eve" (list_to_set ["x"]) = Some (edited st "eve" ["x"])
  /\ edit_tenants st "ann" (list_to_set []) = Some (edited st "ann" [])
  /\ (ask st "eve", ask st "ann", ask st "bob") = (Some false, Some true, Some true)
  /\ (ask (edited st "eve" ["x"]) "eve", ask (edited st "eve" ["x"]) "ann", ask (edited st "eve" ["x"]) "bob") = (Some true, Some true, Some true)
  /\ (ask (edited st "ann" []) "eve", ask (edited st "ann" []) "ann", ask (edited st "ann" []) "bob") = (Some false, Some false, Some true).
Proof. exact c90_verdicts. Qed.
Example C90_children_ex : let st := ops_state w90c_ops in
  manages_only st "ann" "acme" /\ m_cache st !! "ann" = None
  /\ edit_children st "acme" [AStr "globex"] = Some (edited_c st "acme" [AStr "globex"])
  /\ let ask st p := verdict (authorize rev_oracle st p w90c_hr) in
     (ask st "ann", ask st "bob") = (Some false, Some false)
     /\ (ask (edited_c st "acme" [AStr "globex"]) "ann", ask (edited_c st "acme" [AStr "globex"]) "bob") = (Some true, Some false).
Proof. exact c90c_ex. Qed.
