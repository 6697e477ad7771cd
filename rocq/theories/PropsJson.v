(** Property C120: what a manager prints can be read back. *)
From Verif Require Import JsonProofs JsonText JsonEx JsonSpec.
Local Open Scope string_scope.

(** C120.  The text of AsString does not tell everything: two managers whose rows differ in bytes that are not text print the same. *)
Theorem C120_bytes_refuted : exists st st', reachable st /\ reachable st' /\ (exists d, stored st d /\ ~ stored st' d) /\ forall o, as_string o st = as_string o st'.
Proof. exact c120_bytes. Qed.
Print Assumptions C120_bytes_refuted.
(** What holds.  If every name is text, whoever reads what AsString prints finds exactly the rows that Data returns, each as often, in whatever order the manager visits them. *)
Theorem C120_rows_partial (o : oracle) (st : state) :
  (forall d, stored st d -> text_row d) -> exists l, read_rows (as_string o st) = Some l /\ l ≡ₚ trie_data id_oracle (m_trie st).
Proof. exact (as_string_rows o st). Qed.
Print Assumptions C120_rows_partial.
(** A manager with quotes, control characters, HTML, an emoji and a line separator in a name, and rows with numbers *)
Example C120_rows_ex : reachable (ops_state w120) /\ (forall d, stored (ops_state w120) d -> text_row d) /\ trie_data id_oracle (m_trie (ops_state w120)) = w120_rows
  /\ read_rows (as_string id_oracle (ops_state w120)) = Some w120_rows.
Proof. exact c120_ex. Qed.
Example C120_shown_ex : as_string id_oracle (ops_state (w120_of "a<b")) = "[{""Tenant"":""hq"",""Namespace"":null,""Scope"":null,""Principal"":""a\u003cb"",""Role"":""clerk"",""ManageDescendants"":false}]"
  /\ as_string rev_oracle init_state = "[]"
  /\ root_string (ops_state w120) = "{""tenants"":1,""principals"":1,""namespaces"":1,""scopes"":0,""roles"":1,""attribute_groups"":0,""attributes"":0}".
Proof. exact c120_shown. Qed.
(** A new manager to which the rows read are added, in the order read, holds the same rows. *)
Theorem C120_restored_partial (st : state) (o : oracle) (l : list data) (o' : oracle) (i : nat) (st' : state) (outs : list out) :
  reachable st -> (forall d, stored st d -> text_row d) -> read_rows (as_string o st) = Some l -> run o' i init_state (OAddData <$> l) = Ok (st', outs) ->
  forall d, stored st' d <-> stored st d.
Proof. exact (as_string_restored st o l o' i st' outs). Qed.
Print Assumptions C120_restored_partial.
Example C120_restored_ex : runs (OAddData <$> w120_rows) = true.
Proof. exact c120_restored_ex. Qed.
(** Whatever the bytes, the text is an array of as many rows as are stored, and only rows with bytes that are not text read otherwise than they are; … *)
Theorem C120_readable (o : oracle) (st : state) :
  exists l l0, read_rows (as_string o st) = Some l /\ l0 ≡ₚ trie_data id_oracle (m_trie st) /\ Forall2 (fun d d' => text_row d -> d' = d) l0 l.
Proof. exact (as_string_always o st). Qed.
Print Assumptions C120_readable.
(** … and it is on one line, without control characters. *)
Theorem C120_one_line (o : oracle) (st : state) : on_one_line (as_string o st).
Proof. exact (as_string_line o st). Qed.
Print Assumptions C120_one_line.
(** The text is text (UTF-8) whatever bytes the names consist of. *)
Theorem C120_text (o : oracle) (st : state) : is_text (as_string o st).
Proof. exact (as_string_text o st). Qed.
Print Assumptions C120_text.
(** String prints the seven numbers of Summary under their names, in both versions. *)
Theorem C120_counts (st : state) : let s := summary_of st in
  read_counts true counted (root_string st) = Some (N.of_nat <$> [n_tenants s; n_principals s; n_namespaces s; n_scopes s; n_roles s; n_groups s; n_attributes s]).
Proof. exact (counts_read _ _ _ _ _ _ _). Qed.
Print Assumptions C120_counts.
Theorem C120_counts_v1 (st : ustate) : let s := usummary_of st in
  read_counts true counted (v1_string st) = Some (N.of_nat <$> [un_tenants s; un_principals s; un_namespaces s; un_scopes_total s; un_roles_total s; un_groups s; un_attributes s]).
Proof. exact (counts_read _ _ _ _ _ _ _). Qed.
Print Assumptions C120_counts_v1.
Example C120_counts_v1_ex : v1_string (uops_state [UNewRole "a"; UAddRole 0; UAddScope "s"; UAddScope "t"]) = "{""tenants"":0,""principals"":0,""namespaces"":0,""scopes"":2,""roles"":1,""attribute_groups"":0,""attributes"":0}".
Proof. exact c120_v1. Qed.
