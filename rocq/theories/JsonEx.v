(** Programs for C120. *)
From Verif Require Import JsonProofs.
From Verif Require Export RoleCor V1Ex.
From Verif Require Export JsonSpec.
Local Open Scope string_scope.

Ltac computed := vm_compute; reflexivity.
(** A byte that is never part of text *)
Definition lone (n : N) : string := String (ascii_of_N n) "".
Definition w120_of (p : string) : list op := [ONewTenant "hq"; OAddTenant 0; ONewRole "clerk"; OAddRole 0; OAddPrincipal p; OTenantAddPrincipal 0 p false ["clerk"]].
Definition clerk_row (p : string) : data := Data (AStr "hq") ANil ANil (AStr p) (AStr "clerk") (ABool false).
Lemma data_one o st d : trie_data id_oracle (m_trie st) = [d] -> trie_data o (m_trie st) = [d].
Proof. intros H. pose proof (data_perm o id_oracle st) as P. rewrite H in P. apply Permutation_singleton_r in P. exact P. Qed.
Lemma rows_one (ops : list op) d : bool_decide (trie_data id_oracle (m_trie (ops_state ops)) = [d]) = true -> forall o, trie_data o (m_trie (ops_state ops)) = [d].
Proof. intros H o. apply bool_decide_eq_true in H. exact (data_one o _ d H). Qed.
Lemma same_print st st' d d' : (forall o, trie_data o (m_trie st) = [d]) -> (forall o, trie_data o (m_trie st') = [d']) -> d <> d' -> print_data d = print_data d' ->
  stored st d /\ ~ stored st' d /\ forall o, as_string o st = as_string o st'.
Proof.
  intros H H' N E. unfold stored, as_string. rewrite H, H'. split; [apply elem_of_list_singleton; reflexivity|]. split; [rewrite elem_of_list_singleton; exact N|]. intros o. rewrite H, H'. cbn [print_rows]. rewrite E. reflexivity.
Qed.
Lemma c120_bytes : exists st st', reachable st /\ reachable st' /\ (exists d, stored st d /\ ~ stored st' d) /\ forall o, as_string o st = as_string o st'.
Proof.
  exists (ops_state (w120_of (lone 255))), (ops_state (w120_of (lone 254))). split; [apply reachable_runs; computed|]. split; [apply reachable_runs; computed|].
  destruct (same_print (ops_state (w120_of (lone 255))) (ops_state (w120_of (lone 254))) (clerk_row (lone 255)) (clerk_row (lone 254))) as (H1 & H2 & H3).
  - apply rows_one. computed.
  - apply rows_one. computed.
  - intros E. injection E as E. discriminate E.
  - computed.
  - split; [exists (clerk_row (lone 255)); exact (conj H1 H2)|exact H3].
Qed.

Definition is_scalar (c : N) : bool := (c <? 55296)%N || ((57343 <? c)%N && (c <? 1114112)%N).
Lemma is_scalar_ok c : is_scalar c = true -> scalar c.
Proof. unfold is_scalar, scalar. rewrite orb_true_iff, andb_true_iff, !N.ltb_lt. tauto. Qed.
Lemma text_by (cs : list N) s : forallb is_scalar cs = true -> s = utf8_all cs -> is_text s.
Proof. intros H E. exists cs. split; [|exact E]. apply Forall_forall. intros c Hc. apply is_scalar_ok. rewrite forallb_forall in H. apply H. apply elem_of_list_In. exact Hc. Qed.
(** é, an emoji, a line separator, a tab, a newline, a NUL, quotes, a backslash and what HTML would misread *)
Definition odd_codes : list N := [233; 128512; 8232; 9; 10; 0; 34; 92; 60; 38; 62; 65533]%N.
Definition odd : string := utf8_all odd_codes.
Definition w120 : list op := w120_of odd ++ [OAddNamespace "lab"; OTenantAddNamespaces 0 ["lab"]; OAddData (Data (AStr "hq") (AStr "lab") (AInt (-120)) ANil (AInt 0) ANil)].
Definition odd_row : data := Data (AStr "hq") (AStr "lab") (AInt (-120)) ANil (AInt 0) ANil.
Definition w120_rows : list data := [clerk_row odd; Data (AStr "hq") (AStr "lab") ANil ANil ANil ANil; odd_row].
Lemma w120_text : Forall text_row w120_rows.
Proof.
  assert (T : forall s, s ∈ ["hq"; "clerk"; "lab"] -> is_text s).
  { intros s [->|[->|[->|[]%elem_of_nil]%elem_of_cons]%elem_of_cons]%elem_of_cons; [apply (text_by [104; 113]%N)|apply (text_by [99; 108; 101; 114; 107]%N)|apply (text_by [108; 97; 98]%N)]; computed. }
  assert (O : is_text odd) by (apply (text_by odd_codes); computed).
  assert (T1 : is_text "hq") by (apply T; set_solver). assert (T2 : is_text "clerk") by (apply T; set_solver). assert (T3 : is_text "lab") by (apply T; set_solver).
  repeat (apply Forall_cons; split); [..|apply Forall_nil; exact I]; unfold text_row; cbn [tenant namespace scope principal role manage clerk_row odd_row text_value]; split_and!; first [assumption|exact I].
Qed.
Lemma stored_in st l : trie_data id_oracle (m_trie st) = l -> Forall text_row l -> forall d, stored st d -> text_row d.
Proof. intros E H d Hd. unfold stored in Hd. rewrite E in Hd. rewrite Forall_forall in H. exact (H d Hd). Qed.
Lemma c120_ex : reachable (ops_state w120) /\ (forall d, stored (ops_state w120) d -> text_row d) /\ trie_data id_oracle (m_trie (ops_state w120)) = w120_rows
  /\ read_rows (as_string id_oracle (ops_state w120)) = Some w120_rows.
Proof.
  assert (E : trie_data id_oracle (m_trie (ops_state w120)) = w120_rows) by (apply (bool_decide_eq_true_1 (trie_data id_oracle (m_trie (ops_state w120)) = w120_rows)); computed).
  split; [apply reachable_runs; computed|]. split; [exact (stored_in _ _ E w120_text)|]. split; [exact E|]. apply (bool_decide_eq_true_1 (read_rows (as_string id_oracle (ops_state w120)) = Some w120_rows)). computed.
Qed.
Lemma c120_shown : as_string id_oracle (ops_state (w120_of "a<b")) = "[{""Tenant"":""hq"",""Namespace"":null,""Scope"":null,""Principal"":""a\u003cb"",""Role"":""clerk"",""ManageDescendants"":false}]"
  /\ as_string rev_oracle init_state = "[]"
  /\ root_string (ops_state w120) = "{""tenants"":1,""principals"":1,""namespaces"":1,""scopes"":0,""roles"":1,""attribute_groups"":0,""attributes"":0}".
Proof.
  split; [|split]; [|computed|].
  - apply (bool_decide_eq_true_1 (as_string id_oracle (ops_state (w120_of "a<b")) = "[{""Tenant"":""hq"",""Namespace"":null,""Scope"":null,""Principal"":""a\u003cb"",""Role"":""clerk"",""ManageDescendants"":false}]")). computed.
  - apply (bool_decide_eq_true_1 (root_string (ops_state w120) = "{""tenants"":1,""principals"":1,""namespaces"":1,""scopes"":0,""roles"":1,""attribute_groups"":0,""attributes"":0}")). computed.
Qed.
Lemma c120_v1 : v1_string (uops_state [UNewRole "a"; UAddRole 0; UAddScope "s"; UAddScope "t"]) = "{""tenants"":0,""principals"":0,""namespaces"":0,""scopes"":2,""roles"":1,""attribute_groups"":0,""attributes"":0}".
Proof. apply (bool_decide_eq_true_1 (v1_string (uops_state [UNewRole "a"; UAddRole 0; UAddScope "s"; UAddScope "t"]) = "{""tenants"":0,""principals"":0,""namespaces"":0,""scopes"":2,""roles"":1,""attribute_groups"":0,""attributes"":0}")). computed. Qed.
Lemma c120_restored_ex : runs (OAddData <$> w120_rows) = true.
Proof. computed. Qed.
