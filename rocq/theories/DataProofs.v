(** Proofs about rows, row predicates and projections. *)
From Verif Require Export DataModel DataSpec UtilsProofs TrieProofs.

Lemma ids_loop_compact proj seen acc rs :
  ids_loop proj seen acc rs = compact_loop seen acc (proj <$> rs).
Proof.
  revert seen acc. induction rs as [|r rs IH]; intros seen acc; [done|]. simpl.
  case_bool_decide as H.
  - apply contains_spec in H as ->. apply IH.
  - apply contains_false in H as ->. apply IH.
Qed.
Lemma ids_loop_spec proj rs x : x ∈ ids_loop proj [] [] rs <-> exists r, r ∈ rs /\ x = proj r.
Proof.
  rewrite ids_loop_compact. change (compact_loop [] [] (proj <$> rs)) with (compact (proj <$> rs)).
  rewrite elem_of_compact, elem_of_list_fmap. naive_solver.
Qed.

Lemma is_nil_spec v : is_nil v = true <-> v = ANil.
Proof. destruct v; done. Qed.
Lemma is_nil_false v : is_nil v = false <-> v <> ANil.
Proof. destruct v; simpl; split; done. Qed.
Lemma any_eq_spec v w : any_eq v w = true <-> v = w.
Proof. apply bool_decide_eq_true. Qed.

Lemma match_tenant_spec r f : match_tenant r f = true <-> tenant r <> ANil /\ tenant r = tenant f.
Proof. unfold match_tenant. destruct (tenant r) eqn:E; simpl; rewrite ?any_eq_spec; naive_solver. Qed.
Lemma match_namespace_spec r f : match_namespace r f = true <-> namespace r <> ANil /\ namespace r = namespace f.
Proof. unfold match_namespace. destruct (namespace r) eqn:E; simpl; rewrite ?any_eq_spec; naive_solver. Qed.
Lemma match_scope_spec r f : match_scope r f = true <-> scope r <> ANil /\ scope r = scope f.
Proof. unfold match_scope. destruct (scope r) eqn:E; simpl; rewrite ?any_eq_spec; naive_solver. Qed.
Lemma match_principal_spec r f : match_principal r f = true <-> principal r <> ANil /\ principal r = principal f.
Proof. unfold match_principal. destruct (principal r) eqn:E; simpl; rewrite ?any_eq_spec; naive_solver. Qed.
Lemma match_role_spec r f : match_role r f = true <-> role r <> ANil /\ role r = role f.
Proof. unfold match_role. destruct (role r) eqn:E; simpl; rewrite ?any_eq_spec; naive_solver. Qed.

(** ** Separated kinds: a path determines its row. *)
Lemma filter_cons_nil (x : any) l :
  filter (fun k => k <> ANil) (x :: l) =
    (if is_nil x then [] else [x]) ++ filter (fun k => k <> ANil) l.
Proof. rewrite filter_cons. destruct x; simpl; done. Qed.

Definition opt_any (x : any) : list any := if is_nil x then [] else [x].
Lemma opt_any_inj x y : opt_any x = opt_any y -> x = y.
Proof. destruct x, y; simpl; intros [=]; congruence. Qed.

Lemma app_kind_cancel (kind : any -> nat) (x y : any) (l1 l2 : list any) n :
  (x <> ANil -> kind x = n) -> (y <> ANil -> kind y = n) ->
  (forall z, z ∈ l1 -> kind z > n) -> (forall z, z ∈ l2 -> kind z > n) ->
  opt_any x ++ l1 = opt_any y ++ l2 -> x = y /\ l1 = l2.
Proof.
  intros Hx Hy H1 H2 E.
  destruct (decide (x = ANil)) as [->|Hxn], (decide (y = ANil)) as [->|Hyn]; simpl in E.
  - done.
  - exfalso. rewrite E in H1. specialize (H1 y).
    assert (y ∈ opt_any y ++ l2) by (destruct y; simpl; try done; left).
    specialize (H1 H). rewrite Hy in H1 by done. lia.
  - exfalso. rewrite <-E in H2. specialize (H2 x).
    assert (x ∈ opt_any x ++ l1) by (destruct x; simpl; try done; left).
    specialize (H2 H). rewrite Hx in H2 by done. lia.
  - destruct x, y; simpl in E; try done; simplify_eq; done.
Qed.

Lemma row_path_unfold d :
  row_path data_keys d = opt_any (tenant d) ++ opt_any (namespace d) ++ opt_any (scope d)
    ++ opt_any (principal d) ++ opt_any (role d) ++ opt_any (manage d) ++ [].
Proof. unfold row_path, data_keys. by rewrite !filter_cons_nil. Qed.

Lemma opt_any_elem x z : z ∈ opt_any x -> z = x /\ x <> ANil.
Proof. destruct x; simpl; set_solver. Qed.

Lemma row_path_inj_kinds log d1 d2 :
  kinds_separate log -> d1 ∈ log -> d2 ∈ log ->
  row_path data_keys d1 = row_path data_keys d2 -> d1 = d2.
Proof.
  intros (kind & Hk) H1 H2. rewrite !row_path_unfold.
  destruct (Hk _ H1) as (A0 & A1 & A2 & A3 & A4 & A5).
  destruct (Hk _ H2) as (B0 & B1 & B2 & B3 & B4 & B5).
  assert (Hgt : forall (z : any) l n, (forall y, y ∈ l -> kind y > n) ->
     (z <> ANil -> kind z > n) -> forall y, y ∈ opt_any z ++ l -> kind y > n).
  { intros z l n Hl Hz y [Hy|Hy]%elem_of_app; [|by apply Hl].
    apply opt_any_elem in Hy as [-> ?]. auto. }
  assert (Hnil : forall n y, y ∈ @nil any -> kind y > n) by (intros n y Hy; by apply elem_of_nil in Hy).
  assert (Hlt : forall z m n, (z <> ANil -> kind z = m) -> n < m -> z <> ANil -> kind z > n).
  { intros z m n Hz ? ?. rewrite Hz by done. lia. }
  Local Ltac kinds Hgt Hlt Hnil :=
    repeat (apply Hgt; [|eapply Hlt; [eassumption|lia]]); apply Hnil.
  intros E.
  apply (app_kind_cancel kind _ _ _ _ 0 A0 B0) in E as [E0 E]; [|kinds Hgt Hlt Hnil ..].
  apply (app_kind_cancel kind _ _ _ _ 1 A1 B1) in E as [E1 E]; [|kinds Hgt Hlt Hnil ..].
  apply (app_kind_cancel kind _ _ _ _ 2 A2 B2) in E as [E2 E]; [|kinds Hgt Hlt Hnil ..].
  apply (app_kind_cancel kind _ _ _ _ 3 A3 B3) in E as [E3 E]; [|kinds Hgt Hlt Hnil ..].
  apply (app_kind_cancel kind _ _ _ _ 4 A4 B4) in E as [E4 E]; [|kinds Hgt Hlt Hnil ..].
  apply (app_kind_cancel kind _ _ _ _ 5 A5 B5) in E as [E5 E]; [|kinds Hgt Hlt Hnil ..].
  destruct d1, d2; simpl in *; congruence.
Qed.

Lemma rows_kinds log d : kinds_separate log -> d ∈ rows log <-> d ∈ log.
Proof.
  intros Hk. unfold rows. rewrite elem_of_survivors. split.
  - intros (l1 & l2 & -> & _). set_solver.
  - (* take the last occurrence *)
    intros Hd. induction log as [|x log IH]; [by apply elem_of_nil in Hd|].
    destruct (decide (d ∈ log)) as [Hin|Hin].
    + destruct IH as (l1 & l2 & -> & Hl2); [|done|by exists (x :: l1), l2].
      destruct Hk as (kind & Hk). exists kind. intros d' Hd'. apply Hk. by right.
    + apply elem_of_cons in Hd as [->|Hd]; [|done]. exists [], log. split; [done|].
      apply Forall_forall. intros d' Hd' E. apply Hin.
      assert (d' = x) as <-; [|done].
      eapply row_path_inj_kinds; [exact Hk|by right|left|done].
Qed.

(** Survival after one more insertion. *)
Lemma rows_snoc_lost log d d' :
  d' ∈ rows log -> (d' ∉ rows (log ++ [d]) <-> d' <> d /\ row_path data_keys d' = row_path data_keys d).
Proof.
  intros Hd'. unfold rows in *. rewrite survivors_snoc, elem_of_app, elem_of_list_filter, elem_of_list_singleton.
  destruct (decide (d' = d)); destruct (decide (row_path data_keys d' = row_path data_keys d)); naive_solver.
Qed.
Lemma rows_snoc log d d' :
  d' ∈ rows (log ++ [d]) <->
    d' = d \/ (d' ∈ rows log /\ row_path data_keys d' <> row_path data_keys d).
Proof.
  unfold rows. rewrite survivors_snoc, elem_of_app, elem_of_list_filter, elem_of_list_singleton.
  naive_solver.
Qed.

Lemma search_spec o log cb d :
  d ∈ trie_search o (trie_of data_keys log) cb <-> d ∈ rows log /\ cb d = true.
Proof. rewrite trie_search_spec, elem_of_list_filter. unfold rows. tauto. Qed.

(** ** The row predicates, declaratively. *)
Lemma agrees_dec_spec (f x : any) (b : bool) :
  (b = true <-> x <> ANil /\ x = f) -> negb (is_nil f) && negb b = false <-> agrees f x.
Proof.
  intros H. unfold agrees. destruct f, b; simpl; split; intros; try done; try tauto; try naive_solver.
  all: exfalso; destruct H as [_ H]; assert (false = true); [apply H|done]; naive_solver.
Qed.
Lemma filter_func_spec f r :
  filter_func f r = true <->
    agrees (tenant f) (tenant r) /\ agrees (namespace f) (namespace r) /\ agrees (scope f) (scope r)
    /\ agrees (principal f) (principal r) /\ agrees (role f) (role r) /\ agrees (manage f) (manage r).
Proof.
  unfold filter_func.
  assert (Hm : any_eq (manage f) (manage r) = true <-> manage f = manage r) by apply any_eq_spec.
  assert (H6 : negb (is_nil (manage f)) && negb (any_eq (manage f) (manage r)) = false <-> agrees (manage f) (manage r)).
  { unfold agrees, any_eq. case_bool_decide as E; destruct (manage f); simpl; naive_solver. }
  rewrite <-H6.
  rewrite <-(agrees_dec_spec _ _ _ (match_tenant_spec r f)), <-(agrees_dec_spec _ _ _ (match_namespace_spec r f)),
    <-(agrees_dec_spec _ _ _ (match_scope_spec r f)), <-(agrees_dec_spec _ _ _ (match_principal_spec r f)),
    <-(agrees_dec_spec _ _ _ (match_role_spec r f)).
  destruct (negb (is_nil (tenant f)) && _), (negb (is_nil (principal f)) && _),
    (negb (is_nil (role f)) && _), (negb (is_nil (namespace f)) && _), (negb (is_nil (scope f)) && _),
    (negb (is_nil (manage f)) && _); tauto || naive_solver.
Qed.

Lemma projections_compact (rs : list data) :
  get_tenant_ids rs = compact (tenant <$> rs)
  /\ get_principal_ids rs = compact (principal <$> rs)
  /\ get_role_ids rs = compact (role <$> rs)
  /\ get_namespace_ids rs = compact (namespace <$> rs)
  /\ get_scope_ids rs = compact (scope <$> rs).
Proof. split_and!; apply ids_loop_compact. Qed.

Lemma c08_refuted :
  exists log d d', d' ∈ rows log /\ d' <> d /\ d' ∉ rows (log ++ [d])
    /\ forall o, trie_search o (trie_of data_keys (log ++ [d])) (fun x => bool_decide (x = d')) = [].
Proof.
  exists [Data (AStr "acme") (AStr "x") ANil ANil ANil ANil],
    (Data (AStr "acme") ANil (AStr "x") ANil ANil ANil),
    (Data (AStr "acme") (AStr "x") ANil ANil ANil ANil).
  split_and!; [vm_compute; left|done|vm_compute|].
  - intros H%elem_of_list_singleton. done.
  - intros o. apply Permutation_nil_r. rewrite trie_search_spec. done.
Qed.

Lemma query_by_example (o : oracle) (log : list data) (f d : data) :
  d ∈ trie_search o (trie_of data_keys log) (filter_func f) <->
    d ∈ rows log
    /\ agrees (tenant f) (tenant d) /\ agrees (namespace f) (namespace d) /\ agrees (scope f) (scope d)
    /\ agrees (principal f) (principal d) /\ agrees (role f) (role d) /\ agrees (manage f) (manage d).
Proof. by rewrite search_spec, filter_func_spec. Qed.

Lemma kinds_separate_ex :
  kinds_separate [Data (AStr "t") (AStr "n") ANil ANil ANil ANil;
                  Data (AStr "t") ANil (AStr "s") ANil ANil ANil;
                  Data (AStr "t") ANil (AStr "s") (AStr "p") ANil (ABool true)].
Proof.
  exists (fun a => if bool_decide (a = AStr "t") then 0 else if bool_decide (a = AStr "n") then 1
          else if bool_decide (a = AStr "s") then 2 else if bool_decide (a = AStr "p") then 3
          else if bool_decide (a = AStr "r") then 4 else 5).
  apply Forall_forall. repeat constructor; simpl; done.
Qed.
