(** Root programs: the one in examples/main.go, and four that lose something granted. *)
From Verif Require Import V1CallsEx NameEx NameProofs.
From Verif Require Import RootCallsFresh.
From Verif Require Import NameSpec RootCallsSpec.

(** ** Checking the conditions *)
Definition makes_group (gl : nat) (e : op * out) : bool := match e with (ONewGroup _, RLoc gl') => Nat.eqb gl' gl | _ => false end.
Lemma makes_group_ok gl (h : log) : existsb (makes_group gl) h = true -> exists id, group_named h gl id.
Proof.
  intros H. apply existsb_exists in H as ([x y] & Hin & H). destruct x; try discriminate. destruct y; try discriminate. cbn [makes_group] in H. apply Nat.eqb_eq in H. subst.
  eexists. apply elem_of_list_In. exact Hin.
Qed.
Fixpoint groups_check (h : log) : bool :=
  match h with
  | [] => true
  | e :: h' => match e.1 with OGroupAdd gl _ | ORoleAddGroup _ gl => existsb (makes_group gl) h' | _ => true end && groups_check h'
  end.
Lemma groups_checked h : groups_check h = true -> groups_made h.
Proof.
  induction h as [|[x y] h IH]; [intros _; exact I|]. cbn [groups_check]. rewrite andb_true_iff. intros (H1 & H2). split; [|exact (IH H2)].
  cbn [fst] in *. destruct x; try exact I; exact (makes_group_ok _ _ H1).
Qed.
Definition is_link (x : op) : bool := match x with OAddTenant _ | OTenantAddDescendant _ _ => true | _ => false end.
Definition is_ask (x : op) : bool := match x with OTenantChildren _ | OImplicitTenants _ | OAuthorize _ _ => true | _ => false end.
Definition asks_one (p : string) (x : op) : bool := match x with OImplicitTenants p' | OAuthorize p' _ => bool_decide (p' = p) | _ => false end.
(** A call that may give [p] a row *)
Definition gives (p : string) (x : op) : bool :=
  match x with
  | OAddData d => bool_decide (principal d = AStr p)
  | OTenantAddPrincipalInNamespace _ p' _ _ | OTenantAddPrincipal _ p' _ _ | OTenantAssignScopes _ p' _ _ => bool_decide (p' = p)
  | _ => false
  end.
Fixpoint last_check (h : log) (p : string) : bool :=
  match h with
  | [] => true
  | e :: h' => (negb (is_link e.1) || forallb (fun e' => negb (is_ask e'.1)) h') && (negb (gives p e.1) || forallb (fun e' => negb (asks_one p e'.1)) h') && last_check h' p
  end.
Lemma gives_ok h x d p : stores h x d -> principal d = AStr p -> gives p x = true.
Proof.
  destruct x; cbn [stores gives]; try contradiction.
  - intros ->. intros E. apply bool_decide_eq_true. exact E.
  - intros (? & ? & _ & _ & ->). discriminate.
  - intros (? & ? & ? & _ & _ & _ & ->). discriminate.
  - intros (? & _ & ->). discriminate.
  - intros (? & _ & ->) [= ->]. apply bool_decide_eq_true. reflexivity.
  - intros (? & ? & ? & _ & _ & _ & ->). discriminate.
  - intros (? & ? & _ & _ & ->). discriminate.
  - intros (? & ? & ? & _ & _ & _ & _ & ->) [= ->]. apply bool_decide_eq_true. reflexivity.
  - intros (? & ? & ? & _ & _ & _ & _ & ->) [= ->]. apply bool_decide_eq_true. reflexivity.
Qed.
Lemma last_checked h p : last_check h p = true -> asked_last h p.
Proof.
  assert (N : forall f (h : log) x, forallb (fun e => negb (f e.1)) h = true -> called h x -> f x = true -> False).
  { intros f h0 x F Hx E. apply elem_of_list_fmap in Hx as ([x' y] & -> & Hx). rewrite forallb_forall in F. specialize (F _ (proj1 (elem_of_list_In _ _) Hx)). cbn [fst] in *. rewrite E in F. discriminate. }
  induction h as [|[x y] h IH]; [intros _; exact I|]. cbn [last_check fst]. rewrite !andb_true_iff. intros ((H1 & H2) & H3). split; [|exact (IH H3)]. cbn [fst]. split.
  - intros L z Hz A. assert (E : is_link x = true) by (destruct x; cbn in *; contradiction || reflexivity). rewrite E in H1. cbn [negb orb] in H1.
    apply (N is_ask h z H1 Hz). destruct z; cbn in *; contradiction || reflexivity.
  - intros d Hd Hp z Hz A. rewrite (gives_ok _ _ _ _ Hd Hp) in H2. cbn [negb orb] in H2.
    apply (N (asks_one p) h z H2 Hz). destruct z; cbn in *; try contradiction; apply bool_decide_eq_true; exact A.
Qed.
(** The rest is read off the state. *)
Definition coherent_check (st : state) : bool :=
  forallb (fun c => forallb (fun kd => match m_tenants st !! kd.1 with Some d' => Nat.eqb d' kd.2 | None => true end) (map_to_list (t_desc c))) (s_tenants st).
Lemma links_checked h st : tells h st -> coherent_check st = true -> links_registered h.
Proof.
  intros T H t id d d' Hs Hr. apply (tl_link _ _ T) in Hs. apply (tl_reg _ _ T) in Hr. unfold f_link in Hs. destruct (s_tenants st !! t) as [c|] eqn:E; [|discriminate].
  cbn in Hs. unfold coherent_check in H. rewrite forallb_forall in H. specialize (H c (proj1 (elem_of_list_In _ _) (elem_of_list_lookup_2 _ _ _ E))).
  rewrite forallb_forall in H. apply elem_of_map_to_list in Hs. specialize (H (id, d) (proj1 (elem_of_list_In _ _) Hs)). cbn [fst snd] in H. rewrite Hr in H. apply Nat.eqb_eq in H. exact H.
Qed.
Definition flags_check (rows : list data) (p : string) : bool :=
  forallb (fun d => forallb (fun d' => negb (bool_decide (principal d = AStr p) && bool_decide (principal d' = AStr p) && bool_decide (tenant d = tenant d') && bool_decide (manage d = ABool true))
    || bool_decide (manage d' = ABool true)) rows) rows.
Lemma flags_checked (h : log) rows p : (forall d, row_made h d -> d ∈ rows) -> flags_check rows p = true -> flags_alike h p.
Proof.
  intros HR H d d' Hd Hd' P P' E M. apply HR in Hd, Hd'. unfold flags_check in H. rewrite forallb_forall in H. specialize (H d (proj1 (elem_of_list_In _ _) Hd)).
  rewrite forallb_forall in H. specialize (H d' (proj1 (elem_of_list_In _ _) Hd')). rewrite !bool_decide_true in H by assumption. cbn [andb negb orb] in H. apply bool_decide_eq_true in H. exact H.
Qed.

(** ** The program of examples/main.go, and requests of all kinds *)
Definition w111_answers : list (string * opts * bool) :=
  let q t n s g a := Opts t n s g a in
  let A := AStr "TenantA" in let B := AStr "TenantB" in let N := AStr "NamespaceA" in let E := AStr "Entity29" in let F := AStr "Entity30" in let G := AStr "backend" in
  [("principalA", q A N E ANil ANil, true); ("principalA", q B N E ANil ANil, true); ("principalA", q A N E G start_coding, true); ("principalA", q B N F G start_coding, true);
   ("principalA", q A N ANil G start_coding, true); ("principalA", q A N E G (AStr "/qa/1/2/start-qa POST"), false); ("principalA", q A N E (AStr "page") start_coding, false);
   ("principalA", q A ANil ANil ANil ANil, true); ("principalA", q A ANil ANil G start_coding, false); ("principalA", q A (AStr "other") ANil ANil ANil, false);
   ("principalA", q ANil N E ANil ANil, true); ("somebody", q A N E ANil ANil, false)].
Definition answer_is (x : res (state * bool)) (b : bool) : bool := match x with Ok sb => Bool.eqb sb.2 b | _ => false end.
Lemma answer_is_ok x b : answer_is x b = true -> exists st', x = Ok (st', b).
Proof. destruct x as [[st' b']| |]; cbn; [|discriminate..]. intros ->%Bool.eqb_prop. exists st'. reflexivity. Qed.
Lemma w111_groups : groups_made (log_of w104_ops (ops_outs w104_ops)).
Proof. apply groups_checked. vm_compute. reflexivity. Qed.
Lemma w111_tells : tells (log_of w104_ops (ops_outs w104_ops)) (ops_state w104_ops).
Proof. exact (tells_all _ _ _ _ w104_run w111_groups). Qed.
Lemma w111_rows d : row_made (log_of w104_ops (ops_outs w104_ops)) d -> stored (ops_state w104_ops) d.
Proof. destruct w104_names as (s & K). exact (rows_all s _ _ _ _ d w104_run K w111_groups). Qed.
Lemma c111_ex : run id_oracle 0 init_state w104_ops = Ok (ops_state w104_ops, ops_outs w104_ops) /\ groups_made (log_of w104_ops (ops_outs w104_ops)) /\ keeps_names_apart w104_ops
  /\ asked_last (log_of w104_ops (ops_outs w104_ops)) "principalA" /\ links_registered (log_of w104_ops (ops_outs w104_ops)) /\ flags_alike (log_of w104_ops (ops_outs w104_ops)) "principalA"
  /\ Forall (fun pqb => exists st', authorize rev_oracle (ops_state w104_ops) pqb.1.1 pqb.1.2 = Ok (st', pqb.2)) w111_answers.
Proof.
  split; [exact w104_run|]. split; [exact w111_groups|]. split; [exact w104_names|]. split; [apply last_checked; vm_compute; reflexivity|].
  split; [apply (links_checked _ _ w111_tells); vm_compute; reflexivity|]. split.
  - apply (flags_checked _ (trie_data id_oracle (m_trie (ops_state w104_ops)))); [exact w111_rows|vm_compute; reflexivity].
  - apply (forall_by (fun pqb => answer_is (authorize rev_oracle (ops_state w104_ops) pqb.1.1 pqb.1.2) pqb.2)); [intros pqb; apply answer_is_ok|vm_compute; reflexivity].
Qed.

(** ** Four programs that lose something granted *)
Lemma tells_ops ops : runs ops = true -> groups_check (log_of ops (ops_outs ops)) = true -> tells (log_of ops (ops_outs ops)) (ops_state ops).
Proof. intros R G. exact (tells_all _ _ _ _ (run_runs _ R) (groups_checked _ G)). Qed.
Lemma row_made_at ops1 x ops2 d : runs (ops1 ++ x :: ops2) = true -> stores (log_of ops1 (ops_outs ops1)) x d -> row_made (log_of (ops1 ++ x :: ops2) (ops_outs (ops1 ++ x :: ops2))) d.
Proof.
  assert (G : forall ops2 st outs, run id_oracle 0 init_state (ops1 ++ x :: ops2) = Ok (st, outs) -> stores (log_of ops1 (ops_outs ops1)) x d -> row_made (log_of (ops1 ++ x :: ops2) outs) d).
  { intros ops. induction ops as [|z ops IH] using rev_ind; intros st outs H S.
    - apply run_last in H as (s1 & outs1 & y & H1 & _ & -> & L). rewrite (log_last _ _ _ _ L). left. cbn [fst].
      assert (E : ops_outs ops1 = outs1) by (unfold ops_outs; rewrite H1; reflexivity). rewrite E in S. exact S.
    - rewrite app_comm_cons, app_assoc in *. apply run_last in H as (s1 & outs1 & y & H1 & _ & -> & L). rewrite (log_last _ _ _ _ L). right. exact (IH _ _ H1 S). }
  intros R S. exact (G _ _ _ (run_runs _ R) S).
Qed.
Lemma stores_principal h st t p md r id l : tells h st -> f_id st t = Some id -> p ∈ m_principals st -> m_roles st !! r = Some l ->
  stores h (OTenantAddPrincipal t p md [r]) (Data (AStr id) ANil ANil (AStr p) (AStr r) (ABool md)).
Proof.
  intros T Hi Hp Hr. exists id, ANil, r. split; [apply (tl_tname _ _ T); exact Hi|]. split; [left; reflexivity|]. split; [apply (tl_pr _ _ T); exact Hp|]. split; [|reflexivity].
  exists [], []. split; [reflexivity|]. split; [constructor|]. exists l. apply (tl_rreg _ _ T). exact Hr.
Qed.
Lemma stores_namespace h st t n id : tells h st -> f_id st t = Some id -> stores h (OTenantAddNamespaces t [n]) (Data (AStr id) (AStr n) ANil ANil ANil ANil).
Proof. intros T Hi. exists id, n. split; [apply (tl_tname _ _ T); exact Hi|]. split; [left|reflexivity]. Qed.
Lemma known_checked h st t n l : tells h st -> m_tenants st !! t = Some l -> n = ANil \/ (exists s, n = AStr s /\ s ∈ m_namespaces st) -> known h (Opts (AStr t) n ANil ANil ANil).
Proof.
  intros T Ht Hn. split; [right; exists t, l; split; [reflexivity|apply (tl_reg _ _ T); exact Ht]|]. split; [|left; reflexivity]. cbn [o_namespace].
  destruct Hn as [->|(s & -> & Hs)]; [left; reflexivity|right]. exists s. split; [reflexivity|apply (tl_ns _ _ T); exact Hs].
Qed.
Lemma below_one h st t l k m d : tells h st -> m_tenants st !! t = Some l -> f_link st l k = Some m -> f_id st m = Some d -> below h t d.
Proof.
  intros T Ht Hl Hd. exists l, m. split; [apply (tl_reg _ _ T); exact Ht|]. split; [|apply (tl_tname _ _ T); exact Hd]. apply tc_once. exists k. apply (tl_link _ _ T). exact Hl.
Qed.
Ltac stored_in := apply (bool_decide_unpack _); vm_compute; exact I.
Ltac tells_now := apply tells_ops; vm_compute; reflexivity.
Ltac computed := vm_compute; reflexivity.
Definition in_hq : opts := Opts (AStr "hq") ANil ANil ANil ANil.
Definition in_lab : opts := Opts (AStr "hq") (AStr "lab") ANil ANil ANil.
Definition anns (t r : string) (md : bool) : data := Data (AStr t) ANil ANil (AStr "ann") (AStr r) (ABool md).
Definition w111_start : list op := [ONewTenant "hq"; OAddTenant 0; ONewRole "clerk"; OAddRole 0; OAddPrincipal "ann"; OAddNamespace "lab"].
Definition sort_of_hq (s : string) : sort :=
  if bool_decide (s ∈ ["hq"; "desk"; "branch"]) then ATenant else if bool_decide (s = "lab") then ANamespace else if bool_decide (s = "ann") then APrincipal else ARole.
Ltac names_now := exists sort_of_hq; repeat (apply Forall_cons; split; [cbn [names_kept]|]); try apply Forall_nil; try exact I; repeat (split || apply Forall_cons || apply Forall_nil); vm_compute; reflexivity.
Lemma hq_granted ops d : runs ops = true -> groups_check (log_of ops (ops_outs ops)) = true -> bool_decide ("ann" ∈ m_principals (ops_state ops)) = true -> m_tenants (ops_state ops) !! "hq" = Some 0 ->
  principal d = AStr "ann" -> tenant d = AStr "hq" -> row_made (log_of ops (ops_outs ops)) d -> granted (log_of ops (ops_outs ops)) "ann" in_hq.
Proof.
  intros R G P M Ep Et Hd. pose proof (tells_ops _ R G) as T. apply bool_decide_eq_true in P. split; [apply (tl_pr _ _ T); exact P|]. split; [exists "hq", d; repeat split; assumption|].
  split; [apply (known_checked _ _ _ _ 0 T M); left; reflexivity|]. exists (AStr "hq"). split; [left; reflexivity|]. cbn. exists d. split; [exact Hd|]. split; [exact Ep|]. split; [exact Et|]. rewrite Et. discriminate.
Qed.
Lemma lab_granted ops d t0 : runs ops = true -> groups_check (log_of ops (ops_outs ops)) = true -> bool_decide ("ann" ∈ m_principals (ops_state ops)) = true -> m_tenants (ops_state ops) !! "hq" = Some 0 ->
  bool_decide ("lab" ∈ m_namespaces (ops_state ops)) = true -> principal d = AStr "ann" -> tenant d = AStr t0 -> manage d = ABool true -> row_made (log_of ops (ops_outs ops)) d ->
  below (log_of ops (ops_outs ops)) t0 "desk" -> row_made (log_of ops (ops_outs ops)) (Data (AStr "desk") (AStr "lab") ANil ANil ANil ANil) -> granted (log_of ops (ops_outs ops)) "ann" in_lab.
Proof.
  intros R G P M N Ep Et Em Hd Hb Hn. pose proof (tells_ops _ R G) as T. apply bool_decide_eq_true in P, N. split; [apply (tl_pr _ _ T); exact P|]. split; [exists t0, d; repeat split; assumption|].
  split; [apply (known_checked _ _ _ _ 0 T M); right; exists "lab"; split; [reflexivity|exact N]|]. exists (AStr "desk"). split.
  - right. exists "desk". split; [reflexivity|]. right. exists t0. split; [exists d; repeat split; assumption|exact Hb].
  - cbn. exists (Data (AStr "desk") (AStr "lab") ANil ANil ANil ANil). split; [exact Hn|]. split; [split; [reflexivity|discriminate]|]. split; [split; [reflexivity|discriminate]|]. left. reflexivity.
Qed.

(** ann is asked about before being given a role. *)
Definition w111a1 : list op := w111_start ++ [OAuthorize "ann" in_hq].
Definition w111a : list op := w111a1 ++ [OTenantAddPrincipal 0 "ann" false ["clerk"]].
Lemma w111a_row : row_made (log_of w111a (ops_outs w111a)) (anns "hq" "clerk" false).
Proof. apply row_made_at; [computed|]. apply (stores_principal _ (ops_state w111a1) _ _ _ _ _ 0); [tells_now|computed|stored_in|computed]. Qed.
Lemma w111a_names : keeps_names_apart w111a.
Proof. unfold w111a, w111a1, w111_start, in_hq. cbn [app]. names_now. Qed.
Lemma flags_by_rows sort_of ops p : runs ops = true -> groups_check (log_of ops (ops_outs ops)) = true -> Forall (names_kept sort_of) ops -> flags_check (trie_data id_oracle (m_trie (ops_state ops))) p = true ->
  flags_alike (log_of ops (ops_outs ops)) p.
Proof. intros R G K F. apply (flags_checked _ _ _ (fun d => rows_all sort_of _ _ _ _ d (run_runs _ R) K (groups_checked _ G)) F). Qed.
Lemma c111_asked_refuted : exists o ops st outs p q st', run o 0 init_state ops = Ok (st, outs) /\ groups_made (log_of ops outs) /\ keeps_names_apart ops
  /\ links_registered (log_of ops outs) /\ flags_alike (log_of ops outs) p /\ authorize o st p q = Ok (st', false) /\ granted (log_of ops outs) p q.
Proof.
  exists id_oracle, w111a, (ops_state w111a), (ops_outs w111a), "ann", in_hq, (final (authorize id_oracle (ops_state w111a) "ann" in_hq)).
  split; [apply run_runs; computed|]. split; [apply groups_checked; computed|]. split; [exact w111a_names|]. split; [apply (links_checked _ (ops_state w111a)); [tells_now|computed]|].
  split; [destruct w111a_names as (s & K); apply (flags_by_rows s); [computed|computed|exact K|computed]|]. split; [answered|].
  apply (hq_granted _ (anns "hq" "clerk" false)); [computed..|exact w111a_row].
Qed.
(** A principal is called like a role, and a scope like another principal. *)
Definition w111b : list op := w111_start ++ [OTenantAddPrincipal 0 "ann" false ["clerk"]; OAddScope "ann"; OAddPrincipal "clerk"; OTenantAssignScopes 0 "clerk" false ["ann"]].
Lemma w111b_row : row_made (log_of w111b (ops_outs w111b)) (anns "hq" "clerk" false).
Proof. apply row_made_at; [computed|]. apply (stores_principal _ (ops_state w111_start) _ _ _ _ _ 0); [tells_now|computed|stored_in|computed]. Qed.
(** No call lets manage, so the flags agree. *)
Lemma row_called (h : log) d : row_made h d -> exists h' x, called h x /\ stores h' x d.
Proof.
  induction h as [|[x y] h IH]; [intros []|]. intros [H|H]; [exists h, x; split; [left|exact H]|]. destruct (IH H) as (h' & z & Hz & Hs). exists h', z. split; [right; exact Hz|exact Hs].
Qed.
Definition lets_manage (x : op) : bool :=
  match x with OAddData d => bool_decide (manage d = ABool true) | OTenantAddPrincipal _ _ md _ | OTenantAssignScopes _ _ md _ => md | _ => false end.
Lemma lets_manage_ok h x d : stores h x d -> manage d = ABool true -> lets_manage x = true.
Proof.
  destruct x; cbn [stores lets_manage]; try contradiction.
  - intros -> E. apply bool_decide_eq_true. exact E.
  - intros (? & ? & _ & _ & ->). discriminate.
  - intros (? & ? & ? & _ & _ & _ & ->). discriminate.
  - intros (? & _ & ->). discriminate.
  - intros (? & _ & ->). discriminate.
  - intros (? & ? & ? & _ & _ & _ & ->). discriminate.
  - intros (? & ? & _ & _ & ->). discriminate.
  - intros (? & ? & ? & _ & _ & _ & _ & ->) [= ->]. reflexivity.
  - intros (? & ? & ? & _ & _ & _ & _ & ->) [= ->]. reflexivity.
Qed.
Lemma flags_none (h : log) p : forallb (fun e => negb (lets_manage e.1)) h = true -> flags_alike h p.
Proof.
  intros F d d' Hd _ _ _ _ M. exfalso. destruct (row_called _ _ Hd) as (h' & x & Hx & Hs). apply elem_of_list_fmap in Hx as ([x' y] & -> & Hx).
  rewrite forallb_forall in F. specialize (F _ (proj1 (elem_of_list_In _ _) Hx)). cbn [fst] in *. rewrite (lets_manage_ok _ _ _ Hs M) in F. discriminate.
Qed.
Lemma c111_names_refuted : exists o ops st outs p q st', run o 0 init_state ops = Ok (st, outs) /\ groups_made (log_of ops outs) /\ asked_last (log_of ops outs) p
  /\ links_registered (log_of ops outs) /\ flags_alike (log_of ops outs) p /\ authorize o st p q = Ok (st', false) /\ granted (log_of ops outs) p q.
Proof.
  exists id_oracle, w111b, (ops_state w111b), (ops_outs w111b), "ann", in_hq, (final (authorize id_oracle (ops_state w111b) "ann" in_hq)).
  split; [apply run_runs; computed|]. split; [apply groups_checked; computed|]. split; [apply last_checked; computed|]. split; [apply (links_checked _ (ops_state w111b)); [tells_now|computed]|].
  split; [apply flags_none; computed|]. split; [answered|]. apply (hq_granted _ (anns "hq" "clerk" false)); [computed..|exact w111b_row].
Qed.
(** The branch put below hq is not the branch that is registered and has the desk below it. *)
Definition w111c1 : list op :=
  w111_start ++ [ONewTenant "desk"; ONewTenant "branch"; OTenantAddDescendant 0 [2]; ONewTenant "branch"; OAddTenant 3; OTenantAddDescendant 3 [1]; OAddTenant 1].
Definition w111c2 : list op := w111c1 ++ [OTenantAddNamespaces 1 ["lab"]; OTenantAddPrincipal 0 "ann" true ["clerk"]].
Definition w111c : list op := w111c2 ++ [OTenantAddPrincipal 3 "ann" true ["clerk"]].
Lemma w111c_row : row_made (log_of w111c (ops_outs w111c)) (anns "branch" "clerk" true).
Proof. apply (row_made_at w111c2 _ []); [computed|]. apply (stores_principal _ (ops_state w111c2) _ _ _ _ _ 0); [tells_now|computed|stored_in|computed]. Qed.
Lemma w111c_lab : row_made (log_of w111c (ops_outs w111c)) (Data (AStr "desk") (AStr "lab") ANil ANil ANil ANil).
Proof. apply (row_made_at w111c1 _ [OTenantAddPrincipal 0 "ann" true ["clerk"]; OTenantAddPrincipal 3 "ann" true ["clerk"]]); [computed|]. apply (stores_namespace _ (ops_state w111c1)); [tells_now|computed]. Qed.
Lemma w111c_names : keeps_names_apart w111c.
Proof. unfold w111c, w111c2, w111c1, w111_start. cbn [app]. names_now. Qed.
Lemma c111_links_refuted : exists o ops st outs p q st', run o 0 init_state ops = Ok (st, outs) /\ groups_made (log_of ops outs) /\ keeps_names_apart ops /\ asked_last (log_of ops outs) p
  /\ flags_alike (log_of ops outs) p /\ authorize o st p q = Ok (st', false) /\ granted (log_of ops outs) p q.
Proof.
  exists id_oracle, w111c, (ops_state w111c), (ops_outs w111c), "ann", in_lab, (final (authorize id_oracle (ops_state w111c) "ann" in_lab)).
  split; [apply run_runs; computed|]. split; [apply groups_checked; computed|]. split; [exact w111c_names|]. split; [apply last_checked; computed|].
  split; [destruct w111c_names as (s & K); apply (flags_by_rows s); [computed|computed|exact K|computed]|]. split; [answered|].
  apply (lab_granted _ (anns "branch" "clerk" true) "branch"); [computed..|exact w111c_row| |exact w111c_lab].
  apply (below_one _ (ops_state w111c) _ 3 "desk" 1); [tells_now|computed..].
Qed.
(** Two rows for ann in hq, of which only one lets manage *)
Definition w111d1 : list op := w111_start ++ [ONewTenant "desk"; OAddTenant 1; OTenantAddDescendant 0 [1]].
Definition w111d2 : list op := w111d1 ++ [OTenantAddNamespaces 1 ["lab"]; ONewRole "boss"; OAddRole 1].
Definition w111d : list op := w111d2 ++ [OTenantAddPrincipal 0 "ann" true ["clerk"]; OTenantAddPrincipal 0 "ann" false ["boss"]].
Lemma w111d_row : row_made (log_of w111d (ops_outs w111d)) (anns "hq" "clerk" true).
Proof. apply (row_made_at w111d2); [computed|]. apply (stores_principal _ (ops_state w111d2) _ _ _ _ _ 0); [tells_now|computed|stored_in|computed]. Qed.
Lemma w111d_lab : row_made (log_of w111d (ops_outs w111d)) (Data (AStr "desk") (AStr "lab") ANil ANil ANil ANil).
Proof.
  apply (row_made_at w111d1 _ [ONewRole "boss"; OAddRole 1; OTenantAddPrincipal 0 "ann" true ["clerk"]; OTenantAddPrincipal 0 "ann" false ["boss"]]); [computed|].
  apply (stores_namespace _ (ops_state w111d1)); [tells_now|computed].
Qed.
Lemma w111d_names : keeps_names_apart w111d.
Proof. unfold w111d, w111d2, w111d1, w111_start. cbn [app]. names_now. Qed.
Lemma c111_flags_refuted : exists o ops st outs p q st', run id_oracle 0 init_state ops = Ok (st, outs) /\ groups_made (log_of ops outs) /\ keeps_names_apart ops /\ asked_last (log_of ops outs) p
  /\ links_registered (log_of ops outs) /\ authorize o st p q = Ok (st', false) /\ granted (log_of ops outs) p q.
Proof.
  exists rev_oracle, w111d, (ops_state w111d), (ops_outs w111d), "ann", in_lab, (final (authorize rev_oracle (ops_state w111d) "ann" in_lab)).
  split; [apply run_runs; computed|]. split; [apply groups_checked; computed|]. split; [exact w111d_names|]. split; [apply last_checked; computed|].
  split; [apply (links_checked _ (ops_state w111d)); [tells_now|computed]|]. split; [answered|].
  apply (lab_granted _ (anns "hq" "clerk" true) "hq"); [computed..|exact w111d_row| |exact w111d_lab].
  apply (below_one _ (ops_state w111d) _ 0 "desk" 1); [tells_now|computed..].
Qed.
