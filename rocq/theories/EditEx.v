(** Witnesses for writes to the objects of package v2. *)
From Verif Require Import RoleHas.
From Verif Require Export V2Ex EditIndex.

Definition eops_run (ops : list eop) : res (vstate * list vout) := erun id_oracle 0 v2_init ops.
Definition eops_state (ops : list eop) : vstate := vfinal (eops_run ops).
Lemma eops_runs ops : vanswer (eops_run ops) <> None -> exists outs, erun id_oracle 0 v2_init ops = Ok (eops_state ops, outs).
Proof. unfold eops_state, eops_run. destruct (erun id_oracle 0 v2_init ops) as [[st outs]| |]; [|done..]. intros _. by exists outs. Qed.
Definition keeps_b (x : eop) : bool := match x with EWrite (ETenantID _ _) => false | _ => true end.
Lemma keeps_all ops : forallb keeps_b ops = true -> Forall keeps_ids ops.
Proof.
  intros H. apply Forall_forall. intros x Hx. apply elem_of_list_In in Hx. pose proof (proj1 (forallb_forall _ _) H x Hx) as K. by destruct x as [|[]].
Qed.
Lemma ereach ops : forallb keeps_b ops = true -> vanswer (eops_run ops) <> None -> ereachable (eops_state ops).
Proof. intros K H. destruct (eops_runs ops H) as [outs E]. exists id_oracle, ops, outs. split; [by apply keeps_all|done]. Qed.
Ltac ereached := apply ereach; [vm_compute; reflexivity|vm_compute; discriminate].
Ltac computed := vm_compute; reflexivity.

(** One tenant and one role as in V2Ex, and a second tenant in which eve has the role *)
Definition w125 : list vop :=
  w_base ++ [VNewTenant "corp" (Some "ns"); VAddTenant 1; VNewPR (PRole "eve" "corp" "" "" "reader" None false); VAddPR [1]].
Definition w125_st : vstate := vops_state w125.
Definition q_of (user t : string) : request := Req user t "" "" "/doc" "GET".
Definition may (st : vstate) (user t : string) : option bool := vanswer (v2_authorize id_oracle st 0 (q_of user t)).
Definition is (st : vstate) (user t : string) (r : string) : option bool := vanswer (v2_can id_oracle st 0 (q_of user t) [r]).
Lemma assigned_in st (P : prole -> bool) :
  forallb (fun x => match x ≫= (fun l => w_prs st !! l) with Some pr => P pr | None => true end) (w_assign st) = true ->
  forall pr, assigned st pr -> P pr = true.
Proof.
  intros H pr (l & Hin & Hl). apply elem_of_list_In in Hin. pose proof (proj1 (forallb_forall _ _) H _ Hin) as K. simpl in K. by rewrite Hl in K.
Qed.
Definition written (st : vstate) (e : edit) : vstate := match edit_step st e with Ok st' => st' | _ => st end.
Lemma written_ok st e : match edit_step st e with Ok _ => true | _ => false end = true -> edit_step st e = Ok (written st e).
Proof. unfold written. by destruct (edit_step st e). Qed.

Definition not_there (pr : prole) : bool := negb (String.eqb (pr_principal pr) "eve" && String.eqb (pr_tenant pr) "acme").
Definition no_writer (pr : prole) : bool := negb (String.eqb (pr_role pr) "writer").
(** The id of a tenant is changed into that of another tenant: requests that name the first are
    decided by assignments in the second. *)
Lemma c125_tenant_refuted : exists st st' e user t, vreachable st /\ edit_step st e = Ok st'
  /\ (forall pr, assigned st' pr -> pr_principal pr = user -> pr_tenant pr <> t)
  /\ vanswer (v2_authorize id_oracle st 0 (q_of user t)) = Some false /\ vanswer (v2_authorize id_oracle st' 0 (q_of user t)) = Some true.
Proof.
  exists w125_st, (written w125_st (ETenantID 0 "corp")), (ETenantID 0 "corp"), "eve", "acme". split; [reach_vops w125|]. split; [apply written_ok; computed|].
  split; [|split; computed].
  intros pr H E1 E2. assert (K : not_there pr = true) by (apply (assigned_in (written w125_st (ETenantID 0 "corp")) not_there); [computed|exact H]).
  unfold not_there in K. rewrite E1, E2 in K. discriminate.
Qed.
Lemma role_with st r p :
  match d_roles (w_dag st) !! r ≫= (fun l => w_roles st !! l) with Some rl => bool_decide (p ∈ vr_perms rl) | None => false end = true ->
  exists rl, (exists l, d_roles (w_dag st) !! r = Some l /\ w_roles st !! l = Some rl) /\ p ∈ vr_perms rl.
Proof.
  destruct (d_roles (w_dag st) !! r) as [l|] eqn:E; simpl; [|done]. destruct (w_roles st !! l) as [rl|] eqn:F; [|done].
  intros H. apply bool_decide_eq_true in H. exists rl. split; [by exists l|done].
Qed.
(** A tenant under a new id cannot be entered at all, with assignments under the old id or the new one. *)
Definition w125_lost : list eop := (ECall <$> w_base) ++ [EWrite (ETenantID 0 "inc"); EWrite (EAssignment 0 (PRole "ann" "inc" "" "" "reader" None false))].
Lemma c125_lost_refuted : exists ops st outs user old new, erun id_oracle 0 v2_init ops = Ok (st, outs) /\ distinct_ids st /\ ~ broken st
  /\ v2_allowed st 0 (q_of user old)
  /\ vanswer (v2_authorize id_oracle st 0 (q_of user old)) = Some false /\ vanswer (v2_authorize id_oracle st 0 (q_of user new)) = Some false.
Proof.
  destruct (eops_runs w125_lost) as [outs E]; [vm_compute; discriminate|].
  exists w125_lost, (eops_state w125_lost), outs, "ann", "acme", "inc". split; [exact E|]. split; [distinct|]. split.
  - unfold broken. replace (w_assign (eops_state w125_lost)) with [Some 0] by computed. intros H. by apply elem_of_list_singleton in H.
  - split; [|split; computed].
    assert (T : tenant_at (eops_state w125_lost) 0 (VTenant "inc" {["ns" := ∅]} "ns" TActive ∅)) by (unfold tenant_at; computed).
    exists 0, (VTenant "inc" {["ns" := ∅]} "ns" TActive ∅), "ns", "/doc GET". split; [|split; [exact T|split; [|split]]].
    + left. exists "acme". split; [split; [done|by left]|]. computed.
    + split; [right; left; done|]. exists ∅. split; [computed|by left].
    + left. exists (PRole "ann" "inc" "" "" "reader" None false). split; [|split; [done|]].
      * split; [|split; [done|split; [|split; [by left|]]]].
        -- exists 0. split; [|computed]. replace (w_assign (eops_state w125_lost)) with [Some 0] by computed. left.
        -- intros (e & H & _). simpl in H. congruence.
        -- exists 0, (VTenant "inc" {["ns" := ∅]} "ns" TActive ∅). split; [apply rtc_refl|]. split; [exact T|done].
      * assert (R : d_resolved (w_dag (eops_state w125_lost)) !! "reader" = None) by computed. unfold role_perm. simpl. rewrite R.
        destruct (role_with (eops_state w125_lost) "reader" "/doc GET") as (rl & Hr & Hp); [computed|].
        exists "reader", rl. split; [apply rtc_refl|]. by split.
    + split; [by left|]. apply match_resource_true. computed.
Qed.
(** The name of a role is changed: everybody who has the role passes for having one of the new name. *)
Lemma c125_role_refuted : exists st st' e user t r, vreachable st /\ edit_step st e = Ok st'
  /\ (forall pr, assigned st' pr -> pr_role pr <> r) /\ edges_of (d_edges (w_dag st')) r = [] /\ d_edges (w_dag st') = ∅ /\ d_roles (w_dag st') !! r = None
  /\ vanswer (v2_can id_oracle st 0 (q_of user t) [r]) = Some false /\ vanswer (v2_can id_oracle st' 0 (q_of user t) [r]) = Some true.
Proof.
  exists w125_st, (written w125_st (ERoleName 0 "writer")), (ERoleName 0 "writer"), "ann", "acme", "writer". split; [reach_vops w125|]. split; [apply written_ok; computed|].
  split; [|split; [computed|split; [computed|split; [computed|split; computed]]]].
  intros pr H E. assert (K : no_writer pr = true) by (apply (assigned_in (written w125_st (ERoleName 0 "writer")) no_writer); [computed|exact H]).
  unfold no_writer in K. rewrite E in K. discriminate.
Qed.
(** What a role permits is taken away, or made something else: what was remembered still counts. *)
Definition w125_stale : list eop := (ECall <$> w_base) ++ [ECall (VAuthorize 0 (q_of "ann" "acme")); EWrite (EPermissions 0 ∅)].
Lemma confers_none st r p : forallb (fun rl => bool_decide (vr_perms rl = ∅)) (w_roles st) = true -> ~ confers (w_roles st) (w_dag st) r p.
Proof.
  intros H (n & rl & _ & (l & _ & Hl) & Hp). apply elem_of_list_lookup_2, elem_of_list_In in Hl.
  pose proof (proj1 (forallb_forall _ _) H _ Hl) as K. simpl in K. apply bool_decide_eq_true in K. rewrite K in Hp. by apply elem_of_empty in Hp.
Qed.
Lemma c125_stale_refuted : exists st user t, ereachable st /\ distinct_ids st /\ ~ broken st /\ (forall r p, ~ confers (w_roles st) (w_dag st) r p)
  /\ vanswer (v2_authorize id_oracle st 0 (q_of user t)) = Some true.
Proof.
  exists (eops_state w125_stale), "ann", "acme". split; [ereached|]. split; [distinct|]. split; [|split; [|computed]].
  - unfold broken. replace (w_assign (eops_state w125_stale)) with [Some 0] by computed. intros H. by apply elem_of_list_singleton in H.
  - intros r p. apply confers_none. computed.
Qed.
(** The index still says what an assignment said when it was given. *)
Definition w125_moved : list eop := (ECall <$> w_base) ++ [EWrite (EAssignment 0 (PRole "bob" "acme" "" "" "reader" None false))].
Lemma given_not st l pr user t ks : w_prs st !! l = Some pr -> pr_principal pr <> user -> given st user t [l] ks -> ks = [].
Proof.
  intros H N G. inversion G as [|? ? ? pr' H1 H2 G'|? ? ? pr' H1 H2 G']; subst.
  - by inversion G'.
  - congruence.
Qed.
Lemma not_agrees st pr user t : w_assign st = [Some 0] -> w_prs st !! 0 = Some pr -> pr_principal pr <> user -> indexed st user t <> [] -> ~ index_agrees st.
Proof.
  intros H1 H2 N I (ls & L & G). unfold list_is in L. rewrite H1 in L. assert (ls = [0]) as ->.
  { destruct ls as [|x [|y ls]]; simpl in L; congruence. }
  apply I. exact (given_not st 0 pr user t _ H2 N (G user t)).
Qed.
Lemma c125_index_refuted : exists st, ereachable st /\ ~ broken st /\ ~ index_agrees st.
Proof.
  exists (eops_state w125_moved). split; [ereached|]. split.
  - unfold broken. replace (w_assign (eops_state w125_moved)) with [Some 0] by computed. intros H. by apply elem_of_list_singleton in H.
  - apply (not_agrees _ (PRole "bob" "acme" "" "" "reader" None false) "ann" "acme"); [computed|computed|discriminate|vm_compute; discriminate].
Qed.
(** ** Concrete cases *)
Definition w125_all : list eop := w125_moved ++
  [EWrite (EDefaultNS 0 ""); EWrite (ENamespaces 0 {["ns" := {["s"]}]}); EWrite (EChildren 0 {["x"]}); EWrite (EPermissions 0 {["/doc GET"; "/new GET"]})].
Lemma c125_ex : ereachable (eops_state w125_moved) /\ distinct_ids (eops_state w125_moved)
  /\ may (vops_state w_base) "ann" "acme" = Some true /\ may (vops_state w_base) "bob" "acme" = Some false
  /\ may (eops_state w125_moved) "ann" "acme" = Some false /\ may (eops_state w125_moved) "bob" "acme" = Some true
  /\ ereachable (eops_state w125_all) /\ distinct_ids (eops_state w125_all) /\ ~ broken (eops_state w125_all)
  /\ vanswer (v2_authorize id_oracle (eops_state w125_all) 0 (Req "bob" "acme" "" "s" "/new" "GET")) = Some true
  /\ is (eops_state w125_all) "bob" "acme" "reader" = Some true.
Proof.
  split; [ereached|]. split; [distinct|]. split; [computed|]. split; [computed|]. split; [computed|]. split; [computed|].
  split; [ereached|]. split; [distinct|]. split; [|split; computed].
  unfold broken. replace (w_assign (eops_state w125_all)) with [Some 0] by computed. intros H. by apply elem_of_list_singleton in H.
Qed.
Lemma c43_unread_ex : let st := eops_state w125_moved in but_for_index st (vw_index st ∅) /\ indexed st "ann" "acme" = [0] /\ indexed (vw_index st ∅) "ann" "acme" = [].
Proof. split; [done|]. split; computed. Qed.
