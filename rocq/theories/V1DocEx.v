(** Programs that follow the documentation of package v1. *)
From Verif Require Import V1CallsEx V1Ex V1DocProofs.
From Verif Require Export V1DocSpec.

(** TestAuthorize *)
Definition w126_ops : list uop := take 19 w109_ops.
Definition w126_log : log := log_of w126_ops (uops_outs w126_ops).
(** A role above another one *)
Definition w126_above : list uop :=
  [UNewGroup "backend"; UGroupAdd 0 (Attr "/plan" "POST" :: w109_attrs); UAddGroup 0; UNewRole "coder"; UAddRole 0; UAddPermissionsToRole "coder" "backend" w109_attrs;
   UNewRole "lead"; UAddRole 1; UAddPermissionsToRole "lead" "backend" [Attr "/plan" "POST"]; URoleAddDescendent 1 [0]; UNewTenant "TenantA"; UAddTenant 0; UTAddRole 0 [0; 1];
   UAddPrincipal "ann"; UTAddPrincipal 0 "ann" ["lead"]].
(** Scopes first, role afterwards *)
Definition w126_order : list uop :=
  [UNewRole "coder"; UAddRole 0; UNewTenant "TenantA"; UAddTenant 0; UTAddRole 0 [0]; UAddScope "29"; UTAddScopes 0 ["29"]; UAddPrincipal "ann";
   UTAssignScopes 0 "ann" ["29"]; UTAddPrincipal 0 "ann" ["coder"]].

(** Finding a call in a list of calls *)
Lemma ever_nth {E} (P : list E -> E -> Prop) h k e : h !! k = Some e -> P (drop (S k) h) e -> ever P h.
Proof.
  revert k. induction h as [|x h IH]; intros k H K; [discriminate|]. destruct k as [|k].
  - cbn in H. injection H as ->. left. exact K.
  - right. exact (IH k H K).
Qed.
Lemma first_none {E A} (says : list E -> E -> A -> Prop) (f : E -> bool) h : (forall h' e a, says h' e a -> f e = true) -> existsb f h = false -> forall a, ~ first_of says h a.
Proof.
  intros Hf. induction h as [|e h IH]; intros H a; [intros []|]. cbn [existsb] in H. apply orb_false_elim in H as [H1 H2]. intros [X|[_ X]]; [exact (IH H2 a X)|].
  rewrite (Hf _ _ _ X) in H1. discriminate.
Qed.
Lemma first_nth {E A} (says : list E -> E -> A -> Prop) (f : E -> bool) h k e a : (forall h' e a, says h' e a -> f e = true) -> h !! k = Some e ->
  existsb f (drop (S k) h) = false -> says (drop (S k) h) e a -> first_of says h a.
Proof.
  intros Hf. revert k. induction h as [|x h IH]; intros k H F K; [discriminate|]. destruct k as [|k].
  - cbn in H. injection H as ->. right. split; [exact (first_none says f h Hf F)|exact K].
  - left. exact (IH k H F K).
Qed.
Definition adds_tenant (e : uop * uout) : bool := match e.1 with UAddTenant _ => true | _ => false end.
Definition adds_role_at (l : nat) (e : uop * uout) : bool := match e.1 with UAddRole l' => Nat.eqb l' l | _ => false end.
Definition adds_namespace (e : uop * uout) : bool := match e.1 with UTAddNamespace _ _ => true | _ => false end.
Lemma tenant_at_nth h id t y k : h !! k = Some (UAddTenant t, y) -> existsb adds_tenant (drop (S k) h) = false -> tenant_named (drop (S k) h) t id -> tenant_at h id t.
Proof. intros H F N. apply (first_nth _ adds_tenant h k (UAddTenant t, y)); [|exact H|exact F|split; [reflexivity|exact N]]. intros h' [x y'] a [E _]. cbn in E. rewrite E. reflexivity. Qed.
Lemma ns_in_nth h t n ls l y k : h !! k = Some (UTAddNamespace t ls, y) -> existsb adds_namespace (drop (S k) h) = false ->
  first_in (fun l' => namespace_named (drop (S k) h) l' n) ls l -> ns_in h t n l.
Proof.
  intros H F N. apply (first_nth _ adds_namespace h k (UTAddNamespace t ls, y)); [|exact H|exact F|exists ls; split; [reflexivity|exact N]].
  intros h' [x y'] a (ls' & E & _). cbn in E. rewrite E. reflexivity.
Qed.
(** Different roles do not have the same id here. *)
Definition adds_named (id : string) (h : log) (e : uop * uout) : bool :=
  match e.1 with UAddRole l => existsb (fun e' => match e' with (UNewRole id', YLoc l') => Nat.eqb l' l && String.eqb id' id | _ => false end) h | _ => false end.
Fixpoint some_named (id : string) (h : log) : bool := match h with [] => false | e :: h' => adds_named id h' e || some_named id h' end.
Lemma role_none h id : some_named id h = false -> forall l, ~ role_at h id l.
Proof.
  induction h as [|[x y] h IH]; intros H l; [intros []|]. cbn [some_named] in H. apply orb_false_elim in H as [H1 H2]. intros [X|[_ [E X]]]; [exact (IH H2 l X)|].
  cbn [fst] in E. subst x. unfold adds_named in H1. cbn [fst] in H1. apply not_true_iff_false in H1. apply H1. apply existsb_exists. exists (UNewRole id, YLoc l).
  split; [apply elem_of_list_In; exact X|]. rewrite Nat.eqb_refl, String.eqb_refl. reflexivity.
Qed.
Lemma role_at_nth h id l y k : h !! k = Some (UAddRole l, y) -> some_named id (drop (S k) h) = false -> role_named (drop (S k) h) l id -> role_at h id l.
Proof.
  revert k. induction h as [|x h IH]; intros k H F K; [discriminate|]. destruct k as [|k].
  - cbn in H. injection H as ->. right. split; [exact (role_none h id F)|]. split; [reflexivity|exact K].
  - left. exact (IH k H F K).
Qed.
Ltac in_log := vm_compute; repeat (first [apply elem_of_list_here | apply elem_of_list_further]).
Ltac computed := vm_compute; reflexivity.

Lemma w126_role : given_role w126_log 0 "TenantA" "principalA" "coder".
Proof.
  split; [|split].
  - apply (tenant_at_nth w126_log "TenantA" 0 (YLoc 0) 11); [computed|computed|in_log].
  - in_log.
  - apply (ever_nth _ w126_log 3 (UTAddPrincipal 0 "principalA" ["coder"], YUnit)); [computed|]. split; [in_log|]. exists ["coder"]. split; [reflexivity|]. split; [left|].
    apply (ever_nth _ (drop 4 w126_log) 3 (UTAddRole 0 [0], YUnit)); [computed|]. exists [0], 0. split; [reflexivity|]. split; [left|in_log].
Qed.
Lemma w126_permission : given_permission w126_log 0 "coder" "backend" (Attr "/coding/:wid/open" "GET").
Proof.
  apply (ever_nth _ w126_log 13 (UAddPermissionsToRole "coder" "backend" w109_attrs, YErr None)); [computed|]. split.
  - apply (role_at_nth _ "coder" 0 (YLoc 0) 0); [computed|computed|in_log].
  - exists w109_attrs. split; [reflexivity|]. right. left.
Qed.
Lemma w126_ns h : h !! 0 = Some (UTAddNamespace 0 [0], YUnit) -> existsb adds_namespace (drop 1 h) = false -> (UNewNamespace "NamespaceA", YLoc 0) ∈ drop 1 h -> ns_in h 0 "NamespaceA" 0.
Proof. intros H1 H2 H3. apply (ns_in_nth h 0 "NamespaceA" [0] 0 YUnit 0 H1 H2). exists [], []. split; [reflexivity|]. split; [exact H3|constructor]. Qed.
Lemma ns_in_later h1 h2 t n l : ns_in h2 t n l -> ns_in (h1 ++ h2) t n l.
Proof. intros H. induction h1 as [|e h1 IH]; [exact H|]. left. exact IH. Qed.
Lemma w126_known k : k ≤ 8 -> ns_in (drop k w126_log) 0 "NamespaceA" 0.
Proof.
  intros K. rewrite <- (take_drop (8 - k) (drop k w126_log)), drop_drop. replace (k + (8 - k)) with 8 by lia. apply ns_in_later. apply w126_ns; [computed|computed|in_log].
Qed.
Lemma w126_namespace : given_namespace w126_log 0 "TenantA" "principalA" "NamespaceA".
Proof.
  apply (ever_nth _ w126_log 2 (UTAddPrincipalInNamespace 0 "principalA" "NamespaceA" [], YUnit)); [computed|]. split; [in_log|]. split; [reflexivity|]. exists 0.
  apply w126_known. lia.
Qed.
Lemma w126_scope : given_scope w126_log 0 "TenantA" "principalA" "coder" "29".
Proof.
  apply (ever_nth _ w126_log 1 (UTAssignScopes 0 "principalA" ["29"], YUnit)); [computed|]. split; [|split; [in_log|exists ["29"]; split; [reflexivity|split; [left|]]]].
  - split; [|split].
    + apply (tenant_at_nth _ "TenantA" 0 (YLoc 0) 9); [computed|computed|in_log].
    + in_log.
    + apply (ever_nth _ _ 1 (UTAddPrincipal 0 "principalA" ["coder"], YUnit)); [computed|]. split; [in_log|]. exists ["coder"]. split; [reflexivity|]. split; [left|].
      apply (ever_nth _ _ 3 (UTAddRole 0 [0], YUnit)); [computed|]. exists [0], 0. split; [reflexivity|]. split; [left|in_log].
  - exists ["29"]. split; [in_log|left].
Qed.
Lemma w126_placed : scope_placed w126_log 0 "TenantA" "NamespaceA" "29".
Proof.
  apply (ever_nth _ w126_log 0 (UTAddScopesToNamespace 0 "NamespaceA" ["29"], YUnit)); [computed|]. split; [in_log|]. exists ["29"]. split; [reflexivity|]. split; [left|]. split.
  - apply Forall_singleton. exists ["29"]. split; [in_log|left].
  - exists 0. apply w126_known. lia.
Qed.
Lemma place_w126 : place_known w126_log 0 "NamespaceA" "29".
Proof. split; intros _; [exists 0; exact (w126_known 0 ltac:(lia))|]. exists ["29"]. split; [in_log|left]. Qed.
Definition w126_requests : list (string * uopts * bool) :=
  [("principalA", UOpts (AStr "TenantA") (AStr "NamespaceA") (AStr "29") (AStr "backend") (AStr "/coding/1/open GET"), true);
   ("principalA", UOpts (AStr "TenantA") (AStr "NamespaceA") ANil ANil ANil, true);
   ("principalA", UOpts (AStr "TenantA") ANil (AStr "29") ANil ANil, true);
   ("principalA", UOpts (AStr "TenantA") (AStr "NamespaceA") (AStr "29") ANil ANil, true)].
Lemma c126_ex : urun id_oracle 0 u_init w126_ops = Ok (uops_state w126_ops, uops_outs w126_ops) /\ Forall plain_names w126_ops /\ groups_made w126_log
  /\ given_role w126_log 0 "TenantA" "principalA" "coder" /\ given_permission w126_log 0 "coder" "backend" (Attr "/coding/:wid/open" "GET")
  /\ place_known w126_log 0 "NamespaceA" "29" /\ given_namespace w126_log 0 "TenantA" "principalA" "NamespaceA"
  /\ given_scope w126_log 0 "TenantA" "principalA" "coder" "29" /\ scope_placed w126_log 0 "TenantA" "NamespaceA" "29"
  /\ Forall (fun pqb => u_authorize rev_oracle (uops_state w126_ops) pqb.1.1 pqb.1.2 = Ok pqb.2) w126_requests.
Proof.
  split; [apply urun_uruns; computed|]. split; [apply plain_checked; computed|]. split; [apply groups_checked; computed|].
  split; [exact w126_role|]. split; [exact w126_permission|]. split; [exact place_w126|]. split; [exact w126_namespace|]. split; [exact w126_scope|]. split; [exact w126_placed|].
  apply answers_checked. computed.
Qed.

Lemma c126_inherited : exists ops st outs t id p r l d r' grp a act, urun id_oracle 0 u_init ops = Ok (st, outs) /\ Forall plain_names ops /\ groups_made (log_of ops outs)
  /\ given_role (log_of ops outs) t id p r /\ role_at (log_of ops outs) r l /\ put_above (log_of ops outs) l d /\ given_permission (log_of ops outs) d r' grp a /\ covers a act
  /\ u_authorize id_oracle st p (UOpts (AStr id) ANil ANil (AStr grp) (AStr act)) = Ok false.
Proof.
  exists w126_above, (uops_state w126_above), (uops_outs w126_above), 0, "TenantA", "ann", "lead", 1, 0, "coder", "backend", (Attr "/coding/:wid/open" "GET"), "/coding/:wid/open GET".
  split; [apply urun_uruns; computed|]. split; [apply plain_checked; computed|]. split; [apply groups_checked; computed|].
  split; [split; [|split]|split; [|split; [|split; [|split]]]].
  - apply (tenant_at_nth _ "TenantA" 0 (YLoc 0) 3); [computed|computed|in_log].
  - in_log.
  - apply (ever_nth _ _ 0 (UTAddPrincipal 0 "ann" ["lead"], YUnit)); [computed|]. split; [in_log|]. exists ["lead"]. split; [reflexivity|]. split; [left|].
    apply (ever_nth _ _ 1 (UTAddRole 0 [0; 1], YUnit)); [computed|]. exists [0; 1], 1. split; [reflexivity|]. split; [right; left|in_log].
  - apply (role_at_nth _ "lead" 1 (YLoc 1) 7); [computed|computed|in_log].
  - exists [0]. split; [in_log|left].
  - apply (ever_nth _ _ 9 (UAddPermissionsToRole "coder" "backend" w109_attrs, YErr None)); [computed|]. split.
    + apply (role_at_nth _ "coder" 0 (YLoc 0) 0); [computed|computed|in_log].
    + exists w109_attrs. split; [reflexivity|]. right. left.
  - left. reflexivity.
  - apply u_out_ok. computed.
Qed.
Lemma c126_order : exists ops st outs t id p r s, urun id_oracle 0 u_init ops = Ok (st, outs) /\ Forall plain_names ops /\ groups_made (log_of ops outs)
  /\ given_role (log_of ops outs) t id p r /\ (UTAssignScopes t p [s], YUnit) ∈ log_of ops outs /\ scope_in (log_of ops outs) t s
  /\ u_authorize id_oracle st p (UOpts (AStr id) ANil (AStr s) ANil ANil) = Ok false.
Proof.
  exists w126_order, (uops_state w126_order), (uops_outs w126_order), 0, "TenantA", "ann", "coder", "29".
  split; [apply urun_uruns; computed|]. split; [apply plain_checked; computed|]. split; [apply groups_checked; computed|].
  split; [split; [|split]|split; [|split]].
  - apply (tenant_at_nth _ "TenantA" 0 (YLoc 0) 6); [computed|computed|in_log].
  - in_log.
  - apply (ever_nth _ _ 0 (UTAddPrincipal 0 "ann" ["coder"], YUnit)); [computed|]. split; [in_log|]. exists ["coder"]. split; [reflexivity|]. split; [left|].
    apply (ever_nth _ _ 4 (UTAddRole 0 [0], YUnit)); [computed|]. exists [0], 0. split; [reflexivity|]. split; [left|in_log].
  - in_log.
  - exists ["29"]. split; [in_log|left].
  - apply u_out_ok. computed.
Qed.
