(** A v1 program in the manner of TestAuthorize in v1/permission_test.go, lines 33-60. *)
From Verif Require Export V1CallsSpec.
From Verif Require Import V1CallsTell V1Ex.

Definition w109_attrs : list attr := [Attr "/coding/:wid/:eid/start-coding" "POST"; Attr "/coding/:wid/open" "GET"].
Definition w109_ops : list uop :=
  [UNewGroup "backend"; UGroupAdd 0 w109_attrs; UAddGroup 0; UNewRole "coder"; UAddRole 0; UAddPermissionsToRole "coder" "backend" w109_attrs;
   UNewTenant "TenantA"; UAddTenant 0; UNewNamespace "NamespaceA"; UAddNamespace 0; UTAddNamespace 0 [0]; UTAddRole 0 [0];
   UAddScope "29"; UTAddScopes 0 ["29"]; UAddPrincipal "principalA"; UTAddPrincipal 0 "principalA" ["coder"];
   UTAddPrincipalInNamespace 0 "principalA" "NamespaceA" []; UTAssignScopes 0 "principalA" ["29"]; UTAddScopesToNamespace 0 "NamespaceA" ["29"];
   (* a role above the coder's, handed a group that is filled afterwards *)
   UNewRole "lead"; UAddRole 1; URoleAddDescendent 1 [0]; UNewGroup "review"; URoleAddGroup 1 2; UGroupAdd 2 [Attr "/review" "POST"]; URoleAddPermission 1 "backend" [Attr "/plan" "POST"]; UTAddRole 0 [1];
   URoleAddPermission 0 "" [Attr "/ping" "GET"]; UAddPrincipal "ann"; UTAddPrincipal 0 "ann" ["lead"]; UAddPrincipal "bob";
   UNewTenant "TenantB"; UAddPrincipal "eve"; UAddPrincipalRole "eve" "coder" 1 None None []; UAuthorize "ann" (UOpts (AStr "TenantA") ANil ANil ANil ANil)].
Definition q_act (t g a : string) : uopts := UOpts (AStr t) ANil ANil (AStr g) (AStr a).
Definition q_only (a : string) : uopts := UOpts ANil ANil ANil ANil (AStr a).
Definition w109_requests : list (string * uopts * bool) :=
  [("principalA", UOpts (AStr "TenantA") (AStr "NamespaceA") (AStr "29") ANil ANil, true);
   ("principalA", q_act "TenantA" "backend" "/coding/1/2/start-coding POST", true);
   ("principalA", q_act "TenantA" "review" "/review POST", false);
   ("principalA", q_act "TenantA" "backend" "/plan POST", false);
   ("principalA", UOpts (AStr "TenantA") (AStr "NamespaceA") ANil ANil ANil, true);
   ("principalA", q_only "/ping GET", true);
   ("ann", q_act "TenantA" "review" "/review POST", true);
   ("ann", q_act "TenantA" "backend" "/coding/1/open GET", false);
   ("ann", UOpts ANil ANil (AStr "29") ANil ANil, false);
   ("ann", UOpts ANil (AStr "NamespaceA") ANil ANil ANil, true);
   ("ann", q_only "/ping GET", false);
   ("bob", UOpts (AStr "TenantA") (AStr "NamespaceA") ANil ANil ANil, false);
   ("bob", UOpts (AStr "TenantA") ANil ANil ANil ANil, true);
   ("nobody", UOpts (AStr "TenantA") ANil ANil ANil ANil, false)].

Lemma forall_by {A} (f : A -> bool) (P : A -> Prop) l : (forall x, f x = true -> P x) -> forallb f l = true -> Forall P l.
Proof. intros H F. apply Forall_forall. intros x Hx. apply H. rewrite forallb_forall in F. apply F, elem_of_list_In. exact Hx. Qed.
Definition under_free (s : string) : bool := bool_decide (ch_under ∉ bytes s).
Definition plain_check (x : uop) : bool :=
  match x with
  | UNewTenant id | UNewNamespace id | UNewRole id => under_free id
  | UTAddScopes _ ss => forallb under_free ss
  | UAddPrincipalRole p r _ _ s _ => under_free p && under_free r && under_free (default "" s)
  | UTAddPrincipal _ p _ | UTAddPrincipalInNamespace _ p _ _ | UTAssignScopes _ p _ | UTAssignScopesWithRole _ p _ _ => under_free p
  | _ => true
  end.
Lemma plain_checked ops : forallb plain_check ops = true -> Forall plain_names ops.
Proof.
  apply forall_by. intros x. destruct x; cbn [plain_check plain_names]; try (intros _; exact I); try (apply bool_decide_eq_true).
  - rewrite !andb_true_iff. intros ((H1 & H2) & H3). split; [apply bool_decide_eq_true in H1; exact H1|]. split; [apply bool_decide_eq_true in H2; exact H2|apply bool_decide_eq_true in H3; exact H3].
  - apply forall_by. intros s H. apply bool_decide_eq_true in H. exact H.
Qed.
Definition names_group (gl : nat) (e : uop * uout) : bool := match e with (UNewGroup _, YLoc gl') => Nat.eqb gl' gl | _ => false end.
Lemma names_group_ok gl h : existsb (names_group gl) h = true -> exists id, group_named h gl id.
Proof.
  intros H. apply existsb_exists in H as ([x y] & Hin & H). destruct x; try discriminate. destruct y; try discriminate. cbn [names_group] in H. apply Nat.eqb_eq in H. subst.
  exists id. apply elem_of_list_In. exact Hin.
Qed.
Fixpoint groups_check (h : log) : bool :=
  match h with
  | [] => true
  | e :: h' => match e.1 with UGroupAdd gl _ | URoleAddGroup _ gl => existsb (names_group gl) h' | _ => true end && groups_check h'
  end.
Lemma groups_checked h : groups_check h = true -> groups_made h.
Proof.
  induction h as [|[x y] h IH]; [intros _; exact I|]. cbn [groups_check]. rewrite andb_true_iff. intros (H1 & H2). split; [|exact (IH H2)].
  cbn [fst] in *. destruct x; try exact I; exact (names_group_ok _ _ H1).
Qed.
Definition u_out {A} (x : res A) : option A := match x with Ok a => Some a | _ => None end.
Lemma u_out_ok {A} (x : res A) a : u_out x = Some a -> x = Ok a.
Proof. destruct x; cbn; congruence. Qed.
Lemma answers_checked o st l : forallb (fun pqb => match u_out (u_authorize o st pqb.1.1 pqb.1.2) with Some b => Bool.eqb b pqb.2 | None => false end) l = true ->
  Forall (fun pqb => u_authorize o st pqb.1.1 pqb.1.2 = Ok pqb.2) l.
Proof.
  apply forall_by. intros [[p q] b]. cbn [fst snd]. destruct (u_out (u_authorize o st p q)) as [b'|] eqn:E; [|discriminate]. intros ->%Bool.eqb_prop. apply u_out_ok. exact E.
Qed.
Lemma urun_uruns ops : uruns ops = true -> urun id_oracle 0 u_init ops = Ok (uops_state ops, uops_outs ops).
Proof. unfold uruns, uops_state, uops_outs. destruct (urun id_oracle 0 u_init ops) as [[st outs]| |]; [reflexivity|discriminate..]. Qed.
Definition u_panics {A} (x : res A) : bool := match x with Panic => true | _ => false end.
Lemma u_panics_ok {A} (x : res A) : u_panics x = true -> x = Panic.
Proof. destruct x; cbn; congruence. Qed.

Lemma c109_ex : urun id_oracle 0 u_init w109_ops = Ok (uops_state w109_ops, uops_outs w109_ops) /\ Forall plain_names w109_ops
  /\ groups_made (log_of w109_ops (uops_outs w109_ops))
  /\ Forall (fun pqb => u_authorize rev_oracle (uops_state w109_ops) pqb.1.1 pqb.1.2 = Ok pqb.2) w109_requests
  /\ u_authorize rev_oracle (uops_state w109_ops) "eve" (q_only "/ping GET") = Panic.
Proof.
  split; [apply urun_uruns; vm_compute; reflexivity|]. split; [apply plain_checked; vm_compute; reflexivity|]. split; [apply groups_checked; vm_compute; reflexivity|].
  split; [apply answers_checked; vm_compute; reflexivity|apply u_panics_ok; vm_compute; reflexivity].
Qed.

(** An underscore in a role's id *)
Definition w109_under : list uop := [UNewTenant "t"; UAddTenant 0; UAddPrincipal "a"; UAddPrincipalRole "a" "r_x" 0 None None []].
Definition w109_log : log := [(UAddPrincipalRole "a" "r_x" 0 None None [], YUnit); (UAddPrincipal "a", YUnit); (UAddTenant 0, YLoc 0); (UNewTenant "t", YLoc 0)].
Lemma w109_rows row : row_made w109_log row <-> row = TRow "a" "r_x" "t" "" "" true.
Proof.
  cbn [row_made w109_log assigns fst]. split.
  - intros [H|(id & n & H & -> & ->)]; [exfalso; repeat (destruct H as [H|H]); contradiction|]. apply elem_of_list_In in H. cbn [In] in H.
    destruct H as [H|[H|[H|[]]]]; try discriminate. injection H as ->. reflexivity.
  - intros ->. right. exists "t", "". split; [|split; reflexivity]. apply elem_of_list_In. right. right. left. reflexivity.
Qed.
Lemma c109_underscore : exists o ops st outs, urun o 0 u_init ops = Ok (st, outs) /\ groups_made (log_of ops outs)
  /\ (exists p q, u_authorize o st p q = Ok true /\ ~ granted (log_of ops outs) p q)
  /\ exists p q, u_authorize o st p q = Ok false /\ granted (log_of ops outs) p q.
Proof.
  exists id_oracle, w109_under, (uops_state w109_under), (uops_outs w109_under).
  assert (E : log_of w109_under (uops_outs w109_under) = w109_log) by (vm_compute; reflexivity). rewrite E.
  split; [apply urun_uruns; vm_compute; reflexivity|]. split; [apply groups_checked; vm_compute; reflexivity|]. split.
  - exists "a", (UOpts (AStr "x") (AStr "t") ANil ANil ANil). split; [apply u_out_ok; vm_compute; reflexivity|]. clear E.
    intros (_ & r & s & m & H). apply w109_rows in H. discriminate.
  - exists "a", (UOpts (AStr "t") (AStr "") ANil ANil ANil). split; [apply u_out_ok; vm_compute; reflexivity|]. clear E. split.
    + apply elem_of_list_In. right. left. reflexivity.
    + exists "r_x", "", true. apply w109_rows. reflexivity.
Qed.
