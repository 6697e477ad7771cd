(** Concrete v1 histories: witnesses and examples. *)
From Verif Require Import V1Auth V1Inv V1Slice.
From Verif Require Export V1Cor V1SliceHole V1Setup V1Iso V1More.

Definition uops_state (ops : list uop) : ustate :=
  match urun id_oracle 0 u_init ops with Ok (st, _) => st | _ => u_init end.
Definition uops_outs (ops : list uop) : list uout :=
  match urun id_oracle 0 u_init ops with Ok (_, outs) => outs | _ => [] end.
Definition uruns (ops : list uop) : bool :=
  match urun id_oracle 0 u_init ops with Ok _ => true | _ => false end.
Lemma ureachable_uruns ops : uruns ops = true -> ureachable (uops_state ops).
Proof.
  unfold uruns, uops_state. intros H. exists id_oracle, ops, (uops_outs ops). unfold uops_outs.
  by destruct (urun id_oracle 0 u_init ops) as [[st outs]| |].
Qed.
Ltac reach_uops ops := apply (ureachable_uruns ops); vm_compute; reflexivity.
Definition ufinal {A} (x : res (ustate * A)) : ustate := match x with Ok sa => sa.1 | _ => u_init end.
Definition uanswer {A} (x : res (ustate * A)) : option A := match x with Ok sa => Some sa.2 | _ => None end.
Lemma uanswer_ok {A} (x : res (ustate * A)) a : uanswer x = Some a -> x = Ok (ufinal x, a).
Proof. destruct x as [[st a']| |]; simpl; congruence. Qed.
Ltac uanswered := apply uanswer_ok; vm_compute; reflexivity.
(** A tenant in the computed state. *)
Lemma the_tenant st t c : u_tenant st t = Some c -> utenant_is st t c.
Proof. apply u_tenant_is. Qed.
Lemma known_by st p : bool_decide (p ∈ u_principals st) = true -> known st p.
Proof. apply bool_decide_eq_true. Qed.
Ltac is_known := apply known_by; vm_compute; reflexivity.
Lemma member_by o st t p rows a : ureachable st -> get_principal_roles o st t p = Ok rows -> a ∈ rows <-> member st p t a.
Proof.
  intros W%ureachable_wf H. destruct (principal_roles_ok o st t p W) as (rows' & H' & Hin). rewrite H in H'.
  injection H' as <-. apply Hin.
Qed.
Lemma member_none st t p : ureachable st -> get_principal_roles id_oracle st t p = Ok [] -> forall a, ~ member st p t a.
Proof. intros W H a Ha. apply (member_by _ _ _ _ _ _ W H) in Ha. by apply elem_of_nil in Ha. Qed.
Lemma tenant_by st t : bool_decide (is_Some (u_tenant st t)) = true -> exists c, utenant_is st t c.
Proof. intros [c Hc]%bool_decide_eq_true. exists c. by apply u_tenant_is. Qed.
Definition rows_of (x : res (list trow)) : option (list trow) := match x with Ok l => Some l | _ => None end.
Lemma rows_of_ok x l : rows_of x = Some l -> x = Ok l.
Proof. destruct x; simpl; congruence. Qed.
(** The allowed roles, computed. *)
Lemma allowed_by st p t n s prs al r : ureachable st -> get_principal_roles id_oracle st t p = Ok prs -> prs <> [] ->
  get_allowed_roles id_oracle st (Some prs) n s = Ok al -> forall c, utenant_is st t c ->
  (allowed_role st c p t n s r <-> r ∈ default [] al).
Proof.
  intros W H Hne Hal c Hc. pose proof (ureachable_wf _ W) as Hw.
  destruct (allowed_ok id_oracle st c p t n s prs Hw Hc) as (al' & Hal' & Hin).
  - intros a. by eapply member_by.
  - done.
  - rewrite Hal in Hal'. injection Hal' as <-. by rewrite Hin.
Qed.

(** One tenant with a namespace, two roles, two scopes. *)
Definition x_base : list uop :=
  [UNewTenant "acme"; UAddTenant 0; UNewNamespace "eng"; UTAddNamespace 0 [0];
   UNewRole "reader"; URoleAddPermission 0 "doc" [Attr "/d" "GET"]; UAddRole 0;
   UNewRole "writer"; URoleAddPermission 1 "doc" [Attr "/d" "PUT"]; UAddRole 1;
   UTAddRole 0 [0; 1]; UTAddScopes 0 ["s1"; "s2"];
   UAddPrincipal "ann"; UAddPrincipal "bob"; UTAddPrincipal 0 "ann" ["reader"]].
Definition q_get (n s : any) : uopts := UOpts (AStr "acme") n s (AStr "doc") (AStr "/d GET").
Definition q_put (n s : any) : uopts := UOpts (AStr "acme") n s (AStr "doc") (AStr "/d PUT").


(** ** C44 *)
Definition w44 : string := "ann_writer_acme__".
Lemma c44_refuted :
  (exists st st' x, ureachable st /\ row_for st "x_y" "reader" 0 None None [] x
     /\ ustep id_oracle st (UAddPrincipalRole "x_y" "reader" 0 None None []) = Ok (st', YUnit)
     /\ forall o rows, get_principal_roles o st' (tp_tenant x) "x_y" = Ok rows -> x ∉ rows)
  /\ (exists st st', ureachable st /\ u_authorize id_oracle st "ann" (q_put ANil ANil) = Ok false
     /\ ustep id_oracle st (UAddPrincipalRole w44 "reader" 0 None None []) = Ok (st', YUnit)
     /\ u_authorize id_oracle st' "ann" (q_put ANil ANil) = Ok true).
Proof.
  assert (Hr : ureachable (uops_state x_base)) by (reach_uops x_base). split.
  - set (y := UAddPrincipalRole "x_y" "reader" 0 None None []).
    exists (uops_state x_base), (ufinal (ustep id_oracle (uops_state x_base) y)), (TRow "x_y" "reader" "acme" "" "" true).
    assert (Hx : row_for (uops_state x_base) "x_y" "reader" 0 None None [] (TRow "x_y" "reader" "acme" "" "" true)).
    { destruct (u_tenants (uops_state x_base) !! 0) as [c|] eqn:E.
      - exists c, "". split_and!; [done|done|]. assert (ut_id <$> u_tenants (uops_state x_base) !! 0 = Some "acme") as H by (vm_compute; reflexivity).
        rewrite E in H. injection H as ->. done.
      - assert (ut_id <$> u_tenants (uops_state x_base) !! 0 = Some "acme") as H by (vm_compute; reflexivity). by rewrite E in H. }
    assert (Hs : ustep id_oracle (uops_state x_base) y = Ok (ufinal (ustep id_oracle (uops_state x_base) y), YUnit)) by uanswered.
    split_and!; [done|done|done|]. intros o rows H.
    destruct (c44_exact id_oracle o _ _ _ _ _ _ _ _ _ _ Hr Hx Hs) as (rows' & H' & Hin).
    assert (rows = rows') as -> by congruence. rewrite Hin. clear. intros (Hc & _). apply Hc.
    apply (bool_decide_unpack _). vm_compute. exact I.
  - exists (uops_state x_base), (ufinal (ustep id_oracle (uops_state x_base) (UAddPrincipalRole w44 "reader" 0 None None []))).
    split_and!; [done|vm_compute; reflexivity|uanswered|vm_compute; reflexivity].
Qed.
Lemma c44_collision : exists a b, a <> b /\ row_string a = row_string b.
Proof.
  exists (TRow "a_b" "c" "t" "" "" true), (TRow "a" "b_c" "t" "" "" true). split; [by intros [=]|done].
Qed.
Lemma c44_ex : exists st st' x, ureachable st /\ row_for st "cat" "reader" 0 None (Some "s1") [false] x /\ clean_row x
  /\ ustep id_oracle st (UAddPrincipalRole "cat" "reader" 0 None (Some "s1") [false]) = Ok (st', YUnit)
  /\ get_principal_roles id_oracle st' "acme" "cat" = Ok [x].
Proof.
  set (y := UAddPrincipalRole "cat" "reader" 0 None (Some "s1") [false]).
  exists (uops_state x_base), (ufinal (ustep id_oracle (uops_state x_base) y)), (TRow "cat" "reader" "acme" "" "s1" false).
  split; [reach_uops x_base|]. split.
  { destruct (u_tenants (uops_state x_base) !! 0) as [c|] eqn:E.
    - exists c, "". split_and!; [done|done|]. assert (ut_id <$> u_tenants (uops_state x_base) !! 0 = Some "acme") as H by (vm_compute; reflexivity).
      rewrite E in H. injection H as ->. done.
    - assert (ut_id <$> u_tenants (uops_state x_base) !! 0 = Some "acme") as H by (vm_compute; reflexivity). by rewrite E in H. }
  split; [split_and!; apply (bool_decide_unpack _); vm_compute; exact I|]. split; [uanswered|].
  apply rows_of_ok. vm_compute. reflexivity.
Qed.

(** ** C47 *)
Lemma c47_refuted : exists st, ureachable st /\ known st "bob" /\ (forall a, ~ member st "bob" "acme" a)
  /\ u_authorize id_oracle st "bob" (UOpts (AStr "acme") ANil ANil ANil ANil) = Ok true.
Proof.
  exists (uops_state x_base). assert (Hr : ureachable (uops_state x_base)) by (reach_uops x_base).
  split_and!; [done|is_known| |vm_compute; reflexivity].
  apply member_none; [done|]. apply rows_of_ok. vm_compute. reflexivity.
Qed.

(** ** C48 *)
Definition x_restricted : list uop := x_base ++ [UTAddScopesToNamespace 0 "eng" ["s1"]].
Definition x_writers : list uop := x_base ++ [UTAddRolesToNamespace 0 "eng" ["writer"]].
Lemma c48_refuted :
  (exists st, ureachable st /\ known st "ann" /\ (exists c, utenant_is st "acme" c)
     /\ (forall c r, utenant_is st "acme" c -> ~ allowed_role st c "ann" "acme" "eng" "s2" r)
     /\ u_authorize id_oracle st "ann" (q_get (AStr "eng") (AStr "s2")) = Ok true)
  /\ (exists st, ureachable st /\ known st "ann" /\ (exists c, utenant_is st "acme" c)
     /\ (forall c r, utenant_is st "acme" c -> (allowed_role st c "ann" "acme" "eng" "s1" r <-> r = "writer"))
     /\ u_authorize id_oracle st "ann" (q_get (AStr "eng") (AStr "s1")) = Ok true
     /\ u_authorize id_oracle st "ann" (q_put (AStr "eng") (AStr "s1")) = Ok false).
Proof.
  assert (Hann : forall st rows, rows_of (get_principal_roles id_oracle st "acme" "ann") = Some rows ->
    get_principal_roles id_oracle st "acme" "ann" = Ok rows) by (intros; by apply rows_of_ok).
  split.
  - exists (uops_state x_restricted). assert (Hr : ureachable (uops_state x_restricted)) by (reach_uops x_restricted).
    split_and!; [done|is_known|apply tenant_by; vm_compute; reflexivity| |vm_compute; reflexivity].
    intros c r Hc. rewrite (allowed_by _ "ann" "acme" "eng" "s2" [TRow "ann" "reader" "acme" "" "" true] None r Hr); [| | | |done].
    + apply not_elem_of_nil.
    + apply Hann. vm_compute. reflexivity.
    + done.
    + vm_compute. reflexivity.
  - exists (uops_state x_writers). assert (Hr : ureachable (uops_state x_writers)) by (reach_uops x_writers).
    split_and!; [done|is_known|apply tenant_by; vm_compute; reflexivity| |vm_compute; reflexivity|vm_compute; reflexivity].
    intros c r Hc. rewrite (allowed_by _ "ann" "acme" "eng" "s1" [TRow "ann" "reader" "acme" "" "" true] (Some ["writer"]) r Hr); [| | | |done].
    + apply elem_of_list_singleton.
    + apply Hann. vm_compute. reflexivity.
    + done.
    + vm_compute. reflexivity.
Qed.

(** ** C49 *)
Definition x_ann_s1 : list uop := x_base ++ [UAddPrincipalRole "ann" "reader" 0 (Some 0) (Some "s1") []].
Lemma c49_refuted : exists st, ureachable st /\ known st "bob"
  /\ (forall a p, member st p "acme" a -> p = "bob" \/ p = "" -> False)
  /\ u_authorize id_oracle st "bob" (UOpts (AStr "acme") (AStr "eng") (AStr "s1") ANil ANil) = Ok true.
Proof.
  exists (uops_state x_ann_s1). assert (Hr : ureachable (uops_state x_ann_s1)) by (reach_uops x_ann_s1).
  split_and!; [done|is_known| |vm_compute; reflexivity].
  intros a p Ha [-> | ->]; revert Ha; apply member_none; try done; apply rows_of_ok; vm_compute; reflexivity.
Qed.

(** ** C57 *)
Lemma c57_refuted : exists st, ureachable st /\ known st "ann"
  /\ u_authorize id_oracle st "ann" (q_get ANil ANil) = Ok true
  /\ u_authorize id_oracle st "ann" (UOpts ANil ANil ANil ANil (AStr "/d GET")) = Ok false.
Proof. exists (uops_state x_base). split_and!; [reach_uops x_base|is_known|vm_compute; reflexivity|vm_compute; reflexivity]. Qed.
Definition x_open : list uop := x_base ++ [URoleAddPermission 0 "" [Attr "/d" "GET"]].
Lemma c57_ex : exists st, ureachable st /\ known st "ann"
  /\ u_authorize id_oracle st "ann" (UOpts ANil ANil ANil ANil (AStr "/d GET")) = Ok true.
Proof. exists (uops_state x_open). split_and!; [reach_uops x_open|is_known|vm_compute; reflexivity]. Qed.

(** ** C58 *)
Definition x_ghost : list uop := x_base ++ [UNewTenant "ghost"; UAddPrincipalRole "ann" "reader" 1 None None []].
Lemma c58_refuted : exists st, ureachable st /\ known st "ann"
  /\ u_authorize id_oracle st "ann" (UOpts ANil ANil ANil ANil (AStr "/d GET")) = Panic.
Proof. exists (uops_state x_ghost). split_and!; [reach_uops x_ghost|is_known|vm_compute; reflexivity]. Qed.
Definition x_dash : list uop := x_base ++ [UAddPrincipal "cat_1"; UTAddPrincipal 0 "cat_1" ["reader"]; UAddPrincipal "cat"].
Lemma c58_underscore : exists st, ureachable st /\ known st "cat"
  /\ u_authorize id_oracle st "cat" (UOpts ANil ANil ANil ANil (AStr "/d GET")) = Panic.
Proof. exists (uops_state x_dash). split_and!; [reach_uops x_dash|is_known|vm_compute; reflexivity]. Qed.

(** ** C59 *)
Definition x_lead : list uop :=
  [UNewTenant "acme"; UAddTenant 0; UNewRole "reader"; URoleAddPermission 0 "doc" [Attr "/d" "GET"]; UAddRole 0;
   UNewRole "lead"; URoleAddPermission 1 "doc" [Attr "/d" "PUT"]; URoleAddDescendent 1 [0]; UAddRole 1;
   UAddPrincipal "ann"; UAddPrincipalRole "ann" "lead" 0 None None []].
Lemma c59_refuted : exists st st', ureachable st /\ known st "ann"
  /\ u_authorize id_oracle st "ann" (q_get ANil ANil) = Ok true
  /\ ustep id_oracle st (UTAddRole 0 [1]) = Ok (st', YUnit)
  /\ u_authorize id_oracle st' "ann" (q_get ANil ANil) = Ok false.
Proof.
  exists (uops_state x_lead), (ufinal (ustep id_oracle (uops_state x_lead) (UTAddRole 0 [1]))).
  split_and!; [reach_uops x_lead|is_known|vm_compute; reflexivity|uanswered|vm_compute; reflexivity].
Qed.

(** ** C60 *)
Definition x_below : list uop :=
  x_base ++ [UNewTenant "sub"; UAddTenant 1; UTAddDescendent 0 [1]; UTAddRole 1 [0; 1]; UTAddPrincipal 1 "bob" ["writer"]].
Lemma c60_refuted : exists st rows a, ureachable st /\ get_implicit_principal_roles id_oracle st "acme" "ann" = Ok rows
  /\ a ∈ rows /\ tp_principal a = "bob".
Proof.
  exists (uops_state x_below), [TRow "ann" "reader" "acme" "" "" true; TRow "bob" "writer" "sub" "" "" true],
    (TRow "bob" "writer" "sub" "" "" true).
  split_and!; [reach_uops x_below|apply rows_of_ok; vm_compute; reflexivity|right; by left|done].
Qed.

(** ** C61 *)
Definition x_many : list uop :=
  [UNewTenant "a"; UAddTenant 0; UNewTenant "b"; UAddTenant 1; UNewRole "r"; UNewRole "s"; UTAddRole 0 [0; 1]; UTAddRole 1 [0; 1];
   UTAddPrincipal 0 "p" ["r"; "s"]; UTAddPrincipal 1 "p" ["r"; "s"]].
Definition names_of (x : res (list string)) : option (list string) := match x with Ok l => Some l | _ => None end.
Lemma names_of_ok x l : names_of x = Some l -> x = Ok l.
Proof. destruct x; simpl; congruence. Qed.
Lemma c61_refuted : exists st ts, ureachable st /\ get_tenants_for_principal id_oracle st "p" = Ok ts /\ ~ NoDup ts.
Proof.
  exists (uops_state x_many), ["b"; "a"; "b"; "a"].
  split_and!; [reach_uops x_many|apply names_of_ok; vm_compute; reflexivity|].
  clear. intros H. apply NoDup_cons in H as [H _]. apply H. right. by left.
Qed.

(** ** C50 *)
Definition x_two : list uop := x_base ++ [UTAddPrincipal 0 "bob" ["writer"]].
Definition ann_rows : list trow := [TRow "ann" "reader" "acme" "" "" true].
Definition bob_rows : list trow := [TRow "bob" "writer" "acme" "" "" true].
Definition no_work : slwork := SLWork [] [] [] [] false.
Definition work_of (x : res slwork) : slwork := match x with Ok w => w | _ => no_work end.
Definition work_ok (x : res slwork) : bool := match x with Ok _ => true | _ => false end.
Lemma work_of_ok x : work_ok x = true -> x = Ok (work_of x).
Proof. by destruct x. Qed.
Definition ann_work : slwork := work_of (slice_work id_oracle (uops_state x_two) ann_rows "" "").
Definition bob_work : slwork := work_of (slice_work id_oracle (uops_state x_two) bob_rows "" "").
Definition new4 : option nat * option nat * option nat * option nat := (None, None, None, None).
(** sync.Pool hands out the slice put back last. *)
Definition reuse4 : option nat * option nat * option nat * option nat := (Some 1, Some 1, Some 1, Some 0).
Definition sl_after (cs : list slcmd) : slstate := (sl_run sl_init cs).1.
Lemma c50_refuted : exists ust rows1 rows2 w1 w2 st1 st2 r1 r2 picks1 picks2, ureachable ust
  /\ get_principal_roles id_oracle ust "acme" "ann" = Ok rows1 /\ slice_work id_oracle ust rows1 "" "" = Ok w1
  /\ get_principal_roles id_oracle ust "acme" "bob" = Ok rows2 /\ slice_work id_oracle ust rows2 "" "" = Ok w2
  /\ sl_call sl_init picks1 w1 = (st1, r1) /\ sl_read st1 r1 = Some ["reader"]
  /\ sl_call st1 picks2 w2 = (st2, r2) /\ sl_read st2 r1 = Some ["writer"].
Proof.
  exists (uops_state x_two), ann_rows, bob_rows, ann_work, bob_work,
    (sl_call sl_init new4 ann_work).1, (sl_call (sl_call sl_init new4 ann_work).1 reuse4 bob_work).1,
    (sl_call sl_init new4 ann_work).2, (sl_call (sl_call sl_init new4 ann_work).1 reuse4 bob_work).2, new4, reuse4.
  split; [reach_uops x_two|]. split; [apply rows_of_ok; vm_compute; reflexivity|]. split; [apply work_of_ok; vm_compute; reflexivity|].
  split; [apply rows_of_ok; vm_compute; reflexivity|]. split; [apply work_of_ok; vm_compute; reflexivity|].
  split; [apply surjective_pairing|]. split; [vm_compute; reflexivity|]. split; [apply surjective_pairing|]. vm_compute; reflexivity.
Qed.
Lemma c50_ex : exists st1 st2 r1 r2, sl_call sl_init new4 ann_work = (st1, r1) /\ sl_call st1 new4 bob_work = (st2, r2)
  /\ sl_read st2 r1 = Some ["reader"] /\ sl_read st2 r2 = Some ["writer"].
Proof.
  exists (sl_call sl_init new4 ann_work).1, (sl_call (sl_call sl_init new4 ann_work).1 new4 bob_work).1,
    (sl_call sl_init new4 ann_work).2, (sl_call (sl_call sl_init new4 ann_work).1 new4 bob_work).2.
  split; [apply surjective_pairing|]. split; [apply surjective_pairing|]. split; vm_compute; reflexivity.
Qed.

(** ** Examples for the exact decisions *)
Definition x_full : list uop :=
  x_base ++ [UAddPrincipalRole "ann" "reader" 0 (Some 0) None []; UAddPrincipalRole "ann" "reader" 0 (Some 0) (Some "s1") []].
Definition q_place (t n s : any) : uopts := UOpts t n s ANil ANil.
Lemma c46_ex : exists st, ureachable st /\ known st "ann"
  /\ u_authorize id_oracle st "ann" (q_place ANil (AStr "eng") ANil) = Ok true
  /\ u_authorize id_oracle st "bob" (q_place ANil (AStr "eng") ANil) = Ok false
  /\ u_authorize id_oracle st "ann" (q_place ANil ANil (AStr "s1")) = Ok true
  /\ u_authorize id_oracle st "ann" (q_place ANil ANil (AStr "s2")) = Ok false
  /\ u_authorize id_oracle st "ann" (q_place (AStr "acme") (AStr "eng") ANil) = Ok true
  /\ u_authorize id_oracle st "ann" (q_place (AStr "acme") (AStr "ops") ANil) = Ok false
  /\ u_authorize id_oracle st "ann" (q_place (AStr "acme") ANil (AStr "s1")) = Ok true
  /\ u_authorize id_oracle st "ann" (q_place (AStr "acme") ANil (AStr "s2")) = Ok false
  /\ u_authorize id_oracle st "ann" (q_place ANil (AStr "eng") (AStr "s1")) = Ok true
  /\ u_authorize id_oracle st "bob" (q_place ANil (AStr "eng") (AStr "s1")) = Ok false
  /\ u_authorize id_oracle st "ann" (q_place (AStr "acme") (AStr "eng") (AStr "s1")) = Ok true
  /\ u_authorize id_oracle st "ann" (q_place (AStr "acme") (AStr "eng") (AStr "s2")) = Ok false
  /\ u_authorize id_oracle st "ann" (q_place (AStr "nope") ANil ANil) = Ok false.
Proof. exists (uops_state x_full). split; [reach_uops x_full|]. split; [is_known|]. split_and!; vm_compute; reflexivity. Qed.

(** ** C62 *)
(** Two tenants with the same namespace object. *)
Definition x_shared : list uop :=
  [UNewTenant "acme"; UAddTenant 0; UNewTenant "beta"; UAddTenant 1; UNewNamespace "eng"; UTAddNamespace 0 [0]; UTAddNamespace 1 [0];
   UNewRole "reader"; URoleAddPermission 0 "doc" [Attr "/d" "GET"]; UAddRole 0;
   UNewRole "lead"; URoleAddPermission 1 "doc" [Attr "/d" "PUT"]; URoleAddDescendent 1 [0]; UAddRole 1;
   UTAddRole 0 [0; 1]; UTAddRole 1 [0; 1]; UAddPrincipal "ann"; UTAddPrincipal 0 "ann" ["lead"]].
Definition q_eng : uopts := UOpts (AStr "acme") (AStr "eng") ANil (AStr "doc") (AStr "/d GET").
(** Adding a role to beta's namespace changes what ann may do in acme. *)
Lemma c62_refuted : exists st st', ureachable st /\ known st "ann"
  /\ u_authorize id_oracle st "ann" q_eng = Ok false
  /\ ustep id_oracle st (UTAddRolesToNamespace 1 "eng" ["reader"]) = Ok (st', YUnit)
  /\ u_authorize id_oracle st' "ann" q_eng = Ok true.
Proof.
  exists (uops_state x_shared), (ufinal (ustep id_oracle (uops_state x_shared) (UTAddRolesToNamespace 1 "eng" ["reader"]))).
  split_and!; [reach_uops x_shared|is_known|vm_compute; reflexivity|uanswered|vm_compute; reflexivity].
Qed.
(** Giving a principal of beta a role there makes ann a reader in acme, through underscores. *)
Definition x_beta : list uop := x_base ++ [UNewTenant "beta"; UAddTenant 1; UTAddRole 1 [0]].
Lemma c62_underscore_refuted : exists st st', ureachable st /\ known st "bob"
  /\ u_authorize id_oracle st "bob" (q_get ANil ANil) = Ok false
  /\ ustep id_oracle st (UTAddPrincipal 1 "bob_reader_acme__" ["reader"]) = Ok (st', YUnit)
  /\ u_authorize id_oracle st' "bob" (q_get ANil ANil) = Ok true.
Proof.
  exists (uops_state x_beta), (ufinal (ustep id_oracle (uops_state x_beta) (UTAddPrincipal 1 "bob_reader_acme__" ["reader"]))).
  split_and!; [reach_uops x_beta|is_known|vm_compute; reflexivity|uanswered|vm_compute; reflexivity].
Qed.
(** An instance of the hypotheses of the positive statement, where the operation does change beta. *)
Definition q_beta : uopts := UOpts (AStr "beta") ANil ANil (AStr "doc") (AStr "/d GET").
Lemma tenant_at_by st t id : ut_id <$> u_tenants st !! t = Some id -> exists c, u_tenants st !! t = Some c /\ ut_id c = id.
Proof. destruct (u_tenants st !! t) as [c|]; simpl; [|done]. intros [= <-]. by exists c. Qed.
Lemma c62_ex : exists st st' c, ureachable st /\ u_tenants st !! 1 = Some c /\ ut_id c = "beta" /\ clean "beta"
  /\ clean_names (UTAddPrincipal 1 "bob" ["reader"])
  /\ (forall n l, ut_namespaces c !! n <> Some l)
  /\ ustep id_oracle st (UTAddPrincipal 1 "bob" ["reader"]) = Ok (st', YUnit)
  /\ u_authorize id_oracle st "bob" q_beta = Ok false /\ u_authorize id_oracle st' "bob" q_beta = Ok true
  /\ u_authorize id_oracle st "bob" (q_get ANil ANil) = Ok false /\ u_authorize id_oracle st' "bob" (q_get ANil ANil) = Ok false.
Proof.
  assert (H : ut_namespaces <$> u_tenants (uops_state x_beta) !! 1 = Some ∅) by (vm_compute; reflexivity).
  destruct (tenant_at_by (uops_state x_beta) 1 "beta") as (c & Hc & Hid); [vm_compute; reflexivity|].
  exists (uops_state x_beta), (ufinal (ustep id_oracle (uops_state x_beta) (UTAddPrincipal 1 "bob" ["reader"]))), c.
  split; [reach_uops x_beta|]. split; [exact Hc|]. split; [exact Hid|].
  split; [apply (bool_decide_unpack _); vm_compute; exact I|].
  split. { split; [apply (bool_decide_unpack _); vm_compute; exact I|]. intros r ->%elem_of_list_singleton. apply (bool_decide_unpack _); vm_compute; exact I. }
  split. { rewrite Hc in H. injection H as ->. intros n l. by rewrite lookup_empty. }
  split; [uanswered|]. split_and!; vm_compute; reflexivity.
Qed.

(** ** C56: the writers on one tenant with a default namespace *)
Definition x_default : list uop := x_base ++ [UTSetDefault 0 "eng"].
Lemma c56_ex : exists st st1 st2 st3,
  ureachable st
  /\ ustep id_oracle st (UTAddPrincipal 0 "bob" ["writer"; "nope"]) = Ok (st1, YUnit)
  /\ ustep id_oracle st1 (UTAssignScopes 0 "bob" ["s1"; "s9"]) = Ok (st2, YUnit)
  /\ ustep id_oracle st2 (UTAddScopesToNamespace 0 "eng" ["s2"; "s9"; "s1"]) = Ok (st3, YUnit)
  /\ (exists rows, get_principal_roles id_oracle st1 "acme" "bob" = Ok rows /\ length rows = 2)
  /\ (exists rows, get_principal_roles id_oracle st2 "acme" "bob" = Ok rows /\ length rows = 5)
  /\ (exists rows, get_principal_roles id_oracle st3 "acme" "" = Ok rows /\ length rows = 1).
Proof.
  set (st := uops_state x_default).
  set (st1 := ufinal (ustep id_oracle st (UTAddPrincipal 0 "bob" ["writer"; "nope"]))).
  set (st2 := ufinal (ustep id_oracle st1 (UTAssignScopes 0 "bob" ["s1"; "s9"]))).
  exists st, st1, st2, (ufinal (ustep id_oracle st2 (UTAddScopesToNamespace 0 "eng" ["s2"; "s9"; "s1"]))).
  assert (Hl : forall x n, length <$> rows_of x = Some n -> exists rows, x = Ok rows /\ length rows = n).
  { clear. intros [l| |] n; simpl; try done. intros [= <-]. by exists l. }
  split; [reach_uops x_default|]. split; [uanswered|]. split; [uanswered|]. split; [uanswered|].
  split_and!; apply Hl; vm_compute; reflexivity.
Qed.
