(** Programs for C112 and C113. *)
From Verif Require V1CallsEx.
From Verif Require Import RoleCor NameProofs TenProofs RootCor3 NameEx RootCallsFresh RootCallsEx RootCallsRet NameSpec RootRetSpec.

(** ** Checks *)
Definition textual_b (v : any) : bool := match v with ANil | AStr _ => true | _ => false end.
Lemma textual_ok v : textual_b v = true -> textual v.
Proof. destruct v; try discriminate; intros _; [left; reflexivity|right; eexists; reflexivity]. Qed.
Definition rows_check (h : log) : bool := forallb (fun e => match e.1 with OAddData d => textual_b (tenant d) && textual_b (role d) | _ => true end) h.
Lemma rows_checked h : rows_check h = true -> rows_textual h.
Proof.
  intros F d Hd. apply elem_of_list_fmap in Hd as ([x y] & E & Hx). cbn [fst] in E. subst x. unfold rows_check in F. rewrite forallb_forall in F.
  specialize (F _ (proj1 (elem_of_list_In _ _) Hx)). cbn in F. apply andb_true_iff in F as [F1 F2]. split; apply textual_ok; assumption.
Qed.
Definition request_check (q : opts) : bool := forallb textual_b [o_tenant q; o_namespace q; o_scope q; o_group q; o_activity q].
Lemma request_checked q : request_check q = true -> request_textual q.
Proof.
  intros F. apply Forall_forall. intros v Hv. apply textual_ok. unfold request_check in F. rewrite forallb_forall in F. exact (F v (proj1 (elem_of_list_In _ _) Hv)).
Qed.
(** The links go up in some order. *)
Definition tenant_links (h : log) : list (nat * nat) := concat (map (fun e => match e.1 with OTenantAddDescendant t ds => map (fun d => (t, d)) ds | _ => [] end) h).
Definition role_links (h : log) : list (nat * nat) := concat (map (fun e => match e.1 with ORoleAddDescendant t ds => map (fun d => (t, d)) ds | _ => [] end) h).
Definition upward (f : nat -> nat) (l : list (nat * nat)) : bool := forallb (fun e => Nat.ltb (f e.1) (f e.2)) l.
Lemma first_called {A} (P : log -> op * out -> A -> Prop) h a : first_of P h a -> exists h' e, e ∈ h /\ P h' e a.
Proof.
  induction h as [|e h IH]; [intros []|]. cbn [first_of]. intros [H|[_ H]]; [|exists h, e; split; [left|exact H]].
  destruct (IH H) as (h' & e' & He & Hp). exists h', e'. split; [right; exact He|exact Hp].
Qed.
Lemma first_in_elem {A} (P : A -> Prop) l a : first_in P l a -> a ∈ l.
Proof. intros (l1 & l2 & -> & _). apply elem_of_app. right. left. Qed.
Lemma in_concat {A B} (g : A -> list B) (l : list A) x b : x ∈ l -> b ∈ g x -> b ∈ concat (map g l).
Proof. intros Hx Hb. apply elem_of_list_In, in_concat. exists (g x). split; [apply in_map, elem_of_list_In, Hx|apply elem_of_list_In, Hb]. Qed.
Lemma tenant_link_in h t d : sub_tenant h t d -> (t, d) ∈ tenant_links h.
Proof.
  intros (id & H). apply first_called in H as (h' & e & He & ds & E & F%first_in_elem). eapply in_concat; [exact He|]. cbv beta. rewrite E. apply elem_of_list_In, in_map, elem_of_list_In, F.
Qed.
Lemma role_link_in h t d : sub_role h t d -> (t, d) ∈ role_links h.
Proof.
  intros (id & H). apply first_called in H as (h' & e & He & ds & -> & F%first_in_elem). eapply in_concat; [exact He|]. cbv beta. cbn [fst]. apply elem_of_list_In, in_map, elem_of_list_In, F.
Qed.
Lemma up_lt f l : upward f l = true -> forall x y, (x, y) ∈ l -> f x < f y.
Proof. intros F x y H. unfold upward in F. rewrite forallb_forall in F. specialize (F _ (proj1 (elem_of_list_In _ _) H)). cbn in F. apply Nat.ltb_lt in F. exact F. Qed.
Lemma up_tc (R : nat -> nat -> Prop) f : (forall x y, R x y -> f x < f y) -> forall x y, tc R x y -> f x < f y.
Proof. intros H x y T. induction T as [x y E|x y z E _ IH]; [exact (H _ _ E)|]. specialize (H _ _ E). lia. Qed.
Lemma tenants_up f h : upward f (tenant_links h) = true -> forall l, ~ tenant_circle h l.
Proof.
  intros F l (m & _ & C). apply (up_tc _ f) in C; [lia|]. intros x y H. apply (up_lt _ _ F). apply tenant_link_in. exact H.
Qed.
Lemma roles_up f h : upward f (role_links h) = true -> forall l, ~ role_circle h l.
Proof.
  intros F l (m & _ & C). apply (up_tc _ f) in C; [lia|]. intros x y H. apply (up_lt _ _ F). apply role_link_in. exact H.
Qed.
Lemma no_circle f h p : upward f (tenant_links h) = true -> ~ manages_circle h p.
Proof. intros F (t & l & _ & _ & C). exact (tenants_up f h F l C). Qed.
(** The attributes handed over *)
Definition attrs_in (h : log) : list attr :=
  concat (map (fun e => match e.1 with OGroupAdd _ attrs | ORoleAddPermission _ _ attrs | OAddPermissionsToRole _ _ attrs => attrs | _ => [] end) h).
Lemma given_in h l g a : given h l g a -> a ∈ attrs_in h.
Proof.
  unfold given. induction h as [|e h IH]; [intros []|]. intros [(attrs & Ac & Ha)|H].
  - apply elem_of_app. left. destruct Ac as [->|(r & -> & _)]; exact Ha.
  - apply elem_of_app. right. exact (IH H).
Qed.
Lemma attr_in h l g a : role_attr h l g a -> a ∈ attrs_in h.
Proof.
  intros [[_ H]|(gl & _ & [(attrs & C & Ha)|(l' & g' & _ & H)])]; [exact (given_in _ _ _ _ H)| |exact (given_in _ _ _ _ H)].
  apply elem_of_list_fmap in C as ([x y] & E & Hx). cbn [fst] in E. subst x. eapply in_concat; [exact Hx|exact Ha].
Qed.
Definition ends (a : string) (x : attr) : bool := match match_resource a (attr_string x) with Hang => false | _ => true end.
Lemma ends_ok a x : ends a x = true -> ~ StrLoops (attr_string x) a.
Proof. intros E L. apply match_resource_hang in L. unfold ends in E. rewrite L in E. discriminate. Qed.
Lemma roles_decided f h q : upward f (role_links h) = true -> match o_activity q with AStr a => forallb (ends a) (attrs_in h) | _ => true end = true -> roles_decide h q.
Proof.
  intros U F g a r l _ Ha _. split; [exact (roles_up f h U l)|]. intros d x _ Hx. rewrite Ha in F. apply ends_ok. rewrite forallb_forall in F. apply F, elem_of_list_In. exact (attr_in _ _ _ _ Hx).
Qed.
Lemma not_decided q h : asked (o_activity q) = false -> roles_decide h q.
Proof. intros E g a r l _ Ha _. rewrite Ha in E. discriminate. Qed.

(** ** C112 *)
(** "a" is registered, "b" is not; then "a" has a default namespace too. *)
Definition w112_ops : list op := [ONewTenant "a"; ONewTenant "b"; OAddTenant 0; OAddNamespace "n"; OTenantAddNamespaces 0 ["n"]].
Definition w112_default : list op := w112_ops ++ [OTenantSetDefault 0 "n"].
Definition outcome {A} (x : res A) : string := match x with Ok _ => "returns" | Panic => "panics" | Hang => "hangs" end.
Lemma c112_ex : run id_oracle 0 init_state w112_ops = Ok (ops_state w112_ops, ops_outs w112_ops)
  /\ groups_made (log_of w112_ops (ops_outs w112_ops)) /\ pointers_made (log_of w112_ops (ops_outs w112_ops)) (OTenantAddDescendant 0 [1])
  /\ outcome (step id_oracle (ops_state w112_ops) (OTenantAddDescendant 0 [1])) = "returns" /\ outcome (step id_oracle (ops_state w112_default) (OTenantAddDescendant 0 [1])) = "panics"
  /\ too_early (log_of w112_default (ops_outs w112_default)) (OTenantAddDescendant 0 [1])
  /\ outcome (step id_oracle (ops_state w112_ops) (OTenantAddScopes 1 ["s"])) = "panics" /\ too_early (log_of w112_ops (ops_outs w112_ops)) (OTenantAddScopes 1 ["s"])
  /\ outcome (step id_oracle (ops_state w112_ops) (OTenantAddScopes 1 [])) = "returns".
Proof.
  assert (N : forall ops, forallb (fun x => match x with OAddTenant 1 => false | _ => true end) (log_of ops (ops_outs ops)).*1 = true -> ~ called (log_of ops (ops_outs ops)) (OAddTenant 1)).
  { intros ops F C. rewrite forallb_forall in F. discriminate (F _ (proj1 (elem_of_list_In _ _) C)). }
  split; [apply run_runs; computed|]. split; [apply groups_checked; computed|]. split.
  { split; [exists "a"|intros d ->%elem_of_list_singleton; exists "b"]; apply elem_of_list_In; vm_compute; tauto. }
  split; [computed|]. split; [computed|]. split.
  { exists "n", 1. split; [|split; [left|apply N; computed]]. assert (T : tells (log_of w112_default (ops_outs w112_default)) (ops_state w112_default)) by tells_now. apply (tl_def _ _ T). computed. }
  split; [computed|]. split; [split; [discriminate|apply N; computed]|computed].
Qed.

(** ** C113: what is not answered *)
(** A row whose tenant is a number; a request for a tenant that is a number *)
Definition w113a : list op := [OAddPrincipal "ann"; OAddData (Data (AInt 7) ANil ANil (AStr "ann") (AStr "clerk") ANil)].
Definition q113 : opts := Opts ANil ANil ANil ANil ANil.
Lemma c113_rows : exists o ops st outs p q, run o 0 init_state ops = Ok (st, outs) /\ groups_made (log_of ops outs)
  /\ request_textual q /\ ~ manages_circle (log_of ops outs) p /\ roles_decide (log_of ops outs) q /\ authorize o st p q = Panic.
Proof.
  exists id_oracle, w113a, (ops_state w113a), (ops_outs w113a), "ann", q113. split; [apply run_runs; computed|]. split; [apply groups_checked; computed|]. split; [apply request_checked; computed|].
  split; [apply (no_circle (fun n => n)); computed|]. split; [apply not_decided; reflexivity|computed].
Qed.
Definition w113b : list op := w111_start ++ [OTenantAddPrincipal 0 "ann" false ["clerk"]].
Lemma c113_request : exists o ops st outs p q, run o 0 init_state ops = Ok (st, outs) /\ groups_made (log_of ops outs)
  /\ rows_textual (log_of ops outs) /\ ~ manages_circle (log_of ops outs) p /\ roles_decide (log_of ops outs) q /\ authorize o st p q = Panic.
Proof.
  exists id_oracle, w113b, (ops_state w113b), (ops_outs w113b), "ann", (Opts (AInt 7) ANil ANil ANil ANil). split; [apply run_runs; computed|]. split; [apply groups_checked; computed|].
  split; [apply rows_checked; computed|]. split; [apply (no_circle (fun n => n)); computed|]. split; [apply not_decided; reflexivity|computed].
Qed.
(** Two tenants put below each other *)
Lemma c113_circle : exists o ops st outs p q, run o 0 init_state ops = Ok (st, outs) /\ groups_made (log_of ops outs)
  /\ rows_textual (log_of ops outs) /\ request_textual q /\ roles_decide (log_of ops outs) q /\ authorize o st p q = Hang.
Proof.
  exists id_oracle, w19b_ops, (ops_state w19b_ops), (ops_outs w19b_ops), "ann", (tenant_only "a"). split; [apply run_runs; computed|]. split; [apply groups_checked; computed|].
  split; [apply rows_checked; computed|]. split; [apply request_checked; computed|]. split; [apply not_decided; reflexivity|computed].
Qed.
(** Two roles put below each other; a permission on which the comparison does not end *)
Definition w113d (a : attr) : list op :=
  w111_start ++ [OTenantAddPrincipalInNamespace 0 "ann" "lab" "clerk"; ORoleAddPermission 0 "page" [a]].
Definition w113c : list op := w113d (Attr "/x" "GET") ++ [ONewRole "boss"; ORoleAddDescendant 0 [1]; ORoleAddDescendant 1 [0]].
Definition q_lab (a : string) : opts := Opts (AStr "hq") (AStr "lab") ANil (AStr "page") (AStr a).
Lemma c113_roles : exists o ops st outs p q, run o 0 init_state ops = Ok (st, outs) /\ groups_made (log_of ops outs)
  /\ rows_textual (log_of ops outs) /\ request_textual q /\ ~ manages_circle (log_of ops outs) p /\ authorize o st p q = Hang.
Proof.
  exists id_oracle, w113c, (ops_state w113c), (ops_outs w113c), "ann", (q_lab "/y GET"). split; [apply run_runs; computed|]. split; [apply groups_checked; computed|].
  split; [apply rows_checked; computed|]. split; [apply request_checked; computed|]. split; [apply (no_circle (fun n => n)); computed|computed].
Qed.
Definition w113s : list op := w113d (Attr "/x/*" "GET").
Lemma c113_star : exists o ops st outs p q, run o 0 init_state ops = Ok (st, outs) /\ groups_made (log_of ops outs)
  /\ rows_textual (log_of ops outs) /\ request_textual q /\ ~ manages_circle (log_of ops outs) p /\ (forall l, ~ role_circle (log_of ops outs) l) /\ authorize o st p q = Hang.
Proof.
  exists id_oracle, w113s, (ops_state w113s), (ops_outs w113s), "ann", (q_lab "/x/y GET"). split; [apply run_runs; computed|]. split; [apply groups_checked; computed|].
  split; [apply rows_checked; computed|]. split; [apply request_checked; computed|]. split; [apply (no_circle (fun n => n)); computed|]. split; [apply (roles_up (fun n => n)); computed|computed].
Qed.
(** The program of examples/main.go *)
Lemma c113_ex : run id_oracle 0 init_state w104_ops = Ok (ops_state w104_ops, ops_outs w104_ops) /\ groups_made (log_of w104_ops (ops_outs w104_ops))
  /\ rows_textual (log_of w104_ops (ops_outs w104_ops)) /\ ~ manages_circle (log_of w104_ops (ops_outs w104_ops)) "principalA"
  /\ Forall (fun pqb => request_textual pqb.1.2 /\ roles_decide (log_of w104_ops (ops_outs w104_ops)) pqb.1.2
       /\ exists st', authorize rev_oracle (ops_state w104_ops) pqb.1.1 pqb.1.2 = Ok (st', pqb.2)) w111_answers.
Proof.
  split; [exact w104_run|]. split; [exact w111_groups|]. split; [apply rows_checked; computed|]. split; [apply (no_circle (fun n => n)); computed|].
  apply (V1CallsEx.forall_by (fun pqb => request_check pqb.1.2 && (upward (fun n => 4 - n) (role_links (log_of w104_ops (ops_outs w104_ops)))
    && match o_activity pqb.1.2 with AStr a => forallb (ends a) (attrs_in (log_of w104_ops (ops_outs w104_ops))) | _ => true end)
    && answer_is (authorize rev_oracle (ops_state w104_ops) pqb.1.1 pqb.1.2) pqb.2)); [|computed].
  intros pqb H. apply andb_true_iff in H as [H H3]. apply andb_true_iff in H as [H1 H2]. apply andb_true_iff in H2 as [H2 H4].
  split; [apply request_checked; exact H1|]. split; [exact (roles_decided _ _ _ H2 H4)|]. apply answer_is_ok. exact H3.
Qed.
