(** Programs for C114 and C115. *)
From Verif Require Import RoleHas V1CallsRet V1CallsEx V1Ex V1RetSpec.

(** ** Checks *)
(** The links go up in some order. *)
Definition role_links (h : log) : list (nat * nat) := concat (map (fun e => match e.1 with URoleAddDescendent t ds => map (fun d => (t, d)) ds | _ => [] end) h).
Definition upward (f : nat -> nat) (l : list (nat * nat)) : bool := forallb (fun e => Nat.ltb (f e.1) (f e.2)) l.
Lemma first_called {A} (P : log -> uop * uout -> A -> Prop) h a : first_of P h a -> exists h' e, e ∈ h /\ P h' e a.
Proof.
  induction h as [|e h IH]; [intros []|]. cbn [first_of]. intros [H|[_ H]]; [|exists h, e; split; [left|exact H]].
  destruct (IH H) as (h' & e' & He & Hp). exists h', e'. split; [right; exact He|exact Hp].
Qed.
Lemma first_in_elem {A} (P : A -> Prop) l a : first_in P l a -> a ∈ l.
Proof. intros (l1 & l2 & -> & _). apply elem_of_app. right. left. Qed.
Lemma in_concat {A B} (g : A -> list B) (l : list A) x b : x ∈ l -> b ∈ g x -> b ∈ concat (map g l).
Proof. intros Hx Hb. apply elem_of_list_In, in_concat. exists (g x). split; [apply in_map, elem_of_list_In, Hx|apply elem_of_list_In, Hb]. Qed.
Lemma role_link_in h t d : sub_role h t d -> (t, d) ∈ role_links h.
Proof.
  intros (id & H). apply first_called in H as (h' & e & He & ds & -> & F%first_in_elem). eapply in_concat; [exact He|]. cbv beta. cbn [fst]. apply elem_of_list_In, in_map, elem_of_list_In, F.
Qed.
Lemma up_lt f l : upward f l = true -> forall x y, (x, y) ∈ l -> f x < f y.
Proof. intros F x y H. unfold upward in F. rewrite forallb_forall in F. specialize (F _ (proj1 (elem_of_list_In _ _) H)). cbn in F. apply Nat.ltb_lt in F. exact F. Qed.
Lemma up_tc (R : nat -> nat -> Prop) f : (forall x y, R x y -> f x < f y) -> forall x y, tc R x y -> f x < f y.
Proof. intros H x y T. induction T as [x y E|x y z E _ IH]; [exact (H _ _ E)|]. specialize (H _ _ E). lia. Qed.
Lemma roles_up f h : upward f (role_links h) = true -> forall l, ~ role_circle h l.
Proof.
  intros F l (m & _ & C). apply (up_tc _ f) in C; [lia|]. intros x y H. apply (up_lt _ _ F). apply role_link_in. exact H.
Qed.
(** The attributes handed over *)
Definition attrs_in (h : log) : list attr :=
  concat (map (fun e => match e.1 with UGroupAdd _ attrs | URoleAddPermission _ _ attrs | UAddPermissionsToRole _ _ attrs => attrs | _ => [] end) h).
Lemma given_in h l g a : given h l g a -> a ∈ attrs_in h.
Proof.
  unfold given. induction h as [|e h IH]; [intros []|]. intros [(attrs & Ac & Ha)|H].
  - apply elem_of_app. left. destruct Ac as [->|(r & -> & _)]; exact Ha.
  - apply elem_of_app. right. exact (IH H).
Qed.
Lemma attr_in h l g a : role_attr h l g a -> a ∈ attrs_in h.
Proof.
  intros [[_ H]|(gl & _ & [(attrs & C & Ha)|(l' & g' & _ & H)])]; [exact (given_in _ _ _ _ H)| |exact (given_in _ _ _ _ H)].
  apply elem_of_list_fmap in C as ([x y] & E & Hx). cbn [fst] in E. subst x. eapply in_concat; [exact Hx|exact Ha].
Qed.
Definition ends (a : string) (x : attr) : bool := match match_resource a (attr_string x) with Hang => false | _ => true end.
Lemma ends_ok a x : ends a x = true -> ~ StrLoops (attr_string x) a.
Proof. intros E L. apply match_resource_hang in L. unfold ends in E. rewrite L in E. discriminate. Qed.
Definition ends_check (f : nat -> nat) (h : log) (q : uopts) : bool := upward f (role_links h) && forallb (ends (to_string (uo_activity q))) (attrs_in h).
Lemma roles_decided f h p q : ends_check f h q = true -> roles_decide h p q.
Proof.
  unfold ends_check. rewrite andb_true_iff. intros [U F].
  assert (L : forall r g, looked_up h r g (to_string (uo_activity q))).
  { intros r g l _. split; [exact (roles_up f h U l)|]. intros (d & x & _ & Hx & Lo). revert Lo. apply ends_ok. rewrite forallb_forall in F. apply F, elem_of_list_In. exact (attr_in _ _ _ _ Hx). }
  unfold roles_decide. destruct (asked (uo_tenant q)), (asked (uo_namespace q)), (asked (uo_scope q)), (asked (uo_group q)), (asked (uo_activity q)); try exact I; intros; apply L.
Qed.
Lemma not_lost h p q : asked (uo_tenant q) || asked (uo_namespace q) || asked (uo_scope q) || asked (uo_group q) || negb (asked (uo_activity q)) = true -> ~ lost h p q.
Proof. destruct q as [t n s g a]. cbn. intros H (_ & E & N & _). injection E as -> -> -> ->. cbn in H. destruct a; [destruct (N eq_refl)|discriminate..]. Qed.

(** ** C114 *)
(** A tenant that is never registered, with a namespace, a role and a scope *)
Definition w114_ops : list uop := [UNewTenant "a"; UNewNamespace "n"; UTAddNamespace 0 [0]; UNewRole "r"; UTAddRole 0 [0]; UTAddScopes 0 ["s"]].
Definition w114_calls : list uop :=
  [UTAddPrincipal 0 "ann" ["r"]; UTAddPrincipal 0 "ann" ["x"]; UTAddPrincipalInNamespace 0 "ann" "n" []; UTAddPrincipalInNamespace 0 "ann" "m" [];
   UTAddScopesToNamespace 0 "n" ["s"]; UTAddScopesToNamespace 0 "n" ["x"; "s"]; UTAssignScopes 0 "ann" []; UTAssignScopesWithRole 0 "ann" "r" []; UTSetDefault 0 "n";
   UAddPrincipalRole "ann" "r" 0 (Some 0) None []; UAddTenant 0].
Definition outcome {A} (x : res A) : string := match x with Ok _ => "returns" | Panic => "panics" | Hang => "hangs" end.
Lemma c114_ex : urun id_oracle 0 u_init w114_ops = Ok (uops_state w114_ops, uops_outs w114_ops)
  /\ Forall (pointers_made (log_of w114_ops (uops_outs w114_ops))) w114_calls /\ Forall set_up w114_calls
  /\ map (fun x => outcome (ustep id_oracle (uops_state w114_ops) x)) w114_calls
     = ["panics"; "returns"; "panics"; "returns"; "panics"; "returns"; "panics"; "returns"; "returns"; "returns"; "returns"]
  /\ too_early (log_of w114_ops (uops_outs w114_ops)) (UTAssignScopes 0 "ann" []) /\ ~ too_early (log_of w114_ops (uops_outs w114_ops)) (UTSetDefault 0 "n").
Proof.
  assert (T : exists id, tenant_named (log_of w114_ops (uops_outs w114_ops)) 0 id) by (exists "a"; apply elem_of_list_In; vm_compute; tauto).
  assert (N : exists id, namespace_named (log_of w114_ops (uops_outs w114_ops)) 0 id) by (exists "n"; apply elem_of_list_In; vm_compute; tauto).
  split; [apply urun_uruns; vm_compute; reflexivity|]. split; [|split; [|split; [|split]]].
  - repeat apply Forall_cons_2; try apply Forall_nil_2; try exact T. split; [exact T|]. intros l [= <-]. exact N.
  - repeat apply Forall_cons_2; try apply Forall_nil_2; exact I.
  - vm_compute. reflexivity.
  - intros C. clear T N. assert (F : forallb (fun x => match x with UAddTenant 0 => false | _ => true end) (log_of w114_ops (uops_outs w114_ops)).*1 = true) by (vm_compute; reflexivity).
    rewrite forallb_forall in F. discriminate (F _ (proj1 (elem_of_list_In _ _) C)).
  - intros [].
Qed.

(** ** C115: what is not answered *)
Definition w115 (a : attr) : list uop :=
  [UNewRole "clerk"; UAddRole 0; URoleAddPermission 0 "page" [a]; UNewTenant "hq"; UAddTenant 0; UTAddRole 0 [0]; UAddPrincipal "ann"; UTAddPrincipal 0 "ann" ["clerk"]].
Definition w115_circle : list uop := w115 (Attr "/x" "GET") ++ [UNewRole "boss"; URoleAddPermission 1 "page" []; URoleAddDescendent 0 [1]; URoleAddDescendent 1 [0]].
Definition w115_star : list uop := w115 (Attr "/x/*" "GET").
Definition w115_lost : list uop := w115 (Attr "/x" "GET") ++ [UNewTenant "annex"; UAddPrincipalRole "ann" "clerk" 1 None None []].
Definition u_hangs {A} (x : res A) : bool := match x with Hang => true | _ => false end.
Lemma u_hangs_ok {A} (x : res A) : u_hangs x = true -> x = Hang.
Proof. destruct x; cbn; congruence. Qed.
Lemma c115_circle : exists o ops st outs p q, urun o 0 u_init ops = Ok (st, outs) /\ Forall plain_names ops /\ groups_made (log_of ops outs)
  /\ ~ lost (log_of ops outs) p q /\ u_authorize o st p q = Hang.
Proof.
  exists id_oracle, w115_circle, (uops_state w115_circle), (uops_outs w115_circle), "ann", (q_act "hq" "page" "/y GET"). split; [apply urun_uruns; vm_compute; reflexivity|].
  split; [apply plain_checked; vm_compute; reflexivity|]. split; [apply groups_checked; vm_compute; reflexivity|]. split; [apply not_lost; reflexivity|apply u_hangs_ok; vm_compute; reflexivity].
Qed.
Lemma c115_star : exists o ops st outs p q, urun o 0 u_init ops = Ok (st, outs) /\ Forall plain_names ops /\ groups_made (log_of ops outs)
  /\ ~ lost (log_of ops outs) p q /\ (forall l, ~ role_circle (log_of ops outs) l) /\ u_authorize o st p q = Hang.
Proof.
  exists id_oracle, w115_star, (uops_state w115_star), (uops_outs w115_star), "ann", (q_act "hq" "page" "/x/y GET"). split; [apply urun_uruns; vm_compute; reflexivity|].
  split; [apply plain_checked; vm_compute; reflexivity|]. split; [apply groups_checked; vm_compute; reflexivity|]. split; [apply not_lost; reflexivity|].
  split; [apply (roles_up (fun n => n)); vm_compute; reflexivity|apply u_hangs_ok; vm_compute; reflexivity].
Qed.
Lemma c115_lost : exists o ops st outs p q, urun o 0 u_init ops = Ok (st, outs) /\ Forall plain_names ops /\ groups_made (log_of ops outs)
  /\ roles_decide (log_of ops outs) p q /\ u_authorize o st p q = Panic.
Proof.
  exists id_oracle, w115_lost, (uops_state w115_lost), (uops_outs w115_lost), "ann", (q_only "/y GET"). split; [apply urun_uruns; vm_compute; reflexivity|].
  split; [apply plain_checked; vm_compute; reflexivity|]. split; [apply groups_checked; vm_compute; reflexivity|].
  split; [apply (roles_decided (fun n => n)); vm_compute; reflexivity|apply u_panics_ok; vm_compute; reflexivity].
Qed.
(** The requests of C109 *)
Lemma c115_ex : urun id_oracle 0 u_init w109_ops = Ok (uops_state w109_ops, uops_outs w109_ops) /\ Forall plain_names w109_ops
  /\ groups_made (log_of w109_ops (uops_outs w109_ops))
  /\ Forall (fun pqb => roles_decide (log_of w109_ops (uops_outs w109_ops)) pqb.1.1 pqb.1.2 /\ ~ lost (log_of w109_ops (uops_outs w109_ops)) pqb.1.1 pqb.1.2
       /\ u_authorize rev_oracle (uops_state w109_ops) pqb.1.1 pqb.1.2 = Ok pqb.2) w109_requests.
Proof.
  destruct c109_ex as (A & B & C & D & _). split; [exact A|]. split; [exact B|]. split; [exact C|]. rewrite Forall_forall in D. apply Forall_forall. intros pqb Hq. specialize (D _ Hq). split; [|split].
  - clear A B C D. revert pqb Hq. apply Forall_forall. apply (forall_by (fun pqb => ends_check (fun n => 4 - n) (log_of w109_ops (uops_outs w109_ops)) pqb.1.2)); [|vm_compute; reflexivity].
    intros pqb. apply roles_decided.
  - intros L. apply (lost_by_calls _ _ _ _ rev_oracle _ _ A B C) in L. rewrite D in L. discriminate L.
  - exact D.
Qed.
(** Roles in a circle: a request that finds a match, one that searches on, and one about a group for which the role keeps nothing *)
Definition answer (x : res bool) : string := match x with Ok true => "yes" | Ok false => "no" | Panic => "panics" | Hang => "hangs" end.
Definition w115_asked : list uopts := [q_act "hq" "page" "/x GET"; q_act "hq" "page" "/y GET"; q_act "hq" "form" "/y GET"; q_act "annex" "page" "/y GET"].
Lemma c115_circle_ex : urun id_oracle 0 u_init w115_circle = Ok (uops_state w115_circle, uops_outs w115_circle) /\ Forall plain_names w115_circle
  /\ groups_made (log_of w115_circle (uops_outs w115_circle))
  /\ map (fun q => answer (u_authorize rev_oracle (uops_state w115_circle) "ann" q)) w115_asked = ["yes"; "hangs"; "no"; "no"].
Proof.
  split; [apply urun_uruns; vm_compute; reflexivity|]. split; [apply plain_checked; vm_compute; reflexivity|]. split; [apply groups_checked; vm_compute; reflexivity|]. vm_compute. reflexivity.
Qed.
