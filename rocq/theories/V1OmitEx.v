(** Witnesses for requests to package v1 that name less. *)
From Verif Require Import V1Ex.
From Verif Require Export V1OmitProofs.
Local Open Scope string_scope.

(** bob has a row in the namespace and scope, ann has one for the whole tenant. *)
Definition w132a : list uop := x_base ++ [UAddPrincipalRole "bob" "reader" 0 (Some 0) (Some "s1") []].
Lemma c132_row_refuted : exists st p t n s, ureachable st /\ known st p
  /\ u_authorize id_oracle st p (UOpts (AStr t) (AStr n) (AStr s) ANil ANil) = Ok true
  /\ u_authorize id_oracle st p (UOpts (AStr t) (AStr n) ANil ANil ANil) = Ok false
  /\ u_authorize id_oracle st p (UOpts (AStr t) ANil (AStr s) ANil ANil) = Ok false.
Proof.
  exists (uops_state w132a), "ann", "acme", "eng", "s1".
  split_and!; [reach_uops w132a|is_known|vm_compute; reflexivity..].
Qed.
(** boss has the descendant clerk, the tenant only knows boss, and the namespace has a scope. *)
Definition w132b : list uop :=
  [UNewTenant "acme"; UAddTenant 0; UNewNamespace "eng"; UTAddNamespace 0 [0];
   UNewRole "boss"; URoleAddPermission 0 "page" [Attr "/p" "PUT"]; UAddRole 0;
   UNewRole "clerk"; URoleAddPermission 1 "page" [Attr "/p" "GET"]; UAddRole 1;
   URoleAddDescendent 0 [1]; UTAddRole 0 [0]; UTAddScopes 0 ["s1"]; UTAddScopesToNamespace 0 "eng" ["s1"];
   UAddPrincipal "ann"; UTAddPrincipal 0 "ann" ["boss"]].
Definition q132 (n : any) (act : string) : uopts := UOpts (AStr "acme") n ANil (AStr "page") (AStr act).
Lemma c132_activity_refuted : exists st p q q', ureachable st /\ known st p /\ uo_group q <> ANil /\ names_less q q'
  /\ u_authorize id_oracle st p q = Ok true /\ u_authorize id_oracle st p q' = Ok false.
Proof.
  exists (uops_state w132b), "ann", (q132 (AStr "eng") "/p GET"), (q132 ANil "/p GET").
  split; [reach_uops w132b|]. split; [is_known|]. split; [discriminate|].
  split; [split_and!; auto|]. split; vm_compute; reflexivity.
Qed.
Lemma c132_somewhere_ex : exists st, ureachable st /\ known st "ann"
  /\ u_authorize id_oracle st "ann" (UOpts ANil (AStr "eng") (AStr "s1") ANil ANil) = Ok true.
Proof. exists (uops_state x_full). split_and!; [reach_uops x_full|is_known|vm_compute; reflexivity]. Qed.

(** A row in a tenant which was never registered. *)
Definition w132c : list uop := x_base ++ [UNewTenant "beta"; UAddPrincipalRole "ann" "reader" 1 (Some 0) None []].
Lemma c132_tenant_refuted : exists st p t n, ureachable st /\ known st p
  /\ u_authorize id_oracle st p (UOpts (AStr t) (AStr n) ANil ANil ANil) = Ok true
  /\ u_authorize id_oracle st p (UOpts (AStr t) ANil ANil ANil ANil) = Ok false.
Proof.
  exists (uops_state w132c), "ann", "beta", "eng". split_and!; [reach_uops w132c|is_known|vm_compute; reflexivity..].
Qed.
(** The hypotheses of the theorem on activities are met: the reader has no descendants. *)
Definition no_children (st : ustate) (a : trow) : bool :=
  match u_roles st !! tp_role a with
  | Some l => match role_children (u_heap st) l with Some m => match map_to_list m with [] => true | _ => false end | None => true end
  | None => true
  end.
Lemma no_children_flat o st p t rows : ureachable st -> get_principal_roles o st t p = Ok rows ->
  forallb (no_children st) rows = true -> flat st p t.
Proof.
  intros R H F a l d Ha Hl Hd. apply (member_by o st t p rows a R H) in Ha.
  rewrite forallb_forall in F. specialize (F a (proj1 (elem_of_list_In _ _) Ha)). unfold no_children in F. rewrite Hl in F.
  assert (exists x, role_edge (u_heap st) l x) as (x & m & k & Hm & Hk) by (inversion Hd; eauto).
  rewrite Hm in F. destruct (map_to_list m) eqn:E; [|done]. apply map_to_list_empty_iff in E as ->. by rewrite lookup_empty in Hk.
Qed.
Definition rows132 : list trow := match get_principal_roles id_oracle (uops_state x_base) "acme" "ann" with Ok rows => rows | _ => [] end.
Lemma c132_activity_ex : exists st p q q', ureachable st /\ known st p /\ uo_group q <> ANil /\ names_less q q' /\ q' <> q
  /\ flat st p (to_string (uo_tenant q))
  /\ u_authorize id_oracle st p q = Ok true /\ u_authorize id_oracle st p q' = Ok true.
Proof.
  exists (uops_state x_base), "ann", (q_get (AStr "eng") (AStr "s1")), (q_get ANil ANil).
  assert (R : ureachable (uops_state x_base)) by reach_uops x_base.
  split; [exact R|]. split; [is_known|]. split; [discriminate|]. split; [split_and!; auto|]. split; [discriminate|].
  split; [|split; vm_compute; reflexivity].
  apply (no_children_flat id_oracle _ _ _ rows132 R); vm_compute; reflexivity.
Qed.
