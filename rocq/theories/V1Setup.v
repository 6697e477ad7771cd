(** Effects of the tenant methods that set up namespaces. *)
From Verif Require Import V1Code V1Inv V1Write.
From Verif Require Export V1Spec.

(** The longest prefix of [xs] all of whose elements are in [X]. *)
Definition accepted (X : gset string) (xs pre : list string) : Prop :=
  exists post, xs = pre ++ post /\ (forall x, x ∈ pre -> x ∈ X) /\ (forall x, head post = Some x -> x ∉ X).
Lemma accepted_nil X : accepted X [] [].
Proof. exists []. split_and!; [done|by intros x ?%elem_of_nil|done]. Qed.
Lemma accepted_stop X x xs : x ∉ X -> accepted X (x :: xs) [].
Proof. intros H. exists (x :: xs). split_and!; [done|by intros y ?%elem_of_nil|]. by intros y [= <-]. Qed.
Lemma accepted_cons X x xs pre : x ∈ X -> accepted X xs pre -> accepted X (x :: xs) (x :: pre).
Proof.
  intros Hx (post & -> & Hp & Hh). exists post. split_and!; [done| |done].
  intros y [->|Hy]%elem_of_cons; [done|by apply Hp].
Qed.
Lemma accepted_fun X xs p1 p2 : accepted X xs p1 -> accepted X xs p2 -> p1 = p2.
Proof.
  revert p1 p2. induction xs as [|x xs IH]; intros p1 p2 (q1 & E1 & A1 & B1) (q2 & E2 & A2 & B2).
  - symmetry in E1, E2. apply app_nil in E1 as [-> _], E2 as [-> _]. done.
  - destruct p1 as [|y1 p1], p2 as [|y2 p2]; [done| | |].
    + injection E2 as <- E2. simpl in E1. subst q1. destruct (B1 x eq_refl). apply A2. by left.
    + injection E1 as <- E1. simpl in E2. subst q2. destruct (B2 x eq_refl). apply A1. by left.
    + injection E1 as <- E1. injection E2 as <- E2. f_equal. apply IH.
      * exists q1. split_and!; [done|intros y Hy; apply A1; by right|done].
      * exists q2. split_and!; [done|intros y Hy; apply A2; by right|done].
Qed.

(** [st'] is [st] with the namespace object [l] replaced by [m] and the assignments [X] added. *)
Definition ns_changed (st : ustate) (l : nat) (m : unamespace) (X : trow -> Prop) (st' : ustate) : Prop :=
  st' = uw_rows (u_set_ns st l m) (u_rows st')
  /\ forall s : string, s ∈ u_rows st' <-> s ∈ u_rows st \/ exists x, X x /\ s = row_string x.

Lemma set_ns_twice st l m m' : u_set_ns (u_set_ns st l m) l m' = u_set_ns st l m'.
Proof. unfold u_set_ns, uw_nss. simpl. by rewrite list_insert_insert. Qed.
Lemma set_ns_self st l m : u_nss st !! l = Some m -> u_set_ns st l m = st.
Proof. intros H. destruct st. unfold u_set_ns, uw_nss. simpl in *. by rewrite list_insert_id. Qed.
Lemma ns_unchanged st l m : u_nss st !! l = Some m -> ns_changed st l m (fun _ => False) st.
Proof.
  intros H. split; [by rewrite (set_ns_self _ _ _ H), uw_rows_self|]. intros s. split; [by left|]. by intros [?|(? & [] & _)].
Qed.
Lemma ns_changed_trans st l m X st1 m' Y st2 : ns_changed st l m X st1 -> ns_changed st1 l m' Y st2 ->
  ns_changed st l m' (fun x => X x \/ Y x) st2.
Proof.
  intros [E1 R1] [E2 R2]. split.
  - rewrite E2 at 1. rewrite E1 at 1. unfold u_set_ns, uw_nss, uw_rows. simpl. by rewrite list_insert_insert.
  - intros s. rewrite R2, R1. split.
    + intros [[?|(x & ? & ->)]|(x & ? & ->)]; [by left|right|right]; exists x; auto.
    + intros [?|(x & [?|?] & ->)]; [by left; left|left; right|right]; by exists x.
Qed.
Lemma ns_changed_ext st l m X Y st' : ns_changed st l m X st' -> (forall x, X x <-> Y x) -> ns_changed st l m Y st'.
Proof. intros [E R] H. split; [done|]. intros s. rewrite R. by setoid_rewrite H. Qed.
Lemma ns_changed_at st l m X st' m0 : u_nss st !! l = Some m0 -> ns_changed st l m X st' -> u_nss st' !! l = Some m.
Proof. intros H [-> _]. simpl. apply list_lookup_insert. by eapply lookup_lt_Some. Qed.
Lemma ns_changed_tenants st l m X st' : ns_changed st l m X st' -> u_tenants st' = u_tenants st.
Proof. by intros [-> _]. Qed.

Lemma add_scopes_to_namespace_ok st t c ns l m ss st' : u_tenants st !! t = Some c ->
  ut_namespaces c !! ns = Some l -> u_nss st !! l = Some m -> ut_add_scopes_to_namespace st t ns ss = Ok st' ->
  exists pre, accepted (ut_scopes c) ss pre
    /\ ns_changed st l (UNamespace (un_id m) (un_roles m) (list_to_set pre ∪ un_scopes m))
         (fun a => exists s, s ∈ pre /\ a = TRow "" "" (ut_id c) (un_id m) s true) st'.
Proof.
  intros Hc Hn Hm. unfold ut_add_scopes_to_namespace.
  revert st m Hc Hm. induction ss as [|s ss IH]; intros st m Hc Hm; cbn [u_while].
  - intros [= <-]. exists []. split; [apply accepted_nil|]. simpl. rewrite union_empty_l_L.
    destruct m as [i r sc]. eapply ns_changed_ext; [by apply ns_unchanged|]. intros x. split; [done|]. by intros (? & ?%elem_of_nil & _).
  - rewrite Hc. case_bool_decide as Hs.
    + rewrite Hn. intros H. rewrite !rbind_ok in H. destruct H as (r0 & Hr & H).
      rewrite rbind_ok in Hr. destruct Hr as (st1 & H1 & Hr). rewrite rbind_ok in Hr. destruct Hr as (st2 & H2 & [= <-]).
      unfold un_add_scope in H1. rewrite Hm in H1. injection H1 as <-.
      set (m1 := UNamespace (un_id m) (un_roles m) ({[s]} ∪ un_scopes m)) in *.
      assert (Hm1 : u_nss (u_set_ns st l m1) !! l = Some m1) by (apply list_lookup_insert; by eapply lookup_lt_Some).
      apply (adds_t_principal_role _ _ _ _ _ c _ (un_id m1)) in H2; [|done|by exists m1].
      assert (C : ns_changed st l m1 (fun a => a = TRow "" "" (ut_id c) (un_id m) s true) st2).
      { destruct H2 as [E2 R2]. split; [done|]. intros x. rewrite R2. done. }
      apply (IH st2 m1) in H; [|by rewrite (ns_changed_tenants _ _ _ _ _ C)|exact (ns_changed_at _ _ _ _ _ _ Hm C)].
      destruct H as (pre & Ha & H). exists (s :: pre). split; [by apply accepted_cons|].
      pose proof (ns_changed_trans _ _ _ _ _ _ _ _ C H) as H'. cbn [m1 un_id un_roles un_scopes] in H'.
      assert (E : list_to_set (s :: pre) ∪ un_scopes m = list_to_set pre ∪ ({[s]} ∪ un_scopes m)).
      { simpl. apply leibniz_equiv. set_solver. }
      rewrite E. eapply ns_changed_ext; [exact H'|]. intros x. split.
      * intros [->|(s' & ? & ->)]; [exists s; split; [by left|done]|exists s'; split; [by right|done]].
      * intros (s' & [->|?]%elem_of_cons & ->); [by left|right; by exists s'].
    + cbn [rbind]. intros [= <-]. exists []. split; [by apply accepted_stop|]. simpl. rewrite union_empty_l_L.
      destruct m as [i r sc]. eapply ns_changed_ext; [by apply ns_unchanged|]. intros x. split; [done|]. by intros (? & ?%elem_of_nil & _).
Qed.
Lemma add_roles_to_namespace_ok st t c ns l m rs st' : u_tenants st !! t = Some c ->
  ut_namespaces c !! ns = Some l -> u_nss st !! l = Some m -> ut_add_roles_to_namespace st t ns rs = Ok st' ->
  exists pre, accepted (ut_roles c) rs pre
    /\ st' = u_set_ns st l (UNamespace (un_id m) (list_to_set pre ∪ un_roles m) (un_scopes m)).
Proof.
  intros Hc Hn Hm. unfold ut_add_roles_to_namespace.
  revert st m Hc Hm. induction rs as [|s ss IH]; intros st m Hc Hm; cbn [u_while].
  - intros [= <-]. exists []. split; [apply accepted_nil|]. simpl. rewrite union_empty_l_L.
    destruct m as [i r sc]. by rewrite set_ns_self.
  - rewrite Hc. case_bool_decide as Hs.
    + rewrite Hn. intros H. rewrite !rbind_ok in H. destruct H as (r0 & Hr & H).
      rewrite rbind_ok in Hr. destruct Hr as (st1 & H1 & [= <-]).
      unfold un_add_role in H1. rewrite Hm in H1. injection H1 as <-.
      set (m1 := UNamespace (un_id m) ({[s]} ∪ un_roles m) (un_scopes m)) in *.
      assert (Hm1 : u_nss (u_set_ns st l m1) !! l = Some m1) by (apply list_lookup_insert; by eapply lookup_lt_Some).
      apply (IH _ m1) in H as (pre & Ha & ->); [|done|done]. exists (s :: pre). split; [by apply accepted_cons|].
      rewrite set_ns_twice. do 2 f_equal. apply leibniz_equiv. unfold m1. simpl. set_solver.
    + cbn [rbind]. intros [= <-]. exists []. split; [by apply accepted_stop|]. simpl. rewrite union_empty_l_L.
      destruct m as [i r sc]. by rewrite set_ns_self.
Qed.
(** Unknown namespaces are ignored. *)
Lemma unknown_namespace_ok st t c ns xs : u_tenants st !! t = Some c -> ut_namespaces c !! ns = None ->
  ut_add_scopes_to_namespace st t ns xs = Ok st /\ ut_add_roles_to_namespace st t ns xs = Ok st.
Proof.
  intros Hc Hn. unfold ut_add_scopes_to_namespace, ut_add_roles_to_namespace. split.
  - induction xs as [|x xs IH]; cbn [u_while]; [done|]. rewrite Hc, Hn. case_bool_decide; cbn [rbind]; done.
  - destruct xs as [|x xs]; cbn [u_while]; [done|]. rewrite Hc, Hn. by case_bool_decide.
Qed.
