(** Calls that ask and assign on one v1 manager at the same time: an assignment that returned is there; who can crash. *)
From Verif Require Import RoleProofs V1Auth.
From Verif Require Export V1RowsAns.

(** ** Assignments that returned are there *)
(** Whenever the program returns, having started with the rows [v] there, it has found or put [h]. *)
Fixpoint puts {A} (v : gset string) (h : string) (c : jcode A) : Prop :=
  match c with
  | JRet r => forall a, r <> Ok a
  | JScan k => forall s, v ⊆ s -> puts v h (k s)
  | JNext m _ k => v ⊆ m /\ forall s, m ⊆ s -> puts v h (k s)
  | JPut h' k | JBegin h' k | JEnd h' k => h' = h \/ puts v h k
  end.
Lemma puts_step st0 v w pick c v' w' c' h : st0 ⊆ v -> puts st0 h c -> jcode_step v w pick c = Some (inr (v', w', c')) -> h ∈ v' \/ puts st0 h c'.
Proof.
  intros Hv HP E. destruct c as [r|k|m s k|h' k|h' k|h' k]; cbn [jcode_step puts] in *.
  - discriminate E.
  - injection E as <- <- <-. right. destruct (decide (v = ∅)) as [->|N]; [rewrite bool_decide_eq_true_2 by reflexivity; exact (HP ∅ Hv)|rewrite bool_decide_eq_false_2 by exact N]. split; [exact Hv|]. intros s Hs. apply HP. set_solver.
  - destruct w; [discriminate E|]. destruct pick as [h'|].
    + destruct (_ && _); [|discriminate E]. injection E as <- <- <-. right. exact HP.
    + destruct (decide (m ⊆ s)) as [Hm|Hm]; [rewrite bool_decide_eq_true_2 in E by exact Hm|rewrite bool_decide_eq_false_2 in E by exact Hm; discriminate E]. injection E as <- <- <-. right. exact (proj2 HP s Hm).
  - destruct (_ && _); [discriminate E|]. injection E as <- <- <-. destruct (decide (h' ∈ v)) as [Hh|Hh]; [rewrite bool_decide_eq_true_2 by exact Hh|rewrite bool_decide_eq_false_2 by exact Hh; right; exact HP]. destruct HP as [->|HP]; [left; exact Hh|right; exact HP].
  - destruct w; [discriminate E|]. injection E as <- <- <-. right. exact HP.
  - injection E as <- <- <-. destruct HP as [->|HP]; [left; set_solver|right; exact HP].
Qed.
Lemma puts_there st cs M i c out h : j_met st cs M -> cs !! i = Some c -> puts (u_rows st) h (j_code st c) -> j_returned M i (Ok out) -> h ∈ j_rows M.
Proof.
  intros HM Hc HP Hr.
  assert (H : u_rows st ⊆ j_rows M /\ (cs !! i = Some c -> h ∈ j_rows M \/ puts (u_rows st) h (JRet (Ok out)))).
  { refine (thread_pres (fun v j x => u_rows st ⊆ v /\ (cs !! j = Some c -> h ∈ v \/ puts (u_rows st) h x)) st cs M i (JRet (Ok out)) _ _ _ HM Hr).
    - intros v v' j x Hv [H1 H2]. split; [set_solver|]. intros Hj. destruct (H2 Hj) as [Hh|Hh]; [left; exact (Hv h Hh)|right; exact Hh].
    - intros v w pick j x v' w' x' E [H1 H2]. pose proof (rows_grow _ _ _ _ _ _ _ E) as G. split; [set_solver|]. intros Hj. destruct (H2 Hj) as [Hh|Hh]; [left; exact (G h Hh)|exact (puts_step _ _ _ _ _ _ _ _ _ H1 Hh E)].
    - intros j d Hd. split; [reflexivity|]. intros Hj. rewrite Hd in Hj. injection Hj as <-. right. exact HP. }
  destruct (proj2 H Hc) as [Hh|Hh]; [exact Hh|]. destruct (Hh out eq_refl).
Qed.
(** Programs that only put *)
Fixpoint straight {A} (c : jcode A) : Prop :=
  match c with JRet _ => True | JPut _ k => straight k | _ => False end.
Lemma straight_exec {A} v0 (c : jcode A) h : straight c -> forall v w a, jexec v c = Ok (w, a) -> h ∈ w -> h ∈ v \/ puts v0 h c.
Proof.
  induction c as [r|k IH|m s k IH|h' k IH|h' k IH|h' k IH]; cbn [straight jexec puts]; intros S; try exact (False_ind _ S).
  - intros v w a E Hh. destruct r as [x| |]; [|discriminate E..]. injection E as <- <-. left. exact Hh.
  - intros v w a E Hh. destruct (IH S _ _ _ E Hh) as [H|H]; [|right; right; exact H]. apply elem_of_union in H as [H|H]; [|left; exact H]. apply elem_of_singleton in H as ->. right. left. reflexivity.
Qed.
Lemma puts_bind_l {A B} v0 h (c : jcode A) (f : A -> jcode B) : puts v0 h c -> puts v0 h (jbind c f).
Proof.
  induction c as [r|k IH|m s k IH|h' k IH|h' k IH|h' k IH]; cbn [puts jbind].
  - intros H. destruct r as [a| |]; [destruct (H a eq_refl)|cbn [puts]; discriminate..].
  - intros H s Hs. exact (IH s (H s Hs)).
  - intros [H1 H2]. split; [exact H1|]. intros s' Hs. exact (IH s' (H2 s' Hs)).
  - intros [H|H]; [left; exact H|right; exact (IH H)].
  - intros [H|H]; [left; exact H|right; exact (IH H)].
  - intros [H|H]; [left; exact H|right; exact (IH H)].
Qed.
Lemma puts_bind_r {A B} v0 h (c : jcode A) (f : A -> jcode B) : straight c -> (forall a, puts v0 h (f a)) -> puts v0 h (jbind c f).
Proof.
  intros S H. induction c as [r|k IH|m s k IH|h' k IH|h' k IH|h' k IH]; cbn [straight puts jbind] in *; try exact (False_ind _ S).
  - destruct r as [a| |]; [apply H|cbn [puts]; discriminate..].
  - right. exact (IH S).
Qed.
Lemma straight_bind {A B} (c : jcode A) (f : A -> jcode B) : straight c -> (forall a, straight (f a)) -> straight (jbind c f).
Proof. intros S H. induction c as [r|k IH|m s k IH|h' k IH|h' k IH|h' k IH]; cbn [straight jbind] in *; try exact (False_ind _ S); [destruct r; [apply H|exact I..]|exact (IH S)]. Qed.
Lemma straight_each {A} (f : A -> jcode unit) xs : (forall x, straight (f x)) -> straight (j_each f xs).
Proof. intros H. induction xs as [|x xs IH]; [exact I|]. cbn [j_each]. apply straight_bind; [apply H|intros _; exact IH]. Qed.
Lemma puts_each {A} v0 h (f : A -> jcode unit) xs x : (forall x, straight (f x)) -> x ∈ xs -> puts v0 h (f x) -> puts v0 h (j_each f xs).
Proof.
  intros S Hx H. induction xs as [|y xs IH]; [destruct (not_elem_of_nil _ Hx)|]. cbn [j_each]. apply elem_of_cons in Hx as [->|Hx]; [apply puts_bind_l, H|apply puts_bind_r; [apply S|intros _; exact (IH Hx)]].
Qed.
(** What a loop adds, one of its rounds adds. *)
Lemma each_exec {A} v0 (f : A -> jcode unit) xs h : (forall x, straight (f x)) -> forall v w a, jexec v (j_each f xs) = Ok (w, a) -> h ∈ w -> h ∈ v \/ exists x, x ∈ xs /\ puts v0 h (f x).
Proof.
  intros S. induction xs as [|x xs IH]; intros v w a E Hh; cbn [j_each] in E.
  - injection E as <- <-. left. exact Hh.
  - rewrite jexec_bind in E. destruct (jexec v (f x)) as [[w1 b]| |] eqn:E1; [|discriminate E..]. cbn [rbind fst snd] in E. destruct (IH w1 w a E Hh) as [H|(y & Hy & H)]; [|right; exists y; split; [right; exact Hy|exact H]]. destruct (straight_exec v0 (f x) h (S x) v w1 b E1 H) as [H'|H']; [left; exact H'|right]. exists x. split; [left|exact H'].
Qed.
Lemma puts_bind_inv {A B} v0 h (c : jcode A) (d : jcode B) : straight c -> puts v0 h (jbind c (fun _ => d)) -> puts v0 h c \/ puts v0 h d.
Proof.
  intros S. induction c as [r|k IH|m s k IH|h' k IH|h' k IH|h' k IH]; cbn [straight puts jbind] in *; try exact (False_ind _ S).
  - destruct r as [a| |]; [intros H; right; exact H|intros _; left; discriminate..].
  - intros [H|H]; [left; left; exact H|]. destruct (IH S H) as [H'|H']; [left; right; exact H'|right; exact H'].
Qed.
Lemma puts_each_inv {A} v0 h (f : A -> jcode unit) xs : (forall x, straight (f x)) -> puts v0 h (j_each f xs) -> exists x, x ∈ xs /\ puts v0 h (f x).
Proof.
  intros S. induction xs as [|x xs IH]; cbn [j_each]; intros H; [destruct (H tt eq_refl)|]. apply puts_bind_inv in H as [H|H]; [exists x; split; [left|exact H]| |apply S]. destruct (IH H) as (y & Hy & H'). exists y. split; [right; exact Hy|exact H'].
Qed.
Section assigning.
  Variable st : ustate.
  Lemma straight_add p r t ns s m : straight (j_add_role st p r t ns s m).
  Proof. unfold j_add_role. destruct (u_tenants st !! t) as [c|]; [|exact I]. destruct ns as [l|]; [destruct (u_nss st !! l)|]; exact I. Qed.
  Lemma straight_tadd c p r t ns s : straight (j_tenant_add st c p r t ns s).
  Proof. unfold j_tenant_add. destruct (ut_managed c); [apply straight_add|exact I]. Qed.
  Lemma straight_both c p r t s : straight (j_add_both st c p r t s).
  Proof. unfold j_add_both. apply straight_bind; [apply straight_tadd|]. intros _. destruct (ut_default c); [apply straight_tadd|exact I]. Qed.
  (** The lists grow with the rows. *)
  Lemma parse_in hs rs a : parse_rows hs = Ok rs -> a ∈ rs <-> exists h, h ∈ hs /\ row_parse h = Ok a.
  Proof.
    revert rs. induction hs as [|h hs IH]; intros rs E; cbn [parse_rows] in E.
    - injection E as <-. split; [intros N; destruct (not_elem_of_nil _ N)|intros (h & N & _); destruct (not_elem_of_nil _ N)].
    - destruct (row_parse h) as [b| |] eqn:Eb; [|discriminate E..]. cbn [rbind] in E. destruct (parse_rows hs) as [bs| |]; [|discriminate E..]. injection E as <-. rewrite elem_of_cons, (IH bs eq_refl). split.
      + intros [->|(x & Hx & Ex)]; [exists h; split; [left|exact Eb]|exists x; split; [right; exact Hx|exact Ex]].
      + intros (x & Hx & Ex). apply elem_of_cons in Hx as [->|Hx]; [left; rewrite Eb in Ex; injection Ex as ->; reflexivity|right; exists x; split; [exact Hx|exact Ex]].
  Qed.
  Lemma read_in o v rs a : read_rows o (uw_rows st v) = Ok rs -> a ∈ rs <-> exists h, h ∈ v /\ row_parse h = Ok a.
  Proof. intros E. unfold read_rows in E. rewrite (parse_in _ _ a E). cbn [u_rows uw_rows]. setoid_rewrite ordered_elements. reflexivity. Qed.
  Lemma roles_more o v s t p rs rs' a : v ⊆ s -> get_principal_roles o (uw_rows st v) t p = Ok rs -> get_principal_roles o (uw_rows st s) t p = Ok rs' -> a ∈ rs -> a ∈ rs'.
  Proof.
    unfold get_principal_roles. intros Hs E E' Ha. destruct (read_rows o (uw_rows st v)) as [xs| |] eqn:E1; [|discriminate E..]. destruct (read_rows o (uw_rows st s)) as [ys| |] eqn:E2; [|discriminate E'..]. injection E as <-. injection E' as <-.
    apply elem_of_list_filter in Ha as [Hp Ha]. apply elem_of_list_filter. split; [exact Hp|]. apply (read_in _ _ _ _ E2). apply (read_in _ _ _ _ E1) in Ha as (h & Hh & Ep). exists h. split; [exact (Hs h Hh)|exact Ep].
  Qed.
  Lemma tenant_roles_more o v s t rs rs' a : v ⊆ s -> get_tenant_roles o (uw_rows st v) t = Ok rs -> get_tenant_roles o (uw_rows st s) t = Ok rs' -> a ∈ rs -> a ∈ rs'.
  Proof.
    unfold get_tenant_roles. intros Hs E E' Ha. destruct (read_rows o (uw_rows st v)) as [xs| |] eqn:E1; [|discriminate E..]. destruct (read_rows o (uw_rows st s)) as [ys| |] eqn:E2; [|discriminate E'..]. injection E as <-. injection E' as <-.
    apply elem_of_list_filter in Ha as [Hp Ha]. apply elem_of_list_filter. split; [exact Hp|]. apply (read_in _ _ _ _ E2). apply (read_in _ _ _ _ E1) in Ha as (h & Hh & Ep). exists h. split; [exact (Hs h Hh)|exact Ep].
  Qed.
  Definition delivers {A} (c : jcode A) : Prop := forall v w a h, jexec v c = Ok (w, a) -> h ∈ w -> h ∈ v \/ puts v h c.
  Lemma delivers_straight {A} (c : jcode A) : straight c -> delivers c.
  Proof. intros S v w a h E Hh. exact (straight_exec v c h S v w a E Hh). Qed.
  Lemma delivers_map {A} (f : A -> jout) (c : jcode A) : delivers c -> delivers (j_map f c).
  Proof.
    intros H v w a h E Hh. unfold j_map in E. rewrite jexec_bind in E. destruct (jexec v c) as [[w1 b]| |] eqn:E1; [|discriminate E..]. injection E as <- <-. destruct (H v w1 b h E1 Hh) as [H'|H']; [left; exact H'|right]. apply puts_bind_l, H'.
  Qed.
  Lemma straight_scope_round c p t (prs : list trow) s : straight (if bool_decide (s ∈ ut_scopes c) then jbind (j_each (fun a => j_add_both st c p (tp_role a) t (Some s)) prs) (fun _ => j_tenant_add st c p "" t None (Some s)) else JRet (Ok tt)).
  Proof. destruct (bool_decide _); [|exact I]. apply straight_bind; [apply straight_each; intros a; apply straight_both|intros _; apply straight_tadd]. Qed.
  Lemma straight_role_round c p r t s : straight (if bool_decide (s ∈ ut_scopes c) then j_add_both st c p r t (Some s) else JRet (Ok tt)).
  Proof. destruct (bool_decide _); [apply straight_both|exact I]. Qed.
  Lemma scope_round_more c p t prs prs' s h v0 : (forall a, a ∈ prs -> a ∈ prs') ->
    puts v0 h (if bool_decide (s ∈ ut_scopes c) then jbind (j_each (fun a => j_add_both st c p (tp_role a) t (Some s)) prs) (fun _ => j_tenant_add st c p "" t None (Some s)) else JRet (Ok tt)) ->
    puts v0 h (if bool_decide (s ∈ ut_scopes c) then jbind (j_each (fun a => j_add_both st c p (tp_role a) t (Some s)) prs') (fun _ => j_tenant_add st c p "" t None (Some s)) else JRet (Ok tt)).
  Proof.
    intros Hin H. destruct (bool_decide (s ∈ ut_scopes c)); [|exact H].
    assert (K : forall l, straight (j_each (fun a => j_add_both st c p (tp_role a) t (Some s)) l)) by (intros l; apply straight_each; intros a; apply straight_both).
    apply puts_bind_inv in H as [H|H]; [|apply puts_bind_r; [apply K|intros _; exact H]|apply K]. apply puts_each_inv in H as (a & Ha & H); [|intros x; apply straight_both]. apply puts_bind_l. apply (puts_each _ _ _ _ a); [intros x; apply straight_both|exact (Hin a Ha)|exact H].
  Qed.
  Lemma delivers_in_namespace o t p ns rs : delivers (j_add_in_namespace st o t p ns rs).
  Proof.
    unfold j_add_in_namespace. destruct (u_tenants st !! t) as [c|]; [|apply delivers_straight; exact I]. destruct (ut_namespaces c !! ns) as [l|]; [|apply delivers_straight; exact I]. destruct rs as [|r0 rs].
    - destruct (ut_managed c); [|apply delivers_straight; exact I]. intros v w a h E Hh. rewrite jexec_bind in E. cbn [j_once jexec] in E. destruct (get_tenant_roles o (uw_rows st v) (ut_id c)) as [urs| |] eqn:Eu; [|discriminate E..]. cbn [rbind fst snd] in E.
      assert (S : forall ur : trow, straight (j_tenant_add st c p (tp_role ur) t (Some l) None)) by (intros ur; apply straight_tadd).
      set (body := fun urs : list trow => jbind (j_each (fun ur => j_tenant_add st c p (tp_role ur) t (Some l) None) (filter (fun ur => tp_principal ur = p /\ tp_ns ur <> "" /\ tp_ns ur <> ns) urs)) (fun _ => j_tenant_add st c p "" t (Some l) None)).
      assert (SB : forall x, straight (body x)) by (intros x; apply straight_bind; [apply straight_each, S|intros _; apply straight_tadd]).
      destruct (straight_exec v (body urs) h (SB urs) v w a E Hh) as [H|H]; [left; exact H|right]. cbn [j_once jbind puts]. intros s Hs. destruct (get_tenant_roles o (uw_rows st s) (ut_id c)) as [urs'| |] eqn:Es; [|cbn [puts]; discriminate..]. change (puts v h (body urs')). unfold body in *.
      apply puts_bind_inv in H as [H|H]; [|apply puts_bind_r; [apply straight_each, S|intros _; exact H]|apply straight_each, S]. apply puts_each_inv in H as (ur & Hu & H); [|exact S]. apply puts_bind_l. apply (puts_each _ _ _ _ ur); [exact S| |exact H].
      apply elem_of_list_filter in Hu as [H1 H2]. apply elem_of_list_filter. split; [exact H1|]. exact (tenant_roles_more o v s (ut_id c) urs urs' ur Hs Eu Es H2).
    - apply delivers_straight, straight_each. intros r. destruct (bool_decide _); [apply straight_tadd|exact I].
  Qed.
  Lemma delivers_assign o t p ss : delivers (j_assign_scopes st o t p ss).
  Proof.
    unfold j_assign_scopes. destruct (u_tenants st !! t) as [c|]; [|apply delivers_straight; exact I]. destruct (ut_managed c); [|apply delivers_straight; exact I]. intros v w a h E Hh. rewrite jexec_bind in E. cbn [j_once jexec] in E. destruct (get_principal_roles o (uw_rows st v) (ut_id c) p) as [prs| |] eqn:Eu; [|discriminate E..]. cbn [rbind fst snd] in E.
    destruct prs as [|a0 prs]; [injection E as <- <-; left; exact Hh|]. remember (a0 :: prs) as l eqn:El. apply (each_exec v _ ss h (straight_scope_round c p t l)) in E as [E|(s & Hs & E)]; [left; exact E| |exact Hh]. right.
    cbn [j_once jbind puts]. intros u Hu. destruct (get_principal_roles o (uw_rows st u) (ut_id c) p) as [prs'| |] eqn:Es; [|cbn [puts]; discriminate..]. cbn [jbind].
    assert (Hin : forall x, x ∈ l -> x ∈ prs') by (intros x; exact (roles_more o v u _ _ _ _ x Hu Eu Es)). destruct prs' as [|b0 prs']; [exfalso; apply (not_elem_of_nil a0), Hin; rewrite El; left|].
    apply (puts_each _ _ _ _ s); [exact (straight_scope_round c p t (b0 :: prs'))|exact Hs|]. exact (scope_round_more c p t l (b0 :: prs') s h v Hin E).
  Qed.
  Lemma delivers_assign_role o t p r ss : delivers (j_assign_with_role st o t p r ss).
  Proof.
    unfold j_assign_with_role. destruct ss as [|s0 ss]; [apply delivers_straight; exact I|]. destruct (u_tenants st !! t) as [c|]; [|apply delivers_straight; exact I]. destruct (ut_managed c); [|apply delivers_straight; exact I]. intros v w a h E Hh. rewrite jexec_bind in E. cbn [j_once jexec] in E. destruct (get_principal_roles o (uw_rows st v) (ut_id c) p) as [prs| |] eqn:Eu; [|discriminate E..]. cbn [rbind fst snd] in E.
    destruct prs as [|a0 prs]; [injection E as <- <-; left; exact Hh|]. destruct (bool_decide (r ∈ ut_roles c)) eqn:Er; [|injection E as <- <-; left; exact Hh].
    destruct (straight_exec v _ h (straight_each _ (s0 :: ss) (straight_role_round c p r t)) v w a E Hh) as [H|H]; [left; exact H|right]. cbn [j_once jbind puts]. intros u Hu. destruct (get_principal_roles o (uw_rows st u) (ut_id c) p) as [prs'| |] eqn:Es; [|cbn [puts]; discriminate..]. cbn [jbind].
    destruct prs' as [|b0 prs']; [exfalso; apply (not_elem_of_nil a0), (roles_more o v u _ _ _ _ a0 Hu Eu Es); left|]. exact H.
  Qed.
  Lemma delivers_call c : ~ j_asks c -> delivers (j_code st c).
  Proof.
    intros H. destruct c; try (destruct (H I)); cbn [j_code]; apply delivers_map.
    - apply delivers_straight, straight_add.
    - apply delivers_straight. unfold j_add_principal. apply straight_each. intros r. destruct (u_tenants st !! t) as [d|]; [|exact I]. destruct (bool_decide _); [apply straight_both|exact I].
    - apply delivers_in_namespace.
    - apply delivers_assign.
    - apply delivers_assign_role.
  Qed.
End assigning.
(** A call that returned has added everything it adds when it runs alone. *)
Lemma not_lost st cs M i c out st' out' : j_met st cs M -> cs !! i = Some c -> j_returned M i (Ok out) -> j_seq st c = Ok (st', out') -> u_rows st' ⊆ j_rows M.
Proof.
  intros HM Hc Hr E h Hh. assert (L : u_rows st ⊆ j_rows M) by exact (proj1 (met_running st cs M i _ HM Hr)).
  assert (D : j_asks c \/ ~ j_asks c) by (destruct c; cbn [j_asks]; tauto). destruct D as [D|D].
  - apply L. clear -E D Hh. destruct c; try (destruct D); cbn [j_seq] in E; unfold j_asked in E; apply rbind_ok in E as (x & _ & E); injection E as <- _; exact Hh.
  - rewrite <-exec_seq in E. destruct (jexec (u_rows st) (j_code st c)) as [[w a]| |] eqn:EX; [|discriminate E..]. cbn [rbind fst snd] in E. assert (Ew : u_rows st' = w) by (apply (f_equal (fun x => match x with Ok y => u_rows y.1 | _ => ∅ end)) in E; symmetry; exact E).
    rewrite Ew in Hh. destruct (delivers_call st c D _ _ _ h EX Hh) as [H|H]; [exact (L h H)|]. exact (puts_there st cs M i c out h HM Hc H Hr).
Qed.

(** ** Who can crash *)
Lemma step_at M i c pick : j_dead M = false -> j_codes M !! i = Some c -> jstep M (i, pick) = match jcode_step (j_rows M) (j_writing M) pick c with None => None | Some (inl _) => Some (JM (j_rows M) (j_writing M) true (j_codes M)) | Some (inr (v, w, c')) => Some (JM v w false (<[i := c']> (j_codes M))) end.
Proof. intros Hd Hc. unfold jstep. rewrite Hd. cbn [fst snd]. rewrite Hc. cbn [mbind option_bind]. destruct (jcode_step (j_rows M) (j_writing M) pick c) as [[[]|[[v w] c']]|]; reflexivity. Qed.
Lemma add_code st p r t ns s m h : j_row st p r t ns s m h -> j_code st (JAddRole p r t ns s m) = JPut h (JRet (Ok JDone)).
Proof.
  intros (c & n & Et & En & ->). cbn [j_code]. unfold j_add_role. rewrite Et. destruct ns as [l|]; [destruct En as (x & -> & <-)|subst n]; reflexivity.
Qed.
Lemma is_nil_cases (x : any) : (is_nil x = true /\ x = ANil) \/ (is_nil x = false /\ x <> ANil).
Proof. destruct x; [left; split; reflexivity|right; split; [reflexivity|discriminate]..]. Qed.
Lemma reads_code st c : j_asks c -> (j_reads st c <-> exists k, j_code st c = JScan k) /\ (~ j_reads st c <-> exists r, j_code st c = JRet r).
Proof.
  assert (W : forall P : Prop, forall x : jcode jout, (P -> exists k, x = JScan k) -> (~ P -> exists r, x = JRet r) -> (P \/ ~ P) -> (P <-> exists k, x = JScan k) /\ (~ P <-> exists r, x = JRet r)).
  { intros P x H1 H2 D. split; (split; [first [exact H1|exact H2]|]).
    - intros (k & Ek). destruct D as [D|D]; [exact D|]. destruct (H2 D) as (r & Er). rewrite Ek in Er. discriminate Er.
    - intros (r & Er) HP. destruct (H1 HP) as (k & Ek). rewrite Ek in Er. discriminate Er. }
  assert (T : forall x : jcode jout, (exists k, x = JScan k) -> (True <-> exists k, x = JScan k) /\ (~ True <-> exists r, x = JRet r)) by (intros x H; apply W; [intros _; exact H|intros N; destruct (N I)|left; exact I]).
  intros Ha. destruct c; try (destruct Ha); cbn [j_reads j_code].
  - assert (Y : forall P : Prop, forall x : jcode jout, P -> (exists k, x = JScan k) -> (P <-> exists k, x = JScan k) /\ (~ P <-> exists r, x = JRet r)) by (intros P x H1 H2; apply W; [intros _; exact H2|intros N; destruct (N H1)|left; exact H1]).
    assert (N : forall P : Prop, forall x : jcode jout, ~ P -> (exists r, x = JRet r) -> (P <-> exists k, x = JScan k) /\ (~ P <-> exists r, x = JRet r)) by (intros P x H1 H2; apply W; [intros H; destruct (H1 H)|intros _; exact H2|right; exact H1]).
    unfold j_looks, j_plain, j_act_only, j_tenant_only, j_authorize, j_complex. destruct (decide (p ∈ u_principals st)) as [Hp|Hp]; [rewrite bool_decide_eq_true_2 by exact Hp|rewrite bool_decide_eq_false_2 by exact Hp; apply N; [intros [H _]; exact (Hp H)|eexists; reflexivity]].
    destruct (is_nil_cases (uo_tenant q)) as [[Bt Et]|[Bt Et]], (is_nil_cases (uo_namespace q)) as [[Bn En]|[Bn En]], (is_nil_cases (uo_scope q)) as [[Bs Es]|[Bs Es]], (is_nil_cases (uo_group q)) as [[Bg Eg]|[Bg Eg]], (is_nil_cases (uo_activity q)) as [[Ba Ea]|[Ba Ea]]; rewrite ?Bt, ?Bn, ?Bs, ?Bg, ?Ba;
      first [apply Y; [clear -Hp Et En Es Eg Ea; tauto|eexists; reflexivity]|apply N; [clear -Hp Et En Es Eg Ea; tauto|eexists; reflexivity]|idtac];
      (destruct (u_tenant st (to_string (uo_tenant q))) as [d|]; [apply Y; [split; [exact Hp|]; split; [clear -Et En Es Eg Ea; tauto|right; right; eexists; reflexivity]|eexists; reflexivity]|apply N; [|eexists; reflexivity]; intros (_ & _ & [H|[H|[d H]]]); [clear -Et En Es Eg Ea H; tauto|clear -Et En Es Eg Ea H; tauto|discriminate H]]).
  - apply T. eexists. reflexivity.
  - apply T. eexists. reflexivity.
  - apply T. eexists. reflexivity.
  - apply T. eexists. reflexivity.
  - apply W; [| |destruct (decide (p ∈ u_principals st)); tauto]; intros H; unfold j_scopes; [rewrite bool_decide_eq_true_2 by exact H|rewrite bool_decide_eq_false_2 by exact H]; eexists; reflexivity.
  - apply W; [| |destruct (decide (p ∈ u_principals st)), (decide (is_Some (u_reg st !! t))); tauto]; intros H; unfold j_tenant_scopes.
    + destruct H as [H1 [l H2]]. rewrite bool_decide_eq_true_2 by exact H1. rewrite H2. eexists. reflexivity.
    + destruct (decide (p ∈ u_principals st)) as [H1|H1]; [rewrite bool_decide_eq_true_2 by exact H1|rewrite bool_decide_eq_false_2 by exact H1; eexists; reflexivity]. destruct (u_reg st !! t) as [l|]; [destruct H; split; [exact H1|eexists; reflexivity]|eexists; reflexivity].
  - apply T. eexists. reflexivity.
Qed.
Lemma crash_exact_who st cs M : j_met st cs M -> j_dead M = true ->
  exists i j ci cj a, i <> j /\ cs !! i = Some ci /\ cs !! j = Some cj /\ j_about st ci (tp_principal a) (tp_tenant a) /\ row_string a ∉ u_rows st /\ (j_asks cj -> j_reads st cj).
Proof.
  intros HM HD. destruct (crash_who st cs M HM HD) as (i & j & ci & cj & h & N & Hi & Hj & (p & t & H1 & a & -> & <- & <-) & H2 & H3). exists i, j, ci, cj, a. split; [exact N|]. split; [exact Hi|]. split; [exact Hj|]. split; [exact H1|]. split; [exact H2|].
  intros Ha. destruct (reads_code st cj Ha) as [_ [R1 _]]. assert (D : j_reads st cj \/ ~ j_reads st cj).
  { pose proof (call_only st cj) as O. destruct (j_code st cj) as [r|k|m s k|h k|h k|h k] eqn:E; cbn [only] in O; [destruct H3; exists r; exact E|left; apply (proj1 (reads_code st cj Ha)); exists k; exact E|destruct O| |destruct O|destruct O]. pose proof (only_asks st (fun _ => False) cj Ha) as O'. rewrite E in O'. destruct (proj1 O'). }
  destruct D as [D|D]; [exact D|]. destruct H3. exact (R1 D).
Qed.
Lemma question_crash st c p r t ns s m h : j_asks c -> j_row st p r t ns s m h -> j_reads st c -> h ∉ u_rows st -> u_rows st <> ∅ ->
  exists M, j_met st [c; JAddRole p r t ns s m] M /\ j_dead M = true.
Proof.
  intros Ha Hrow Hr Hh Hne. destruct (proj1 (proj1 (reads_code st c Ha)) Hr) as [k Ek]. pose proof (add_code st p r t ns s m h Hrow) as Ep.
  exists (JM (u_rows st) true true [JNext (u_rows st) ∅ k; JEnd h (JRet (Ok JDone))]). split; [|reflexivity]. exists [(0, None); (1, None); (1, None); (0, None)].
  unfold jstart. change (j_code st <$> [c; JAddRole p r t ns s m]) with [j_code st c; j_code st (JAddRole p r t ns s m)]. rewrite Ek, Ep. cbn [jrun].
  rewrite (step_at _ 0 (JScan k) None) by reflexivity. cbn [jcode_step j_rows j_writing j_codes]. rewrite bool_decide_eq_false_2 by exact Hne. cbn [insert list_insert mbind option_bind].
  rewrite (step_at _ 1 (JPut h (JRet (Ok JDone))) None) by reflexivity. cbn [jcode_step j_rows j_writing j_codes andb]. rewrite bool_decide_eq_false_2 by exact Hh. cbn [insert list_insert mbind option_bind].
  rewrite (step_at _ 1 (JBegin h (JRet (Ok JDone))) None) by reflexivity. cbn [jcode_step j_rows j_writing j_codes insert list_insert mbind option_bind].
  rewrite (step_at _ 0 (JNext (u_rows st) ∅ k) None) by reflexivity. reflexivity.
Qed.
Lemma writers_crash st p r t ns s m h p' r' t' ns' s' m' h' : j_row st p r t ns s m h -> j_row st p' r' t' ns' s' m' h' -> h ∉ u_rows st -> h' ∉ u_rows st ->
  exists M, j_met st [JAddRole p r t ns s m; JAddRole p' r' t' ns' s' m'] M /\ j_dead M = true.
Proof.
  intros R R' Hh Hh'. exists (JM (u_rows st) true true [JEnd h (JRet (Ok JDone)); JBegin h' (JRet (Ok JDone))]). split; [|reflexivity]. exists [(0, None); (1, None); (0, None); (1, None)].
  unfold jstart. change (j_code st <$> [JAddRole p r t ns s m; JAddRole p' r' t' ns' s' m']) with [j_code st (JAddRole p r t ns s m); j_code st (JAddRole p' r' t' ns' s' m')]. rewrite (add_code _ _ _ _ _ _ _ _ R), (add_code _ _ _ _ _ _ _ _ R'). cbn [jrun].
  rewrite (step_at _ 0 (JPut h (JRet (Ok JDone))) None) by reflexivity. cbn [jcode_step j_rows j_writing j_codes andb]. rewrite bool_decide_eq_false_2 by exact Hh. cbn [insert list_insert mbind option_bind].
  rewrite (step_at _ 1 (JPut h' (JRet (Ok JDone))) None) by reflexivity. cbn [jcode_step j_rows j_writing j_codes andb]. rewrite bool_decide_eq_false_2 by exact Hh'. cbn [insert list_insert mbind option_bind].
  rewrite (step_at _ 0 (JBegin h (JRet (Ok JDone))) None) by reflexivity. cbn [jcode_step j_rows j_writing j_codes insert list_insert mbind option_bind].
  rewrite (step_at _ 1 (JBegin h' (JRet (Ok JDone))) None) by reflexivity. reflexivity.
Qed.
(** On a manager without assignments one question and one assignment never meet. *)
Definition calm (h : string) (M : jmachine) : Prop :=
  j_dead M = false /\ exists c d, j_codes M = [c; d] /\
    ((only (fun _ => False) c /\ j_rows M = ∅ /\ ((d = JPut h (JRet (Ok JDone)) /\ j_writing M = false) \/ (d = JBegin h (JRet (Ok JDone)) /\ j_writing M = false) \/ d = JEnd h (JRet (Ok JDone))))
     \/ (running (fun _ => False) ∅ c /\ d = JRet (Ok JDone) /\ j_writing M = false)).
Lemma calm_step h M x M' : calm h M -> jstep M x = Some M' -> calm h M'.
Proof.
  intros (Hd & c & d & Ec & HI) HS. apply jstep_inv in HS as (_ & c1 & Hc & HS). rewrite Ec in Hc, HS. destruct x as [[|[|i]] pick]; cbn [fst snd lookup list_lookup] in *; [| |destruct i; discriminate Hc]; injection Hc as <-.
  - destruct HI as [(O & Er & Hw)|(R & Ed & Ew)].
    + rewrite Er in HS. destruct c as [r|k|m s k|h' k|h' k|h' k]; cbn [only] in O; [| |destruct O|destruct (proj1 O)|destruct O|destruct O]; cbn [jcode_step] in HS; destruct HS as [[E _]|(v & w & c' & E & ->)]; try discriminate E. injection E as <- <- <-.
      rewrite bool_decide_eq_true_2 by reflexivity. split; [reflexivity|]. exists (k ∅), d. split; [reflexivity|]. left. split; [apply O|]. split; [reflexivity|exact Hw].
    + rewrite Ew in HS. destruct HS as [[E _]|(v & w & c' & E & ->)]; [destruct (step_fatal _ _ _ _ E) as [N _]; discriminate N|]. split; [reflexivity|]. exists c', d. split; [reflexivity|]. right.
      assert (Hsub : ∅ ⊆ j_rows M) by set_solver. pose proof (running_step (fun _ => False) ∅ _ _ _ _ _ _ _ Hsub E R) as R'. split; [exact R'|]. split; [exact Ed|]. cbn [j_writing]. destruct (running_back _ _ _ _ _ _ _ _ _ R E) as [(W & _)|[(_ & _ & _ & W)|(W & _)]]; [exact W| |exact W]. destruct c'; try (destruct W). destruct R' as [[] _].
  - destruct HI as [(O & Er & [[-> Ew]|[[-> Ew]| ->]])|(R & -> & Ew)]; destruct HS as [[E _]|(v & w & c' & E & ->)]; rewrite ?Er, ?Ew in E; cbn [jcode_step andb] in E; try discriminate E.
    + rewrite bool_decide_eq_false_2 in E by set_solver. injection E as <- <- <-. split; [reflexivity|]. exists c, (JBegin h (JRet (Ok JDone))). split; [reflexivity|]. left. split; [exact O|]. split; [reflexivity|]. right. left. split; reflexivity.
    + injection E as <- <- <-. split; [reflexivity|]. exists c, (JEnd h (JRet (Ok JDone))). split; [reflexivity|]. left. split; [exact O|]. split; [reflexivity|]. right. right. reflexivity.
    + injection E as <- <- <-. split; [reflexivity|]. exists c, (JRet (Ok JDone)). split; [reflexivity|]. right. split; [exact (only_running _ _ _ O)|]. split; reflexivity.
Qed.
Lemma question_crash_iff st c p r t ns s m h : j_asks c -> j_row st p r t ns s m h ->
  (exists M, j_met st [c; JAddRole p r t ns s m] M /\ j_dead M = true) <-> j_reads st c /\ h ∉ u_rows st /\ u_rows st <> ∅.
Proof.
  intros Ha Hrow. split; [|intros (H1 & H2 & H3); exact (question_crash st c p r t ns s m h Ha Hrow H1 H2 H3)]. intros (M & HM & HD).
  assert (NE : u_rows st <> ∅).
  { intros E0. assert (C : calm h M); [|destruct C as [C _]; rewrite HD in C; discriminate C]. apply (met_pres (calm h) st [c; JAddRole p r t ns s m] M); [|exact (calm_step h)|exact HM]. split; [reflexivity|]. exists (j_code st c), (j_code st (JAddRole p r t ns s m)). split; [reflexivity|]. left. split; [apply only_asks, Ha|]. split; [exact E0|]. left. split; [exact (add_code _ _ _ _ _ _ _ _ Hrow)|reflexivity]. }
  assert (H : h ∉ u_rows st).
  { intros Hin. assert (F : Forall (j_idle st) [c; JAddRole p r t ns s m]).
    { constructor; [left; exact Ha|]. constructor; [|constructor]. right. exists JDone. rewrite <-exec_seq, (add_code _ _ _ _ _ _ _ _ Hrow). cbn [jexec rbind fst snd]. assert (Eu : {[h]} ∪ u_rows st = u_rows st) by set_solver. rewrite Eu, rows_self. reflexivity. }
    destruct (idle_right st _ M F HM) as [N _]. rewrite HD in N. discriminate N. }
  split; [|split; [exact H|exact NE]].
  destruct (crash_exact_who st _ M HM HD) as (i & j & ci & cj & a & N & Hi & Hj & HA & _ & HR). destruct i as [|[|i]]; [| |destruct i; discriminate Hi].
  - injection Hi as <-. destruct c; try (destruct Ha); destruct HA.
  - destruct j as [|[|j]]; [|destruct (N eq_refl)|destruct j; discriminate Hj]. injection Hj as <-. exact (HR Ha).
Qed.

Lemma added_by st cs M h : j_met st cs M -> h ∈ j_rows M -> h ∈ u_rows st \/ exists c a, c ∈ cs /\ h = row_string a /\ j_about st c (tp_principal a) (tp_tenant a).
Proof.
  intros HM Hh. destruct (met_rows st cs M h HM Hh) as [H|(d & Hd & p & t & H1 & a & -> & <- & <-)]; [left; exact H|right]. exists d, a. split; [exact Hd|]. split; [reflexivity|exact H1].
Qed.
Lemma place_answer st cs M i o p q r : ureachable st -> j_met st cs M -> cs !! i = Some (JAuthorize o p q) -> j_plain q -> j_returned M i r ->
  exists b, r = Ok (JBool b) /\ (u_authorize o st p q = Ok true -> b = true) /\ (b = true -> u_authorize o (uw_rows st (j_rows M)) p q = Ok true).
Proof. intros HR. exact (plain_answer st cs M i o p q r (ureachable_wf st HR)). Qed.

(** An assignment that is there already and a new one *)
Lemma old_new_crash st p r t ns s m h p' r' t' ns' s' m' h' : j_row st p r t ns s m h -> j_row st p' r' t' ns' s' m' h' -> h ∈ u_rows st -> h' ∉ u_rows st ->
  exists M, j_met st [JAddRole p r t ns s m; JAddRole p' r' t' ns' s' m'] M /\ j_dead M = true.
Proof.
  intros R R' Hh Hh'. assert (Hne : u_rows st <> ∅) by set_solver. exists (JM (u_rows st) true true [JPut h (JRet (Ok JDone)); JEnd h' (JRet (Ok JDone))]). split; [|reflexivity]. exists [(1, None); (1, None); (0, None)].
  unfold jstart. change (j_code st <$> [JAddRole p r t ns s m; JAddRole p' r' t' ns' s' m']) with [j_code st (JAddRole p r t ns s m); j_code st (JAddRole p' r' t' ns' s' m')]. rewrite (add_code _ _ _ _ _ _ _ _ R), (add_code _ _ _ _ _ _ _ _ R'). cbn [jrun].
  rewrite (step_at _ 1 (JPut h' (JRet (Ok JDone))) None) by reflexivity. cbn [jcode_step j_rows j_writing j_codes andb]. rewrite bool_decide_eq_false_2 by exact Hh'. cbn [insert list_insert mbind option_bind].
  rewrite (step_at _ 1 (JBegin h' (JRet (Ok JDone))) None) by reflexivity. cbn [jcode_step j_rows j_writing j_codes insert list_insert mbind option_bind].
  rewrite (step_at _ 0 (JPut h (JRet (Ok JDone))) None) by reflexivity. cbn [jcode_step j_rows j_writing j_codes andb]. rewrite bool_decide_eq_false_2 by exact Hne. reflexivity.
Qed.
Lemma new_old_crash st p r t ns s m h p' r' t' ns' s' m' h' : j_row st p r t ns s m h -> j_row st p' r' t' ns' s' m' h' -> h ∉ u_rows st -> h' ∈ u_rows st ->
  exists M, j_met st [JAddRole p r t ns s m; JAddRole p' r' t' ns' s' m'] M /\ j_dead M = true.
Proof.
  intros R R' Hh Hh'. assert (Hne : u_rows st <> ∅) by set_solver. exists (JM (u_rows st) true true [JEnd h (JRet (Ok JDone)); JPut h' (JRet (Ok JDone))]). split; [|reflexivity]. exists [(0, None); (0, None); (1, None)].
  unfold jstart. change (j_code st <$> [JAddRole p r t ns s m; JAddRole p' r' t' ns' s' m']) with [j_code st (JAddRole p r t ns s m); j_code st (JAddRole p' r' t' ns' s' m')]. rewrite (add_code _ _ _ _ _ _ _ _ R), (add_code _ _ _ _ _ _ _ _ R'). cbn [jrun].
  rewrite (step_at _ 0 (JPut h (JRet (Ok JDone))) None) by reflexivity. cbn [jcode_step j_rows j_writing j_codes andb]. rewrite bool_decide_eq_false_2 by exact Hh. cbn [insert list_insert mbind option_bind].
  rewrite (step_at _ 0 (JBegin h (JRet (Ok JDone))) None) by reflexivity. cbn [jcode_step j_rows j_writing j_codes insert list_insert mbind option_bind].
  rewrite (step_at _ 1 (JPut h' (JRet (Ok JDone))) None) by reflexivity. cbn [jcode_step j_rows j_writing j_codes andb]. rewrite bool_decide_eq_false_2 by exact Hne. reflexivity.
Qed.
Lemma old_idle st p r t ns s m h : j_row st p r t ns s m h -> h ∈ u_rows st -> j_idle st (JAddRole p r t ns s m).
Proof.
  intros Hrow Hin. right. exists JDone. rewrite <-exec_seq, (add_code _ _ _ _ _ _ _ _ Hrow). cbn [jexec rbind fst snd]. assert (Eu : {[h]} ∪ u_rows st = u_rows st) by set_solver. rewrite Eu, rows_self. reflexivity.
Qed.
Lemma writers_crash_iff st p r t ns s m h p' r' t' ns' s' m' h' : j_row st p r t ns s m h -> j_row st p' r' t' ns' s' m' h' ->
  (exists M, j_met st [JAddRole p r t ns s m; JAddRole p' r' t' ns' s' m'] M /\ j_dead M = true) <-> h ∉ u_rows st \/ h' ∉ u_rows st.
Proof.
  intros R R'. destruct (decide (h ∈ u_rows st)) as [H|H], (decide (h' ∈ u_rows st)) as [H'|H'].
  - split; [|intros [N|N]; [destruct (N H)|destruct (N H')]]. intros (M & HM & HD). exfalso. assert (F : Forall (j_idle st) [JAddRole p r t ns s m; JAddRole p' r' t' ns' s' m']) by (constructor; [exact (old_idle _ _ _ _ _ _ _ _ R H)|constructor; [exact (old_idle _ _ _ _ _ _ _ _ R' H')|constructor]]).
    destruct (idle_right st _ M F HM) as [N _]. rewrite HD in N. discriminate N.
  - split; [intros _; right; exact H'|intros _; exact (old_new_crash _ _ _ _ _ _ _ _ _ _ _ _ _ _ _ R R' H H')].
  - split; [intros _; left; exact H|intros _; exact (new_old_crash _ _ _ _ _ _ _ _ _ _ _ _ _ _ _ R R' H H')].
  - split; [intros _; left; exact H|intros _; exact (writers_crash _ _ _ _ _ _ _ _ _ _ _ _ _ _ _ R R' H H')].
Qed.
