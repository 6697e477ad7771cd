(** Calls that ask and assign on one v1 manager at the same time: each alone. *)
From Verif Require Import RoleProofs V1Code V1Auth.
From Verif Require Export V1RowsSpec.

(** ** Programs *)
(** The steps of a program while nobody else does anything *)
Fixpoint jexec {A : Type} (v : gset string) (c : jcode A) : res (gset string * A) :=
  match c with
  | JRet r => let! a := r in Ok (v, a)
  | JScan k => jexec v (k v)
  | JNext _ _ k => jexec v (k v)
  | JPut h k | JBegin h k | JEnd h k => jexec ({[h]} ∪ v) k
  end.
Lemma jexec_bind {A B} (c : jcode A) (f : A -> jcode B) : forall v, jexec v (jbind c f) = let! r := jexec v c in jexec r.1 (f r.2).
Proof.
  induction c as [r|k IH|m s k IH|h k IH|h k IH|h k IH]; intros v; cbn [jbind jexec]; try apply IH. destruct r as [a| |]; reflexivity.
Qed.
Lemma rows_self st : uw_rows st (u_rows st) = st.
Proof. destruct st. reflexivity. Qed.
Lemma rows_rows st v w : uw_rows (uw_rows st v) w = uw_rows st w.
Proof. reflexivity. Qed.

Section adequacy.
  Variable st : ustate.
  (** A question: [f] is the function of the sequential model. *)
  Definition tells_of {A} (c : jcode A) (f : ustate -> res A) : Prop := forall v, jexec v c = let! a := f (uw_rows st v) in Ok (v, a).
  Lemma tells_ret {A} (f : ustate -> res A) r : (forall v, f (uw_rows st v) = r) -> tells_of (JRet r) f.
  Proof. intros H v. cbn [jexec]. rewrite H. reflexivity. Qed.
  Lemma tells_once {A} (f : ustate -> res A) : tells_of (j_once st f) f.
  Proof. intros v. reflexivity. Qed.
  Lemma tells_bind {A B} (c : jcode A) (f : ustate -> res A) (d : A -> jcode B) (g : ustate -> A -> res B) : tells_of c f -> (forall a, tells_of (d a) (fun s => g s a)) ->
    tells_of (jbind c d) (fun s => let! a := f s in g s a).
  Proof. intros Hc Hd v. rewrite jexec_bind, Hc. destruct (f (uw_rows st v)) as [a| |]; cbn [rbind fst snd]; [apply Hd|reflexivity..]. Qed.
  Lemma tells_same {A} (c : jcode A) (f g : ustate -> res A) : tells_of c f -> (forall v, f (uw_rows st v) = g (uw_rows st v)) -> tells_of c g.
  Proof. intros H E v. rewrite H, E. reflexivity. Qed.
  Lemma rbind_same {A B} (x : res A) (f g : A -> res B) : (forall a, f a = g a) -> rbind x f = rbind x g.
  Proof. intros E. destruct x as [a| |]; [apply E|reflexivity..]. Qed.

  Lemma tells_implicit o ids : forall i, tells_of (j_implicit st o i ids) (fun s => implicit_rows o i s ids).
  Proof.
    induction ids as [|id ids IH]; intros i; cbn [j_implicit]; [apply tells_ret; reflexivity|]. cbn [implicit_rows].
    apply (tells_bind _ (fun s => get_tenant_roles (sub o i) s id) _ (fun s rs => let! rest := implicit_rows o (S i) s ids in Ok (rs ++ rest)) (tells_once _)). intros rs.
    apply (tells_bind _ (fun s => implicit_rows o (S i) s ids) _ (fun s rest => Ok (rs ++ rest)) (IH _)). intros rest. apply tells_ret. reflexivity.
  Qed.
  Lemma tells_implicit_roles o t p : tells_of (j_implicit_roles st o t p) (fun s => get_implicit_principal_roles o s t p).
  Proof.
    unfold j_implicit_roles, get_implicit_principal_roles. apply (tells_bind _ (fun s => get_principal_roles (sub o 0) s t p) _ (fun s own => match u_tenant s t with None => Ok own | Some c => let! below := implicit_rows (sub o 1) 1 s (ordered (sub (sub o 1) 0) (map_to_list (ut_desc c)).*1) in Ok (own ++ below) end) (tells_once _)).
    intros own. intros v. change (u_tenant (uw_rows st v) t) with (u_tenant st t). destruct (u_tenant st t) as [c|]; [|reflexivity]. rewrite jexec_bind, (tells_implicit _ _ _ v). destruct (implicit_rows (sub o 1) 1 (uw_rows st v) _) as [b| |]; reflexivity.
  Qed.
  Lemma tells_scopes o p : tells_of (j_scopes st o p) (fun s => get_scopes_for_principal o s p).
  Proof. intros v. unfold j_scopes, get_scopes_for_principal. cbn [u_principals uw_rows]. case_bool_decide as E; [|reflexivity]. cbn [j_once jexec]. unfold get_scopes_for_principal. cbn [u_principals uw_rows]. rewrite bool_decide_eq_true_2 by exact E. reflexivity. Qed.
  Lemma tells_tenant_scopes o t p : tells_of (j_tenant_scopes st o t p) (fun s => get_tenant_scopes_for_principal o s t p).
  Proof.
    intros v. unfold j_tenant_scopes, get_tenant_scopes_for_principal. cbn [u_principals u_reg uw_rows]. case_bool_decide as E; [|reflexivity]. destruct (u_reg st !! t) as [l|] eqn:El; [|reflexivity]. cbn [j_once jexec]. unfold get_tenant_scopes_for_principal. cbn [u_principals u_reg uw_rows]. rewrite bool_decide_eq_true_2 by exact E. rewrite El. reflexivity.
  Qed.
  Lemma tells_collect o p ts : forall i, tells_of (j_collect st o i p ts) (fun s => collect_allowed o i s p ts).
  Proof.
    induction ts as [|t ts IH]; intros i; cbn [j_collect collect_allowed]; [apply tells_ret; reflexivity|].
    apply (tells_bind _ (fun s => get_principal_roles (sub (sub o i) 0) s t p) _ (fun s prs => let! al := get_allowed_roles (sub (sub o i) 1) s (nil_slice prs) "" "" in let! rest := collect_allowed o (S i) s p ts in Ok (default [] al ++ rest)) (tells_once _)). intros prs.
    apply (tells_bind _ (fun s => get_allowed_roles (sub (sub o i) 1) s (nil_slice prs) "" "") _ (fun s al => let! rest := collect_allowed o (S i) s p ts in Ok (default [] al ++ rest))); [apply tells_ret; reflexivity|]. intros al.
    apply (tells_bind _ (fun s => collect_allowed o (S i) s p ts) _ (fun s rest => Ok (default [] al ++ rest)) (IH _)). intros rest. apply tells_ret. reflexivity.
  Qed.
  Lemma tells_activity o p act : tells_of (j_activity st o p act) (fun s => authorize_for_activity o s p act).
  Proof.
    unfold j_activity, authorize_for_activity. apply (tells_bind _ (fun s => get_tenants_for_principal (sub o 0) s p) _ (fun s ts => let! ids := collect_allowed (sub o 1) 0 s p ts in any_has (sub o 2) 1 (u_heap s) "" act (compact_adjacent ids) (ordered (sub (sub o 2) 0) (map_to_list (registered_roles s (compact_adjacent ids))).*2)) (tells_once _)). intros ts.
    apply (tells_bind _ (fun s => collect_allowed (sub o 1) 0 s p ts) _ (fun s ids => any_has (sub o 2) 1 (u_heap s) "" act (compact_adjacent ids) (ordered (sub (sub o 2) 0) (map_to_list (registered_roles s (compact_adjacent ids))).*2)) (tells_collect _ _ _ _)). intros ids. apply tells_ret. reflexivity.
  Qed.
  Lemma tells_complex o q p : tells_of (j_complex st o q p) (fun s => authorize_complex o s q p).
  Proof.
    unfold j_complex. destruct (u_tenant st (to_string (uo_tenant q))) as [c|] eqn:E; [apply tells_once|]. apply tells_ret. intros v. unfold authorize_complex. change (u_tenant (uw_rows st v)) with (u_tenant st). rewrite E. reflexivity.
  Qed.
  Lemma tells_scope_loop o p scope ts : forall i, tells_of (j_scope_loop st o i p scope ts) (fun s => scope_loop o i s p scope ts).
  Proof.
    induction ts as [|t ts IH]; intros i; cbn [j_scope_loop]; [apply tells_ret; reflexivity|]. intros v. cbn [scope_loop]. change (u_tenant (uw_rows st v)) with (u_tenant st). destruct (u_tenant st t) as [c|]; [|apply IH]. case_bool_decide; [|apply IH].
    rewrite jexec_bind, (tells_once _ v). destruct (get_principal_roles (sub o i) (uw_rows st v) (ut_id c) p) as [prs| |]; [|reflexivity..]. cbn [rbind fst snd]. destruct (existsb _ prs); [reflexivity|apply IH].
  Qed.
  Lemma tells_row_loop o p f ts : forall i, tells_of (j_row_loop st o i p f ts) (fun s => some_row_loop o i s p f ts).
  Proof.
    induction ts as [|t ts IH]; intros i; cbn [j_row_loop]; [apply tells_ret; reflexivity|]. intros v. cbn [some_row_loop]. rewrite jexec_bind, (tells_once _ v). destruct (some_row (sub o i) (uw_rows st v) t p f) as [b| |]; [|reflexivity..]. cbn [rbind fst snd]. destruct b; [reflexivity|apply IH].
  Qed.
  Lemma tells_three o p t ns scope : tells_of (j_three st o p t ns scope) (fun s => authorize_for_tenant_namespace_and_scope o s p t ns scope).
  Proof.
    intros v. unfold j_three, authorize_for_tenant_namespace_and_scope. rewrite jexec_bind, (tells_once _ v). destruct (some_row (sub o 0) (uw_rows st v) t p _) as [b| |]; [|reflexivity..]. cbn [rbind fst snd]. destruct b; [reflexivity|]. rewrite jexec_bind, (tells_once _ v). destruct (get_tenant_roles (sub o 1) (uw_rows st v) t) as [rs| |]; reflexivity.
  Qed.
  Lemma tells_authorize o p q : tells_of (j_authorize st o p q) (fun s => u_authorize o s p q).
  Proof.
    unfold j_authorize, u_authorize. intros v. cbn [u_principals uw_rows]. destruct (bool_decide (p ∈ u_principals st)); [|reflexivity].
    destruct (is_nil (uo_tenant q)), (is_nil (uo_namespace q)), (is_nil (uo_scope q)), (is_nil (uo_group q)), (is_nil (uo_activity q)); try apply tells_complex; try apply tells_once; try apply tells_activity; try apply tells_three.
    - unfold authorize_for_scope. rewrite jexec_bind, (tells_once _ v). destruct (get_tenants_for_principal (sub o 0) (uw_rows st v) p) as [ts| |]; [|reflexivity..]. apply tells_scope_loop.
    - unfold authorize_for_namespace_and_scope. rewrite jexec_bind, (tells_once _ v). destruct (get_tenants_for_principal (sub o 0) (uw_rows st v) p) as [ts| |]; [|reflexivity..]. apply tells_row_loop.
    - reflexivity.
  Qed.

  (** An assignment: [f] is the function of the sequential model. *)
  Definition does {A} (c : jcode A) (f : ustate -> res ustate) : Prop := forall v, (let! r := jexec v c in Ok (uw_rows st r.1)) = f (uw_rows st v).
  Lemma does_ret : does (JRet (Ok tt)) Ok.
  Proof. intros v. reflexivity. Qed.
  Lemma does_panic f : (forall v, f (uw_rows st v) = Panic) -> does (A := unit) (JRet Panic) f.
  Proof. intros H v. rewrite H. reflexivity. Qed.
  Lemma does_bind {A B} (c : jcode A) (d : jcode B) f g : does c f -> does d g -> does (jbind c (fun _ => d)) (fun s => let! s1 := f s in g s1).
  Proof.
    intros Hc Hd v. rewrite jexec_bind. specialize (Hc v). destruct (jexec v c) as [[w a]| |]; cbn [rbind fst snd] in *; rewrite <-Hc; cbn [rbind]; [|reflexivity..]. apply Hd.
  Qed.
  Lemma does_each {A} (c : A -> jcode unit) f xs : (forall x, does (c x) (fun s => f s x)) -> does (j_each c xs) (fun s => u_each f s xs).
  Proof. intros H. induction xs as [|x xs IH]; [exact does_ret|]. cbn [j_each u_each]. exact (does_bind (c x) (j_each c xs) (fun s => f s x) (fun s => u_each f s xs) (H x) IH). Qed.
  Lemma does_ask {A B} (c : jcode A) (d : A -> jcode B) f g : tells_of c f -> (forall a, does (d a) (fun s => g s a)) -> does (jbind c d) (fun s => let! a := f s in g s a).
  Proof. intros Hc Hd v. rewrite jexec_bind, Hc. destruct (f (uw_rows st v)) as [a| |]; cbn [rbind fst snd]; [apply Hd|reflexivity..]. Qed.
  Lemma does_add_role p r t ns s m : does (j_add_role st p r t ns s m) (fun x => u_add_principal_role x p r t ns s m).
  Proof.
    intros v. unfold j_add_role, u_add_principal_role. change (u_tenants (uw_rows st v)) with (u_tenants st). change (u_nss (uw_rows st v)) with (u_nss st). destruct (u_tenants st !! t) as [c|]; [|reflexivity]. destruct ns as [l|]; [|reflexivity]. destruct (u_nss st !! l) as [n|]; reflexivity.
  Qed.
  Lemma does_tenant_add c p r t ns s : does (j_tenant_add st c p r t ns s) (fun x => ut_add_principal_role x c p r t ns s []).
  Proof. unfold j_tenant_add, ut_add_principal_role. destruct (ut_managed c); [apply does_add_role|apply does_panic; reflexivity]. Qed.
  Lemma does_both c p r t s : does (j_add_both st c p r t s) (fun x => let! x1 := ut_add_principal_role x c p r t None s [] in match ut_default c with None => Ok x1 | Some l => ut_add_principal_role x1 c p r t (Some l) s [] end).
  Proof.
    unfold j_add_both. apply (does_bind _ _ (fun x => ut_add_principal_role x c p r t None s []) (fun x1 => match ut_default c with None => Ok x1 | Some l => ut_add_principal_role x1 c p r t (Some l) s [] end) (does_tenant_add _ _ _ _ _ _)). destruct (ut_default c) as [l|]; [apply does_tenant_add|apply does_ret].
  Qed.
  Lemma does_add_principal t p rs : does (j_add_principal st t p rs) (fun x => ut_add_principal x t p rs).
  Proof.
    unfold j_add_principal, ut_add_principal. apply (does_each (fun r => match u_tenants st !! t with None => JRet Panic | Some c => if bool_decide (r ∈ ut_roles c) then j_add_both st c p r t None else JRet (Ok tt) end)). intros r v. change (u_tenants (uw_rows st v)) with (u_tenants st).
    destruct (u_tenants st !! t) as [c|]; [|reflexivity]. destruct (bool_decide (r ∈ ut_roles c)); [apply does_both|reflexivity].
  Qed.
  Lemma does_in_namespace o t p ns rs : does (j_add_in_namespace st o t p ns rs) (fun x => ut_add_principal_in_namespace o x t p ns rs).
  Proof.
    intros v. unfold j_add_in_namespace, ut_add_principal_in_namespace. change (u_tenants (uw_rows st v)) with (u_tenants st). destruct (u_tenants st !! t) as [c|]; [|reflexivity]. destruct (ut_namespaces c !! ns) as [l|]; [|reflexivity]. destruct rs as [|r0 rs].
    - destruct (ut_managed c); [|reflexivity]. revert v.
      apply (does_ask _ _ (fun x => get_tenant_roles o x (ut_id c)) (fun x urs => let! st1 := u_each (fun x ur => ut_add_principal_role x c p (tp_role ur) t (Some l) None []) x (filter (fun ur => tp_principal ur = p /\ tp_ns ur <> "" /\ tp_ns ur <> ns) urs) in ut_add_principal_role st1 c p "" t (Some l) None []) (tells_once _)).
      intros urs. apply (does_bind _ _ (fun x => u_each (fun x ur => ut_add_principal_role x c p (tp_role ur) t (Some l) None []) x _) (fun x => ut_add_principal_role x c p "" t (Some l) None [])); [|apply does_tenant_add]. apply does_each. intros ur. apply does_tenant_add.
    - revert v. apply (does_each (fun r => if bool_decide (r ∈ ut_roles c) then j_tenant_add st c p r t (Some l) None else JRet (Ok tt))). intros r v. destruct (bool_decide (r ∈ ut_roles c)); [apply does_tenant_add|reflexivity].
  Qed.
  Lemma does_assign o t p ss : does (j_assign_scopes st o t p ss) (fun x => ut_assign_scopes o x t p ss).
  Proof.
    intros v. unfold j_assign_scopes, ut_assign_scopes. change (u_tenants (uw_rows st v)) with (u_tenants st). destruct (u_tenants st !! t) as [c|]; [|reflexivity]. destruct (ut_managed c); [|reflexivity]. rewrite jexec_bind, (tells_once _ v). destruct (get_principal_roles o (uw_rows st v) (ut_id c) p) as [prs| |]; [|reflexivity..]. cbn [rbind fst snd].
    destruct prs as [|a0 prs]; [reflexivity|]. revert v. generalize (a0 :: prs) as l. intros l.
    refine (does_each (fun s => if bool_decide (s ∈ ut_scopes c) then jbind (j_each (fun a => j_add_both st c p (tp_role a) t (Some s)) l) (fun _ => j_tenant_add st c p "" t None (Some s)) else JRet (Ok tt)) _ ss _).
    intros s v. destruct (bool_decide (s ∈ ut_scopes c)); [|reflexivity]. revert v. refine (does_bind _ _ (fun x => u_each (fun x a => let! x1 := ut_add_principal_role x c p (tp_role a) t None (Some s) [] in match ut_default c with None => Ok x1 | Some l => ut_add_principal_role x1 c p (tp_role a) t (Some l) (Some s) [] end) x l) (fun x => ut_add_principal_role x c p "" t None (Some s) []) _ (does_tenant_add _ _ _ _ _ _)). apply does_each. intros a. apply does_both.
  Qed.
  Lemma does_assign_role o t p r ss : does (j_assign_with_role st o t p r ss) (fun x => ut_assign_scopes_with_role o x t p r ss).
  Proof.
    intros v. unfold j_assign_with_role, ut_assign_scopes_with_role. destruct ss as [|s0 ss]; [reflexivity|]. change (u_tenants (uw_rows st v)) with (u_tenants st). destruct (u_tenants st !! t) as [c|]; [|reflexivity]. destruct (ut_managed c); [|reflexivity]. rewrite jexec_bind, (tells_once _ v). destruct (get_principal_roles o (uw_rows st v) (ut_id c) p) as [prs| |]; [|reflexivity..]. cbn [rbind fst snd].
    destruct prs as [|a0 prs]; [reflexivity|]. destruct (bool_decide (r ∈ ut_roles c)); [|reflexivity]. revert v. refine (does_each (fun s => if bool_decide (s ∈ ut_scopes c) then j_add_both st c p r t (Some s) else JRet (Ok tt)) _ (s0 :: ss) _). intros s v. destruct (bool_decide (s ∈ ut_scopes c)); [apply does_both|reflexivity].
  Qed.

  Lemma exec_map {A} (f : A -> jout) (c : jcode A) v : jexec v (j_map f c) = let! r := jexec v c in Ok (r.1, f r.2).
  Proof. unfold j_map. rewrite jexec_bind. destruct (jexec v c) as [[w a]| |]; reflexivity. Qed.
  Lemma asked_exec {A} (f : A -> jout) (c : jcode A) g : tells_of c g -> (let! r := jexec (u_rows st) (j_map f c) in Ok (uw_rows st r.1, r.2)) = j_asked st f (g st).
  Proof. intros H. rewrite exec_map, H, rows_self. unfold j_asked. destruct (g st) as [a| |]; cbn [rbind fst snd]; rewrite ?rows_self; reflexivity. Qed.
  Lemma told_exec {A} (c : jcode A) g : does c g -> (let! r := jexec (u_rows st) (j_map (fun _ => JDone) c) in Ok (uw_rows st r.1, r.2)) = j_told (g st).
  Proof. intros H. rewrite exec_map. specialize (H (u_rows st)). rewrite rows_self in H. unfold j_told. rewrite <-H. destruct (jexec (u_rows st) c) as [[w a]| |]; reflexivity. Qed.
  Lemma exec_seq c : (let! r := jexec (u_rows st) (j_code st c) in Ok (uw_rows st r.1, r.2)) = j_seq st c.
  Proof.
    destruct c; cbn [j_code j_seq].
    - exact (asked_exec JBool _ (fun s => u_authorize o s p q) (tells_authorize o p q)).
    - exact (asked_exec JStrings _ (fun s => get_tenants_for_principal o s p) (tells_once _)).
    - exact (asked_exec JRows _ (fun s => get_principal_roles o s t p) (tells_once _)).
    - exact (asked_exec JRows _ (fun s => get_tenant_roles o s t) (tells_once _)).
    - exact (asked_exec JRows _ (fun s => get_implicit_principal_roles o s t p) (tells_implicit_roles o t p)).
    - exact (asked_exec JMaybe _ (fun s => get_scopes_for_principal o s p) (tells_scopes o p)).
    - exact (asked_exec JMaybe _ (fun s => get_tenant_scopes_for_principal o s t p) (tells_tenant_scopes o t p)).
    - exact (asked_exec JPerms _ (fun s => get_permissions_for_principal o s t p) (tells_once _)).
    - exact (told_exec _ (fun x => u_add_principal_role x p r t ns scope manage) (does_add_role p r t ns scope manage)).
    - exact (told_exec _ (fun x => ut_add_principal x t p rs) (does_add_principal t p rs)).
    - exact (told_exec _ (fun x => ut_add_principal_in_namespace o x t p ns rs) (does_in_namespace o t p ns rs)).
    - exact (told_exec _ (fun x => ut_assign_scopes o x t p ss) (does_assign o t p ss)).
    - exact (told_exec _ (fun x => ut_assign_scopes_with_role o x t p r ss) (does_assign_role o t p r ss)).
  Qed.
End adequacy.
