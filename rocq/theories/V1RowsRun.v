(** Calls that ask and assign on one v1 manager at the same time: what holds of every execution. *)
From Verif Require Import RoleProofs.
From Verif Require Export V1RowsProofs.

(** ** Executions *)
Lemma jstep_inv M x M' : jstep M x = Some M' -> j_dead M = false /\ exists c, j_codes M !! x.1 = Some c /\
  ((jcode_step (j_rows M) (j_writing M) x.2 c = Some (inl tt) /\ M' = JM (j_rows M) (j_writing M) true (j_codes M))
   \/ exists v w c', jcode_step (j_rows M) (j_writing M) x.2 c = Some (inr (v, w, c')) /\ M' = JM v w false (<[x.1 := c']> (j_codes M))).
Proof.
  unfold jstep. destruct (j_dead M); [discriminate|]. intros H. split; [reflexivity|]. destruct (j_codes M !! x.1) as [c|]; [|discriminate]. cbn [mbind option_bind] in H. exists c. split; [reflexivity|].
  destruct (jcode_step (j_rows M) (j_writing M) x.2 c) as [[[]|[[v w] c']]|]; cbn [mbind option_bind] in H; [|right|discriminate].
  - injection H as <-. left. split; reflexivity.
  - injection H as <-. exists v, w, c'. split; reflexivity.
Qed.
Lemma jrun_pres (I : jmachine -> Prop) : (forall M x M', I M -> jstep M x = Some M' -> I M') -> forall xs M M', I M -> jrun M xs = Some M' -> I M'.
Proof.
  intros H. induction xs as [|x xs IH]; intros M M' HM HR; cbn [jrun] in HR; [injection HR as <-; exact HM|]. destruct (jstep M x) as [M1|] eqn:E; [|discriminate]. exact (IH M1 M' (H _ _ _ HM E) HR).
Qed.
Lemma met_pres (I : jmachine -> Prop) st cs M : I (jstart st cs) -> (forall M x M', I M -> jstep M x = Some M' -> I M') -> j_met st cs M -> I M.
Proof. intros H0 HS [xs HR]. exact (jrun_pres I HS xs _ _ H0 HR). Qed.
Lemma rows_grow v w pick c v' w' c' : jcode_step v w pick c = Some (inr (v', w', c')) -> v ⊆ v'.
Proof.
  destruct c as [r|k|m s k|h k|h k|h k]; cbn [jcode_step].
  - discriminate.
  - intros [= <- <- <-]. reflexivity.
  - destruct w; [discriminate|]. destruct pick as [h|]; [destruct (_ && _)|destruct (bool_decide (m ⊆ s))]; intros H; try discriminate H; injection H as <- <- <-; reflexivity.
  - destruct (w && _); [discriminate|]. intros [= <- <- <-]. reflexivity.
  - destruct w; [discriminate|]. intros [= <- <- <-]. reflexivity.
  - intros [= <- <- <-]. set_solver.
Qed.
(** A property of every goroutine that the rows others add do not spoil *)
Lemma thread_pres (P : gset string -> nat -> jcode jout -> Prop) st cs M i c :
  (forall v v' i c, v ⊆ v' -> P v i c -> P v' i c) -> (forall v w pick i c v' w' c', jcode_step v w pick c = Some (inr (v', w', c')) -> P v i c -> P v' i c') ->
  (forall i c, cs !! i = Some c -> P (u_rows st) i (j_code st c)) -> j_met st cs M -> j_codes M !! i = Some c -> P (j_rows M) i c.
Proof.
  intros Hg Hs H0 HM Hc. revert i c Hc. apply (met_pres (fun M => forall i c, j_codes M !! i = Some c -> P (j_rows M) i c) st cs M); [| |exact HM].
  - intros i c Hc. cbn [jstart j_codes j_rows] in *. rewrite list_lookup_fmap in Hc. destruct (cs !! i) as [d|] eqn:E; [|discriminate Hc]. injection Hc as <-. exact (H0 i d E).
  - intros M1 x M2 H HS i c Hc. apply jstep_inv in HS as (_ & d & Hd & [[_ ->]|(v & w & c' & E & ->)]); [exact (H i c Hc)|]. cbn [j_codes j_rows] in *. destruct (decide (i = x.1)) as [->|N].
    + rewrite list_lookup_insert in Hc by (apply lookup_lt_is_Some; rewrite Hd; eauto). injection Hc as <-. exact (Hs _ _ _ _ _ _ _ _ E (H _ _ Hd)).
    + rewrite list_lookup_insert_ne in Hc by (intros E'; apply N; symmetry; exact E'). exact (Hg _ _ _ _ (rows_grow _ _ _ _ _ _ _ E) (H i c Hc)).
Qed.

(** ** What a program may add *)
Fixpoint only {A} (P : string -> Prop) (c : jcode A) : Prop :=
  match c with
  | JRet _ => True
  | JScan k => forall v, only P (k v)
  | JPut h k => P h /\ only P k
  | JNext _ _ _ | JBegin _ _ | JEnd _ _ => False
  end.
Lemma only_bind {A B} P (c : jcode A) (f : A -> jcode B) : only P c -> (forall a, only P (f a)) -> only P (jbind c f).
Proof. intros Hc Hf. induction c as [r|k IH|m s k IH|h k IH|h k IH|h k IH]; cbn [jbind only] in *; [destruct r; [apply Hf|exact I..]|intros v; exact (IH v (Hc v))|destruct Hc|exact (conj (proj1 Hc) (IH (proj2 Hc)))|destruct Hc..]. Qed.
Lemma only_mono {A} (P Q : string -> Prop) (c : jcode A) : (forall h, P h -> Q h) -> only P c -> only Q c.
Proof. intros H Hc. induction c as [r|k IH|m s k IH|h k IH|h k IH|h k IH]; cbn [only] in *; [exact I|intros v; exact (IH v (Hc v))|destruct Hc|exact (conj (H h (proj1 Hc)) (IH (proj2 Hc)))|destruct Hc..]. Qed.
Lemma only_each {A} P (f : A -> jcode unit) xs : (forall x, only P (f x)) -> only P (j_each f xs).
Proof. intros H. induction xs as [|x xs IH]; [exact I|]. cbn [j_each]. apply only_bind; [apply H|intros _; exact IH]. Qed.
Lemma only_map {A} P (f : A -> jout) c : only P c -> only P (j_map f c).
Proof. intros H. apply only_bind; [exact H|intros a; exact I]. Qed.
Section only.
  Variable st : ustate.
  Variable P : string -> Prop.
  Lemma only_once {A} (f : ustate -> res A) : only P (j_once st f).
  Proof. intros v. exact I. Qed.
  Lemma only_implicit o ids : forall i, only P (j_implicit st o i ids).
  Proof. induction ids as [|id ids IH]; intros i; [exact I|]. cbn [j_implicit]. apply only_bind; [apply only_once|]. intros rs. apply only_bind; [apply IH|intros a; exact I]. Qed.
  Lemma only_implicit_roles o t p : only P (j_implicit_roles st o t p).
  Proof. unfold j_implicit_roles. apply only_bind; [apply only_once|]. intros own. destruct (u_tenant st t) as [c|]; [|exact I]. apply only_bind; [apply only_implicit|intros a; exact I]. Qed.
  Lemma only_collect o p ts : forall i, only P (j_collect st o i p ts).
  Proof. induction ts as [|t ts IH]; intros i; [exact I|]. cbn [j_collect]. apply only_bind; [apply only_once|]. intros prs. apply only_bind; [exact I|]. intros al. apply only_bind; [apply IH|intros a; exact I]. Qed.
  Lemma only_scope_loop o p scope ts : forall i, only P (j_scope_loop st o i p scope ts).
  Proof. induction ts as [|t ts IH]; intros i; [exact I|]. cbn [j_scope_loop]. destruct (u_tenant st t) as [c|]; [|apply IH]. destruct (bool_decide (scope ∈ ut_scopes c)); [|apply IH]. apply only_bind; [apply only_once|]. intros prs. destruct (existsb _ prs); [exact I|apply IH]. Qed.
  Lemma only_row_loop o p f ts : forall i, only P (j_row_loop st o i p f ts).
  Proof. induction ts as [|t ts IH]; intros i; [exact I|]. cbn [j_row_loop]. apply only_bind; [apply only_once|]. intros b. destruct b; [exact I|apply IH]. Qed.
  Lemma only_authorize o p q : only P (j_authorize st o p q).
  Proof.
    unfold j_authorize. destruct (bool_decide (p ∈ u_principals st)); [|exact I].
    assert (HC : only P (j_complex st o q p)) by (unfold j_complex; destruct (u_tenant st (to_string (uo_tenant q))); [apply only_once|exact I]).
    assert (HA : only P (j_activity st o p (to_string (uo_activity q)))) by (unfold j_activity; apply only_bind; [apply only_once|]; intros ts; apply only_bind; [apply only_collect|intros ids; exact I]).
    destruct (is_nil (uo_tenant q)), (is_nil (uo_namespace q)), (is_nil (uo_scope q)), (is_nil (uo_group q)), (is_nil (uo_activity q)); try exact HC; try exact HA; try apply only_once; try exact I.
    - apply only_bind; [apply only_once|]. intros ts. apply only_scope_loop.
    - apply only_bind; [apply only_once|]. intros ts. apply only_row_loop.
    - unfold j_three. apply only_bind; [apply only_once|]. intros b. destruct b; [exact I|]. apply only_bind; [apply only_once|intros a; exact I].
  Qed.
  Lemma only_asks c : j_asks c -> only P (j_code st c).
  Proof.
    destruct c; intros H; try (destruct H); cbn [j_code]; apply only_map; try apply only_once; [apply only_authorize|apply only_implicit_roles| |].
    - unfold j_scopes. destruct (bool_decide _); [apply only_once|exact I].
    - unfold j_tenant_scopes. destruct (bool_decide _); [|exact I]. destruct (u_reg st !! t); [apply only_once|exact I].
  Qed.
End only.
(** A row about [p] in [t] *)
Definition row_about (p t h : string) : Prop := exists a, h = row_string a /\ tp_principal a = p /\ tp_tenant a = t.
Section about.
  Variable st : ustate.
  Lemma about_add p r t ns s m c : u_tenants st !! t = Some c -> only (row_about p (ut_id c)) (j_add_role st p r t ns s m).
  Proof. intros E. unfold j_add_role. rewrite E. destruct ns as [l|]; [destruct (u_nss st !! l) as [n|]; [|exact I]|]; (split; [|exact I]); eexists; (split; [reflexivity|split; reflexivity]). Qed.
  Lemma about_tenant_add c0 p r t ns s c : u_tenants st !! t = Some c -> only (row_about p (ut_id c)) (j_tenant_add st c0 p r t ns s).
  Proof. intros E. unfold j_tenant_add. destruct (ut_managed c0); [exact (about_add _ _ _ _ _ _ _ E)|exact I]. Qed.
  Lemma about_both c0 p r t s c : u_tenants st !! t = Some c -> only (row_about p (ut_id c)) (j_add_both st c0 p r t s).
  Proof. intros E. unfold j_add_both. apply only_bind; [exact (about_tenant_add _ _ _ _ _ _ _ E)|]. intros _. destruct (ut_default c0); [exact (about_tenant_add _ _ _ _ _ _ _ E)|exact I]. Qed.
  Lemma about_call c : ~ j_asks c -> only (fun h => exists p t, j_about st c p t /\ row_about p t h) (j_code st c).
  Proof.
    assert (W : forall {A} l p (c0 : jcode A), (forall d, u_tenants st !! l = Some d -> only (row_about p (ut_id d)) c0) -> (u_tenants st !! l = None -> only (fun _ => False) c0) -> only (fun h => exists p' t, (p = p' /\ exists d, u_tenants st !! l = Some d /\ ut_id d = t) /\ row_about p' t h) c0).
    { intros A l p c0 H1 H2. destruct (u_tenants st !! l) as [d|] eqn:E.
      - apply (only_mono (row_about p (ut_id d))); [|exact (H1 d eq_refl)]. intros h Hh. exists p, (ut_id d). split; [|exact Hh]. split; [reflexivity|]. exists d. split; reflexivity.
      - apply (only_mono (fun _ => False)); [intros h []|exact (H2 eq_refl)]. }
    destruct c; intros H; try (destruct (H I)); cbn [j_code j_about]; apply W; clear W H; intros; apply only_map.
    - exact (about_add _ _ _ _ _ _ _ H).
    - unfold j_add_role. rewrite H. exact I.
    - unfold j_add_principal. apply only_each. intros r. rewrite H. destruct (bool_decide _); [exact (about_both _ _ _ _ _ _ H)|exact I].
    - unfold j_add_principal. apply only_each. intros r. rewrite H. exact I.
    - unfold j_add_in_namespace. rewrite H. destruct (ut_namespaces d !! ns) as [l|]; [|exact I]. destruct rs as [|r0 rs].
      + destruct (ut_managed d); [|exact I]. apply only_bind; [apply only_once|]. intros urs. apply only_bind; [|intros _; exact (about_tenant_add _ _ _ _ _ _ _ H)]. apply only_each. intros ur. exact (about_tenant_add _ _ _ _ _ _ _ H).
      + apply only_each. intros r. destruct (bool_decide _); [exact (about_tenant_add _ _ _ _ _ _ _ H)|exact I].
    - unfold j_add_in_namespace. rewrite H. exact I.
    - unfold j_assign_scopes. rewrite H. destruct (ut_managed d); [|exact I]. apply only_bind; [apply only_once|]. intros prs. destruct prs as [|a0 prs]; [exact I|]. generalize (a0 :: prs). intros l. apply only_each. intros s. destruct (bool_decide _); [|exact I]. apply only_bind; [|intros _; exact (about_tenant_add _ _ _ _ _ _ _ H)]. apply only_each. intros a. exact (about_both _ _ _ _ _ _ H).
    - unfold j_assign_scopes. rewrite H. exact I.
    - unfold j_assign_with_role. destruct ss as [|s0 ss]; [exact I|]. rewrite H. destruct (ut_managed d); [|exact I]. apply only_bind; [apply only_once|]. intros prs. destruct prs as [|a0 prs]; [exact I|]. destruct (bool_decide _); [|exact I]. apply only_each. intros s. destruct (bool_decide _); [exact (about_both _ _ _ _ _ _ H)|exact I].
    - unfold j_assign_with_role. destruct ss as [|s0 ss]; [exact I|]. rewrite H. exact I.
  Qed.
End about.
(** What a call may add; a question adds nothing *)
Definition may_add (st : ustate) (c : jcall) (h : string) : Prop := exists p t, j_about st c p t /\ row_about p t h.
Lemma call_only st c : only (may_add st c) (j_code st c).
Proof. destruct c; try (apply only_asks; exact I); apply about_call; intros []. Qed.
