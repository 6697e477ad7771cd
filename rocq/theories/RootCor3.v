(** C17 to C19, C53, C54. *)
From Verif Require Export RootCor2.

(** ** C17 *)
Lemma cached_verdict o st p q st' b : m_cache st !! p = Some ∅ -> authorize o st p q = Ok (st', b) -> b = false.
Proof.
  intros Hc [(? & _)|(_ & U & (o2 & H2) & Hb)]%authorize_ok; [done|].
  rewrite (implicit_cached o2 _ _ _ Hc) in H2. injection H2 as <- <-. destruct b; [|done].
  by destruct (proj1 Hb eq_refl) as (_ & ? & _).
Qed.
Lemma lockout o1 ops1 st1 outs1 o2 p q st2 b o3 i ops2 st3 outs2 o4 q' st4 b' :
  run o1 0 init_state ops1 = Ok (st1, outs1) -> (forall x, x ∈ ops1 -> ~ names_principal p x) ->
  p ∈ m_principals st1 -> authorize o2 st1 p q = Ok (st2, b) ->
  run o3 i st2 ops2 = Ok (st3, outs2) -> authorize o4 st3 p q' = Ok (st4, b') -> b' = false.
Proof.
  intros H1 Hn Hp H2 H3 H4.
  assert (Hu : untouched p st1) by (eapply untouched_run; [apply untouched_init|done|done]).
  apply authorize_ok in H2 as [(_ & ? & _)|(_ & U & (o & HU) & _)]; [done|].
  pose proof (implicit_untouched _ _ _ _ _ Hu HU) as ->. apply implicit_caches in HU.
  apply (gr_cache _ _ (run_grows _ _ _ _ _ _ H3)) in HU. by eapply cached_verdict.
Qed.
Lemma not_asked_cache o i st ops st' outs p : run o i st ops = Ok (st', outs) ->
  (forall x, x ∈ ops -> ~ asks_about p x) -> m_cache st !! p = None -> m_cache st' !! p = None.
Proof.
  revert i st outs. induction ops as [|x ops IH]; intros i st outs; simpl; [by intros [= <- <-]|].
  rewrite rbind_ok. intros ([st1 r1] & H1 & H) Hx Hc. apply rbind_ok in H as ([st2 r2] & H2 & [= <- <-]).
  eapply IH; [exact H2|intros y Hy; apply Hx; by right|].
  assert (Hxa : ~ asks_about p x) by (apply Hx; left).
  cbn [fst]. destruct (step_cache _ _ _ _ _ H1) as [->|(o' & p' & U & Hp' & H')]; [done|]. rewrite (implicit_cache _ _ _ _ _ H' p).
  case_decide; [congruence|done].
Qed.

(** ** C54: grants are recorded *)
Lemma with_rows_snoc st new new' : with_rows (with_rows st new) new' = with_rows st (new ++ new').
Proof. unfold with_rows. by rewrite foldl_app. Qed.
Lemma with_rows_eq st new : with_rows st new = with_trie st (foldl (trie_insert data_keys) (m_trie st) new).
Proof.
  unfold with_rows. revert st. induction new as [|d new IH]; intros st; simpl; [by destruct st|]. by rewrite IH.
Qed.
Lemma wrote_with_rows st new : wrote st (with_rows st new) new.
Proof. unfold wrote. by rewrite with_rows_eq. Qed.

Lemma until_rows {A} (f : state -> A -> res (state * goerr)) (ok : A -> Prop) `{!forall x, Decision (ok x)}
    (g : A -> list data) st xs :
  (forall rows x, if decide (ok x) then f (with_rows st rows) x = Ok (with_rows st (rows ++ g x), None)
     else exists e, f (with_rows st rows) x = Ok (with_rows st rows, Some e)) ->
  (Forall ok xs /\ until_error f st xs = Ok (with_rows st (xs ≫= g), None))
  \/ exists xs1 x xs2 e, xs = xs1 ++ x :: xs2 /\ Forall ok xs1 /\ ~ ok x
       /\ until_error f st xs = Ok (with_rows st (xs1 ≫= g), Some e).
Proof.
  intros Hf.
  assert (G : forall rows, (Forall ok xs /\ until_error f (with_rows st rows) xs = Ok (with_rows st (rows ++ (xs ≫= g)), None))
    \/ exists xs1 x xs2 e, xs = xs1 ++ x :: xs2 /\ Forall ok xs1 /\ ~ ok x
       /\ until_error f (with_rows st rows) xs = Ok (with_rows st (rows ++ (xs1 ≫= g)), Some e)); [|apply (G [])].
  induction xs as [|x xs IH]; intros rows; simpl.
  - left. by rewrite app_nil_r.
  - specialize (Hf rows x). destruct (decide (ok x)) as [Hx|Hx].
    + rewrite Hf. simpl. destruct (IH (rows ++ g x)) as [[F ->]|(xs1 & y & xs2 & e & -> & F & Hy & ->)].
      * left. split; [by constructor|]. by rewrite <-app_assoc.
      * right. exists (x :: xs1), y, xs2, e. simpl. split_and!; [done|by constructor|done|]. by rewrite <-app_assoc.
    + destruct Hf as [e ->]. simpl. right. exists [], x, xs, e. split_and!; [done|done|done|]. simpl. by rewrite app_nil_r.
Qed.
Lemma add_principal_exact st t c p md rs : s_tenants st !! t = Some c -> t_managed c = true ->
  let ok := fun r => p ∈ m_principals st /\ is_Some (m_roles st !! r) in
  (Forall ok rs /\ tenant_add_principal st t p md rs = Ok (with_rows st (rs ≫= role_rows c p md), None))
  \/ exists rs1 r rs2 e, rs = rs1 ++ r :: rs2 /\ Forall ok rs1 /\ ~ ok r
       /\ tenant_add_principal st t p md rs = Ok (with_rows st (rs1 ≫= role_rows c p md), Some e).
Proof.
  intros Hc Hm ok. unfold tenant_add_principal. assert (D : forall x, Decision (ok x)) by (intros; unfold ok; apply _). apply (until_rows _ ok). intros rows r.
  assert (E : managed_tenant (with_rows st rows) t = Ok c) by (apply managed_ok; by rewrite with_rows_eq).
  unfold tenant_add_principal_with_role. rewrite E. simpl.
  assert (Ep : m_principals (with_rows st rows) = m_principals st) by by rewrite with_rows_eq.
  assert (Er : m_roles (with_rows st rows) = m_roles st) by by rewrite with_rows_eq.
  rewrite Ep, Er. unfold ok. case_decide as Hok.
  - destruct Hok as [Hp [rl ->]]. rewrite bool_decide_true by done. simpl. f_equal. f_equal.
    rewrite <-with_rows_snoc. unfold role_rows. by destruct (t_default c).
  - case_bool_decide; simpl; [|by eexists]. destruct (m_roles st !! r) eqn:Hr; [|by eexists]. destruct Hok. split; [done|by eexists].
Qed.
Lemma assign_scopes_exact st t c p md ss : s_tenants st !! t = Some c -> t_managed c = true ->
  let ok := fun s => p ∈ m_principals st /\ s ∈ m_scopes st in
  (Forall ok ss /\ tenant_assign_scopes st t p md ss = Ok (with_rows st (ss ≫= scope_rows c p md), None))
  \/ exists ss1 s ss2 e, ss = ss1 ++ s :: ss2 /\ Forall ok ss1 /\ ~ ok s
       /\ tenant_assign_scopes st t p md ss = Ok (with_rows st (ss1 ≫= scope_rows c p md), Some e).
Proof.
  intros Hc Hm ok. unfold tenant_assign_scopes. assert (D : forall x, Decision (ok x)) by (intros; unfold ok; apply _). apply (until_rows _ ok). intros rows s.
  assert (E : managed_tenant (with_rows st rows) t = Ok c) by (apply managed_ok; by rewrite with_rows_eq).
  unfold tenant_add_scope_to_principal. rewrite E. simpl.
  assert (Ep : m_principals (with_rows st rows) = m_principals st) by by rewrite with_rows_eq.
  assert (Er : m_scopes (with_rows st rows) = m_scopes st) by by rewrite with_rows_eq.
  rewrite Ep, Er. unfold ok. case_decide as Hok.
  - destruct Hok as [Hp Hs]. rewrite !bool_decide_true by done. simpl. f_equal. f_equal.
    rewrite <-with_rows_snoc. unfold scope_rows. by destruct (t_default c).
  - case_bool_decide; simpl; [|by eexists]. case_bool_decide; simpl; [|by eexists]. by destruct Hok.
Qed.

(** Rows written together that do not share a path are all stored. *)
Lemma survivors_app_r l1 l2 d : d ∈ rows l2 -> d ∈ rows (l1 ++ l2).
Proof.
  unfold rows. intros H. apply elem_of_survivors in H as (a & b & -> & F). apply elem_of_survivors.
  exists (l1 ++ a), b. split; [by rewrite <-app_assoc|done].
Qed.
Lemma survivors_has l d : d ∈ l -> exists d', d' ∈ rows l /\ row_path data_keys d' = row_path data_keys d.
Proof.
  unfold rows. revert d. induction l as [|x l IH]; intros d Hd; [by apply elem_of_nil in Hd|]. simpl.
  assert (Hl : forall y, y ∈ l -> exists d', d' ∈ (if decide (Exists (fun y => row_path data_keys y = row_path data_keys x) l)
                then survivors data_keys l else x :: survivors data_keys l)
              /\ row_path data_keys d' = row_path data_keys y).
  { intros y (d' & H1 & H2)%IH. exists d'. split; [|done]. case_decide; [done|by right]. }
  apply elem_of_cons in Hd as [->|Hd]; [|auto]. destruct (decide (Exists (fun y => row_path data_keys y = row_path data_keys x) l)) as [He|He].
  - apply Exists_exists in He as (y & Hy & Ey). destruct (Hl _ Hy) as (d' & ? & ?). exists d'. split; [done|congruence].
  - exists x. split; [left|done].
Qed.
Lemma with_rows_stored st new d : reachable st ->
  (forall d d', d ∈ new -> d' ∈ new -> row_path data_keys d = row_path data_keys d' -> d = d') ->
  d ∈ new -> stored (with_rows st new) d.
Proof.
  intros [log Hl]%reachable_logged Hinj Hd. apply (wrote_stored _ _ _ _ _ Hl (wrote_with_rows st new)).
  apply survivors_app_r. destruct (survivors_has new d Hd) as (d' & Hd' & E).
  assert (d' ∈ new) by (unfold rows in Hd'; apply elem_of_survivors in Hd' as (? & ? & -> & _); set_solver).
  by rewrite <-(Hinj d' d).
Qed.
Lemma role_rows_inj c p md rs d d' : d ∈ rs ≫= role_rows c p md -> d' ∈ rs ≫= role_rows c p md ->
  row_path data_keys d = row_path data_keys d' -> d = d'.
Proof.
  intros (r & Hd & _)%elem_of_list_bind (r' & Hd' & _)%elem_of_list_bind. unfold role_rows in Hd, Hd'.
  rewrite !row_path_unfold.
  destruct (t_default c) as [n|]; rewrite ?elem_of_cons, elem_of_nil in Hd; rewrite ?elem_of_cons, elem_of_nil in Hd';
    destruct_or?; subst; simpl; intros [=]; congruence.
Qed.
Lemma scope_rows_inj c p md rs d d' : d ∈ rs ≫= scope_rows c p md -> d' ∈ rs ≫= scope_rows c p md ->
  row_path data_keys d = row_path data_keys d' -> d = d'.
Proof.
  intros (r & Hd & _)%elem_of_list_bind (r' & Hd' & _)%elem_of_list_bind. unfold scope_rows in Hd, Hd'.
  rewrite !row_path_unfold.
  destruct (t_default c) as [n|]; rewrite ?elem_of_cons, elem_of_nil in Hd; rewrite ?elem_of_cons, elem_of_nil in Hd';
    destruct_or?; subst; simpl; intros [=]; congruence.
Qed.
Lemma add_principal_stored st t c p md rs st' : reachable st -> s_tenants st !! t = Some c ->
  tenant_add_principal st t p md rs = Ok (st', None) -> rs <> [] ->
  p ∈ m_principals st /\ forall r d, r ∈ rs -> d ∈ role_rows c p md r -> stored st' d.
Proof.
  intros Hr Hc H Hne.
  assert (Hm : t_managed c = true).
  { destruct rs as [|r rs]; [done|]. unfold tenant_add_principal, until_error, tenant_add_principal_with_role, managed_tenant in H.
    rewrite Hc in H. by destruct (t_managed c). }
  destruct (add_principal_exact st t c p md rs Hc Hm) as [[F E]|(? & ? & ? & ? & _ & _ & _ & E)]; [|congruence].
  rewrite E in H. injection H as <-. split.
  - destruct rs as [|r rs]; [done|]. by apply Forall_cons in F as [[? _] _].
  - intros r d Hrs Hd. apply with_rows_stored; [done|intros; by eapply role_rows_inj|]. apply elem_of_list_bind. by exists r.
Qed.
Lemma assign_scopes_stored st t c p md ss st' : reachable st -> s_tenants st !! t = Some c ->
  tenant_assign_scopes st t p md ss = Ok (st', None) -> ss <> [] ->
  p ∈ m_principals st /\ forall s d, s ∈ ss -> d ∈ scope_rows c p md s -> stored st' d.
Proof.
  intros Hr Hc H Hne.
  assert (Hm : t_managed c = true).
  { destruct ss as [|r rs]; [done|]. unfold tenant_assign_scopes, until_error, tenant_add_scope_to_principal, managed_tenant in H.
    rewrite Hc in H. by destruct (t_managed c). }
  destruct (assign_scopes_exact st t c p md ss Hc Hm) as [[F E]|(? & ? & ? & ? & _ & _ & _ & E)]; [|congruence].
  rewrite E in H. injection H as <-. split.
  - destruct ss as [|r rs]; [done|]. by apply Forall_cons in F as [[? _] _].
  - intros r d Hrs Hd. apply with_rows_stored; [done|intros; by eapply scope_rows_inj|]. apply elem_of_list_bind. by exists r.
Qed.

Lemma run_app o i st xs ys :
  run o i st (xs ++ ys) = let! s1 := run o i st xs in let! s2 := run o (i + length xs) s1.1 ys in Ok (s2.1, s1.2 ++ s2.2).
Proof.
  revert i st. induction xs as [|x xs IH]; intros i st; simpl.
  - rewrite Nat.add_0_r. destruct (run o i st ys) as [[? ?]| |]; done.
  - destruct (step (sub o i) st x) as [[st1 r]| |]; simpl; try done. rewrite IH.
    destruct (run o (S i) st1 xs) as [[st2 rs]| |]; simpl; try done.
    rewrite Nat.add_succ_r.
    destruct (run o (S (i + length xs)) st2 ys) as [[st3 rs']| |]; done.
Qed.

(** ** C17, continued: grants made before the first question about the principal do count *)
Lemma grant_effective o ops st outs t c p md rs st1 l o' st2 b :
  run o 0 init_state ops = Ok (st, outs) -> (forall x, x ∈ ops -> ~ asks_about p x) ->
  s_tenants st !! t = Some c -> m_tenants st !! t_id c = Some l ->
  tenant_add_principal st t p md rs = Ok (st1, None) -> rs <> [] ->
  authorize o' st1 p (tenant_only (t_id c)) = Ok (st2, b) -> b = true.
Proof.
  intros Hrun Hno Hc Hl H Hne Ha.
  assert (Hr : reachable st) by by exists o, ops, outs.
  destruct (add_principal_stored _ _ _ _ _ _ _ Hr Hc H Hne) as [Hp Hst].
  assert (Hr1 : reachable st1).
  { exists o, (ops ++ [OTenantAddPrincipal t p md rs]), (outs ++ [RErr None]). rewrite run_app, Hrun. simpl.
    rewrite H. done. }
  assert (Hc1 : m_cache st1 !! p = None).
  { assert (Hs : step id_oracle st (OTenantAddPrincipal t p md rs) = Ok (st1, RErr None)) by (simpl; by rewrite H).
    destruct (step_cache _ _ _ _ _ Hs) as [E|(? & ? & ? & [] & _)]. rewrite E. eapply not_asked_cache; [exact Hrun|done|].
    simpl. by rewrite lookup_empty. }
  pose proof (step_grows id_oracle st (OTenantAddPrincipal t p md rs) st1 (RErr None)) as G.
  simpl in G. rewrite H in G. specialize (G eq_refl).
  eapply (tenant_hole o' st1 p (t_id c) l (t_id c)); [done|done| | | |done].
  - by apply (gr_m_principals _ _ G).
  - by apply (gr_m_tenants _ _ G).
  - destruct rs as [|r rs]; [done|]. exists (Data (AStr (t_id c)) ANil ANil (AStr p) (AStr r) (ABool md)).
    split; [|done]. apply (Hst r); [left|unfold role_rows; left].
Qed.

Definition w17_ops : list op :=
  [ONewTenant "acme"; OAddTenant 0; OAddPrincipal "ann"; ONewRole "clerk"; OAddRole 0;
   OAuthorize "ann" (tenant_only "acme");
   OTenantAddPrincipal 0 "ann" true ["clerk"];
   OAuthorize "ann" (tenant_only "acme")].
Lemma c17_refuted : exists ops p q outs st,
  run id_oracle 0 init_state ops = Ok (st, outs) /\ last outs = Some (RBool false)
  /\ last ops = Some (OAuthorize p q)
  /\ own st p "acme" /\ q = tenant_only "acme" /\ p ∈ m_principals st /\ is_Some (m_tenants st !! "acme").
Proof.
  exists w17_ops, "ann", (tenant_only "acme"), (ops_outs w17_ops), (ops_state w17_ops).
  split; [apply run_runs; vm_compute; reflexivity|]. split; [vm_compute; reflexivity|]. split; [done|].
  split; [|split; [done|split; [apply (bool_decide_unpack _); vm_compute; exact I|eexists; vm_compute; reflexivity]]].
  exists (Data (AStr "acme") ANil ANil (AStr "ann") (AStr "clerk") (ABool true)). split; [|done].
  unfold stored. vm_compute. left.
Qed.
(** A descendant added after the first question is never seen. *)
Definition w17b_ops : list op :=
  [ONewTenant "acme"; OAddTenant 0; ONewTenant "branch"; OAddTenant 1; OAddPrincipal "ann"; ONewRole "clerk"; OAddRole 0;
   OTenantAddPrincipal 0 "ann" true ["clerk"]; OImplicitTenants "ann"; OTenantAddDescendant 0 [1];
   OImplicitTenants "ann"].
Lemma c17_descendant_refuted : exists st outs, run id_oracle 0 init_state w17b_ops = Ok (st, outs)
  /\ (exists U, last outs = Some (RSet U) /\ elements U = ["acme"]) /\ manages st "ann" "acme" /\ below st "acme" "branch".
Proof.
  exists (ops_state w17b_ops), (ops_outs w17b_ops). split; [apply run_runs; vm_compute; reflexivity|]. split_and!.
  - assert (H : match last (ops_outs w17b_ops) with Some (RSet U) => Some (elements U) | _ => None end = Some ["acme"])
      by (vm_compute; reflexivity).
    destruct (last (ops_outs w17b_ops)) as [[]|]; try discriminate H. eexists. split; [reflexivity|]. congruence.
  - exists (Data (AStr "acme") ANil ANil (AStr "ann") (AStr "clerk") (ABool true)). split; [|done].
    unfold stored. vm_compute. left.
  - exists 0, 1. split; [vm_compute; reflexivity|]. split; [|eexists; split; vm_compute; reflexivity].
    apply tc_once, tenant_edge_desc. eexists _, "branch". split; vm_compute; reflexivity.
Qed.

(** ** C18 *)
Lemma query_run_same o i st ops st' outs : (forall x, x ∈ ops -> is_query x) -> run o i st ops = Ok (st', outs) ->
  same_but_caches st st'.
Proof.
  revert i st outs. induction ops as [|x ops IH]; intros i st outs Hq; simpl; [intros [= <- <-]; apply same_but_caches_refl|].
  rewrite rbind_ok. intros ([st1 r1] & H1 & H). apply rbind_ok in H as ([st2 r2] & H2 & [= <- <-]).
  eapply same_but_caches_trans; [|eapply IH; [|exact H2]; intros y Hy; apply Hq; by right].
  cbn [fst]. assert (Hx : is_query x) by (apply Hq; left). destruct x; try done; simpl in H1.
  - apply rbind_ok in H1 as ([? ?] & H1 & [= <- <-]). by eapply tenant_children_same.
  - apply rbind_ok in H1 as ([? ?] & H1 & [= <- <-]). by eapply implicit_same.
  - apply rbind_ok in H1 as ([? ?] & H1 & [= <- <-]). by eapply authorize_same.
Qed.
Lemma authorized_same st st' U p q : same_but_caches st st' -> authorized st' U p q <-> authorized st U p q.
Proof. intros (hi & ca & ->). by destruct st. Qed.
Lemma principals_same st st' : same_but_caches st st' -> m_principals st' = m_principals st.
Proof. intros (hi & ca & ->). done. Qed.
Lemma authorize_repeatable o1 st p q st1 b1 o2 i ops st2 outs o3 st3 b2 :
  authorize o1 st p q = Ok (st1, b1) -> (forall x, x ∈ ops -> is_query x) -> run o2 i st1 ops = Ok (st2, outs) ->
  authorize o3 st2 p q = Ok (st3, b2) -> b1 = b2.
Proof.
  intros H1 Hq Hr H2.
  assert (S : same_but_caches st st2).
  { eapply same_but_caches_trans; [by eapply authorize_same|by eapply query_run_same]. }
  apply authorize_ok in H1 as [(-> & Hp & _)|(Hp & U & (o & HU) & Hb)];
    apply authorize_ok in H2 as [(-> & Hp2 & _)|(Hp2 & U2 & (o' & HU2) & Hb2)]; rewrite (principals_same _ _ S) in Hp2; try done.
  apply implicit_caches in HU. apply (gr_cache _ _ (run_grows _ _ _ _ _ _ Hr)) in HU.
  rewrite (implicit_cached o' _ _ _ HU) in HU2. injection HU2 as _ <-.
  rewrite (authorized_same _ _ _ _ _ S) in Hb2. apply eq_true_iff_eq. by rewrite Hb, Hb2.
Qed.
Definition w18_ops : list op :=
  [ONewTenant "a"; OAddTenant 0; ONewTenant "b"; OAddTenant 1; ONewTenant "c"; OAddTenant 2;
   OAddNamespace "n"; OAddScope "s"; OAddPrincipal "ann";
   ONewRole "good"; OAddRole 0; ORoleAddPermission 0 "page" [Attr "/x/y" "GET"];
   ONewRole "bad"; OAddRole 1; ORoleAddPermission 1 "page" [Attr "/*/y" "GET"];
   OTenantAddPrincipal 0 "ann" false ["good"]; OTenantAddPrincipal 1 "ann" false ["bad"]].
Definition w18_request : opts := Opts (AStr "c") (AStr "n") (AStr "s") (AStr "page") (AStr "/x/y GET").
(** The same call, repeated, may return or never return, depending on the order in which Go
    visits the implicit tenants. *)
Lemma c18_refuted : exists st p q st1 o1 o2, reachable st
  /\ authorize o1 st p q = Ok (st1, true) /\ authorize o2 st1 p q = Hang.
Proof.
  exists (ops_state w18_ops), "ann", w18_request, (final (authorize rev_oracle (ops_state w18_ops) "ann" w18_request)),
    rev_oracle, id_oracle.
  split; [reach_ops w18_ops|]. split; [answered|vm_compute; reflexivity].
Qed.

(** ** C19 *)
Lemma implicit_reachable_bounds o st p st' U : reachable st -> m_cache st !! p = None ->
  get_implicit_tenants o st p = Ok (st', U) ->
  (forall t, own st p t -> t ∈ U)
  /\ (forall t, t ∈ U -> own st p t \/ exists t0, manages st p t0 /\ below st t0 t).
Proof. intros [W Hs]%reachable_hierarchy. by apply implicit_bounds. Qed.
Lemma implicit_reachable_exact o st p st' U : reachable st -> m_cache st !! p = None ->
  hierarchy_fresh st -> tenants_coherent st -> flags_agree st p ->
  get_implicit_tenants o st p = Ok (st', U) ->
  forall t, t ∈ U <-> own st p t \/ exists t0, manages st p t0 /\ below st t0 t.
Proof. intros [W Hs]%reachable_hierarchy Hc Hf Hco Hfl. by apply implicit_exact. Qed.
Lemma implicit_reachable_returns o st p : reachable st -> stringy_rows st ->
  (exists st' U, get_implicit_tenants o st p = Ok (st', U))
  \/ get_implicit_tenants o st p = Hang /\ manages_cycle st p.
Proof. intros W%reachable_wf. by apply implicit_returns. Qed.
Definition w19_ops : list op :=
  [ONewTenant "acme"; OAddTenant 0; ONewTenant "branch"; OAddTenant 1; OTenantAddDescendant 0 [1];
   OAddPrincipal "ann"; ONewRole "clerk"; OAddRole 0; ONewRole "boss"; OAddRole 1;
   OTenantAddPrincipal 0 "ann" false ["clerk"]; OTenantAddPrincipal 0 "ann" true ["boss"]].
Lemma c19_refuted : exists st p st1 st2 U1 U2, reachable st
  /\ get_implicit_tenants id_oracle st p = Ok (st1, U1) /\ get_implicit_tenants rev_oracle st p = Ok (st2, U2)
  /\ elements U1 = ["acme"] /\ "branch" ∈ elements U2
  /\ manages st p "acme" /\ below st "acme" "branch".
Proof.
  assert (H1 : elements <$> answer (get_implicit_tenants id_oracle (ops_state w19_ops) "ann") = Some ["acme"]) by (vm_compute; reflexivity).
  assert (H2 : (fun U => bool_decide ("branch" ∈ elements U)) <$> answer (get_implicit_tenants rev_oracle (ops_state w19_ops) "ann") = Some true)
    by (vm_compute; reflexivity).
  destruct (get_implicit_tenants id_oracle (ops_state w19_ops) "ann") as [[st1 U1]| |] eqn:E1; [|discriminate H1..].
  destruct (get_implicit_tenants rev_oracle (ops_state w19_ops) "ann") as [[st2 U2]| |] eqn:E2; [|discriminate H2..].
  exists (ops_state w19_ops), "ann", st1, st2, U1, U2. split; [reach_ops w19_ops|].
  cbn in H1, H2. injection H1 as H1. injection H2 as H2. apply bool_decide_eq_true in H2.
  split; [exact E1|]. split; [exact E2|]. clear E1 E2. split; [exact H1|]. split; [exact H2|]. split.
  - exists (Data (AStr "acme") ANil ANil (AStr "ann") (AStr "boss") (ABool true)). split; [|done].
    unfold stored. apply (bool_decide_unpack _). vm_compute. exact I.
  - exists 0, 1. split; [vm_compute; reflexivity|]. split; [|eexists; split; vm_compute; reflexivity].
    apply tc_once, tenant_edge_desc. eexists _, "branch". split; vm_compute; reflexivity.
Qed.
(** AddDescendant accepts cycles of tenants; then GetImplicitTenants never returns. *)
Definition w19b_ops : list op :=
  [ONewTenant "a"; OAddTenant 0; ONewTenant "b"; OAddTenant 1; OTenantAddDescendant 0 [1]; OTenantAddDescendant 1 [0];
   OAddPrincipal "ann"; ONewRole "clerk"; OAddRole 0; OTenantAddPrincipal 0 "ann" true ["clerk"]].
Lemma c19_hangs : reachable (ops_state w19b_ops)
  /\ get_implicit_tenants id_oracle (ops_state w19b_ops) "ann" = Hang
  /\ authorize id_oracle (ops_state w19b_ops) "ann" (tenant_only "a") = Hang.
Proof. split; [reach_ops w19b_ops|]. split; vm_compute; reflexivity. Qed.

(** ** C53 *)
Lemma run_stringy o i st ops st' outs : run o i st ops = Ok (st', outs) -> (exists log, logged st log) -> stringy_rows st ->
  (forall d, OAddData d ∈ ops -> stringy (tenant d) /\ stringy (role d)) -> stringy_rows st'.
Proof.
  revert i st outs. induction ops as [|x ops IH]; intros i st outs; simpl; [by intros [= <- <-]|].
  rewrite rbind_ok. intros ([st1 r1] & H1 & H) Hl Hs Hops. apply rbind_ok in H as ([st2 r2] & H2 & [= <- <-]).
  eapply IH; [exact H2|by eapply step_logged| |intros d Hd; apply Hops; by right].
  destruct Hl as [log Hl]. destruct (step_writes _ _ _ _ _ H1) as (new & Hw & F).
  intros d Hd. destruct (wrote_origin _ _ _ _ _ Hl Hw Hd) as [?|Hn]; [by apply Hs|].
  rewrite Forall_forall in F. destruct (F _ Hn) as [_ [->|?]]; [apply Hops; left|done].
Qed.
Lemma authorize_never_panics o ops st outs o' p q : run o 0 init_state ops = Ok (st, outs) ->
  (forall d, OAddData d ∈ ops -> stringy (tenant d) /\ stringy (role d)) -> stringy_request q ->
  authorize o' st p q <> Panic.
Proof.
  intros Hr Hops. apply authorize_no_panic.
  - apply reachable_wf. by exists o, ops, outs.
  - eapply run_stringy; [exact Hr|by exists []| |done]. intros d. vm_compute. intros H. inversion H.
Qed.
Lemma authorize_reachable_returns o st p q : reachable st -> stringy_rows st -> stringy_request q ->
  ~ manages_cycle st p -> decidable_roles st q -> exists st' b, authorize o st p q = Ok (st', b).
Proof. intros W%reachable_wf. by apply authorize_returns. Qed.
(** A row, or a request, with an integer where a string belongs makes Authorize panic. *)
Definition w53_ops : list op :=
  [OAddPrincipal "ann"; OAddData (Data (AInt 7) ANil ANil (AStr "ann") (AStr "r") ANil)].
Definition w53b_ops : list op :=
  [OAddPrincipal "ann"; OAddData (Data (AStr "t") ANil ANil (AStr "ann") (AStr "r") ANil)].
Lemma c53_refuted : exists st p q st2 q2, reachable st /\ stringy_request q /\ authorize id_oracle st p q = Panic
  /\ reachable st2 /\ stringy_rows st2 /\ authorize id_oracle st2 p q2 = Panic.
Proof.
  exists (ops_state w53_ops), "ann", (tenant_only "t"), (ops_state w53b_ops), (Opts (AInt 7) ANil ANil ANil ANil).
  split; [reach_ops w53_ops|]. split.
  { unfold stringy_request. split_and!; [right; by eexists|by left..]. }
  split; [vm_compute; reflexivity|]. split; [reach_ops w53b_ops|]. split; [|vm_compute; reflexivity].
  intros d Hd. eapply stored_list in Hd; [|vm_compute; reflexivity]. apply elem_of_list_singleton in Hd as ->.
  split; right; by eexists.
Qed.

(** ** C54 *)
(** AddPrincipal reports an error and yet leaves the first role granted. *)
Definition w54_ops : list op :=
  [ONewTenant "acme"; OAddTenant 0; OAddPrincipal "ann"; ONewRole "clerk"; OAddRole 0].
Lemma c54_refuted : exists st t p rs st' e, reachable st
  /\ tenant_add_principal st t p true rs = Ok (st', Some e)
  /\ (forall d, ~ stored st d) /\ exists d, stored st' d /\ principal d = AStr p.
Proof.
  exists (ops_state w54_ops), 0, "ann", ["clerk"; "nosuch"]. eexists _, _. split; [reach_ops w54_ops|].
  split; [vm_compute; reflexivity|]. split.
  - intros d Hd. eapply stored_list in Hd; [|vm_compute; reflexivity]. by apply elem_of_nil in Hd.
  - exists (Data (AStr "acme") ANil ANil (AStr "ann") (AStr "clerk") (ABool true)). split; [|done].
    unfold stored. vm_compute. left.
Qed.
