(** Proofs about changed answers. *)
From Verif Require Import RootCor3 RootGrow HeldModel HeldSpec.

(** ** Nothing but GetImplicitTenants looks at the kept maps *)
Lemma one_cache o st ca na p q f : authorize_one o (with_cache st ca) na p q f = authorize_one o st na p q f.
Proof.
  assert (Hany : forall o i allowed roles, any_role_has o i (with_cache st ca) q allowed roles = any_role_has o i st q allowed roles).
  { intros o0 i allowed roles. revert i. induction roles as [|r roles IH]; intros i; [done|]. cbn [any_role_has].
    change (m_roles (with_cache st ca)) with (m_roles st). destruct (m_roles st !! r); [|apply IH].
    destruct (o_group q), (o_activity q); try done. change (s_heap (with_cache st ca)) with (s_heap st).
    destruct (role_has _ _ _ _ _ _) as [[]| |]; cbn; first [apply IH|done]. }
  assert (Hns : forall o i n s ts, collect_roles_ns_loop o i (with_cache st ca) p n s ts = collect_roles_ns_loop o i st p n s ts).
  { intros o0 i n s ts. revert i. induction ts as [|t ts IH]; intros i; [done|]. cbn [collect_roles_ns_loop]. rewrite IH. done. }
  unfold authorize_one. destruct na; [done|]. unfold check_activity. destruct (is_nil (o_group q)); [done|]. destruct (is_nil (o_activity q)); [done|].
  destruct f; unfold collect_roles_ns; rewrite ?Hns.
  all: match goal with |- rbind ?a _ = rbind ?b _ => change a with b; destruct b as [ra| |]; cbn [rbind]; try done end.
  all: destruct ra.1; [done|apply Hany].
Qed.
Lemma loop_cache o st ca na p f ts : forall i q, tenant_loop o i (with_cache st ca) na p q f ts = tenant_loop o i st na p q f ts.
Proof.
  induction ts as [|t ts IH]; intros i q; [done|]. cbn [tenant_loop]. destruct (any_eq _ _); [apply IH|].
  rewrite one_cache. destruct (authorize_one _ _ _ _ _ _) as [[]| |]; cbn; first [apply IH|done].
Qed.
Lemma children_cache o st ca t : tenant_children o (with_cache st ca) t = let! r := tenant_children o st t in Ok (with_cache r.1 ca, r.2).
Proof.
  unfold tenant_children. change (m_hierarchy (with_cache st ca)) with (m_hierarchy st). destruct (m_hierarchy st !! t); [done|].
  change (m_tenants (with_cache st ca)) with (m_tenants st). destruct (m_tenants st !! t); [|done].
  change (tenant_descendants o (with_cache st ca) n) with (tenant_descendants o st n). by destruct (tenant_descendants o st n).
Qed.
Lemma implicit_loop_with_cache o ca rs : forall i st ex,
  implicit_loop o i (with_cache st ca) ex rs = let! r := implicit_loop o i st ex rs in Ok (with_cache r.1 ca, r.2).
Proof.
  induction rs as [|r rs IH]; intros i st ex; [done|]. cbn [implicit_loop]. destruct (tenant r) as [|t| |]; try done.
  case_bool_decide; [apply IH|]. destruct (manage r) as [| |[]|]; try apply IH. rewrite children_cache.
  destruct (tenant_children (sub o i) st t) as [[st1 ds]| |]; cbn [rbind fst snd]; [|done|done].
  destruct (add_children _ ds) as [ex2| |]; cbn [rbind]; [apply IH|done|done].
Qed.
Lemma implicit_ca o st ca p : ca !! p = m_cache st !! p ->
  match get_implicit_tenants o st p, get_implicit_tenants o (with_cache st ca) p with
  | Ok (st1, U), Ok (st2, U') => U = U' /\ exists ca', st2 = with_cache st1 ca'
  | Panic, Panic | Hang, Hang => True
  | _, _ => False
  end.
Proof.
  intros Hc. unfold get_implicit_tenants. change (m_cache (with_cache st ca)) with ca. rewrite Hc. destruct (m_cache st !! p).
  { split; [done|]. by exists ca. }
  change (search (sub o 0) (with_cache st ca)) with (search (sub o 0) st). rewrite implicit_loop_with_cache.
  destruct (implicit_loop o 1 st ∅ _) as [[st1 U]| |]; cbn; [|done|done]. split; [done|]. by eexists.
Qed.
Lemma authorize_ca o st ca p q : ca !! p = m_cache st !! p ->
  match authorize o st p q, authorize o (with_cache st ca) p q with
  | Ok (st1, b), Ok (st2, b') => b = b'
  | Panic, Panic | Hang, Hang => True
  | _, _ => False
  end.
Proof.
  intros Hc. unfold authorize. change (m_principals (with_cache st ca)) with (m_principals st). destruct (negb _); [done|].
  pose proof (implicit_ca (sub o 0) st ca p Hc) as H.
  destruct (get_implicit_tenants (sub o 0) st p) as [[st1 U]| |], (get_implicit_tenants (sub o 0) (with_cache st ca) p) as [[st2 U']| |];
    cbn [rbind]; try done.
  destruct H as [<- [ca' ->]]. cbn [fst snd]. case_bool_decide; [done|].
  change (validate_resources (with_cache st1 ca') q) with (validate_resources st1 q).
  destruct (validate_resources st1 q) as [[]| |]; cbn [rbind negb]; try done.
  rewrite one_cache. destruct (authorize_one _ st1 _ _ _ _) as [[]| |]; cbn [rbind]; try done.
  rewrite loop_cache. destruct (tenant_loop _ _ _ _ _ _ _ _) as [[]| |]; cbn [rbind]; done.
Qed.
Lemma others_unaffected st p s st' p' : edit_tenants st p s = Some st' -> p' <> p -> same_verdicts st st' p'.
Proof.
  unfold edit_tenants. destruct (m_cache st !! p); [|done]. cbn [mbind option_bind]. intros [= <-] Hne o q b.
  pose proof (authorize_ca o st (<[p:=s]> (m_cache st)) p' q (lookup_insert_ne _ _ _ _ (not_eq_sym Hne))) as H.
  destruct (authorize o st p' q) as [[st1 b1]| |], (authorize o _ p' q) as [[st2 b2]| |]; try done.
  - split; intros [st3 [= <- <-]]; subst; by eexists.
Qed.

(** ** The verdicts about the principal whose map was changed *)
Lemma edited_cache st p s st' : edit_tenants st p s = Some st' -> m_cache st' !! p = Some s /\ same_but_caches st st'.
Proof.
  unfold edit_tenants. destruct (m_cache st !! p); [|done]. cbn. intros [= <-]. split; [apply lookup_insert|].
  exists (m_hierarchy st). eexists. by destruct st.
Qed.
Lemma edited_verdict st p s st' o q st1 b : edit_tenants st p s = Some st' ->
  authorize o st' p q = Ok (st1, b) -> (b = true <-> authorized st s p q).
Proof.
  intros [Hc Hs]%edited_cache Ha. apply authorize_ok in Ha as [(-> & Hn & _)|(_ & U & (o' & HU) & Hb)].
  - destruct Hs as (hi & ca & ->). split; [discriminate|]. intros [Hp _]. exact (False_ind _ (Hn Hp)).
  - rewrite (implicit_cached _ _ _ _ Hc) in HU. injection HU as <- <-. rewrite Hb. destruct Hs as (hi & ca & ->). done.
Qed.
Lemma edited_stays st p s st' o i ops st1 outs : edit_tenants st p s = Some st' -> run o i st' ops = Ok (st1, outs) ->
  m_cache st1 !! p = Some s.
Proof. intros [Hc _]%edited_cache Hr. exact (gr_cache _ _ (run_grows _ _ _ _ _ _ Hr) _ _ Hc). Qed.
Lemma edited_later st p s st' o i ops st1 outs o' q st2 b : edit_tenants st p s = Some st' -> run o i st' ops = Ok (st1, outs) ->
  authorize o' st1 p q = Ok (st2, b) -> (b = true <-> authorized st1 s p q).
Proof.
  intros He Hr Ha. pose proof (edited_stays _ _ _ _ _ _ _ _ _ He Hr) as Hc.
  apply authorize_ok in Ha as [(-> & Hn & _)|(_ & U & (o'' & HU) & Hb)].
  { split; [discriminate|]. intros [Hp _]. exact (False_ind _ (Hn Hp)). }
  rewrite (implicit_cached _ _ _ _ Hc) in HU. injection HU as <- <-. exact Hb.
Qed.
Lemma cleared st p st' o i ops st1 outs o' q st2 b : edit_tenants st p ∅ = Some st' -> run o i st' ops = Ok (st1, outs) ->
  authorize o' st1 p q = Ok (st2, b) -> b = false.
Proof. intros He Hr Ha. eapply cached_verdict; [|exact Ha]. by eapply edited_stays. Qed.

(** ** The list of TenantChildren *)
Lemma add_children_exact ds : forall ex U, add_children ex ds = Ok U -> U = ex ∪ strings ds.
Proof.
  induction ds as [|d ds IH]; intros ex U; cbn [add_children].
  - intros [= <-]. unfold strings. cbn. set_solver.
  - destruct d as [|t| |]; try done; intros H%IH; rewrite H; unfold strings; cbn; set_solver.
Qed.
Lemma loop_skip o rs t : (forall d, d ∈ rs -> tenant d = AStr t) -> forall i st ex, t ∈ ex -> implicit_loop o i st ex rs = Ok (st, ex).
Proof.
  induction rs as [|r rs IH]; intros Hrs i st ex Ht; [done|]. cbn [implicit_loop]. rewrite (Hrs r) by left.
  rewrite bool_decide_true by done. apply IH; [|done]. intros d Hd. apply Hrs. by right.
Qed.
Lemma edited_children_implicit st t ds st' p o st1 U : edit_children st t ds = Some st' -> m_cache st !! p = None ->
  own st p t -> (forall d, stored st d -> principal d = AStr p -> tenant d <> ANil -> tenant d = AStr t /\ manage d = ABool true) ->
  get_implicit_tenants o st' p = Ok (st1, U) -> U = {[t]} ∪ strings ds.
Proof.
  unfold edit_children. destruct (m_hierarchy st !! t) as [ds0|] eqn:Hh; [|done]. cbn [mbind option_bind]. case_bool_decide; [|done].
  intros [= <-] Hc (d0 & Hd0 & Hp0 & Ht0) Hall. unfold get_implicit_tenants.
  change (m_cache (with_hierarchy st (<[t:=ds]> (m_hierarchy st)))) with (m_cache st). rewrite Hc.
  change (search (sub o 0) (with_hierarchy st (<[t:=ds]> (m_hierarchy st)))) with (search (sub o 0) st).
  assert (Hrs : forall d, d ∈ search (sub o 0) st (row_filter ANil ANil ANil (AStr p)) filter_tenants_by_principal ->
    tenant d = AStr t /\ manage d = ABool true).
  { intros d (H1 & H2 & H3)%implicit_rows. by apply Hall. }
  assert (Hne : d0 ∈ search (sub o 0) st (row_filter ANil ANil ANil (AStr p)) filter_tenants_by_principal).
  { apply implicit_rows. rewrite Ht0. done. }
  destruct (search (sub o 0) st _ _) as [|r rs]; [by apply elem_of_nil in Hne|].
  cbn [implicit_loop]. destruct (Hrs r) as [Hr Hm]; [left|]. rewrite Hr, Hm. rewrite bool_decide_false by set_solver.
  unfold tenant_children. cbn [m_hierarchy with_hierarchy]. rewrite lookup_insert. cbn [rbind fst snd].
  destruct (add_children _ ds) as [ex2| |] eqn:Ha; cbn [rbind]; [|done|done]. apply add_children_exact in Ha. subst ex2.
  rewrite (loop_skip _ rs t); [|intros d Hd; apply (Hrs d); by right|set_solver]. cbn [rbind fst snd]. intros [= <- <-]. set_solver.
Qed.
Lemma edited_children_verdict st t ds st' p o q st1 b : edit_children st t ds = Some st' -> m_cache st !! p = None ->
  own st p t -> (forall d, stored st d -> principal d = AStr p -> tenant d <> ANil -> tenant d = AStr t /\ manage d = ABool true) ->
  authorize o st' p q = Ok (st1, b) -> (b = true <-> authorized st ({[t]} ∪ strings ds) p q).
Proof.
  intros He Hc Ho Hall Ha.
  assert (Hs : same_but_caches st st').
  { unfold edit_children in He. destruct (m_hierarchy st !! t); [|done]. cbn [mbind option_bind] in He. case_bool_decide; [|done].
    injection He as <-. exists (<[t:=ds]> (m_hierarchy st)), (m_cache st). reflexivity. }
  apply authorize_ok in Ha as [(-> & Hn & _)|(_ & U & (o' & HU) & Hb)].
  - destruct Hs as (hi & ca & ->). split; [discriminate|]. intros [Hp _]. exact (False_ind _ (Hn Hp)).
  - pose proof (edited_children_implicit _ _ _ _ _ _ _ _ He Hc Ho Hall HU) as ->. rewrite Hb. destruct Hs as (hi & ca & ->). done.
Qed.
(** A principal asked about before is not affected. *)
Lemma children_asked st t ds st' p U o q st1 b : edit_children st t ds = Some st' -> m_cache st !! p = Some U ->
  authorize o st' p q = Ok (st1, b) -> (b = true <-> authorized st U p q).
Proof.
  intros He Hc Ha. unfold edit_children in He. destruct (m_hierarchy st !! t); [|done]. cbn [mbind option_bind] in He. case_bool_decide; [|done].
  injection He as <-. apply authorize_ok in Ha as [(-> & Hn & _)|(_ & U' & (o' & HU) & Hb)].
  { split; [discriminate|]. intros [Hp _]. exact (False_ind _ (Hn Hp)). }
  rewrite (implicit_cached _ _ _ U) in HU by exact Hc. injection HU as <- <-. exact Hb.
Qed.
