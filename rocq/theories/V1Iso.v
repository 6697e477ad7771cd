(** Methods of one tenant do not influence decisions about another one, unless they share a
    namespace object or identifiers contain underscores. *)
From Verif Require Import UtilsProofs V1Code V1Inv V1Auth.
From Verif Require Export V1IsoSpec V1Cor.

(** The parts of the state decisions about other tenants depend on. *)
Record frame (t : nat) (L : nat -> Prop) (A : string) (st st' : ustate) : Prop := {
  fr_heap : u_heap st' = u_heap st;
  fr_roles : u_roles st' = u_roles st;
  fr_principals : u_principals st' = u_principals st;
  fr_reg : u_reg st' = u_reg st;
  fr_tenants : forall l, l <> t -> u_tenants st' !! l = u_tenants st !! l;
  fr_nss : forall l, ~ L l -> u_nss st' !! l = u_nss st !! l;
  fr_rows : forall s : string, s ∈ u_rows st' <-> s ∈ u_rows st
      \/ (s ∈ u_rows st' /\ exists x, s = row_string x /\ tp_tenant x = A /\ clean (tp_principal x) /\ clean (tp_role x))
}.
Lemma frame_refl t L A st : frame t L A st st.
Proof. split; try done. intros s. split; [by left|]. by intros [?|[? _]]. Qed.
Lemma frame_trans t L A st1 st2 st3 : frame t L A st1 st2 -> frame t L A st2 st3 -> frame t L A st1 st3.
Proof.
  intros F G. split.
  - rewrite (fr_heap _ _ _ _ _ G). apply F.
  - rewrite (fr_roles _ _ _ _ _ G). apply F.
  - rewrite (fr_principals _ _ _ _ _ G). apply F.
  - rewrite (fr_reg _ _ _ _ _ G). apply F.
  - intros l Hl. by rewrite (fr_tenants _ _ _ _ _ G), (fr_tenants _ _ _ _ _ F).
  - intros l Hl. by rewrite (fr_nss _ _ _ _ _ G), (fr_nss _ _ _ _ _ F).
  - intros s. split.
    + intros Hs. destruct (proj1 (fr_rows _ _ _ _ _ G s) Hs) as [Hs2|[_ ?]]; [|by right].
      destruct (proj1 (fr_rows _ _ _ _ _ F s) Hs2) as [?|[_ ?]]; [by left|by right].
    + intros [Hs|[? _]]; [|done]. apply (fr_rows _ _ _ _ _ G s). left. apply (fr_rows _ _ _ _ _ F s). by left.
Qed.
Lemma frame_tenant t L A st c : frame t L A st (u_set_tenant st t c).
Proof.
  split; try done; [|intros s; split; [by left|]; by intros [?|[? _]]].
  intros l Hl. simpl. by apply list_lookup_insert_ne.
Qed.
Lemma frame_ns t (L : nat -> Prop) A st l m : L l -> frame t L A st (u_set_ns st l m).
Proof.
  intros HL. split; try done; [|intros s; split; [by left|]; by intros [?|[? _]]].
  intros l' Hl. simpl. apply list_lookup_insert_ne. by intros ->.
Qed.
Lemma frame_adds t L A st X st' : adds st X st' ->
  (forall x, X x -> tp_tenant x = A /\ clean (tp_principal x) /\ clean (tp_role x)) -> frame t L A st st'.
Proof.
  intros [E R] HX. rewrite E. split; try done. intros s. simpl. split.
  - intros Hs. destruct (proj1 (R s) Hs) as [?|(x & Hx & ->)]; [by left|right]. split; [done|]. exists x. split; [done|by apply HX].
  - intros [Hs|[? _]]; [|done]. apply R. by left.
Qed.
Lemma clean_empty : clean "".
Proof. apply not_elem_of_nil. Qed.

(** Loops: the tenant keeps its id, namespaces, roles and default namespace. *)
Definition same_tenant (c c' : utenant) : Prop :=
  ut_id c' = ut_id c /\ ut_namespaces c' = ut_namespaces c /\ ut_default c' = ut_default c.
Lemma frame_each {B} (f : ustate -> B -> res ustate) t L A c st xs st' : u_tenants st !! t = Some c ->
  (forall st1 c1 x st2, u_tenants st1 !! t = Some c1 -> same_tenant c c1 -> x ∈ xs -> f st1 x = Ok st2 ->
     frame t L A st1 st2 /\ exists c2, u_tenants st2 !! t = Some c2 /\ same_tenant c c2) ->
  u_each f st xs = Ok st' -> frame t L A st st'.
Proof.
  intros Hc Hf. assert (Hs : same_tenant c c) by by split_and!. revert Hs. generalize Hc. clear Hc.
  generalize c at 1 3 as c1. revert st. induction xs as [|x xs IH]; intros st c1 Hc Hs; simpl.
  - intros [= <-]. apply frame_refl.
  - rewrite rbind_ok. intros (st1 & H1 & H2). destruct (Hf st c1 x st1) as (F & c2 & Hc2 & Hs2); [done|done|by left|done|].
    eapply frame_trans; [exact F|]. eapply IH; [|exact Hc2|exact Hs2|exact H2]. intros. eapply Hf; try done. by right.
Qed.
Lemma frame_while {B} (f : ustate -> B -> res (option ustate)) t L A c st xs st' : u_tenants st !! t = Some c ->
  (forall st1 c1 x st2, u_tenants st1 !! t = Some c1 -> same_tenant c c1 -> x ∈ xs -> f st1 x = Ok (Some st2) ->
     frame t L A st1 st2 /\ exists c2, u_tenants st2 !! t = Some c2 /\ same_tenant c c2) ->
  u_while f st xs = Ok st' -> frame t L A st st'.
Proof.
  intros Hc Hf. assert (Hs : same_tenant c c) by by split_and!. revert Hs. generalize Hc. clear Hc.
  generalize c at 1 3 as c1. revert st. induction xs as [|x xs IH]; intros st c1 Hc Hs; simpl.
  - intros [= <-]. apply frame_refl.
  - rewrite rbind_ok. intros ([st1|] & H1 & H2); [|injection H2 as <-; apply frame_refl].
    destruct (Hf st c1 x st1) as (F & c2 & Hc2 & Hs2); [done|done|by left|done|].
    eapply frame_trans; [exact F|]. eapply IH; [|exact Hc2|exact Hs2|exact H2]. intros. eapply Hf; try done. by right.
Qed.
Lemma same_refl c : same_tenant c c.
Proof. by split_and!. Qed.

Lemma tenant_op_frame o st x st' y t c : u_wf st -> tenant_op x t -> clean_names x -> u_tenants st !! t = Some c ->
  ustep o st x = Ok (st', y) -> frame t (uses_ns c) (ut_id c) st st'.
Proof.
  intros W Hx Hn Hc. destruct x; try done; simpl in Hx; subst; cbn [ustep]; unfold uret; rewrite rbind_ok; intros (s1 & H & [= <- _]).
  - (* AddPrincipalRole *)
    simpl in Hn. destruct Hn as [Hp Hr]. assert (exists n, match ns with None => n = "" | Some l => exists m, u_nss st !! l = Some m /\ n = un_id m end) as (n & Hns).
    { unfold u_add_principal_role in H. rewrite Hc, rbind_ok in H. destruct H as (n & H & _). destruct ns as [l|]; [|by eexists].
      destruct (u_nss st !! l) as [m|]; [|done]. by exists (un_id m), m. }
    apply (adds_principal_role _ _ _ _ _ _ n _ _ _ Hc Hns) in H. eapply frame_adds; [exact H|]. by intros x ->.
  - eapply frame_each; [exact Hc| |exact H]. intros st1 c1 x st2 Hc1 Hs _ Hf. cbv beta in Hf. rewrite Hc1 in Hf.
    destruct (u_tenants st1 !! x) as [dc|]; [|done]. destruct (ut_desc c1 !! ut_id dc); injection Hf as <-.
    + split; [apply frame_refl|]. by exists c1.
    + split; [apply frame_tenant|]. eexists. split; [apply list_lookup_insert; by eapply lookup_lt_Some|]. done.
  - unfold ut_set_default in H. rewrite Hc in H. destruct (ut_namespaces c !! ns); injection H as <-; [apply frame_tenant|apply frame_refl].
  - assert (F : forall st1 st2 c1, u_tenants st1 !! t = Some c1 -> ut_add_namespace st1 t ns = Ok st2 -> frame t (uses_ns c) (ut_id c) st1 st2).
    { clear. unfold ut_add_namespace. induction ns as [|l ns IH]; intros st1 st2 c1 Hc1; simpl; [intros [= <-]; apply frame_refl|].
      rewrite Hc1. destruct (u_nss st1 !! l) as [n|]; [|done]. destruct (ut_namespaces c1 !! un_id n); cbn [rbind]; [by apply (IH _ _ c1)|].
      intros H. eapply frame_trans; [apply frame_tenant|]. eapply IH; [|exact H]. apply list_lookup_insert; by eapply lookup_lt_Some. }
    by eapply F.
  - eapply frame_each; [exact Hc| |exact H]. intros st1 c1 x st2 Hc1 Hs _ Hf. cbv beta in Hf. rewrite Hc1 in Hf.
    destruct (h_roles (u_heap st1) !! x); [|done]. injection Hf as <-. split; [apply frame_tenant|].
    eexists. split; [apply list_lookup_insert; by eapply lookup_lt_Some|]. done.
  - eapply frame_each; [exact Hc| |exact H]. intros st1 c1 x st2 Hc1 Hs _ Hf. cbv beta in Hf. rewrite Hc1 in Hf.
    set (c2 := UTenant _ _ _ _ _ _ _) in Hf. set (st3 := u_set_tenant st1 t c2) in *.
    assert (F : frame t (uses_ns c) (ut_id c) st1 st3) by apply frame_tenant.
    assert (Hc2 : u_tenants st3 !! t = Some c2) by (apply list_lookup_insert; by eapply lookup_lt_Some).
    assert (Hs2 : same_tenant c c2) by done.
    destruct (ut_default c1) as [l|] eqn:Hd; [|injection Hf as <-; split; [done|by exists c2]].
    unfold un_add_scope in Hf. destruct (u_nss st3 !! l) as [m|]; [|done]. injection Hf as <-. split; [|by exists c2].
    eapply frame_trans; [exact F|]. apply frame_ns. right. destruct Hs as (_ & _ & Hs). congruence.
  - eapply frame_while; [exact Hc| |exact H]. intros st1 c1 x st2 Hc1 Hs _ Hf. cbv beta in Hf. rewrite Hc1 in Hf.
    destruct (bool_decide (x ∈ ut_scopes c1)); [|done].
    pose proof Hs as (Hid & Hnss & _). destruct (ut_namespaces c1 !! ns) as [l|] eqn:Hl; [|injection Hf as <-; split; [apply frame_refl|by exists c1]].
    rewrite rbind_ok in Hf. destruct Hf as (st3 & H3 & Hf). rewrite rbind_ok in Hf. destruct Hf as (st4 & H4 & [= <-]).
    unfold un_add_scope in H3. destruct (u_nss st1 !! l) as [m|] eqn:Hm; [|done]. injection H3 as <-.
    apply (adds_t_principal_role _ _ _ _ _ c1 _ (un_id m)) in H4; [|done|].
    2: { eexists. split; [apply list_lookup_insert; by eapply lookup_lt_Some|done]. }
    split.
    + eapply frame_trans; [apply frame_ns|eapply frame_adds; [exact H4|]].
      * left. exists ns. congruence.
      * intros y0 ->. split_and!; [done|apply clean_empty|apply clean_empty].
    + exists c1. split; [|done]. by rewrite (base_tenants _ _ (adds_base _ _ _ H4)).
  - eapply frame_while; [exact Hc| |exact H]. intros st1 c1 x st2 Hc1 Hs _ Hf. cbv beta in Hf. rewrite Hc1 in Hf.
    destruct (bool_decide (x ∈ ut_roles c1)); [|done].
    pose proof Hs as (Hid & Hnss & _). destruct (ut_namespaces c1 !! ns) as [l|] eqn:Hl; [|done].
    rewrite rbind_ok in Hf. destruct Hf as (st3 & H3 & [= <-]).
    unfold un_add_role in H3. destruct (u_nss st1 !! l) as [m|] eqn:Hm; [|done]. injection H3 as <-.
    split; [apply frame_ns; left; exists ns; congruence|]. by exists c1.
  - simpl in Hn. destruct Hn as [Hp Hr]. eapply (add_principal_adds _ _ _ _ _ _ W Hc) in H. eapply frame_adds; [exact H|].
    intros x (r & Hin & _ & n & _ & ->). split_and!; [done|done|by apply Hr].
  - simpl in Hn. destruct Hn as [Hp Hr]. destruct (ut_namespaces c !! ns) as [l|] eqn:Hl.
    + destruct (uwf_ns _ W _ _ _ _ Hc Hl) as (m & Hm & _).
      apply (add_principal_in_namespace_adds _ _ _ _ _ _ _ _ _ _ W Hc Hl Hm) in H. eapply frame_adds; [exact H|].
      intros x (r & -> & Hx). split_and!; [done|done|]. simpl. destruct rs as [|r0 rs].
      * destruct Hx as [->|(b & (Hb & _) & _ & _ & <-)]; [apply clean_empty|by apply (assigned_clean _ _ Hb)].
      * destruct Hx as [Hx _]. by apply Hr.
    + unfold ut_add_principal_in_namespace in H. rewrite Hc, Hl in H. injection H as <-. apply frame_refl.
  - simpl in Hn. apply (assign_scopes_adds _ _ _ _ _ _ _ W Hc) in H. eapply frame_adds; [exact H|].
    intros x (b & (Hb & _) & s & _ & _ & [->|(n & _ & ->)]); (split_and!; [done|done|]); simpl;
      [apply clean_empty|by apply (assigned_clean _ _ Hb)].
  - simpl in Hn. destruct Hn as [Hp Hr]. apply (assign_scopes_with_role_adds _ _ _ _ _ _ _ _ W Hc) in H. eapply frame_adds; [exact H|].
    intros x (_ & _ & s & _ & _ & n & _ & ->). done.
Qed.

(** Rows of clean names are read with the tenant they were written for. *)
Lemma read_back_tenant x b : clean (tp_principal x) -> clean (tp_role x) -> clean (tp_tenant x) -> read_back x b -> tp_tenant b = tp_tenant x.
Proof.
  intros Hp Hr Ht Hb. apply row_parse_ok in Hb. unfold row_parse, row_string in Hb.
  rewrite bytes_under, split_app, bytes_under, split_app, bytes_under, split_app in Hb by done. cbn [fmap list_fmap] in Hb.
  rewrite !of_bytes_bytes in Hb.
  repeat match type of Hb with context [match ?l with _ => _ end] => destruct l; try done end; injection Hb as <-; done.
Qed.
Record same_for (B : string) (st st' : ustate) : Prop := {
  sf_heap : u_heap st' = u_heap st;
  sf_roles : u_roles st' = u_roles st;
  sf_principals : u_principals st' = u_principals st;
  sf_tenant : forall c, utenant_is st' B c <-> utenant_is st B c;
  sf_ns : forall c n m, utenant_is st B c -> has_namespace st' c n m <-> has_namespace st c n m;
  sf_rows : forall a, tp_tenant a = B -> assigned st' a <-> assigned st a
}.
Lemma frame_same t L A B st st' : clean A -> A <> B -> u_reg st !! B <> Some t ->
  (forall c n l, utenant_is st B c -> ut_namespaces c !! n = Some l -> ~ L l) -> frame t L A st st' -> same_for B st st'.
Proof.
  intros HA HAB Ht HL F. pose proof F as [F1 F2 F3 F4 F5 F6 F7]. split; try done.
  - intros c. unfold utenant_is. rewrite F4. split; intros (l & Hl & Hc); exists l; (split; [done|]); [rewrite <-F5|rewrite F5]; congruence.
  - intros c n m Hc. unfold has_namespace. split; intros (l & Hl & Hm); exists l; (split; [done|]); [rewrite <-F6|rewrite F6]; eauto.
  - intros a Ha. unfold assigned. split; intros (s & Hs & Hr); exists s; (split; [|done]).
    + apply F7 in Hs as [Hs|(_ & x & -> & Hx & Hp & Hrl)]; [done|].
      exfalso. apply HAB. rewrite <-Hx, <-Ha. symmetry. apply read_back_tenant; try done. by rewrite Hx.
    + apply F7. by left.
Qed.
Lemma same_member B st st' p a : same_for B st st' -> member st' p B a <-> member st p B a.
Proof.
  intros S. unfold member. split; intros (H & Hp & Ht); (split; [|done]); by apply (sf_rows _ _ _ S).
Qed.
Lemma same_place B st st' c n s : same_for B st st' -> utenant_is st B c -> place_exists st' c n s <-> place_exists st c n s.
Proof.
  intros S Hc. unfold place_exists. split; intros [H1 H2]; (split; [|done]); intros Hn; destruct (H1 Hn) as (m & Hm); exists m;
    by apply (sf_ns _ _ _ S).
Qed.
Lemma same_sym B st st' : same_for B st st' -> same_for B st' st.
Proof.
  intros S. split; [symmetry; apply S|symmetry; apply S|symmetry; apply S|..].
  - intros c. symmetry. apply S.
  - intros c n m Hc. symmetry. apply (sf_ns _ _ _ S). by apply (sf_tenant _ _ _ S).
  - intros a Ha. symmetry. by apply S.
Qed.
Lemma same_allowed B st st' c p n s r : same_for B st st' -> utenant_is st B c ->
  allowed_role st c p B n s r -> allowed_role st' c p B n s r.
Proof.
  intros S Hc. pose proof (same_sym _ _ _ S) as S'. pose proof (proj2 (sf_tenant _ _ _ S c) Hc) as Hc'.
  assert (Hres : ns_restricts st' c n <-> ns_restricts st c n).
  { unfold ns_restricts. split; intros (m & x & Hm & Hx); exists m, x; (split; [|done]); by apply (sf_ns _ _ _ S). }
  assert (Hcand : forall x, candidate st' c p B n s x <-> candidate st c p B n s x).
  { intros x. unfold candidate. rewrite Hres. setoid_rewrite (same_member B st st' p _ S).
    split; (intros [(m & Hm & Hx)|H]; [left; exists m; split; [by apply (sf_ns _ _ _ S)|done]|by right]). }
  intros [(H1 & H2 & H3 & H4) H5]. split; [|by apply Hcand]. split_and!.
  - by apply (same_place _ _ _ _ _ _ S Hc).
  - by setoid_rewrite (same_member B st st' p _ S).
  - intros m s' Hm. apply H3. by apply (sf_ns _ _ _ S).
  - intros x Hx. by apply H4, Hcand.
Qed.
Lemma same_grants B st st' p n s grp act : same_for B st st' ->
  complex_grants st p B n s grp act -> complex_grants st' p B n s grp act.
Proof.
  intros S (c & Hc & Hpl & a & Ha & (l & g & Hl & Ho & Hof)). pose proof (proj2 (sf_tenant _ _ _ S c) Hc) as Hc'.
  exists c. split_and!; [done|by apply (same_place _ _ _ _ _ _ S Hc)|]. exists a. split; [by apply (same_member _ _ _ _ _ S)|].
  exists l, g. rewrite (sf_roles _ _ _ S), (sf_heap _ _ _ S). split_and!; [done|done|].
  destruct Hof as [?|(d & gd & id & Hd & Hid & Had & Hod & Hofd)]; [by left|right]. exists d, gd, id. split_and!; try done.
  destruct Had as [Had|Had]; [left|right].
  - intros x Hx. apply (Had x). by apply (same_allowed _ _ _ _ _ _ _ _ (same_sym _ _ _ S)).
  - by apply (same_allowed _ _ _ _ _ _ _ _ S).
Qed.
Lemma same_decision o o' st st' p q b b' : u_wf st -> u_wf st' -> same_for (to_string (uo_tenant q)) st st' -> uo_tenant q <> ANil ->
  u_authorize o st p q = Ok b -> u_authorize o' st' p q = Ok b' -> b = b'.
Proof.
  intros W W' S Ht H H'.
  destruct (decide (p ∈ u_principals st)) as [Hp|Hp].
  2: { rewrite unknown_denied in H by done. rewrite unknown_denied in H' by (unfold known; by rewrite (sf_principals _ _ _ S)). congruence. }
  assert (Hp' : known st' p) by (unfold known; by rewrite (sf_principals _ _ _ S)).
  assert (Heq : forall P P' : Prop, (b = true <-> P) -> (b' = true <-> P') -> (P <-> P') -> b = b').
  { clear. intros P P' H1 H2 H3. destruct b, b'; try done; [symmetry|]; tauto. }
  destruct (decide (uo_group q = ANil /\ uo_activity q = ANil)) as [[Hg Ha]|Hn].
  - destruct q as [t n s g a]; cbn [uo_tenant uo_namespace uo_scope uo_group uo_activity] in *. subst g a.
    destruct (decide (n = ANil)) as [->|Hn], (decide (s = ANil)) as [->|Hs].
    + destruct (only_tenant o st p t Hp Ht W) as (x & Ex & Hx), (only_tenant o' st' p t Hp' Ht W') as (x' & Ex' & Hx').
      rewrite Ex in H. rewrite Ex' in H'. injection H as ->. injection H' as ->.
      apply (Heq _ _ Hx Hx'). split; intros (c & Hc); exists c; by apply S.
    + destruct (tenant_scope o st p t s Hp Ht Hs W) as (x & Ex & Hx), (tenant_scope o' st' p t s Hp' Ht Hs W') as (x' & Ex' & Hx').
      rewrite Ex in H. rewrite Ex' in H'. injection H as ->. injection H' as ->.
      apply (Heq _ _ Hx Hx'). by setoid_rewrite (same_member _ st st' p _ S).
    + destruct (tenant_namespace o st p t n Hp Ht Hn W) as (x & Ex & Hx), (tenant_namespace o' st' p t n Hp' Ht Hn W') as (x' & Ex' & Hx').
      rewrite Ex in H. rewrite Ex' in H'. injection H as ->. injection H' as ->.
      apply (Heq _ _ Hx Hx'). by setoid_rewrite (same_member _ st st' p _ S).
    + destruct (tenant_namespace_scope o st p t n s Hp Ht Hn Hs W) as (x & Ex & Hx), (tenant_namespace_scope o' st' p t n s Hp' Ht Hn Hs W') as (x' & Ex' & Hx').
      rewrite Ex in H. rewrite Ex' in H'. injection H as ->. injection H' as ->.
      apply (Heq _ _ Hx Hx'). split; intros (a & Hra & Hta & ?); exists a; (split; [|done]); by apply (sf_rows _ _ _ S a Hta).
  - assert (Hc : complex_request q).
    { destruct (decide (uo_group q = ANil)); [|by left]. right; left. split; [|by left]. intros E. by apply Hn. }
    apply complex_exact in H; [|done|done|done]. apply complex_exact in H'; [|done|done|done].
    apply (Heq _ _ H H'). unfold complex_of. split; apply same_grants; [done|by apply same_sym].
Qed.
Lemma c62_isolated o o1 o2 st x st' y t c p q b b' : ureachable st -> tenant_op x t -> clean_names x ->
  u_tenants st !! t = Some c -> clean (ut_id c) -> uo_tenant q <> ANil -> to_string (uo_tenant q) <> ut_id c ->
  (forall d n l, utenant_is st (to_string (uo_tenant q)) d -> ut_namespaces d !! n = Some l -> ~ uses_ns c l) ->
  ustep o st x = Ok (st', y) ->
  u_authorize o1 st p q = Ok b -> u_authorize o2 st' p q = Ok b' -> b = b'.
Proof.
  intros W%ureachable_wf Hx Hn Hc HA Ht Hne HL H. pose proof (step_good _ _ _ _ _ H W) as [W' _].
  apply same_decision; [done|done| |done].
  eapply (frame_same t (uses_ns c) (ut_id c)); [done|done| |done|by eapply tenant_op_frame].
  intros E. destruct (uwf_reg _ W _ _ E) as (c' & Hc' & Hid). congruence.
Qed.
