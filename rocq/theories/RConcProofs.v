(** Proofs about calls of Authorize made at the same time. *)
From Verif Require Export ImplicitProofs RootCor RDecProofs RConcSpec.

(** ** Authorize in two halves *)
Lemma authorize_split o st p q : rbind (authorize o st p q) (fun x => Ok x.2) =
  if negb (bool_decide (p ∈ m_principals st)) then Ok false else
  rbind (get_implicit_tenants (sub o 0) st p) (fun su => decide_from o su.1 su.2 p q).
Proof.
  unfold authorize, decide_from. destruct (negb _); [reflexivity|].
  destruct (get_implicit_tenants (sub o 0) st p) as [[st1 U]| |]; [|reflexivity|reflexivity]. cbn [rbind fst snd].
  destruct (bool_decide (U = ∅)); [reflexivity|].
  destruct (validate_resources st1 q) as [v| |]; [|reflexivity|reflexivity]. cbn [rbind]. destruct (negb v); [reflexivity|].
  destruct (authorize_one _ _ _ _ _ _) as [b| |]; [|reflexivity|reflexivity]. cbn [rbind]. destruct b; [reflexivity|].
  destruct (tenant_loop _ _ _ _ _ _ _ _) as [b'| |]; reflexivity.
Qed.
Lemma collect_loop_caches o i st hi ca p n s ts :
  collect_roles_ns_loop o i (with_cache (with_hierarchy st hi) ca) p n s ts = collect_roles_ns_loop o i st p n s ts.
Proof. revert i. induction ts as [|t ts IH]; intros i; cbn [collect_roles_ns_loop]; [reflexivity|]. rewrite IH. reflexivity. Qed.
Lemma any_role_caches o i st hi ca q al rs :
  any_role_has o i (with_cache (with_hierarchy st hi) ca) q al rs = any_role_has o i st q al rs.
Proof.
  revert i. induction rs as [|r rs IH]; intros i; cbn [any_role_has]; [reflexivity|]. rewrite IH. reflexivity.
Qed.
Lemma one_caches o st hi ca na p q f :
  authorize_one o (with_cache (with_hierarchy st hi) ca) na p q f = authorize_one o st na p q f.
Proof.
  unfold authorize_one. destruct na; [reflexivity|]. unfold check_activity, collect_roles_ns.
  rewrite collect_loop_caches. set (x := match f with FT => _ | _ => _ end). change (match f with FT => _ | _ => _ end) with x.
  destruct (is_nil _); [reflexivity|]. destruct (is_nil _); [reflexivity|]. destruct x as [ra| |]; [|reflexivity|reflexivity].
  cbn [rbind]. destruct ra.1; [reflexivity|]. apply any_role_caches.
Qed.
Lemma loop_caches o i st hi ca na p q f ts :
  tenant_loop o i (with_cache (with_hierarchy st hi) ca) na p q f ts = tenant_loop o i st na p q f ts.
Proof.
  revert i q. induction ts as [|t ts IH]; intros i q; cbn [tenant_loop]; [reflexivity|].
  rewrite !IH. rewrite one_caches. reflexivity.
Qed.
Lemma decide_caches o st st' U p q : same_but_caches st st' -> decide_from o st' U p q = decide_from o st U p q.
Proof.
  intros (hi & ca & ->). unfold decide_from. rewrite one_caches, loop_caches. reflexivity.
Qed.

(** ** Two sources of iteration orders in one *)
Definition which (o1 o2 : oracle) (a : list nat) : oracle := match a with 0 :: _ => o1 | _ => o2 end.
Definition graft (o1 o2 : oracle) : oracle :=
  Oracle (fun a => shuffle (which o1 o2 a) a) (fun a => shuffle_perm (which o1 o2 a) a).
Lemma graft_0 o1 o2 : sub (graft o1 o2) 0 = sub o1 0.
Proof. reflexivity. Qed.
Lemma graft_decide o1 o2 st U p q : decide_from (graft o1 o2) st U p q = decide_from o2 st U p q.
Proof. reflexivity. Qed.
(** Any order of the first half, as that of the first half of a call *)
Definition under (o : oracle) : oracle :=
  Oracle (fun a => shuffle o (tail a)) (fun a => shuffle_perm o (tail a)).
Lemma under_0 o : sub (under o) 0 = o.
Proof. destruct o. reflexivity. Qed.

(** ** Caches that hold nothing but what calls made alone would have put there *)
Definition exactly_below (st : state) (t : string) (ds : list any) : Prop :=
  forall x, x ∈ ds <-> exists d, x = AStr d /\ below st t d.
Definition kept_hierarchy (st st' : state) : Prop :=
  forall t, match m_hierarchy st !! t with
    | Some ds => m_hierarchy st' !! t = Some ds
    | None => forall ds, m_hierarchy st' !! t = Some ds ->
        exists tl, m_tenants st !! t = Some tl /\ tenants_acyclic st tl /\ exactly_below st t ds
    end.
Definition kept_cache (st st' : state) : Prop :=
  forall p, match m_cache st !! p with
    | Some U => m_cache st' !! p = Some U
    | None => forall U, m_cache st' !! p = Some U -> exists o st1, get_implicit_tenants o st p = Ok (st1, U)
    end.
Record kept (st st' : state) : Prop := { k_same : same_but_caches st st'; k_hierarchy : kept_hierarchy st st'; k_cache : kept_cache st st' }.
Lemma kept_refl st : kept st st.
Proof.
  split; [apply same_but_caches_refl| |].
  - intros t. destruct (m_hierarchy st !! t) eqn:E; [reflexivity|]. intros ds Hd. congruence.
  - intros p. destruct (m_cache st !! p) eqn:E; [reflexivity|]. intros U HU. congruence.
Qed.

Lemma descendants_exact o st t tl : state_wf st -> m_tenants st !! t = Some tl ->
  (exists ds, tenant_descendants o st tl = Ok ds /\ exactly_below st t ds) /\ tenants_acyclic st tl
  \/ tenant_descendants o st tl = Hang /\ ~ tenants_acyclic st tl.
Proof.
  intros W Ht. destruct (wf_m_tenants st W t tl Ht) as (c & Hc & _).
  destruct (tenant_descendants_exact o st tl W (mk_is_Some _ _ Hc)) as [[(ds & Hd & Hx) Ha]|[Hd Ha]]; [left|right; split; assumption].
  split; [|exact Ha]. exists ds. split; [exact Hd|]. intros x. rewrite Hx. unfold below. split.
  - intros (m & d & E & Hm & Hid). exists d. split; [exact E|]. exists tl, m. split_and!; assumption.
  - intros (d & E & tl' & m & Ht' & Hm & Hid). rewrite Ht in Ht'. injection Ht' as <-. exists m, d. split_and!; assumption.
Qed.
Lemma descendants_same o st st' tl : same_but_caches st st' -> tenant_descendants o st' tl = tenant_descendants o st tl.
Proof. intros (hi & ca & ->). reflexivity. Qed.
Lemma tenants_same st st' : same_but_caches st st' -> m_tenants st' = m_tenants st.
Proof. intros (hi & ca & ->). reflexivity. Qed.
Lemma principals_same st st' : same_but_caches st st' -> m_principals st' = m_principals st.
Proof. intros (hi & ca & ->). reflexivity. Qed.
Lemma search_same o st st' f ff : same_but_caches st st' -> search o st' f ff = search o st f ff.
Proof. intros (hi & ca & ->). reflexivity. Qed.

Lemma add_children_bad ex ds : match add_children ex ds with Ok _ => True | Panic => exists x, x ∈ ds /\ x <> ANil /\ (forall s, x <> AStr s) | Hang => False end.
Proof.
  revert ex. induction ds as [|x ds IH]; intros ex; cbn [add_children]; [exact I|].
  assert (step : forall e : gset string, match add_children e ds with Ok _ => True | Panic => exists y, y ∈ x :: ds /\ y <> ANil /\ (forall s, y <> AStr s) | Hang => False end).
  { intros e. specialize (IH e). destruct (add_children e ds); [exact I| |exact IH]. destruct IH as (y & Hy & H). exists y. split; [right; exact Hy|exact H]. }
  destruct x; [apply step|apply step| |]; (eexists; split; [left|]; split; [discriminate|intros s; discriminate]).
Qed.
Lemma add_children_strings ex ds : (forall x, x ∈ ds -> exists d, x = AStr d) -> exists ex', add_children ex ds = Ok ex'.
Proof.
  intros H. pose proof (add_children_bad ex ds) as B. destruct (add_children ex ds) as [ex'| |]; [exists ex'; reflexivity| |destruct B].
  destruct B as (x & Hx & _ & Hn). destruct (H x Hx) as [d ->]. destruct (Hn d eq_refl).
Qed.
Lemma add_children_set ex ds ds' : (forall x, x ∈ ds -> exists d, x = AStr d) -> (forall x, x ∈ ds <-> x ∈ ds') ->
  add_children ex ds = add_children ex ds'.
Proof.
  intros Hs Heq. destruct (add_children_strings ex ds Hs) as [e1 H1].
  destruct (add_children_strings ex ds') as [e2 H2]; [intros x Hx; apply Hs, Heq, Hx|].
  rewrite H1, H2. f_equal. apply leibniz_equiv. intros s. rewrite (add_children_ok _ _ _ H1), (add_children_ok _ _ _ H2), Heq. reflexivity.
Qed.

(** What TenantChildren returns depends on neither order nor what has been remembered meanwhile, up to the order of the list. *)
Definition kids_of (st : state) (t : string) (r : res (list any)) : Prop :=
  match r with
  | Ok ds => (forall x, x ∈ ds -> exists d, x = AStr d) /\
      match m_hierarchy st !! t with
      | Some ds0 => ds = ds0
      | None => match m_tenants st !! t with Some tl => tenants_acyclic st tl /\ exactly_below st t ds | None => ds = [] end
      end
  | Panic => False
  | Hang => m_hierarchy st !! t = None /\ exists tl, m_tenants st !! t = Some tl /\ ~ tenants_acyclic st tl
  end.
Lemma kids_unique st t r1 r2 : kids_of st t r1 -> kids_of st t r2 ->
  match r1, r2 with
  | Ok d1, Ok d2 => (forall x, x ∈ d1 -> exists d, x = AStr d) /\ (forall x, x ∈ d1 <-> x ∈ d2)
  | Hang, Hang => True
  | _, _ => False
  end.
Proof.
  unfold kids_of. destruct r1 as [d1| |], r2 as [d2| |]; try tauto.
  - intros [S1 H1] [S2 H2]. split; [exact S1|]. destruct (m_hierarchy st !! t); [subst; reflexivity|].
    destruct (m_tenants st !! t); [|subst; reflexivity]. destruct H1 as [_ H1], H2 as [_ H2]. intros x. rewrite (H1 x), (H2 x). reflexivity.
  - intros [S1 H1] (Hh & tl & Ht & Ha). rewrite Hh, Ht in H1. destruct H1 as [H1 _]. exact (Ha H1).
  - intros (Hh & tl & Ht & Ha) [S1 H1]. rewrite Hh, Ht in H1. destruct H1 as [H1 _]. exact (Ha H1).
Qed.
Lemma kids_hit st st' t ds : state_wf st -> kept st st' -> m_hierarchy st' !! t = Some ds -> kids_of st t (Ok ds).
Proof.
  intros W K H. pose proof (k_hierarchy _ _ K t) as Kh. unfold kids_of.
  destruct (m_hierarchy st !! t) as [ds0|] eqn:E.
  - rewrite Kh in H. injection H as <-. split; [|reflexivity]. intros x Hx. exact (wf_hierarchy st W t ds0 x E Hx).
  - destruct (Kh ds H) as (tl & Ht & Ha & Hx). rewrite Ht. split; [|split; assumption].
    intros x Hi. apply Hx in Hi as (d & -> & _). exists d. reflexivity.
Qed.
Lemma kids_miss st st' t : kept st st' -> m_hierarchy st' !! t = None -> m_hierarchy st !! t = None.
Proof.
  intros K H. pose proof (k_hierarchy _ _ K t) as Kh. destruct (m_hierarchy st !! t); [congruence|reflexivity].
Qed.
Lemma kids_none st st' t : kept st st' -> m_hierarchy st' !! t = None -> m_tenants st !! t = None -> kids_of st t (Ok []).
Proof.
  intros K H Ht. unfold kids_of. rewrite (kids_miss _ _ _ K H), Ht. split; [|reflexivity]. intros x Hx. apply elem_of_nil in Hx. destruct Hx.
Qed.
Lemma kids_computed o st t tl : state_wf st -> m_hierarchy st !! t = None -> m_tenants st !! t = Some tl ->
  kids_of st t (tenant_descendants o st tl).
Proof.
  intros W H Ht. destruct (descendants_exact o st t tl W Ht) as [[(ds & -> & Hx) Ha]|[-> Ha]]; unfold kids_of; rewrite H, ?Ht.
  - split; [|split; assumption]. intros x Hi. apply Hx in Hi as (d & -> & _). exists d. reflexivity.
  - split; [reflexivity|]. exists tl. split; [reflexivity|exact Ha].
Qed.
Lemma kept_set st st' t ds : kept st st' -> m_hierarchy st !! t = None -> kids_of st t (Ok ds) -> is_Some (m_tenants st !! t) ->
  kept st (with_hierarchy st' (<[t := compact ds]> (m_hierarchy st'))).
Proof.
  intros K H [_ Hk] [tl Ht]. rewrite H, Ht in Hk. destruct Hk as [Ha Hx]. split.
  - eapply same_but_caches_trans; [exact (k_same _ _ K)|]. eexists _, (m_cache st'). reflexivity.
  - intros t'. pose proof (k_hierarchy _ _ K t') as Kh. cbn [m_hierarchy with_hierarchy]. destruct (decide (t = t')) as [<-|Hne].
    + rewrite H. intros ds'. rewrite lookup_insert. intros [= <-]. exists tl. split_and!; [exact Ht|exact Ha|].
      intros x. rewrite elem_of_compact. apply Hx.
    + destruct (m_hierarchy st !! t'); rewrite lookup_insert_ne by exact Hne; exact Kh.
  - exact (k_cache _ _ K).
Qed.
Lemma kept_store st st' p U : kept st st' -> m_cache st !! p = None -> (exists o st1, get_implicit_tenants o st p = Ok (st1, U)) ->
  kept st (with_cache st' (<[p := U]> (m_cache st'))).
Proof.
  intros K H HU. split.
  - eapply same_but_caches_trans; [exact (k_same _ _ K)|]. eexists (m_hierarchy st'), _. destruct st'. reflexivity.
  - exact (k_hierarchy _ _ K).
  - intros p'. pose proof (k_cache _ _ K p') as Kc. cbn [m_cache with_cache]. destruct (decide (p = p')) as [<-|Hne].
    + rewrite H. intros U'. rewrite lookup_insert. intros [= <-]. exact HU.
    + destruct (m_cache st !! p'); rewrite lookup_insert_ne by exact Hne; exact Kc.
Qed.

(** ** One round of the loop, from any two such states *)
Lemma children_kids o st st' t : state_wf st -> kept st st' ->
  kids_of st t (rbind (tenant_children o st' t) (fun x => Ok x.2))
  /\ forall st'' ds, tenant_children o st' t = Ok (st'', ds) -> kept st st'' /\ m_cache st'' = m_cache st'.
Proof.
  intros W K. unfold tenant_children. destruct (m_hierarchy st' !! t) as [ds|] eqn:Eh.
  - split; [exact (kids_hit _ _ _ _ W K Eh)|]. intros st'' ds' [= <- <-]. split; [exact K|reflexivity].
  - rewrite (tenants_same _ _ (k_same _ _ K)). destruct (m_tenants st !! t) as [tl|] eqn:Et.
    + rewrite (descendants_same _ _ _ _ (k_same _ _ K)). pose proof (kids_miss _ _ _ K Eh) as Eh0.
      pose proof (kids_computed o st t tl W Eh0 Et) as Hk. destruct (tenant_descendants o st tl) as [ds| |]; cbn [rbind].
      * split; [exact Hk|]. intros st'' ds' [= <- <-]. split; [|reflexivity]. apply kept_set; [exact K|exact Eh0|exact Hk|rewrite Et; eexists; reflexivity].
      * split; [exact Hk|discriminate].
      * split; [exact Hk|discriminate].
    + split; [exact (kids_none _ _ _ K Eh Et)|]. intros st'' ds' [= <- <-]. split; [exact K|reflexivity].
Qed.
Definition second {A B} (x : res (A * B)) : res B := rbind x (fun y => Ok y.2).
(** The loop finds the same tenants whatever has been remembered meanwhile. *)
Lemma loop_kept o i st st1 st2 ex rs : state_wf st -> kept st st1 -> kept st st2 ->
  second (implicit_loop o i st1 ex rs) = second (implicit_loop o i st2 ex rs)
  /\ forall st' U, implicit_loop o i st1 ex rs = Ok (st', U) -> kept st st' /\ m_cache st' = m_cache st1.
Proof.
  intros W. revert i st1 st2 ex. induction rs as [|r rs IH]; intros i st1 st2 ex K1 K2; cbn [implicit_loop].
  - split; [reflexivity|]. intros st' U [= <- <-]. split; [exact K1|reflexivity].
  - destruct (tenant r) as [|t| |]; try (split; [reflexivity|discriminate]).
    destruct (bool_decide (t ∈ ex)); [apply IH; assumption|].
    destruct (manage r) as [| |[]|]; try (apply IH; assumption).
    destruct (children_kids (sub o i) st st1 t W K1) as [Q1 P1]. destruct (children_kids (sub o i) st st2 t W K2) as [Q2 P2].
    pose proof (kids_unique _ _ _ _ Q1 Q2) as Q. clear Q1 Q2.
    destruct (tenant_children (sub o i) st1 t) as [[st1' d1]| |], (tenant_children (sub o i) st2 t) as [[st2' d2]| |];
      cbn [rbind snd] in Q; try (destruct Q); try (split; [reflexivity|discriminate]).
    cbn [rbind fst snd]. rewrite (add_children_set _ d1 d2) by assumption. destruct (add_children _ d2) as [ex2| |]; cbn [rbind];
      try (split; [reflexivity|discriminate]). destruct (P1 _ _ eq_refl) as [K1' E1], (P2 _ _ eq_refl) as [K2' E2].
    destruct (IH (S i) st1' st2' ex2 K1' K2') as [H1 H2]. split; [exact H1|]. intros st' U HH. destruct (H2 st' U HH) as [Hk Hc].
    split; [exact Hk|congruence].
Qed.
Lemma implicit_kept o st st1 p : state_wf st -> kept st st1 ->
  (m_cache st1 !! p = None -> second (get_implicit_tenants o st1 p) = second (get_implicit_tenants o st p))
  /\ forall st' U, get_implicit_tenants o st1 p = Ok (st', U) -> kept st st' /\ exists o' st2, get_implicit_tenants o' st p = Ok (st2, U).
Proof.
  intros W K. pose proof (k_cache _ _ K p) as Kc. unfold get_implicit_tenants. rewrite (search_same _ _ _ _ _ (k_same _ _ K)).
  destruct (m_cache st1 !! p) as [U|] eqn:Ec.
  - split; [discriminate|]. intros st' U' [= <- <-]. split; [exact K|]. destruct (m_cache st !! p) as [U0|] eqn:E0.
    + exists o, st. congruence.
    + destruct (Kc U eq_refl) as (o' & st2 & H2). unfold get_implicit_tenants in H2. rewrite E0 in H2. exists o', st2. exact H2.
  - destruct (m_cache st !! p) as [U0|] eqn:E0; [discriminate|].
    set (rs := search _ _ _ _). destruct (loop_kept o 1 st st1 st ∅ rs W K (kept_refl st)) as [H1 H2].
    split.
    + intros _. destruct (implicit_loop o 1 st1 ∅ rs) as [[sa Ua]| |], (implicit_loop o 1 st ∅ rs) as [[sb Ub]| |]; cbn in H1 |- *; congruence.
    + intros st' U' H. apply rbind_ok in H as ([sa Ua] & Ha & [= <- <-]). destruct (H2 sa Ua Ha) as [Ka Ca].
      assert (Hex : exists st2, (let! se := implicit_loop o 1 st ∅ rs in Ok (with_cache se.1 (<[p:=se.2]> (m_cache se.1)), se.2)) = Ok (st2, Ua)).
      { rewrite Ha in H1. cbn in H1. destruct (implicit_loop o 1 st ∅ rs) as [[sb Ub]| |]; [|discriminate|discriminate].
        injection H1 as <-. eexists. reflexivity. }
      destruct Hex as [st2 Hex]. split; [|exists o, st2; exact Hex].
      apply kept_store; [exact Ka|exact E0|]. exists o, st2. unfold get_implicit_tenants. rewrite E0. exact Hex.
Qed.

(** ** The invariant of a run *)
Definition rows_of_call (o : oracle) (st : state) (p : string) : list data :=
  search (sub (sub o 0) 0) st (row_filter ANil ANil ANil (AStr p)) filter_tenants_by_principal.
Definition at_pc (st0 : state) (c : ask) (pc : kpc) : Prop :=
  let o := a_orders c in let p := a_principal c in let q := a_request c in
  match pc with
  | KBegin => True
  | KRows i ex rs => p ∈ m_principals st0 /\ m_cache st0 !! p = None /\
      exists st1, kept st0 st1 /\
        second (implicit_loop (sub o 0) 1 st0 ∅ (rows_of_call o st0 p)) = second (implicit_loop (sub o 0) i st1 ex rs)
  | KKeep i t ds ex rs => p ∈ m_principals st0 /\ m_cache st0 !! p = None /\
      m_hierarchy st0 !! t = None /\ kids_of st0 t (Ok ds) /\ is_Some (m_tenants st0 !! t) /\
      exists st1, kept st0 st1 /\
        second (implicit_loop (sub o 0) 1 st0 ∅ (rows_of_call o st0 p))
        = rbind (add_children ex ds) (fun ex2 => second (implicit_loop (sub o 0) (S i) st1 ex2 rs))
  | KDecide U => p ∈ m_principals st0 /\ exists o' st1, get_implicit_tenants o' st0 p = Ok (st1, U)
  | KDone r => (p ∉ m_principals st0 /\ r = Ok false)
      \/ (p ∈ m_principals st0 /\ exists U, (exists o' st1, get_implicit_tenants o' st0 p = Ok (st1, U)) /\ r = decide_from o st0 U p q)
      \/ (p ∈ m_principals st0 /\ m_cache st0 !! p = None /\ (r = Panic \/ r = Hang)
          /\ second (implicit_loop (sub o 0) 1 st0 ∅ (rows_of_call o st0 p)) = rbind r (fun _ => Panic))
  end.
Lemma after_children_pc st0 c i ex ds rs st1 :
  let o := a_orders c in let p := a_principal c in
  p ∈ m_principals st0 -> m_cache st0 !! p = None -> kept st0 st1 ->
  second (implicit_loop (sub o 0) 1 st0 ∅ (rows_of_call o st0 p))
  = rbind (add_children ex ds) (fun ex2 => second (implicit_loop (sub o 0) (S i) st1 ex2 rs)) ->
  at_pc st0 c (after_children i ex ds rs).
Proof.
  cbn zeta. intros Hp Hc K H. unfold after_children. destruct (add_children ex ds) as [ex2| |]; cbn [rbind] in H; cbn [at_pc].
  - split_and!; [exact Hp|exact Hc|]. exists st1. split; [exact K|exact H].
  - right. right. split_and!; [exact Hp|exact Hc|left; reflexivity|exact H].
  - right. right. split_and!; [exact Hp|exact Hc|right; reflexivity|exact H].
Qed.
Lemma kthread_inv st0 c st pc st' pc' : state_wf st0 -> kept st0 st -> at_pc st0 c pc ->
  kthread_step (a_orders c) (a_principal c) (a_request c) st pc = Some (st', pc') -> kept st0 st' /\ at_pc st0 c pc'.
Proof.
  intros W K. destruct c as [o p q]. cbn [a_orders a_principal a_request].
  destruct pc as [|i ex rs|i t ds ex rs|U|r]; cbn [kthread_step].
  - intros _. rewrite (principals_same _ _ (k_same _ _ K)), (search_same _ _ _ _ _ (k_same _ _ K)).
    case_bool_decide as Hp; cbn [negb].
    + pose proof (k_cache _ _ K p) as Kc. destruct (m_cache st !! p) as [U|] eqn:Ec; intros [= <- <-].
      * split; [exact K|]. cbn. split; [exact Hp|]. destruct (m_cache st0 !! p) as [U0|] eqn:E0.
        -- exists o, st0. rewrite (implicit_cached _ _ _ _ E0). congruence.
        -- exact (Kc U eq_refl).
      * split; [exact K|]. cbn. split; [exact Hp|]. split; [destruct (m_cache st0 !! p); [discriminate|reflexivity]|].
        exists st0. split; [apply kept_refl|reflexivity].
    + intros [= <- <-]. split; [exact K|]. left. split; [exact Hp|reflexivity].
  - intros (Hp & Hc & st1 & K1 & Hl). cbn [a_orders a_principal a_request] in Hp, Hc, Hl. destruct rs as [|r rs].
    + intros [= <- <-]. assert (HU : exists o' st1', get_implicit_tenants o' st0 p = Ok (st1', ex)).
      { exists (sub o 0). unfold get_implicit_tenants. rewrite Hc. fold (rows_of_call o st0 p).
        destruct (implicit_loop (sub o 0) 1 st0 ∅ (rows_of_call o st0 p)) as [[sa Ua]| |]; cbn in Hl; [|discriminate|discriminate].
        injection Hl as ->. eexists. reflexivity. }
      split; [apply kept_store; assumption|]. split; [exact Hp|exact HU].
    + cbn [implicit_loop] in Hl. destruct (tenant r) as [|t| |].
      1,3,4: intros [= <- <-]; split; [exact K|]; right; right; split_and!; [exact Hp|exact Hc|left; reflexivity|exact Hl].
      destruct (bool_decide (t ∈ ex)).
      { intros [= <- <-]. split; [exact K|]. split_and!; [exact Hp|exact Hc|]. exists st1. split; assumption. }
      assert (Hplain : second (implicit_loop (sub o 0) 1 st0 ∅ (rows_of_call o st0 p)) = second (implicit_loop (sub o 0) (S i) st1 ({[t]} ∪ ex) rs) ->
        Some (st, KRows (S i) ({[t]} ∪ ex) rs) = Some (st', pc') -> kept st0 st' /\ at_pc st0 (Ask o p q) pc').
      { intros Hl' [= <- <-]. split; [exact K|]. split_and!; [exact Hp|exact Hc|]. exists st1. split; assumption. }
      destruct (manage r) as [| |[]|]; [exact (Hplain Hl)|exact (Hplain Hl)| |exact (Hplain Hl)|exact (Hplain Hl)].
      clear Hplain. destruct (children_kids (sub (sub o 0) i) st0 st1 t W K1) as [Q1 P1].
      assert (Hkids : forall ds, kids_of st0 t (Ok ds) ->
        exists st2, kept st0 st2 /\ second (implicit_loop (sub o 0) 1 st0 ∅ (rows_of_call o st0 p))
          = rbind (add_children ({[t]} ∪ ex) ds) (fun ex2 => second (implicit_loop (sub o 0) (S i) st2 ex2 rs))).
      { intros ds Q2. pose proof (kids_unique _ _ _ _ Q1 Q2) as Q.
        destruct (tenant_children (sub (sub o 0) i) st1 t) as [[st1' d1]| |]; cbn [rbind snd] in Q; [|destruct Q|destruct Q].
        destruct Q as [Qs Qe]. exists st1'. split; [exact (proj1 (P1 _ _ eq_refl))|]. rewrite Hl. cbn [rbind fst snd].
        rewrite (add_children_set _ d1 ds Qs Qe). destruct (add_children _ ds); reflexivity. }
      destruct (m_hierarchy st !! t) as [ds|] eqn:Eh.
      * intros [= <- <-]. split; [exact K|]. destruct (Hkids ds (kids_hit _ _ _ _ W K Eh)) as (st2 & K2 & H2).
        exact (after_children_pc st0 (Ask o p q) i _ ds rs st2 Hp Hc K2 H2).
      * pose proof (kids_miss _ _ _ K Eh) as Eh0. rewrite (tenants_same _ _ (k_same _ _ K)). destruct (m_tenants st0 !! t) as [tl|] eqn:Et.
        -- rewrite (descendants_same _ _ _ _ (k_same _ _ K)). pose proof (kids_computed (sub (sub o 0) i) st0 t tl W Eh0 Et) as Hk.
           destruct (tenant_descendants (sub (sub o 0) i) st0 tl) as [ds| |].
           ++ intros [= <- <-]. split; [exact K|]. destruct (Hkids ds Hk) as (st2 & K2 & H2).
              split_and!; [exact Hp|exact Hc|exact Eh0|exact Hk|rewrite Et; eexists; reflexivity|]. exists st2. split; assumption.
           ++ destruct Hk.
           ++ intros [= <- <-]. split; [exact K|]. right. right. split_and!; [exact Hp|exact Hc|right; reflexivity|].
              pose proof (kids_unique _ _ _ _ Q1 Hk) as Q. unfold a_orders, a_principal. rewrite Hl.
              destruct (tenant_children (sub (sub o 0) i) st1 t) as [[st1' d1]| |]; cbn [rbind snd] in Q; [destruct Q|destruct Q|reflexivity].
        -- intros [= <- <-]. split; [exact K|]. destruct (Hkids [] (kids_none _ _ _ K Eh Et)) as (st2 & K2 & H2).
           split_and!; [exact Hp|exact Hc|]. exists st2. split; [exact K2|exact H2].
  - intros (Hp & Hc & Hh & Hk & Ht & st1 & K1 & Hl) [= <- <-]. split.
    + apply kept_set; assumption.
    + exact (after_children_pc st0 (Ask o p q) i _ ds rs st1 Hp Hc K1 Hl).
  - intros [Hp HU] [= <- <-]. split; [exact K|]. right. left. split; [exact Hp|]. exists U. split; [exact HU|].
    apply decide_caches. exact (k_same _ _ K).
  - discriminate.
Qed.
Definition all_at (st0 : state) (calls : list ask) (s : state * list kpc) : Prop :=
  kept st0 s.1 /\ Forall2 (at_pc st0) calls s.2.
Lemma kstep_inv st0 calls s i s' : state_wf st0 -> all_at st0 calls s -> kstep calls s i = Some s' -> all_at st0 calls s'.
Proof.
  intros W [K F] H. unfold kstep in H. apply bind_Some in H as (c & Hc & H2). apply bind_Some in H2 as (pc & Hpc & H3).
  apply bind_Some in H3 as ([st1 pc1] & Hs & [= <-]).
  destruct (Forall2_lookup_l _ _ _ _ _ F Hc) as (pc0 & Hpc0 & Hat). rewrite Hpc in Hpc0. injection Hpc0 as <-.
  destruct (kthread_inv st0 c s.1 pc st1 pc1 W K Hat Hs) as [K1 A1]. split; [exact K1|]. cbn [snd].
  rewrite <- (list_insert_id calls i c Hc). apply Forall2_insert; assumption.
Qed.
Lemma krun_inv st0 calls sched : forall s s', state_wf st0 -> all_at st0 calls s -> krun calls s sched = Some s' -> all_at st0 calls s'.
Proof.
  induction sched as [|i sched IH]; intros s s' W A H; cbn [krun] in H.
  - injection H as <-. exact A.
  - apply bind_Some in H as (s1 & H1 & H2). exact (IH s1 s' W (kstep_inv _ _ _ _ _ W A H1) H2).
Qed.
Lemma kmet_inv st0 calls st' pcs : state_wf st0 -> kmet st0 calls st' pcs -> kept st0 st' /\ Forall2 (at_pc st0) calls pcs.
Proof.
  intros W [sched H]. apply (krun_inv st0 calls sched (kstart st0 calls) (st', pcs) W); [|exact H].
  split; [apply kept_refl|]. cbn [kstart snd]. clear. induction calls as [|c cs IH]; cbn; constructor; [exact I|exact IH].
Qed.

(** ** Every call does what it could have done alone *)
Lemma implicit_second o st p : m_cache st !! p = None ->
  second (get_implicit_tenants (sub o 0) st p) = second (implicit_loop (sub o 0) 1 st ∅ (rows_of_call o st p)).
Proof.
  intros Hc. unfold get_implicit_tenants, rows_of_call. rewrite Hc. destruct (implicit_loop _ _ _ _ _) as [[? ?]| |]; reflexivity.
Qed.
Lemma may_graft o o' st p q U st1 : p ∈ m_principals st -> get_implicit_tenants o' st p = Ok (st1, U) ->
  rbind (authorize (graft (under o') o) st p q) (fun x => Ok x.2) = decide_from o st U p q.
Proof.
  intros Hp HU. rewrite authorize_split. rewrite bool_decide_eq_true_2 by exact Hp. cbn [negb]. rewrite graft_0, under_0, HU. cbn [rbind fst snd].
  rewrite (decide_caches _ st st1) by exact (implicit_same _ _ _ _ _ HU). apply graft_decide.
Qed.
Lemma done_alone st0 c r : at_pc st0 c (KDone r) -> alone_does st0 (a_principal c) (a_request c) r.
Proof.
  destruct c as [o p q]. intros [[Hp ->]|[(Hp & U & (o' & st1 & HU) & ->)|(Hp & Hc & Hr & Hl)]]; cbn [a_orders a_principal a_request] in *.
  - exists o. rewrite authorize_split, bool_decide_eq_false_2 by exact Hp. reflexivity.
  - exists (graft (under o') o). exact (may_graft o o' st0 p q U st1 Hp HU).
  - exists o. rewrite authorize_split, bool_decide_eq_true_2 by exact Hp. cbn [negb].
    pose proof (implicit_second o st0 p Hc) as E. rewrite Hl in E. destruct Hr as [-> | ->]; cbn [rbind] in E;
      destruct (get_implicit_tenants (sub o 0) st0 p) as [[? ?]| |]; cbn in E |- *; congruence.
Qed.
Lemma c95_alone st calls st' pcs i c r : reachable st -> kmet st calls st' pcs ->
  calls !! i = Some c -> pcs !! i = Some (KDone r) -> alone_does st (a_principal c) (a_request c) r.
Proof.
  intros R M Hc Hp. destruct (reachable_hierarchy st R) as [W _]. destruct (kmet_inv _ _ _ _ W M) as [_ F].
  apply done_alone. exact (Forall2_lookup_lr _ _ _ _ _ _ F Hc Hp).
Qed.
Lemma c95_only_caches st calls st' pcs : reachable st -> kmet st calls st' pcs -> same_but_caches st st'.
Proof. intros R M. destruct (reachable_hierarchy st R) as [W _]. exact (k_same _ _ (proj1 (kmet_inv _ _ _ _ W M))). Qed.
(** What is remembered afterwards for a principal is an answer GetImplicitTenants could have given at first. *)
Lemma c95_remembered st calls st' pcs p U : reachable st -> kmet st calls st' pcs -> m_cache st' !! p = Some U ->
  exists o st1, get_implicit_tenants o st p = Ok (st1, U).
Proof.
  intros R M HU. destruct (reachable_hierarchy st R) as [W _]. pose proof (k_cache _ _ (proj1 (kmet_inv _ _ _ _ W M)) p) as Kc.
  destruct (m_cache st !! p) as [U0|] eqn:E; [|exact (Kc U HU)]. exists id_oracle, st. rewrite (implicit_cached _ _ _ _ E). congruence.
Qed.

(** ** One call only *)
Lemma authorize_halves o st p q : authorize o st p q =
  if negb (bool_decide (p ∈ m_principals st)) then Ok (st, false) else
  rbind (get_implicit_tenants (sub o 0) st p) (fun su => rbind (decide_from o su.1 su.2 p q) (fun b => Ok (su.1, b))).
Proof.
  unfold authorize, decide_from. destruct (negb _); [reflexivity|].
  destruct (get_implicit_tenants (sub o 0) st p) as [[st1 U]| |]; [|reflexivity|reflexivity]. cbn [rbind fst snd].
  destruct (bool_decide (U = ∅)); [reflexivity|].
  destruct (validate_resources st1 q) as [v| |]; [|reflexivity|reflexivity]. cbn [rbind]. destruct (negb v); [reflexivity|].
  destruct (authorize_one _ _ _ _ _ _) as [b| |]; [|reflexivity|reflexivity]. cbn [rbind]. destruct b; [reflexivity|].
  destruct (tenant_loop _ _ _ _ _ _ _ _) as [b'| |]; reflexivity.
Qed.
Definition rest_of_rows (o : oracle) (p : string) (q : opts) (i : nat) (st : state) (ex : gset string) (rs : list data) : res (state * bool) :=
  let! se := implicit_loop (sub o 0) i st ex rs in
  let st2 := with_cache se.1 (<[p := se.2]> (m_cache se.1)) in
  let! b := decide_from o st2 se.2 p q in Ok (st2, b).
Definition solo (o : oracle) (p : string) (q : opts) (st : state) (pc : kpc) : res (state * bool) :=
  match pc with
  | KBegin => authorize o st p q
  | KRows i ex rs => rest_of_rows o p q i st ex rs
  | KKeep i t ds ex rs =>
      let! ex2 := add_children ex ds in
      rest_of_rows o p q (S i) (with_hierarchy st (<[t := compact ds]> (m_hierarchy st))) ex2 rs
  | KDecide U => let! b := decide_from o st U p q in Ok (st, b)
  | KDone r => let! b := r in Ok (st, b)
  end.
Lemma solo_children o p q i st ex ds rs :
  solo o p q st (after_children i ex ds rs) = rbind (add_children ex ds) (fun ex2 => rest_of_rows o p q (S i) st ex2 rs).
Proof. unfold after_children. destruct (add_children ex ds); reflexivity. Qed.
Lemma rest_cons o p q i st ex r rs : rest_of_rows o p q i st ex (r :: rs) =
  match tenant r with
  | AStr t =>
      if bool_decide (t ∈ ex) then rest_of_rows o p q (S i) st ex rs
      else match manage r with
           | ABool true => let! sd := tenant_children (sub (sub o 0) i) st t in
                           let! ex2 := add_children ({[t]} ∪ ex) sd.2 in rest_of_rows o p q (S i) sd.1 ex2 rs
           | _ => rest_of_rows o p q (S i) st ({[t]} ∪ ex) rs
           end
  | _ => Panic
  end.
Proof.
  unfold rest_of_rows at 1. cbn [implicit_loop]. destruct (tenant r) as [|t| |]; [reflexivity| |reflexivity|reflexivity].
  destruct (bool_decide (t ∈ ex)); [reflexivity|]. destruct (manage r) as [| |[]|]; [reflexivity|reflexivity| |reflexivity|reflexivity].
  destruct (tenant_children _ _ _) as [sd| |]; [|reflexivity|reflexivity]. cbn [rbind]. destruct (add_children _ _); reflexivity.
Qed.
Lemma solo_step o p q st pc st' pc' : kthread_step o p q st pc = Some (st', pc') -> solo o p q st pc = solo o p q st' pc'.
Proof.
  destruct pc as [|i ex rs|i t ds ex rs|U|r]; cbn [kthread_step].
  - cbn [solo]. rewrite authorize_halves. destruct (negb _); [intros [= <- <-]; reflexivity|]. unfold get_implicit_tenants.
    destruct (m_cache st !! p) as [U|]; intros [= <- <-]; [reflexivity|]. cbn [solo]. unfold rest_of_rows.
    destruct (implicit_loop _ _ _ _ _) as [[? ?]| |]; reflexivity.
  - destruct rs as [|r rs]; [intros [= <- <-]; reflexivity|]. cbn [solo]. rewrite rest_cons. destruct (tenant r) as [|t| |].
    1,3,4: intros [= <- <-]; reflexivity.
    destruct (bool_decide (t ∈ ex)); [intros [= <- <-]; reflexivity|].
    destruct (manage r) as [| |[]|]; try (intros [= <- <-]; reflexivity). unfold tenant_children.
    destruct (m_hierarchy st !! t) as [ds|]; [intros [= <- <-]; rewrite solo_children; reflexivity|].
    destruct (m_tenants st !! t) as [tl|]; [|intros [= <- <-]; reflexivity].
    destruct (tenant_descendants _ _ _) as [ds| |]; intros [= <- <-]; reflexivity.
  - intros [= <- <-]. rewrite solo_children. reflexivity.
  - intros [= <- <-]. reflexivity.
  - discriminate.
Qed.
Lemma solo_run c sched : forall st pc st' pc', krun [c] (st, [pc]) sched = Some (st', [pc']) ->
  solo (a_orders c) (a_principal c) (a_request c) st pc = solo (a_orders c) (a_principal c) (a_request c) st' pc'.
Proof.
  induction sched as [|i sched IH]; intros st pc st' pc' H; cbn [krun] in H.
  - injection H as <- <-. reflexivity.
  - apply bind_Some in H as ([st1 pcs1] & H1 & H2). unfold kstep in H1. apply bind_Some in H1 as (c' & Hc & H3).
    destruct i as [|i]; [|discriminate]. injection Hc as <-. cbn in H3. apply bind_Some in H3 as ([st2 pc2] & Hs & [= <- <-]).
    rewrite (solo_step _ _ _ _ _ _ _ Hs). exact (IH _ _ _ _ H2).
Qed.
Lemma c95_one_call st c st' r : kmet st [c] st' [KDone r] ->
  match r with
  | Ok b => authorize (a_orders c) st (a_principal c) (a_request c) = Ok (st', b)
  | Panic => authorize (a_orders c) st (a_principal c) (a_request c) = Panic
  | Hang => authorize (a_orders c) st (a_principal c) (a_request c) = Hang
  end.
Proof. intros [sched H]. apply (solo_run c sched st KBegin st') in H. cbn [solo] in H. rewrite H. destruct r; reflexivity. Qed.

(** ** Nobody waits *)
Definition pc_left (n : nat) (pc : kpc) : nat :=
  match pc with
  | KBegin => 2 * n + 3
  | KRows _ _ rs => 2 * length rs + 2
  | KKeep _ _ _ _ rs => 2 * length rs + 3
  | KDecide _ => 1
  | KDone _ => 0
  end.
Lemma rows_length o st p : length (search o st (row_filter ANil ANil ANil (AStr p)) filter_tenants_by_principal) = rows_count st p.
Proof. unfold rows_count, search, trie_search. rewrite !dfs_all. reflexivity. Qed.
Lemma left_children n i ex ds rs : pc_left n (after_children i ex ds rs) <= 2 * length rs + 2.
Proof. unfold after_children. destruct (add_children ex ds); cbn [pc_left]; lia. Qed.
Lemma left_step o p q st pc st' pc' : kthread_step o p q st pc = Some (st', pc') -> pc_left (rows_count st p) pc' < pc_left (rows_count st p) pc.
Proof.
  destruct pc as [|i ex rs|i t ds ex rs|U|r]; cbn [kthread_step].
  - destruct (negb _); [intros [= <- <-]; cbn; lia|]. destruct (m_cache st !! p); intros [= <- <-]; cbn [pc_left]; [lia|]. rewrite rows_length. lia.
  - destruct rs as [|r rs]; [intros [= <- <-]; cbn; lia|]. destruct (tenant r) as [|t| |].
    1,3,4: intros [= <- <-]; cbn; lia.
    destruct (bool_decide (t ∈ ex)); [intros [= <- <-]; cbn; lia|].
    destruct (manage r) as [| |[]|]; try (intros [= <- <-]; cbn; lia).
    destruct (m_hierarchy st !! t) as [ds|]; [intros [= <- <-]; pose proof (left_children (rows_count st p) i ({[t]} ∪ ex) ds rs); cbn [pc_left length] in *; lia|].
    destruct (m_tenants st !! t) as [tl|]; [|intros [= <- <-]; cbn; lia].
    destruct (tenant_descendants _ _ _) as [ds| |]; intros [= <- <-]; cbn; lia.
  - intros [= <- <-]. pose proof (left_children (rows_count st p) i ex ds rs). cbn [pc_left]. lia.
  - intros [= <- <-]. cbn. lia.
  - discriminate.
Qed.
Lemma rows_same st st' p : same_but_caches st st' -> rows_count st' p = rows_count st p.
Proof. intros (hi & ca & ->). reflexivity. Qed.
Lemma step_same o p q st pc st' pc' : kthread_step o p q st pc = Some (st', pc') -> same_but_caches st st'.
Proof.
  assert (R : same_but_caches st st) by apply same_but_caches_refl.
  destruct pc as [|i ex rs|i t ds ex rs|U|r]; cbn [kthread_step].
  - destruct (negb _); [intros [= <- <-]; exact R|]. destruct (m_cache st !! p); intros [= <- <-]; exact R.
  - destruct rs as [|r rs]; [intros [= <- <-]; eexists (m_hierarchy st), _; destruct st; reflexivity|]. destruct (tenant r) as [|t| |].
    1,3,4: intros [= <- <-]; exact R.
    destruct (bool_decide (t ∈ ex)); [intros [= <- <-]; exact R|].
    destruct (manage r) as [| |[]|]; try (intros [= <- <-]; exact R).
    destruct (m_hierarchy st !! t) as [ds|]; [intros [= <- <-]; exact R|].
    destruct (m_tenants st !! t) as [tl|]; [|intros [= <- <-]; exact R].
    destruct (tenant_descendants _ _ _) as [ds| |]; intros [= <- <-]; exact R.
  - intros [= <- <-]. eexists _, (m_cache st). reflexivity.
  - intros [= <- <-]. exact R.
  - discriminate.
Qed.
Lemma steps_bound calls i c sched : forall st pcs s' pc, calls !! i = Some c -> pcs !! i = Some pc -> krun calls (st, pcs) sched = Some s' ->
  steps_of i sched <= pc_left (rows_count st (a_principal c)) pc.
Proof.
  induction sched as [|j sched IH]; intros st pcs s' pc Hc Hp H; cbn [krun] in H; [cbn; lia|].
  apply bind_Some in H as ([st1 pcs1] & H1 & H2). unfold kstep in H1. apply bind_Some in H1 as (cj & Hcj & H3).
  apply bind_Some in H3 as (pcj & Hpj & H4). apply bind_Some in H4 as ([st2 pc2] & Hs & [= <- <-]). cbn [fst snd] in *.
  pose proof (rows_same _ _ (a_principal c) (step_same _ _ _ _ _ _ _ Hs)) as Er.
  unfold steps_of. destruct (decide (j = i)) as [->|Hne].
  - rewrite filter_cons_True by reflexivity. rewrite Hc in Hcj. injection Hcj as <-. rewrite Hp in Hpj. injection Hpj as <-.
    pose proof (left_step _ _ _ _ _ _ _ Hs) as Hl.
    pose proof (IH st2 (<[i := pc2]> pcs) s' pc2 Hc) as H. rewrite list_lookup_insert in H by (apply lookup_lt_is_Some; eexists; exact Hp).
    specialize (H eq_refl H2). unfold steps_of in H. rewrite Er in H. cbn [length]. lia.
  - rewrite filter_cons_False by exact Hne. pose proof (IH st2 (<[j := pc2]> pcs) s' pc Hc) as H.
    rewrite list_lookup_insert_ne in H by exact Hne. specialize (H Hp H2). unfold steps_of in H. rewrite Er in H. exact H.
Qed.
Lemma c95_bound st calls sched s' i c : calls !! i = Some c -> krun calls (kstart st calls) sched = Some s' ->
  steps_of i sched <= 2 * rows_count st (a_principal c) + 3.
Proof.
  intros Hc H. apply (steps_bound calls i c sched st (replicate (length calls) KBegin) s' KBegin Hc); [|exact H].
  apply lookup_replicate_2. apply lookup_lt_is_Some. eexists. exact Hc.
Qed.
Lemma c95_moves st calls i c pcs pc : calls !! i = Some c -> pcs !! i = Some pc -> ~ finished pc ->
  exists s', kstep calls (st, pcs) i = Some s'.
Proof.
  intros Hc Hp Hf. unfold kstep. rewrite Hc. cbn [fst snd mbind option_bind]. rewrite Hp. cbn [mbind option_bind].
  assert (T : exists x, kthread_step (a_orders c) (a_principal c) (a_request c) st pc = Some x).
  { destruct pc as [|i' ex rs|i' t ds ex rs|U|r]; cbn [kthread_step].
    - destruct (negb _); [eexists; reflexivity|]. destruct (m_cache st !! _); eexists; reflexivity.
    - destruct rs as [|r rs]; [eexists; reflexivity|]. destruct (tenant r) as [|t| |]; try (eexists; reflexivity).
      destruct (bool_decide (t ∈ ex)); [eexists; reflexivity|]. destruct (manage r) as [| |[]|]; try (eexists; reflexivity).
      destruct (m_hierarchy st !! t); [eexists; reflexivity|]. destruct (m_tenants st !! t); [|eexists; reflexivity].
      destruct (tenant_descendants _ _ _); eexists; reflexivity.
    - eexists; reflexivity.
    - eexists; reflexivity.
    - destruct Hf. eexists. reflexivity. }
  destruct T as [[st1 pc1] ->]. eexists. reflexivity.
Qed.

(** ** One after the other *)
Lemma settled_unique st p o1 st1 U1 o2 st2 U2 : state_wf st -> hierarchy_sound st -> settled st [] p ->
  get_implicit_tenants o1 st p = Ok (st1, U1) -> get_implicit_tenants o2 st p = Ok (st2, U2) -> U1 = U2.
Proof.
  intros W Hs Hset H1 H2. destruct (m_cache st !! p) as [U|] eqn:Hc.
  - rewrite (implicit_cached _ _ _ _ Hc) in H1. rewrite (implicit_cached _ _ _ _ Hc) in H2. congruence.
  - destruct Hset as [Hset|(Hf & Hco & Hag)]; [destruct (Hset Hc)|]. apply leibniz_equiv. intros t.
    rewrite (implicit_exact _ _ _ _ _ W Hs Hf Hco Hag Hc H1 t), (implicit_exact _ _ _ _ _ W Hs Hf Hco Hag Hc H2 t). reflexivity.
Qed.
Lemma authorize_state o st p q st' b : authorize o st p q = Ok (st', b) ->
  p ∉ m_principals st /\ st' = st \/ exists U, get_implicit_tenants (sub o 0) st p = Ok (st', U).
Proof.
  rewrite authorize_halves. case_bool_decide as Hp; cbn [negb].
  - intros H. right. apply rbind_ok in H as ([st1 U] & H1 & H2). cbn [fst snd] in H2. apply rbind_ok in H2 as (b' & _ & [= <- _]). exists U. exact H1.
  - intros [= <- _]. left. split; [exact Hp|reflexivity].
Qed.
Lemma authorize_kept st st1 o p q st2 b : state_wf st -> kept st st1 -> authorize o st1 p q = Ok (st2, b) -> kept st st2.
Proof.
  intros W K [[_ ->]|[U H]]%authorize_state; [exact K|]. exact (proj1 (proj2 (implicit_kept _ _ _ _ W K) _ _ H)).
Qed.
Lemma authorize_from o st p q st1 U b : p ∈ m_principals st -> get_implicit_tenants (sub o 0) st p = Ok (st1, U) ->
  decide_from o st U p q = Ok b -> authorize o st p q = Ok (st1, b).
Proof.
  intros Hp HU Hd. rewrite authorize_halves, bool_decide_eq_true_2 by exact Hp. cbn [negb]. rewrite HU. cbn [rbind fst snd].
  rewrite (decide_caches o st st1) by exact (implicit_same _ _ _ _ _ HU). rewrite Hd. reflexivity.
Qed.
Lemma again st st1 c b : state_wf st -> hierarchy_sound st -> settled st [] (a_principal c) -> kept st st1 -> at_pc st c (KDone (Ok b)) ->
  exists o st2, authorize o st1 (a_principal c) (a_request c) = Ok (st2, b) /\ kept st st2.
Proof.
  intros W Hs Hset K. destruct c as [o p q]. cbn [a_orders a_principal a_request] in *.
  intros [[Hp [= ->]]|[(Hp & U & (o' & st' & HU) & Hb)|(_ & _ & [Hr|Hr] & _)]]; [| |discriminate Hr|discriminate Hr].
  - cbn [a_principal] in Hp. exists o, st1. split; [|exact K]. rewrite authorize_halves, (principals_same _ _ (k_same _ _ K)), bool_decide_eq_false_2 by exact Hp. reflexivity.
  - cbn [a_orders a_principal a_request] in Hp, HU, Hb. symmetry in Hb.
    pose proof (decide_caches o st st1 U p q (k_same _ _ K)) as Hd. rewrite Hb in Hd.
    pose proof Hp as Hp1. rewrite <- (principals_same _ _ (k_same _ _ K)) in Hp1.
    assert (Ha : exists o2 st2, authorize o2 st1 p q = Ok (st2, b)).
    { destruct (m_cache st1 !! p) as [U1|] eqn:Ec.
      - destruct (proj2 (implicit_kept o st st1 p W K) st1 U1 (implicit_cached _ _ _ _ Ec)) as [_ (o2 & st2 & H2)].
        rewrite (settled_unique _ _ _ _ _ _ _ _ W Hs Hset HU H2) in Hd.
        exists o, st1. exact (authorize_from o st1 p q st1 U1 b Hp1 (implicit_cached _ _ _ _ Ec) Hd).
      - pose proof (proj1 (implicit_kept o' st st1 p W K) Ec) as E. rewrite HU in E. cbn in E.
        destruct (get_implicit_tenants o' st1 p) as [[st2 U2]| |] eqn:E2; [|discriminate|discriminate]. injection E as ->.
        exists (graft (under o') o), st2. apply (authorize_from _ st1 p q st2 U b Hp1); [rewrite graft_0, under_0; exact E2|rewrite graft_decide; exact Hd]. }
    destruct Ha as (o2 & st2 & Ha). exists o2, st2. split; [exact Ha|]. exact (authorize_kept _ _ _ _ _ _ _ W K Ha).
Qed.
Lemma c95_in_turn st calls st' pcs bs js : reachable st -> kmet st calls st' pcs -> (forall c, c ∈ calls -> settled st [] (a_principal c)) ->
  answers pcs bs -> fits_order st calls bs js.
Proof.
  intros R M Hset Ha. destruct (reachable_hierarchy st R) as [W Hs]. destruct (kmet_inv _ _ _ _ W M) as [_ F].
  assert (G : forall st1, kept st st1 -> exists st2, one_after_other st1 (asked <$> at_places calls js) (at_places bs js) st2).
  { induction js as [|j js IH]; intros st1 K; [exists st1; constructor|]. unfold at_places. cbn [omap list_omap].
    destruct (calls !! j) as [c|] eqn:Ec.
    - destruct (Forall2_lookup_l _ _ _ _ _ F Ec) as (pc & Hpc & Hat). unfold answers in Ha. rewrite Ha, list_lookup_fmap in Hpc.
      destruct (bs !! j) as [b|]; [|discriminate]. injection Hpc as <-.
      destruct (again st st1 c b W Hs (Hset c (elem_of_list_lookup_2 _ _ _ Ec)) K Hat) as (o & st2 & H2 & K2).
      destruct (IH st2 K2) as [st3 H3]. exists st3. cbn [fmap list_fmap]. exact (one_more o st1 _ _ st2 b _ _ st3 H2 H3).
    - assert (Eb : bs !! j = None).
      { apply lookup_ge_None. apply lookup_ge_None in Ec. apply Forall2_length in F. unfold answers in Ha. rewrite Ha, fmap_length in F. lia. }
      rewrite Eb. exact (IH st1 K). }
  exact (G st (kept_refl st)).
Qed.
Lemma authorized_same st st' U p q : same_but_caches st st' -> authorized st' U p q <-> authorized st U p q.
Proof. intros (hi & ca & ->). destruct st. reflexivity. Qed.
Lemma c95_repeats st calls st' pcs i c b o st2 b' : reachable st -> kmet st calls st' pcs -> settled st [] (a_principal c) ->
  calls !! i = Some c -> pcs !! i = Some (KDone (Ok b)) -> authorize o st' (a_principal c) (a_request c) = Ok (st2, b') -> b' = b.
Proof.
  intros R M Hset Hc Hp H. destruct (reachable_hierarchy st R) as [W Hs]. destruct (kmet_inv _ _ _ _ W M) as [K F].
  pose proof (Forall2_lookup_lr _ _ _ _ _ _ F Hc Hp) as Hat.
  destruct (again st st c b W Hs Hset (kept_refl st) Hat) as (o1 & st1 & H1 & _). set (p := a_principal c) in *. set (q := a_request c) in *.
  apply authorize_ok in H1 as [(-> & Hn & _)|(Hy & U1 & (o1' & HU1) & Hb1)]; apply authorize_ok in H as [(-> & Hn2 & _)|(Hy2 & U2 & (o2' & HU2) & Hb2)].
  - reflexivity.
  - rewrite (principals_same _ _ (k_same _ _ K)) in Hy2. destruct (Hn Hy2).
  - rewrite (principals_same _ _ (k_same _ _ K)) in Hn2. destruct (Hn2 Hy).
  - destruct (proj2 (implicit_kept _ _ _ _ W K) _ _ HU2) as [_ (o3 & st3 & HU3)].
    rewrite (settled_unique _ _ _ _ _ _ _ _ W Hs Hset HU3 HU1) in Hb2. rewrite (authorized_same _ _ _ _ _ (k_same _ _ K)) in Hb2.
    destruct b, b'; try reflexivity; [apply Hb2, Hb1; reflexivity|symmetry; apply Hb1, Hb2; reflexivity].
Qed.

(** Calls made one after the other with one request agree. *)
Lemma cached_agree st cs bs st2 p q U : one_after_other st cs bs st2 -> (forall c, c ∈ cs -> c = (p, q)) ->
  m_cache st !! p = Some U -> forall b, b ∈ bs -> (b = true <-> authorized st U p q).
Proof.
  intros H. induction H as [st|o st p' q' st1 b0 cs bs st2 H1 H2 IH]; intros Hall Hc b Hb; [apply elem_of_nil in Hb; destruct Hb|].
  assert (E : (p', q') = (p, q)) by (apply Hall; left). injection E as -> ->.
  pose proof (seq_cached st p U q b0 Hc (ex_intro _ o (ex_intro _ st1 H1))) as E0.
  apply elem_of_cons in Hb as [->|Hb]; [exact E0|].
  pose proof (authorize_same _ _ _ _ _ _ H1) as Hsame. rewrite <- (authorized_same _ _ U p q Hsame).
  apply (IH (fun c Hi => Hall c (elem_of_list_further _ _ _ Hi))); [|exact Hb].
  apply authorize_state in H1 as [[_ ->]|[U1 H1]]; [exact Hc|]. rewrite (implicit_cached _ _ _ _ Hc) in H1. injection H1 as <- _. exact Hc.
Qed.
Lemma turn_agree st cs bs st2 p q : one_after_other st cs bs st2 -> (forall c, c ∈ cs -> c = (p, q)) -> forall b b', b ∈ bs -> b' ∈ bs -> b = b'.
Proof.
  intros H Hall. destruct H as [st|o st p' q' st1 b0 cs bs st2 H1 H2]; [intros b b' Hb; apply elem_of_nil in Hb; destruct Hb|].
  assert (E : (p', q') = (p, q)) by (apply Hall; left). injection E as -> ->.
  assert (A : forall b, b ∈ bs -> b = b0).
  { intros b Hb. assert (Hall' : forall c, c ∈ cs -> c = (p, q)) by (intros c Hi; apply Hall; right; exact Hi).
    destruct (authorize_ok _ _ _ _ _ _ H1) as [(-> & Hn & ->)|(Hy & U & (o' & HU) & Hb0)].
    - clear Hall. induction H2 as [st|o2 st p' q' st1 b1 cs bs st2 H3 H4 IH]; [apply elem_of_nil in Hb; destruct Hb|].
      assert (E : (p', q') = (p, q)) by (apply Hall'; left). injection E as -> ->.
      apply authorize_ok in H3 as [(-> & _ & ->)|(Hy & _)]; [|destruct (Hn Hy)].
      apply elem_of_cons in Hb as [->|Hb]; [reflexivity|]. apply IH; [exact H1|exact Hb| |exact Hn]. intros c Hi. apply Hall'. right. exact Hi.
    - pose proof (implicit_caches _ _ _ _ _ HU) as Hc. pose proof (cached_agree _ _ _ _ p q U H2 Hall' Hc b Hb) as Hb1.
      rewrite (authorized_same _ _ U p q (implicit_same _ _ _ _ _ HU)) in Hb1. destruct b, b0; try reflexivity; [symmetry; apply Hb0, Hb1; reflexivity|apply Hb1, Hb0; reflexivity]. }
  intros b b' Hb Hb'. apply elem_of_cons in Hb as [->|Hb], Hb' as [->|Hb']; rewrite ?(A _ Hb), ?(A _ Hb'); reflexivity.
Qed.
Lemma disagree_no_order st calls p q bs js : (forall c, c ∈ calls -> asked c = (p, q)) -> length calls = length bs -> true ∈ bs -> false ∈ bs ->
  js ≡ₚ seq 0 (length calls) -> ~ fits_order st calls bs js.
Proof.
  intros Hall Hlen Ht Hf Hjs [st2 H].
  assert (A : forall b, b ∈ bs -> b ∈ at_places bs js).
  { intros b Hb. apply elem_of_list_lookup in Hb as [i Hi]. apply elem_of_list_omap. exists i. split; [|exact Hi].
    rewrite Hjs. apply elem_of_seq. apply lookup_lt_Some in Hi. lia. }
  assert (E : true = false); [|discriminate]. apply (turn_agree _ _ _ _ p q H); [|exact (A _ Ht)|exact (A _ Hf)].
  intros c Hc. apply elem_of_list_fmap in Hc as (a & -> & Ha). apply elem_of_list_omap in Ha as (j & _ & Hj). apply Hall. exact (elem_of_list_lookup_2 _ _ _ Hj).
Qed.
