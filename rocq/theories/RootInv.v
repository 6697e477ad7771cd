(** The invariant [state_wf] holds in every reachable state. *)
From Verif Require Export RootSpec AuthProofs.

(** ** Heaps only grow *)
Definition heap_le (h h' : rheap) : Prop :=
  (forall l id, has_id h l id -> has_id h' l id)
  /\ (forall gl g, h_groups h !! gl = Some g -> exists g', h_groups h' !! gl = Some g' /\ g_id g' = g_id g).

Lemma tc_mono {A} (R R' : A -> A -> Prop) : (forall a b, R a b -> R' a b) -> forall a b, tc R a b -> tc R' a b.
Proof. intros H a b Hab. induction Hab as [a b Hr|a b c Hr _ IH]; [apply tc_once|eapply tc_l]; eauto. Qed.
Lemma heap_le_refl h : heap_le h h.
Proof. split; [done|]. intros gl g H. by exists g. Qed.

Lemma set_role_lookup h l r r' l' : h_roles h !! l = Some r' ->
  h_roles (set_role h l r) !! l' = if decide (l = l') then Some r else h_roles h !! l'.
Proof.
  intros H. simpl. destruct (decide (l = l')) as [<-|].
  - apply list_lookup_insert. by apply lookup_lt_is_Some_1; eexists.
  - by apply list_lookup_insert_ne.
Qed.
Lemma set_group_lookup h l g g' l' : h_groups h !! l = Some g' ->
  h_groups (set_group h l g) !! l' = if decide (l = l') then Some g else h_groups h !! l'.
Proof.
  intros H. simpl. destruct (decide (l = l')) as [<-|].
  - apply list_lookup_insert. by apply lookup_lt_is_Some_1; eexists.
  - by apply list_lookup_insert_ne.
Qed.

Lemma heap_le_set_role h l r r' : h_roles h !! l = Some r' -> r_id r = r_id r' -> heap_le h (set_role h l r).
Proof.
  intros H Hid. split.
  - intros l' id (r0 & H0 & <-). unfold has_id. rewrite (set_role_lookup _ _ _ _ _ H).
    destruct (decide (l = l')) as [<-|]; [|by eexists]. exists r. split; [done|]. congruence.
  - intros gl g Hg. by exists g.
Qed.
Lemma heap_le_set_group h l g g' : h_groups h !! l = Some g' -> g_id g = g_id g' -> heap_le h (set_group h l g).
Proof.
  intros H Hid. split; [done|].
  intros gl g0 H0. rewrite (set_group_lookup _ _ _ _ _ H).
  destruct (decide (l = gl)) as [<-|]; [|by eexists]. exists g. split; [done|]. congruence.
Qed.

(** Changing one role or one group keeps well-formedness if the new object is fine. *)
Lemma wf_set_role h l r r' : wf_heap h -> h_roles h !! l = Some r' -> r_id r = r_id r' ->
  (forall k d, r_desc r !! k = Some d -> has_id h d k) ->
  (forall k gl, r_perms r !! k = Some gl -> exists g, h_groups h !! gl = Some g /\ g_id g = k) ->
  wf_heap (set_role h l r).
Proof.
  intros (W1 & W2 & W3) H Hid Hd Hp. pose proof (heap_le_set_role _ _ _ _ H Hid) as [L1 L2].
  split_and!.
  - intros l' r0 k d H0 Hk. apply L1. rewrite (set_role_lookup _ _ _ _ _ H) in H0.
    destruct (decide (l = l')); simplify_eq; eauto.
  - intros l' r0 k gl H0 Hk. rewrite (set_role_lookup _ _ _ _ _ H) in H0.
    destruct (decide (l = l')); simplify_eq; eauto.
  - done.
Qed.
Lemma wf_set_group h l g g' : wf_heap h -> h_groups h !! l = Some g' -> g_id g = g_id g' ->
  (forall k a, g_perms g !! k = Some a -> k = attr_string a) ->
  wf_heap (set_group h l g).
Proof.
  intros (W1 & W2 & W3) H Hid Hp. split_and!.
  - done.
  - intros l' r k gl Hr Hk. destruct (W2 _ _ _ _ Hr Hk) as (g0 & Hg0 & <-).
    rewrite (set_group_lookup _ _ _ _ _ H). destruct (decide (l = gl)) as [<-|]; [|by eexists].
    exists g. split; [done|]. congruence.
  - intros gl g0 k a Hg Hk. rewrite (set_group_lookup _ _ _ _ _ H) in Hg.
    destruct (decide (l = gl)); simplify_eq; eauto.
Qed.

Lemma has_id_app h l id rs gs : has_id h l id -> has_id (RHeap (h_roles h ++ rs) gs) l id.
Proof. intros (r & H & ?). exists r. split; [by apply lookup_app_l_Some|done]. Qed.

Lemma wf_new_role h id : wf_heap h -> wf_heap (new_role h id).2 /\ heap_le h (new_role h id).2.
Proof.
  intros (W1 & W2 & W3). split; [|split; [intros; by apply has_id_app|intros gl g Hg; by exists g]].
  split_and!; simpl.
  - intros l r k d Hr Hk. apply has_id_app. apply lookup_app_Some in Hr as [Hr|[_ Hr]]; [eauto|].
    apply list_lookup_singleton_Some in Hr as [_ <-]. by simpl in Hk; rewrite lookup_empty in Hk.
  - intros l r k gl Hr Hk. apply lookup_app_Some in Hr as [Hr|[_ Hr]]; [eauto|].
    apply list_lookup_singleton_Some in Hr as [_ <-]. by simpl in Hk; rewrite lookup_empty in Hk.
  - done.
Qed.
Lemma wf_add_group h l rs g : wf_heap h ->
  (forall k a, g_perms g !! k = Some a -> k = attr_string a) ->
  rs = h_roles h \/ (exists r, h_roles h !! l = Some r
     /\ rs = <[l := Role (r_id r) (r_lock r) (<[g_id g := length (h_groups h)]> (r_perms r)) (r_desc r)]> (h_roles h)) ->
  wf_heap (RHeap rs (h_groups h ++ [g])) /\ heap_le h (RHeap rs (h_groups h ++ [g])).
Proof.
  intros (W1 & W2 & W3) Hg Hrs.
  assert (Hids : forall l id, has_id h l id -> has_id (RHeap rs (h_groups h ++ [g])) l id).
  { intros l' id (r0 & H0 & <-). destruct Hrs as [->|(r & Hr & ->)]; [by eexists|].
    unfold has_id. simpl. destruct (decide (l = l')) as [<-|].
    - eexists. split; [apply list_lookup_insert; by eapply lookup_lt_Some|]. simpl. congruence.
    - exists r0. by rewrite list_lookup_insert_ne. }
  assert (Hgs : forall gl g0, h_groups h !! gl = Some g0 -> (h_groups h ++ [g]) !! gl = Some g0).
  { intros gl g0 H0. by apply lookup_app_l_Some. }
  split; [|split; [done|intros gl g0 H0; exists g0; by split; [apply Hgs|]]].
  split_and!; simpl.
  - intros l' r' k d Hr' Hk. apply Hids. destruct Hrs as [->|(r & Hr & ->)]; [eauto|].
    apply list_lookup_insert_Some in Hr' as [(-> & <- & _)|[_ Hr']]; eauto.
  - intros l' r' k gl Hr' Hk. destruct Hrs as [->|(r & Hr & ->)].
    + destruct (W2 _ _ _ _ Hr' Hk) as (g0 & ? & ?). eauto.
    + apply list_lookup_insert_Some in Hr' as [(-> & <- & _)|[_ Hr']].
      * simpl in Hk. apply lookup_insert_Some in Hk as [[<- <-]|[_ Hk]].
        -- exists g. split; [|done]. by apply list_lookup_middle.
        -- destruct (W2 _ _ _ _ Hr Hk) as (g0 & ? & ?). eauto.
      * destruct (W2 _ _ _ _ Hr' Hk) as (g0 & ? & ?). eauto.
  - intros gl g0 k a Hg0 Hk. apply lookup_app_Some in Hg0 as [Hg0|[_ Hg0]]; [eauto|].
    apply list_lookup_singleton_Some in Hg0 as [_ <-]. eauto.
Qed.
Lemma wf_new_group h id : wf_heap h -> wf_heap (new_group h id).2 /\ heap_le h (new_group h id).2.
Proof.
  intros W. apply (wf_add_group h 0); [done| |by left].
  intros k a H. simpl in H. by rewrite lookup_empty in H.
Qed.

Lemma add_attributes_keys (m : gmap string attr) attrs :
  (forall k a, m !! k = Some a -> k = attr_string a) ->
  forall k a, foldl (fun m a => <[attr_string a := a]> m) m attrs !! k = Some a -> k = attr_string a.
Proof.
  revert m. induction attrs as [|a0 attrs IH]; intros m Hm; [done|]. simpl. apply IH.
  intros k a H. apply lookup_insert_Some in H as [[<- <-]|[_ H]]; eauto.
Qed.
Lemma add_missing_keys (m : gmap string attr) attrs :
  (forall k a, m !! k = Some a -> k = attr_string a) ->
  forall k a, add_missing m attrs !! k = Some a -> k = attr_string a.
Proof.
  unfold add_missing. revert m. induction attrs as [|a0 attrs IH]; intros m Hm; [done|]. simpl. apply IH.
  intros k a H. destruct (m !! attr_string a0); [eauto|].
  apply lookup_insert_Some in H as [[<- <-]|[_ H]]; eauto.
Qed.

Lemma wf_add_attributes h gl attrs h' : wf_heap h -> add_attributes h gl attrs = Ok h' ->
  wf_heap h' /\ heap_le h h'.
Proof.
  intros W. unfold add_attributes. destruct (h_groups h !! gl) as [g|] eqn:Hg; [|done]. intros [= <-].
  split; [|by eapply heap_le_set_group]. eapply wf_set_group; [done|done|done|].
  apply add_attributes_keys. destruct W as (_ & _ & W3). eauto.
Qed.
Lemma wf_set_lock h l b h' : wf_heap h -> role_set_lock h l b = Ok h' -> wf_heap h' /\ heap_le h h'.
Proof.
  intros W. unfold role_set_lock. destruct (h_roles h !! l) as [r|] eqn:Hr; [|done]. intros [= <-].
  split; [|by eapply heap_le_set_role]. pose proof W as (W1 & W2 & _).
  eapply wf_set_role; [done|done|done|simpl; eauto|simpl; eauto].
Qed.
Lemma add_descendants_loop_ids h desc ds desc' :
  (forall k d, desc !! k = Some d -> has_id h d k) ->
  add_descendants_loop h desc ds = Ok desc' -> forall k d, desc' !! k = Some d -> has_id h d k.
Proof.
  revert desc. induction ds as [|d ds IH]; intros desc Hd; simpl; [by intros [= <-]|].
  destruct (h_roles h !! d) as [c|] eqn:Hc; [|done]. apply IH.
  intros k d' H. destruct (desc !! r_id c); [eauto|].
  apply lookup_insert_Some in H as [[<- <-]|[_ H]]; [by exists c|eauto].
Qed.
Lemma wf_add_descendant h l ds h' e : wf_heap h -> role_add_descendant h l ds = Ok (h', e) ->
  wf_heap h' /\ heap_le h h'.
Proof.
  intros W. unfold role_add_descendant. destruct (h_roles h !! l) as [r|] eqn:Hr; [|done].
  pose proof W as (W1 & W2 & _).
  destruct (r_lock r); [intros [= <- <-]; split; [done|apply heap_le_refl]|].
  rewrite rbind_ok. intros (desc & Hdesc & [= <- <-]). split; [|by eapply heap_le_set_role].
  eapply wf_set_role; [done|done|done| |simpl; eauto]. simpl.
  eapply add_descendants_loop_ids; [|done]. eauto.
Qed.
Lemma wf_add_permission h l grp attrs h' e : wf_heap h -> role_add_permission h l grp attrs = Ok (h', e) ->
  wf_heap h' /\ heap_le h h'.
Proof.
  intros W. unfold role_add_permission. destruct (h_roles h !! l) as [r|] eqn:Hr; [|done].
  pose proof W as (W1 & W2 & W3).
  destruct (r_lock r) eqn:Hlock; [intros [= <- <-]; split; [done|apply heap_le_refl]|].
  destruct (r_perms r !! grp) as [gl|] eqn:Hgrp.
  - destruct (h_groups h !! gl) as [g|] eqn:Hg; [|done]. intros [= <- <-].
    split; [|by eapply heap_le_set_group]. eapply wf_set_group; [done|done|done|].
    apply add_missing_keys. eauto.
  - intros [= <- <-]. apply (wf_add_group h l); [done| |].
    + apply add_missing_keys. intros k a H. by rewrite lookup_empty in H.
    + right. exists r. by rewrite Hlock.
Qed.
Lemma wf_role_add_group h l gl h' e : wf_heap h -> role_add_group h l gl = Ok (h', e) ->
  wf_heap h' /\ heap_le h h'.
Proof.
  intros W. unfold role_add_group. destruct (h_roles h !! l) as [r|] eqn:Hr; [|done].
  pose proof W as (W1 & W2 & W3).
  destruct (r_lock r); [intros [= <- <-]; split; [done|apply heap_le_refl]|].
  destruct (h_groups h !! gl) as [g|] eqn:Hg; [|done].
  destruct (r_perms r !! g_id g); intros [= <- <-]; [split; [done|apply heap_le_refl]|].
  split; [|by eapply heap_le_set_role]. eapply wf_set_role; [done|done|done|simpl; eauto|].
  intros k gl' H. simpl in H. apply lookup_insert_Some in H as [[<- <-]|[_ H]]; [by exists g|eauto].
Qed.

(** ** States *)
Lemma wf_with_heap st h : state_wf st -> wf_heap h -> heap_le (s_heap st) h -> state_wf (with_heap st h).
Proof.
  intros [W1 W2 W3 W4 W5 W6 W7 W8] Hh [L1 L2]. split; simpl; try done.
  - eauto.
  - intros id l H. apply W3 in H as (g & Hg & <-). apply L2 in Hg as (g' & ? & ?). eauto.
Qed.
Lemma wf_add_data st d : state_wf st -> state_wf (add_data st d).
Proof. intros [W1 W2 W3 W4 W5 W6 W7 W8]. by split. Qed.

Lemma tenant_lookup_set st l c c' l' : s_tenants st !! l = Some c' ->
  s_tenants (set_tenant st l c) !! l' = if decide (l = l') then Some c else s_tenants st !! l'.
Proof.
  intros H. simpl. destruct (decide (l = l')) as [<-|].
  - apply list_lookup_insert. by eapply lookup_lt_Some.
  - by apply list_lookup_insert_ne.
Qed.
Lemma wf_set_tenant st l c c' : state_wf st -> s_tenants st !! l = Some c' ->
  t_id c = t_id c' -> (t_managed c' = true -> t_managed c = true) ->
  (forall k d, t_desc c !! k = Some d -> tenant_id_at st d k) ->
  (forall n, t_default c = Some n -> n ∈ m_namespaces st) ->
  state_wf (set_tenant st l c).
Proof.
  intros [W1 W2 W3 W4 W5 W6 W7 W8] Hl Hid Hm Hd Hn.
  assert (Hids : forall d k, tenant_id_at st d k -> tenant_id_at (set_tenant st l c) d k).
  { intros d k (c0 & H0 & <-). unfold tenant_id_at. rewrite (tenant_lookup_set _ _ _ _ _ Hl).
    destruct (decide (l = d)) as [<-|]; [|by eexists]. exists c. split; [done|congruence]. }
  split; try done.
  - intros id l' H. apply W5 in H as (c0 & H0 & <- & Hmm). rewrite (tenant_lookup_set _ _ _ _ _ Hl).
    destruct (decide (l = l')) as [<-|]; [|by eexists]. exists c. simplify_eq. auto.
  - intros l' c0 k d H Hk. apply Hids. rewrite (tenant_lookup_set _ _ _ _ _ Hl) in H.
    destruct (decide (l = l')); simplify_eq; eauto.
  - intros l' c0 n H Hn0. rewrite (tenant_lookup_set _ _ _ _ _ Hl) in H.
    destruct (decide (l = l')); simplify_eq; simpl; eauto.
Qed.

Lemma managed_ok st t c : managed_tenant st t = Ok c <-> s_tenants st !! t = Some c /\ t_managed c = true.
Proof.
  unfold managed_tenant. destruct (s_tenants st !! t) as [c'|]; [|by split; [|intros [? ?]]].
  destruct (t_managed c') eqn:E; split.
  - by intros [= <-].
  - by intros [[= <-] _].
  - done.
  - intros [[= <-] ?]. congruence.
Qed.

(** [pres P f]: [f] keeps [P] when it returns. *)
Lemma repeat_op_pres {A} (P : state -> Prop) (f : state -> A -> res state) st xs st' :
  (forall st x st', P st -> f st x = Ok st' -> P st') ->
  P st -> repeat_op f st xs = Ok st' -> P st'.
Proof.
  intros Hf. revert st. induction xs as [|x xs IH]; intros st HP; simpl; [by intros [= <-]|].
  rewrite rbind_ok. intros (st1 & H1 & H2). eauto.
Qed.
Lemma until_error_pres {A} (P : state -> Prop) (f : state -> A -> res (state * goerr)) st xs st' e :
  (forall st x st' e, P st -> f st x = Ok (st', e) -> P st') ->
  P st -> until_error f st xs = Ok (st', e) -> P st'.
Proof.
  intros Hf. revert st. induction xs as [|x xs IH]; intros st HP; simpl; [by intros [= <- <-]|].
  rewrite rbind_ok. intros ([st1 [e1|]] & H1 & H2); simplify_eq; eauto.
Qed.

Lemma add_namespace_pres (P : state -> Prop) st t n st' : (forall st d, P st -> P (add_data st d)) ->
  P st -> tenant_add_namespace st t n = Ok st' -> P st'.
Proof. intros HP Hst. unfold tenant_add_namespace. rewrite rbind_ok. intros (c & _ & [= <-]). auto. Qed.

Lemma wf_set_default st t n st' : state_wf st -> tenant_set_default st t n = Ok st' -> state_wf st'.
Proof.
  intros W. unfold tenant_set_default. rewrite rbind_ok. intros (c & Hc & [= <-]).
  case_bool_decide as Hn; [|done]. apply managed_ok in Hc as [Hc Hm].
  eapply wf_set_tenant; [done|done|done|done| |].
  - intros k d Hk. simpl in Hk. exact (wf_t_desc _ W _ _ _ _ Hc Hk).
  - simpl. intros n' [= <-]. done.
Qed.
Lemma wf_tenant_add_descendants st t ds st' : state_wf st -> tenant_add_descendants st t ds = Ok st' -> state_wf st'.
Proof.
  revert st. induction ds as [|d ds IH]; intros st W; simpl; [by intros [= <-]|].
  destruct (s_tenants st !! t) as [c|] eqn:Hc; [|done].
  destruct (s_tenants st !! d) as [dc|] eqn:Hd; [|done]. rewrite rbind_ok. intros (st2 & H2 & H).
  assert (W1 : state_wf (match t_desc c !! t_id dc with
             | Some _ => st
             | None => set_tenant st t (Tenant (t_id c) (<[t_id dc := d]> (t_desc c)) (t_default c) (t_managed c))
             end)).
  { destruct (t_desc c !! t_id dc); [done|]. eapply wf_set_tenant; [done|done|done|done| |].
    - intros k d' Hk. simpl in Hk. apply lookup_insert_Some in Hk as [[<- <-]|[_ Hk]]; [by exists dc|].
      exact (wf_t_desc _ W _ _ _ _ Hc Hk).
    - intros n Hn. exact (wf_t_default _ W _ _ _ Hc Hn). }
  eapply IH; [|done]. destruct (t_default c) as [n|]; [|by simplify_eq].
  unfold pass_default in H2. apply rbind_ok in H2 as (st3 & H3 & H4).
  eapply wf_set_default; [|done]. eapply add_namespace_pres; [|done|done]. apply wf_add_data.
Qed.

Lemma tenant_descendants_strs o st t ds x : tenant_descendants o st t = Ok ds -> x ∈ ds -> exists s, x = AStr s.
Proof.
  unfold tenant_descendants. rewrite rbind_ok. intros (l & _ & [= <-]) Hx.
  apply elem_of_list_fmap in Hx as (s & -> & _). by exists s.
Qed.

Lemma wf_tenant_children o st t st' ds : state_wf st -> tenant_children o st t = Ok (st', ds) ->
  state_wf st' /\ forall x, x ∈ ds -> exists s, x = AStr s.
Proof.
  intros W. unfold tenant_children. destruct (m_hierarchy st !! t) as [ds'|] eqn:Hh.
  { intros [= <- <-]. split; [done|]. intros x Hx. exact (wf_hierarchy _ W _ _ _ Hh Hx). }
  destruct (m_tenants st !! t) as [tl|].
  2:{ intros [= <- <-]. split; [done|]. intros x Hx. by apply elem_of_nil in Hx. }
  rewrite rbind_ok. intros (ds' & Hds & [= <- <-]).
  assert (Hs : forall x, x ∈ ds' -> exists s, x = AStr s) by (intros x; by eapply tenant_descendants_strs).
  split; [|done]. destruct W as [W1 W2 W3 W4 W5 W6 W7 W8]. split; try done. simpl.
  intros t' ds0 x H Hx. apply lookup_insert_Some in H as [[<- <-]|[_ H]]; [|eauto].
  apply Hs. by apply elem_of_compact.
Qed.
Lemma wf_implicit_loop o i st ex rs st' U : state_wf st -> implicit_loop o i st ex rs = Ok (st', U) -> state_wf st'.
Proof.
  revert i st ex. induction rs as [|r rs IH]; intros i st ex W; simpl; [by intros [= <- <-]|].
  destruct (tenant r) as [|t| |]; try done. case_bool_decide; [by eapply IH|].
  destruct (manage r) as [| |[]|]; try by eapply IH.
  rewrite rbind_ok. intros ([st1 ds] & H1 & Hl). apply rbind_ok in Hl as (ex2 & _ & Hl).
  eapply IH; [|done]. by eapply wf_tenant_children.
Qed.
Lemma wf_with_cache st ca : state_wf st -> state_wf (with_cache st ca).
Proof. intros [W1 W2 W3 W4 W5 W6 W7 W8]. by split. Qed.
Lemma wf_implicit o st p st' U : state_wf st -> get_implicit_tenants o st p = Ok (st', U) -> state_wf st'.
Proof.
  intros W. unfold get_implicit_tenants. destruct (m_cache st !! p); [by intros [= <- <-]|].
  rewrite rbind_ok. intros ([st1 U'] & H & [= <- <-]). apply wf_with_cache. by eapply wf_implicit_loop.
Qed.
Lemma authorize_state o st p q st' b : authorize o st p q = Ok (st', b) ->
  st' = st \/ exists U, get_implicit_tenants (sub o 0) st p = Ok (st', U).
Proof.
  unfold authorize. case_bool_decide; simpl; [|intros [= <- <-]; by left].
  rewrite rbind_ok. intros ([st1 U] & H1 & Hl). simpl in Hl. right. exists U.
  case_bool_decide; [by simplify_eq|]. apply rbind_ok in Hl as (v & _ & Hl).
  destruct v; simpl in Hl; [|by simplify_eq]. apply rbind_ok in Hl as (b1 & _ & Hl).
  destruct b1; [by simplify_eq|]. apply rbind_ok in Hl as (b2 & _ & Hl). by simplify_eq.
Qed.

Lemma state_wf_init : state_wf init_state.
Proof.
  split; simpl.
  all: try (intros *; rewrite ?lookup_empty, ?lookup_nil; done).
Qed.

Lemma step_wf o st x st' r : state_wf st -> step o st x = Ok (st', r) -> state_wf st'.
Proof.
  intros W. destruct x; simpl.
  - intros [= <- <-]. destruct (wf_new_role (s_heap st) id) as [? ?]; [apply W|]. by apply wf_with_heap.
  - intros [= <- <-]. destruct (wf_new_group (s_heap st) id) as [? ?]; [apply W|]. by apply wf_with_heap.
  - intros [= <- <-]. destruct W as [W1 W2 W3 W4 W5 W6 W7 W8].
    assert (Hids : forall d k, tenant_id_at st d k -> tenant_id_at (new_tenant st id).2 d k).
    { intros d k (c & Hc & <-). exists c. split; [|done]. simpl. by apply lookup_app_l_Some. }
    split; try done; simpl.
    + intros id' l H. apply W5 in H as (c & Hc & ? & ?). exists c. split; [|done]. by apply lookup_app_l_Some.
    + intros l c k d H Hk. apply Hids. apply lookup_app_Some in H as [H|[_ H]]; [by eapply W6|].
      apply list_lookup_singleton_Some in H as [_ <-]. simpl in Hk. by rewrite lookup_empty in Hk.
    + intros l c n H Hn. apply lookup_app_Some in H as [H|[_ H]]; [by eapply W7|].
      apply list_lookup_singleton_Some in H as [_ <-]. done.
  - rewrite rbind_ok. intros (h & Hh & [= <- <-]). apply wf_add_attributes in Hh as [? ?]; [|apply W].
    by apply wf_with_heap.
  - rewrite rbind_ok. intros (h & Hh & [= <- <-]). apply wf_set_lock in Hh as [? ?]; [|apply W].
    by apply wf_with_heap.
  - rewrite rbind_ok. intros (h & Hh & [= <- <-]). apply wf_set_lock in Hh as [? ?]; [|apply W].
    by apply wf_with_heap.
  - unfold ret_heap. rewrite rbind_ok. intros ([h e] & Hh & [= <- <-]).
    apply wf_add_descendant in Hh as [? ?]; [|apply W]. by apply wf_with_heap.
  - unfold ret_heap. rewrite rbind_ok. intros ([h e] & Hh & [= <- <-]).
    apply wf_add_permission in Hh as [? ?]; [|apply W]. by apply wf_with_heap.
  - unfold ret_heap. rewrite rbind_ok. intros ([h e] & Hh & [= <- <-]).
    apply wf_role_add_group in Hh as [? ?]; [|apply W]. by apply wf_with_heap.
  - unfold ret_loc. rewrite rbind_ok. intros ([st1 l1] & Hh & [= <- <-]). unfold add_role in Hh.
    destruct (h_roles (s_heap st) !! r0) as [ro|] eqn:Hr; [|done].
    destruct (m_roles st !! r_id ro); simplify_eq; [done|].
    destruct W as [W1 W2 W3 W4 W5 W6 W7 W8]. split; try done. simpl.
    intros id l H. apply lookup_insert_Some in H as [[<- <-]|[_ H]]; [by exists ro|eauto].
  - unfold ret_loc. rewrite rbind_ok. intros ([st1 l1] & Hh & [= <- <-]). unfold add_attribute_group in Hh.
    destruct (h_groups (s_heap st) !! g) as [go|] eqn:Hr; [|done].
    destruct (m_groups st !! g_id go); simplify_eq; [done|].
    destruct W as [W1 W2 W3 W4 W5 W6 W7 W8]. split; try done. simpl.
    intros id l H. apply lookup_insert_Some in H as [[<- <-]|[_ H]]; [by exists go|eauto].
  - unfold ret_loc. rewrite rbind_ok. intros ([st1 l1] & Hh & [= <- <-]). unfold add_tenant in Hh.
    destruct (s_tenants st !! t) as [c|] eqn:Hc; [|done].
    assert (Ws : state_wf (set_tenant st t (Tenant (t_id c) (t_desc c) (t_default c) true))).
    { eapply wf_set_tenant; [done|done|done|done| |].
      - intros k d Hk. exact (wf_t_desc _ W _ _ _ _ Hc Hk).
      - intros n Hn. exact (wf_t_default _ W _ _ _ Hc Hn). }
    change (m_tenants (set_tenant st t (Tenant (t_id c) (t_desc c) (t_default c) true))) with (m_tenants st) in Hh.
    destruct (m_tenants st !! t_id c); injection Hh as <- <-; [done|].
    assert (Hl : s_tenants (set_tenant st t (Tenant (t_id c) (t_desc c) (t_default c) true)) !! t
              = Some (Tenant (t_id c) (t_desc c) (t_default c) true)).
    { rewrite (tenant_lookup_set _ _ _ _ _ Hc). by destruct (decide (t = t)). }
    destruct Ws as [W1 W2 W3 W4 W5 W6 W7 W8]. split; try done.
    intros id l H. simpl in H. apply lookup_insert_Some in H as [[<- <-]|[_ H]]; [|eauto].
    eexists. split; [exact Hl|done].
  - intros [= <- <-]. unfold add_namespace. case_bool_decide; [done|].
    destruct W as [W1 W2 W3 W4 W5 W6 W7 W8]. split; try done. simpl. set_solver.
  - intros [= <- <-]. unfold add_scope. case_bool_decide; [done|].
    destruct W as [W1 W2 W3 W4 W5 W6 W7 W8]. by split.
  - intros [= <- <-]. unfold add_principal. case_bool_decide; [done|].
    destruct W as [W1 W2 W3 W4 W5 W6 W7 W8]. by split.
  - intros [= <- <-]. unfold add_attribute. destruct (m_attributes st !! attr_string a); [done|].
    destruct W as [W1 W2 W3 W4 W5 W6 W7 W8]. split; try done. simpl.
    intros k a' H. apply lookup_insert_Some in H as [[<- <-]|[_ H]]; [done|eauto].
  - intros [= <- <-]. by apply wf_add_data.
  - unfold ret_err. rewrite rbind_ok. intros ([st1 e] & H & [= <- <-]). unfold add_permissions_to_role in H.
    destruct (m_roles st !! r0) as [rl|]; [|by simplify_eq].
    destruct (m_groups st !! g) as [gl|]; [|by simplify_eq].
    destruct (h_groups (s_heap st) !! gl) as [go|]; [|done].
    destruct (check_attrs go g attrs); [by simplify_eq|].
    apply rbind_ok in H as ([h e'] & Hh & [= <- <-]). apply wf_add_permission in Hh as [? ?]; [|apply W].
    by apply wf_with_heap.
  - unfold ret_unit. rewrite rbind_ok. intros (st1 & H & [= <- <-]). eapply repeat_op_pres; [|exact W|exact H].
    clear. intros st n st' W H. eapply add_namespace_pres; [apply wf_add_data|exact W|exact H].
  - unfold ret_unit. rewrite rbind_ok. intros (st1 & H & [= <- <-]). by eapply wf_tenant_add_descendants.
  - unfold ret_unit. rewrite rbind_ok. intros (st1 & H & [= <- <-]). apply rbind_ok in H as (c & _ & [= <-]).
    by apply wf_add_data.
  - unfold ret_unit. rewrite rbind_ok. intros (st1 & H & [= <- <-]). by eapply wf_set_default.
  - unfold ret_unit. rewrite rbind_ok. intros (st1 & H & [= <- <-]). apply rbind_ok in H as (c & _ & [= <-]).
    by apply wf_add_data.
  - unfold ret_unit. rewrite rbind_ok. intros (st1 & H & [= <- <-]). eapply repeat_op_pres; [|exact W|exact H].
    clear. intros st x st' W H. apply rbind_ok in H as (c & _ & H).
    destruct (h_roles (s_heap st) !! x); simplify_eq. by apply wf_add_data.
  - unfold ret_unit. rewrite rbind_ok. intros (st1 & H & [= <- <-]). eapply repeat_op_pres; [|exact W|exact H].
    clear. intros st x st' W H. apply rbind_ok in H as (c & _ & [= <-]). by apply wf_add_data.
  - unfold ret_err. rewrite rbind_ok. intros ([st1 e] & H & [= <- <-]). eapply until_error_pres; [|exact W|exact H].
    clear. intros st x st' e' W H. apply rbind_ok in H as (c & _ & H).
    destruct (negb _); [by simplify_eq|]. destruct (m_roles st !! x); [|by simplify_eq].
    cbv zeta in H. destruct (t_default c); injection H as <- <-; repeat apply wf_add_data; done.
  - unfold ret_err. rewrite rbind_ok. intros ([st1 e] & H & [= <- <-]). eapply until_error_pres; [|exact W|exact H].
    clear. intros st x st' e' W H. apply rbind_ok in H as (c & _ & H).
    destruct (negb _); [by simplify_eq|]. destruct (negb _); [by simplify_eq|].
    cbv zeta in H. destruct (t_default c); injection H as <- <-; repeat apply wf_add_data; done.
  - rewrite rbind_ok. intros ([st1 ds] & H & [= <- <-]). by eapply wf_tenant_children.
  - rewrite rbind_ok. intros ([st1 ds] & H & [= <- <-]). by eapply wf_implicit.
  - rewrite rbind_ok. intros ([st1 b] & H & [= <- <-]). apply authorize_state in H as [->|[U H]]; [done|].
    by eapply wf_implicit.
Qed.

Lemma run_inv (P : state -> Prop) :
  (forall o st x st' r, P st -> step o st x = Ok (st', r) -> P st') ->
  forall o i st ops st' outs, P st -> run o i st ops = Ok (st', outs) -> P st'.
Proof.
  intros Hstep o i st ops. revert i st. induction ops as [|x ops IH]; intros i st st' outs HP; simpl.
  - by intros [= <- <-].
  - rewrite rbind_ok. intros ([st1 r1] & H1 & H). apply rbind_ok in H as ([st2 r2] & H2 & [= <- <-]).
    eapply IH; [|exact H2]. eapply Hstep; [exact HP|exact H1].
Qed.
Lemma reachable_inv (P : state -> Prop) :
  P init_state -> (forall o st x st' r, P st -> step o st x = Ok (st', r) -> P st') ->
  forall st, reachable st -> P st.
Proof. intros H0 Hs st (o & ops & outs & H). by eapply run_inv. Qed.
Lemma reachable_wf st : reachable st -> state_wf st.
Proof. apply reachable_inv; [apply state_wf_init|apply step_wf]. Qed.
