(** Roles and attribute groups only grow. *)
From Verif Require Import RootInv.
From Verif Require Export RoleProofs.

Definition role_le (r r' : role_obj) : Prop := r_perms r ⊆ r_perms r' /\ r_desc r ⊆ r_desc r'.
Definition group_le (g g' : group) : Prop := forall k, is_Some (g_perms g !! k) -> is_Some (g_perms g' !! k).
Definition heap_grows (h h' : rheap) : Prop :=
  (forall l r, h_roles h !! l = Some r -> exists r', h_roles h' !! l = Some r' /\ role_le r r')
  /\ (forall l g, h_groups h !! l = Some g -> exists g', h_groups h' !! l = Some g' /\ group_le g g').
Lemma role_le_refl r : role_le r r.
Proof. by split. Qed.
Lemma group_le_refl g : group_le g g.
Proof. by intros k. Qed.
Lemma grows_refl h : heap_grows h h.
Proof. split; intros l x H; exists x; (split; [done|]); [apply role_le_refl|apply group_le_refl]. Qed.
Lemma grows_trans h1 h2 h3 : heap_grows h1 h2 -> heap_grows h2 h3 -> heap_grows h1 h3.
Proof.
  intros [A1 A2] [B1 B2]. split.
  - intros l r H. destruct (A1 _ _ H) as (r' & H' & [? ?]). destruct (B1 _ _ H') as (r'' & H'' & [? ?]).
    exists r''. split; [done|]. split; by etrans.
  - intros l g H. destruct (A2 _ _ H) as (g' & H' & E). destruct (B2 _ _ H') as (g'' & H'' & E').
    exists g''. split; [done|]. intros k Hk. by apply E', E.
Qed.
Lemma grows_set_role h l r r' : h_roles h !! l = Some r -> role_le r r' -> heap_grows h (set_role h l r').
Proof.
  intros Hr Hle. split; [|intros gl g H; exists g; split; [done|apply group_le_refl]].
  intros l' x Hx. rewrite (set_role_lookup _ _ _ _ _ Hr). case_decide as E.
  - subst l'. rewrite Hr in Hx. simplify_eq. by eexists.
  - exists x. split; [done|apply role_le_refl].
Qed.
Lemma grows_set_group h l g g' : h_groups h !! l = Some g -> group_le g g' -> heap_grows h (set_group h l g').
Proof.
  intros Hr Hle. split; [intros l' r H; exists r; split; [done|apply role_le_refl]|].
  intros l' x Hx. rewrite (set_group_lookup _ _ _ _ _ Hr). case_decide as E.
  - subst l'. rewrite Hr in Hx. simplify_eq. by eexists.
  - exists x. split; [done|apply group_le_refl].
Qed.
Lemma grows_app h rs gs : heap_grows h (RHeap (h_roles h ++ rs) (h_groups h ++ gs)).
Proof.
  split; intros l x H; exists x; (split; [by apply lookup_app_l_Some|]); [apply role_le_refl|apply group_le_refl].
Qed.
Lemma grows_new_role h id : heap_grows h (new_role h id).2.
Proof. pose proof (grows_app h [Role id false ∅ ∅] []) as H. by rewrite app_nil_r in H. Qed.
Lemma grows_new_group h id : heap_grows h (new_group h id).2.
Proof. pose proof (grows_app h [] [Group id ∅]) as H. by rewrite app_nil_r in H. Qed.
Lemma grows_add_attributes h gl attrs h' : add_attributes h gl attrs = Ok h' -> heap_grows h h'.
Proof.
  unfold add_attributes. destruct (h_groups h !! gl) as [g|] eqn:E; [|done]. intros [= <-].
  eapply grows_set_group; [exact E|]. intros k. cbn [g_perms]. generalize (g_perms g).
  induction attrs as [|a attrs IH]; intros m Hm; simpl; [done|]. apply IH.
  destruct (decide (attr_string a = k)) as [->|]; [rewrite lookup_insert; by eexists|by rewrite lookup_insert_ne].
Qed.
Lemma grows_set_lock h l b h' : role_set_lock h l b = Ok h' -> heap_grows h h'.
Proof.
  unfold role_set_lock. destruct (h_roles h !! l) as [r|] eqn:E; [|done]. intros [= <-].
  eapply grows_set_role; [exact E|]. by split.
Qed.
Lemma add_desc_grows h ds desc desc' : add_descendants_loop h desc ds = Ok desc' -> desc ⊆ desc'.
Proof.
  revert desc. induction ds as [|d ds IH]; intros desc; simpl; [by intros [= ->]|].
  destruct (h_roles h !! d) as [c|]; [|done]. intros H%IH. etrans; [|exact H].
  destruct (desc !! r_id c) eqn:E; [done|by apply insert_subseteq].
Qed.
Lemma grows_add_descendant h l ds h' e : role_add_descendant h l ds = Ok (h', e) -> heap_grows h h'.
Proof.
  unfold role_add_descendant. destruct (h_roles h !! l) as [r|] eqn:E; [|done].
  destruct (r_lock r); [intros [= <- _]; apply grows_refl|]. rewrite rbind_ok. intros (desc & H & [= <- _]).
  eapply grows_set_role; [exact E|]. split; [done|]. by eapply add_desc_grows.
Qed.
Lemma add_missing_grows m attrs k : is_Some (m !! k) -> is_Some (add_missing m attrs !! k).
Proof.
  unfold add_missing. revert m. induction attrs as [|a attrs IH]; intros m Hm; simpl; [done|]. apply IH.
  destruct (m !! attr_string a) eqn:E; [done|].
  destruct (decide (attr_string a = k)) as [->|]; [rewrite lookup_insert; by eexists|by rewrite lookup_insert_ne].
Qed.
Lemma grows_add_permission h l grp attrs h' e : role_add_permission h l grp attrs = Ok (h', e) -> heap_grows h h'.
Proof.
  unfold role_add_permission. destruct (h_roles h !! l) as [r|] eqn:E; [|done].
  destruct (r_lock r); [intros [= <- _]; apply grows_refl|]. destruct (r_perms r !! grp) as [gl|] eqn:Eg.
  - destruct (h_groups h !! gl) as [g|] eqn:Egl; [|done]. intros [= <- _].
    eapply grows_set_group; [exact Egl|]. intros k. apply add_missing_grows.
  - intros [= <- _]. eapply grows_trans; [eapply (grows_set_role _ l); [exact E|]|].
    2: { pose proof (grows_app (set_role h l (Role (r_id r) false (<[grp := length (h_groups h)]> (r_perms r)) (r_desc r)))
           [] [Group grp (add_missing ∅ attrs)]) as H. by rewrite app_nil_r in H. }
    split; [by apply insert_subseteq|done].
Qed.
Lemma grows_add_group h l gl h' e : role_add_group h l gl = Ok (h', e) -> heap_grows h h'.
Proof.
  unfold role_add_group. destruct (h_roles h !! l) as [r|] eqn:E; [|done].
  destruct (r_lock r); [intros [= <- _]; apply grows_refl|]. destruct (h_groups h !! gl) as [g|]; [|done].
  destruct (r_perms r !! g_id g) eqn:Eg; intros [= <- _]; [apply grows_refl|].
  eapply grows_set_role; [exact E|]. split; [by apply insert_subseteq|done].
Qed.

(** What a role owns and offers stays. *)
Lemma grows_owns h h' l grp g : heap_grows h h' -> owns h l grp g -> exists g', owns h' l grp g' /\ group_le g g'.
Proof.
  intros [A B] (r & gl & Hr & Hp & Hg). destruct (A _ _ Hr) as (r' & Hr' & [Hle _]).
  destruct (B _ _ Hg) as (g' & Hg' & Hgle). exists g'. split; [|done]. exists r', gl. split_and!; try done.
  by eapply lookup_weaken.
Qed.
Lemma grows_offers g g' act : group_le g g' -> offers g act -> offers g' act.
Proof. intros H (k & a & Hk & Hm). destruct (H k) as (a' & Ha'); [by eexists|]. by exists k, a'. Qed.
Lemma grows_edge h h' l d : heap_grows h h' -> role_edge h l d -> role_edge h' l d.
Proof.
  intros [A _] (m & k & Hm & Hk). unfold role_children in Hm.
  apply fmap_Some in Hm as (r & Hr & ->). destruct (A _ _ Hr) as (r' & Hr' & [_ Hle]).
  exists (r_desc r'), k. split; [unfold role_children; by rewrite Hr'|by eapply lookup_weaken].
Qed.
Lemma grows_descends h h' l d : heap_grows h h' -> descends h l d -> descends h' l d.
Proof. intros H. apply tc_mono. intros a b. by apply grows_edge. Qed.
