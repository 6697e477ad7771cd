(** Proofs about the operations on roles: GetAllImplicitPermissions, locking,
    AddPermissionsToRole, attribute keys. *)
From Verif Require Export RootInv.

Global Arguments group_attrs : simpl never.
(** ** GetAllImplicitPermissions *)
Lemma elem_of_group_attrs o g a : a ∈ group_attrs o g <-> exists k, g_perms g !! k = Some a.
Proof.
  unfold group_attrs. rewrite elem_of_ordered, elem_of_list_fmap. split.
  - intros ([k a'] & -> & H%elem_of_map_to_list). by exists k.
  - intros (k & H). exists (k, a). split; [done|]. by apply elem_of_map_to_list.
Qed.


Lemma add_own_ok o i h acc gs acc' : add_own o i h acc gs = Ok acc' ->
  forall grp,
    (is_Some (acc' !! grp) <-> is_Some (acc !! grp) \/ exists gl g, (grp, gl) ∈ gs /\ h_groups h !! gl = Some g)
    /\ forall a, listed acc' grp a <-> listed acc grp a
         \/ exists gl g k, (grp, gl) ∈ gs /\ h_groups h !! gl = Some g /\ g_perms g !! k = Some a.
Proof.
  revert i acc. induction gs as [|[grp0 gl0] gs IH]; intros i acc; simpl.
  - intros [= <-] grp. split; [|intros a]; split; try by left.
    + intros [?|(gl & g & H & _)]; [done|]. by apply elem_of_nil in H.
    + intros [?|(gl & g & k & H & _)]; [done|]. by apply elem_of_nil in H.
  - destruct (h_groups h !! gl0) as [g0|] eqn:Hg0; [|done]. intros H grp.
    destruct (IH _ _ H grp) as [H1 H2]. split.
    + rewrite H1. destruct (decide (grp0 = grp)) as [->|Hne].
      * rewrite lookup_insert. split.
        -- intros _. right. exists gl0, g0. split; [left|done].
        -- intros _. left. by eexists.
      * rewrite lookup_insert_ne by done. split.
        -- intros [?|(gl & g & ? & ?)]; [by left|right]. exists gl, g. split; [by right|done].
        -- intros [?|(gl & g & [E|?]%elem_of_cons & ?)]; [by left|congruence|right]. by exists gl, g.
    + intros a. rewrite H2. unfold listed at 1. destruct (decide (grp0 = grp)) as [->|Hne].
      * rewrite lookup_insert. split.
        -- intros [(l & [= <-] & Hl)|(gl & g & k & ? & ?)].
           ++ apply elem_of_app in Hl as [Hl|Hl].
              ** left. unfold listed. destruct (acc !! grp) as [l0|]; [by exists l0|by apply elem_of_nil in Hl].
              ** right. apply elem_of_group_attrs in Hl as [k Hk]. exists gl0, g0, k. split; [left|done].
           ++ right. exists gl, g, k. split; [by right|done].
        -- intros [(l & Hl & Ha)|(gl & g & k & [E|?]%elem_of_cons & ? & ?)].
           ++ left. eexists. split; [done|]. rewrite Hl. apply elem_of_app. by left.
           ++ simplify_eq. left. eexists. split; [done|]. apply elem_of_app. right.
              apply elem_of_group_attrs. by eexists.
           ++ right. exists gl, g, k. done.
      * rewrite lookup_insert_ne by done. fold (listed acc grp a). split.
        -- intros [?|(gl & g & k & ? & ?)]; [by left|right]. exists gl, g, k. split; [by right|done].
        -- intros [?|(gl & g & k & [E|?]%elem_of_cons & ?)]; [by left|congruence|right]. by exists gl, g, k.
Qed.
Lemma add_own_not_hang o i h acc gs : add_own o i h acc gs <> Hang.
Proof.
  revert i acc. induction gs as [|[grp gl] gs IH]; intros i acc; simpl; [done|].
  by destruct (h_groups h !! gl).
Qed.
Lemma add_own_not_panic o i h acc gs :
  (forall grp gl, (grp, gl) ∈ gs -> is_Some (h_groups h !! gl)) -> add_own o i h acc gs <> Panic.
Proof.
  revert i acc. induction gs as [|[grp gl] gs IH]; intros i acc Hg; simpl; [done|].
  destruct (Hg grp gl) as [g ->]; [left|]. apply IH. intros grp' gl' ?. apply (Hg grp' gl'). by right.
Qed.

(** What a pass over role [l] contributes. *)
Definition own_ok (h : rheap) (l : nat) (grp : string) (a : attr) : Prop := exists k, holds h l grp k a.

Lemma own_pass o h acc l r acc' : h_roles h !! l = Some r ->
  add_own (sub o 0) 1 h acc (ordered (sub (sub o 0) 0) (map_to_list (r_perms r))) = Ok acc' ->
  forall grp,
    (is_Some (acc' !! grp) <-> is_Some (acc !! grp) \/ exists g, owns h l grp g)
    /\ forall a, listed acc' grp a <-> listed acc grp a \/ own_ok h l grp a.
Proof.
  intros Hl H grp. destruct (add_own_ok _ _ _ _ _ _ H grp) as [H1 H2].
  assert (Hin : forall gl, (grp, gl) ∈ ordered (sub (sub o 0) 0) (map_to_list (r_perms r))
                      <-> r_perms r !! grp = Some gl).
  { intros gl. rewrite elem_of_ordered. apply elem_of_map_to_list. }
  split.
  - rewrite H1. setoid_rewrite Hin. unfold owns. split; (intros [?|?]; [by left|right]); naive_solver.
  - intros a. rewrite H2. setoid_rewrite Hin. unfold own_ok, holds, owns.
    split; (intros [?|?]; [by left|right]); naive_solver.
Qed.

Lemma fold_roles_ok (rec : oracle -> gmap string (list attr) -> nat -> res (gmap string (list attr)))
    (S1 : nat -> string -> Prop) (S2 : nat -> string -> attr -> Prop) o i acc ds acc' :
  (forall o' a d a', d ∈ ds -> rec o' a d = Ok a' -> forall grp,
     (is_Some (a' !! grp) <-> is_Some (a !! grp) \/ S1 d grp)
     /\ forall x, listed a' grp x <-> listed a grp x \/ S2 d grp x) ->
  fold_roles rec o i acc ds = Ok acc' ->
  forall grp,
     (is_Some (acc' !! grp) <-> is_Some (acc !! grp) \/ exists d, d ∈ ds /\ S1 d grp)
     /\ forall x, listed acc' grp x <-> listed acc grp x \/ exists d, d ∈ ds /\ S2 d grp x.
Proof.
  revert i acc. induction ds as [|d ds IH]; intros i acc Hrec; simpl.
  - intros [= <-] grp. split; [|intros a]; split; try by left.
    + intros [?|(d & H & _)]; [done|]. by apply elem_of_nil in H.
    + intros [?|(d & H & _)]; [done|]. by apply elem_of_nil in H.
  - rewrite rbind_ok. intros (acc1 & H1 & H) grp.
    destruct (Hrec _ _ _ _ (elem_of_list_here _ _) H1 grp) as [A1 A2].
    assert (Hrec' : forall o' a d0 a', d0 ∈ ds -> rec o' a d0 = Ok a' -> forall grp,
       (is_Some (a' !! grp) <-> is_Some (a !! grp) \/ S1 d0 grp)
       /\ forall x, listed a' grp x <-> listed a grp x \/ S2 d0 grp x).
    { intros o' a d0 a' Hd0. apply Hrec. by right. }
    destruct (IH _ _ Hrec' H grp) as [B1 B2].
    setoid_rewrite elem_of_cons. split; [rewrite B1, A1|intros x; rewrite B2, A2]; naive_solver.
Qed.

Lemma all_perms_fuel_ok n o h acc l acc' : all_perms_fuel n o h acc l = Ok acc' ->
  forall grp,
    (is_Some (acc' !! grp) <-> is_Some (acc !! grp) \/ exists d g, rtc (role_edge h) l d /\ owns h d grp g)
    /\ forall a, listed acc' grp a <-> listed acc grp a \/ exists d, rtc (role_edge h) l d /\ own_ok h d grp a.
Proof.
  revert o acc l acc'. induction n as [|n IH]; intros o acc l acc'; simpl; [done|].
  destruct (h_roles h !! l) as [r|] eqn:Hl; [|done].
  rewrite rbind_ok. intros (acc1 & H1 & H) grp. apply rbind_ok in H as (ds & Hds & H).
  pose proof (own_pass _ _ _ _ _ _ Hl H1 grp) as [A1 A2].
  pose proof (descendant_roles_elem _ _ _ _ Hds) as Hd.
  destruct (fold_roles_ok (fun o' a d => all_perms_fuel n o' h a d)
           (fun d grp => exists d' g, rtc (role_edge h) d d' /\ owns h d' grp g)
           (fun d grp a => exists d', rtc (role_edge h) d d' /\ own_ok h d' grp a) (sub o 2) 0 acc1 ds acc'
           (fun o' a d a' _ Hr => IH o' a d a' Hr) H grp) as [B1 B2].
  assert (Hsplit : forall d, rtc (role_edge h) l d <-> d = l \/ exists e, e ∈ ds /\ rtc (role_edge h) e d).
  { intros d. setoid_rewrite Hd. split.
    - intros H0. apply rtc_tc in H0 as [->|H0]; [by left|]. right. exists d. by split.
    - intros [->|(e & He & Hr)]; [done|]. eapply rtc_transitive; [by apply tc_rtc|done]. }
  setoid_rewrite Hsplit. split; [rewrite B1, A1|intros a; rewrite B2, A2]; naive_solver.
Qed.

Lemma fold_roles_hang rec o i acc ds : fold_roles rec o i acc ds = Hang ->
  exists j a d, d ∈ ds /\ rec (sub o j) a d = Hang.
Proof.
  revert i acc. induction ds as [|d ds IH]; intros i acc; simpl; [done|].
  rewrite rbind_hang. intros [H|(acc1 & _ & H)]; [exists i, acc, d; split; [left|done]|].
  apply IH in H as (j & a & d' & ? & ?). exists j, a, d'. split; [by right|done].
Qed.
Lemma fold_roles_panic rec o i acc ds : fold_roles rec o i acc ds = Panic ->
  exists j a d, d ∈ ds /\ rec (sub o j) a d = Panic.
Proof.
  revert i acc. induction ds as [|d ds IH]; intros i acc; simpl; [done|].
  rewrite rbind_panic. intros [H|(acc1 & _ & H)]; [exists i, acc, d; split; [left|done]|].
  apply IH in H as (j & a & d' & ? & ?). exists j, a, d'. split; [by right|done].
Qed.

Lemma all_perms_no_panic n o h acc l : wf_heap h -> is_Some (h_roles h !! l) -> all_perms_fuel n o h acc l <> Panic.
Proof.
  intros Hwf. revert o acc l. induction n as [|n IH]; intros o acc l Hl; simpl; [done|].
  destruct Hl as [r Hl]. rewrite Hl. rewrite rbind_panic. intros [H|(acc1 & _ & H)].
  - apply add_own_not_panic in H; [done|]. intros grp gl Hin.
    apply elem_of_ordered, elem_of_map_to_list in Hin. destruct Hwf as (_ & W2 & _).
    destruct (W2 _ _ _ _ Hl Hin) as (g & -> & _). by eexists.
  - apply rbind_panic in H as [H|(ds & Hds & H)].
    + destruct (descendant_roles_exact (sub o 1) h l Hwf) as [[[ds E] _]|[E _]]; [by eexists|congruence|congruence].
    + apply fold_roles_panic in H as (j & a & d & Hin & H).
      apply (descendant_roles_elem _ _ _ _ Hds) in Hin.
      apply IH in H; [done|]. by eapply descends_exists.
Qed.
Lemma all_perms_hang n o h acc l : wf_heap h -> is_Some (h_roles h !! l) ->
  (forall m x, nsteps (role_edge h) m l x -> m < n) ->
  all_perms_fuel n o h acc l = Hang -> cyclic_from h l.
Proof.
  intros Hwf. revert o acc l. induction n as [|n IH]; intros o acc l Hl Hb.
  { specialize (Hb 0 l (nsteps_O _ _)). lia. }
  simpl. destruct Hl as [r Hl]. rewrite Hl. rewrite rbind_hang. intros [H|(acc1 & _ & H)].
  - by apply add_own_not_hang in H.
  - apply rbind_hang in H as [H|(ds & Hds & H)].
    + destruct (descendant_roles_exact (sub o 1) h l Hwf) as [[[ds E] _]|[E ?]]; [by eexists|congruence|done].
    + apply fold_roles_hang in H as (j & a & d & Hin & H).
      apply (descendant_roles_elem _ _ _ _ Hds) in Hin.
      apply IH in H; [|by eapply descends_exists|].
      * eapply cyclic_from_trans; [by apply tc_rtc|done].
      * intros m x Hmx. apply tc_nsteps in Hin as (a' & ? & Ha).
        specialize (Hb (a' + m) x (nsteps_trans _ _ _ _ _ Ha Hmx)). lia.
Qed.
Lemma all_perms_returns o h l : wf_heap h -> is_Some (h_roles h !! l) ->
  (exists m, get_all_implicit_permissions o h l = Ok m) /\ ~ cyclic_from h l
  \/ get_all_implicit_permissions o h l = Hang /\ cyclic_from h l.
Proof.
  intros Hwf Hl. unfold get_all_implicit_permissions.
  destruct (descendant_roles_exact (sub o 1) h l Hwf Hl) as [[[ds Hds] Hc]|[Hh Hc]].
  - left. split; [|done].
    destruct (all_perms_fuel (S (length (h_roles h))) o h ∅ l) as [m| |] eqn:E; [by eexists| |].
    + by apply all_perms_no_panic in E.
    + apply all_perms_hang in E; [done|done|done|].
      destruct (height_bound h l Hwf Hl) as [Hb|]; [|done]. intros m x Hmx. apply Hb in Hmx. lia.
  - right. split; [|done]. cbn [all_perms_fuel]. destruct Hl as [r Hr]. rewrite Hr.
    destruct (add_own _ _ _ _ _) as [acc1| |] eqn:E; simpl.
    + by rewrite Hh.
    + exfalso. apply add_own_not_panic in E; [done|]. intros grp gl Hin.
      apply elem_of_ordered, elem_of_map_to_list in Hin. destruct Hwf as (_ & W2 & _).
      destruct (W2 _ _ _ _ Hr Hin) as (g & -> & _). by eexists.
    + by apply add_own_not_hang in E.
Qed.
Lemma all_perms_ok o h l m : get_all_implicit_permissions o h l = Ok m ->
  forall grp, (is_Some (m !! grp) <-> exists d g, rtc (role_edge h) l d /\ owns h d grp g)
    /\ forall a, listed m grp a <-> exists d k, rtc (role_edge h) l d /\ holds h d grp k a.
Proof.
  intros H grp. destruct (all_perms_fuel_ok _ _ _ _ _ _ H grp) as [H1 H2]. split.
  - rewrite H1, lookup_empty. split; [intros [[]|?]; done|by right].
  - intros a. rewrite H2. unfold listed at 1. rewrite lookup_empty. unfold own_ok. naive_solver.
Qed.
Lemma get_permissions_ok o h l m : get_permissions o h l = Ok m ->
  forall grp, (is_Some (m !! grp) <-> exists g, owns h l grp g)
    /\ forall a, listed m grp a <-> exists k, holds h l grp k a.
Proof.
  unfold get_permissions. destruct (h_roles h !! l) as [r|] eqn:Hl; [|done]. intros H grp.
  destruct (own_pass _ _ _ _ _ _ Hl H grp) as [H1 H2]. split.
  - rewrite H1, lookup_empty. split; [intros [[]|?]; done|by right].
  - intros a. rewrite H2. unfold listed at 1. rewrite lookup_empty. unfold own_ok. naive_solver.
Qed.
Lemma get_group_permissions_ok o h l grp ps : get_group_permissions o h l grp = Ok ps ->
  forall a, a ∈ ps <-> exists k, holds h l grp k a.
Proof.
  unfold get_group_permissions. destruct (h_roles h !! l) as [r|] eqn:Hl; [|done].
  unfold holds, owns. intros H a.
  destruct (r_perms r !! grp) as [gl|] eqn:Hg.
  - destruct (h_groups h !! gl) as [g|] eqn:Hgl; [|done]. injection H as <-.
    rewrite elem_of_group_attrs. naive_solver.
  - injection H as <-. split; [by intros H%elem_of_nil|]. naive_solver.
Qed.

(** ** Attribute keys *)
Lemma attr_string_bytes a : bytes (attr_string a) = bytes (resource a) ++ ch_space :: bytes (action a).
Proof. unfold attr_string, attr_string_with. rewrite bytes_app, bytes_app. done. Qed.

Lemma attr_collision_bytes (r1 a1 r2 a2 : list ascii) :
  r1 ++ ch_space :: a1 = r2 ++ ch_space :: a2 ->
  (r1 = r2 /\ a1 = a2)
  \/ (exists m, r2 = r1 ++ ch_space :: m /\ a1 = m ++ ch_space :: a2)
  \/ (exists m, r1 = r2 ++ ch_space :: m /\ a2 = m ++ ch_space :: a1).
Proof.
  revert r2. induction r1 as [|c r1 IH]; intros [|c2 r2]; simpl.
  - intros [= ->]. by left.
  - intros [= <- ->]. right; left. exists r2. done.
  - intros [= -> <-]. right; right. exists r1. done.
  - intros [= <- H]. destruct (IH _ H) as [[-> ->]|[(m & -> & ->)|(m & -> & ->)]].
    + by left.
    + right; left. by exists m.
    + right; right. by exists m.
Qed.

Lemma glue_bytes x y : bytes (glue x y) = bytes x ++ ch_space :: bytes y.
Proof. unfold glue. by rewrite bytes_app, bytes_app. Qed.

Lemma attr_string_eq a b : attr_string a = attr_string b <->
  a = b \/ (exists m, resource b = glue (resource a) m /\ action a = glue m (action b))
        \/ (exists m, resource a = glue (resource b) m /\ action b = glue m (action a)).
Proof.
  split.
  - intros H. apply (f_equal bytes) in H. rewrite !attr_string_bytes in H.
    apply attr_collision_bytes in H as [[H1 H2]|[(m & H1 & H2)|(m & H1 & H2)]].
    + left. apply bytes_inj in H1. apply bytes_inj in H2. destruct a, b; simpl in *; congruence.
    + right; left. exists (of_bytes m). split; apply bytes_inj; rewrite glue_bytes, bytes_of_bytes; done.
    + right; right. exists (of_bytes m). split; apply bytes_inj; rewrite glue_bytes, bytes_of_bytes; done.
  - intros [->|[(m & H1 & H2)|(m & H1 & H2)]]; [done| |]; apply bytes_inj; rewrite !attr_string_bytes, H1, H2, !glue_bytes;
      by rewrite <-app_assoc.
Qed.
Lemma attr_string_inj_nospace a b :
  (lacks ch_space (resource a) /\ lacks ch_space (resource b)) \/ (lacks ch_space (action a) /\ lacks ch_space (action b)) ->
  attr_string a = attr_string b -> a = b.
Proof.
  intros Hl [->|[(m & H1 & H2)|(m & H1 & H2)]]%attr_string_eq; [done| |]; exfalso; unfold lacks in Hl;
    rewrite H1, H2, !glue_bytes in Hl; set_solver.
Qed.

(** ** AddPermission *)
Lemma add_missing_lookup (m : gmap string attr) attrs k :
  (is_Some (add_missing m attrs !! k) <-> is_Some (m !! k) \/ exists a, a ∈ attrs /\ attr_string a = k)
  /\ forall a, add_missing m attrs !! k = Some a -> m !! k = Some a \/ m !! k = None /\ a ∈ attrs /\ attr_string a = k.
Proof.
  unfold add_missing. revert m. induction attrs as [|a0 attrs IH]; intros m; simpl.
  - split; [|by left]. split; [by left|]. intros [?|(a & H & _)]; [done|by apply elem_of_nil in H].
  - destruct (IH (match m !! attr_string a0 with Some _ => m | None => <[attr_string a0:=a0]> m end)) as [H1 H2].
    destruct (m !! attr_string a0) as [x|] eqn:E.
    + split.
      * rewrite H1. setoid_rewrite elem_of_cons. split; [naive_solver|].
        intros [?|(a & [->|?] & <-)]; [by left|left; by eexists|right; by exists a].
      * intros a Ha. apply H2 in Ha as [?|(? & ? & ?)]; [by left|right]. split_and!; [done|by right|done].
    + split.
      * rewrite H1. setoid_rewrite elem_of_cons. destruct (decide (attr_string a0 = k)) as [<-|Hne].
        -- rewrite lookup_insert. split; [|by left; eexists]. intros _. right. exists a0. by split; [left|].
        -- rewrite lookup_insert_ne by done. naive_solver.
      * intros a Ha. apply H2 in Ha. destruct (decide (attr_string a0 = k)) as [<-|Hne].
        -- rewrite lookup_insert in Ha. right. destruct Ha as [[= ->]|[? _]]; [|done].
           split_and!; [done|left|done].
        -- rewrite lookup_insert_ne in Ha by done. destruct Ha as [?|(? & ? & ?)]; [by left|right].
           split_and!; [done|by right|done].
Qed.

Lemma add_permission_ok h l grp attrs h' e :
  role_add_permission h l grp attrs = Ok (h', e) ->
  exists r, h_roles h !! l = Some r
    /\ (r_lock r = true /\ e = err_locked /\ h' = h
        \/ r_lock r = false /\ e = None
           /\ (forall k, (exists a, holds h' l grp k a) <->
                 (exists a, holds h l grp k a) \/ exists a, a ∈ attrs /\ attr_string a = k)
           /\ (forall k a, holds h' l grp k a ->
                 holds h l grp k a \/ (~ exists b, holds h l grp k b) /\ a ∈ attrs /\ attr_string a = k)).
Proof.
  unfold role_add_permission. destruct (h_roles h !! l) as [r|] eqn:Hl; [|done]. intros H. exists r. split; [done|].
  destruct (r_lock r) eqn:Hlock; [left; by simplify_eq|right]. split; [done|].
  destruct (r_perms r !! grp) as [gl|] eqn:Hgrp.
  - destruct (h_groups h !! gl) as [g|] eqn:Hg; [|done]. injection H as <- <-. split; [done|].
    assert (Hold : forall k a, holds h l grp k a <-> g_perms g !! k = Some a).
    { intros k a. unfold holds, owns. naive_solver. }
    assert (Hnew : forall k a, holds (set_group h gl (Group (g_id g) (add_missing (g_perms g) attrs))) l grp k a
                      <-> add_missing (g_perms g) attrs !! k = Some a).
    { intros k a. unfold holds, owns. setoid_rewrite (set_group_lookup _ _ _ _ _ Hg). simpl. split.
      - intros (g' & (r' & gl' & Hr' & Hgl' & Hx) & Ha).
        assert (gl' = gl) as -> by congruence. destruct (decide (gl = gl)); [|done].
        injection Hx as <-. done.
      - intros Ha. exists (Group (g_id g) (add_missing (g_perms g) attrs)). split; [|done]. exists r, gl. split_and!; [done|done|].
        by destruct (decide (gl = gl)). }
    setoid_rewrite Hold. setoid_rewrite Hnew. split.
    + intros k. apply (add_missing_lookup (g_perms g) attrs k).
    + intros k a Ha. apply add_missing_lookup in Ha as [?|(E & ? & ?)]; [by left|right].
      split; [|done]. intros [b Hb]. congruence.
  - injection H as <- <-. split; [done|].
    assert (Hold : forall k a, ~ holds h l grp k a).
    { intros k a. unfold holds, owns. naive_solver. }
    assert (Hlt : l < length (h_roles h)) by by eapply lookup_lt_Some.
    assert (Hnew : forall k a, holds (RHeap (<[l := Role (r_id r) false (<[grp := length (h_groups h)]> (r_perms r)) (r_desc r)]> (h_roles h))
                (h_groups h ++ [Group grp (add_missing ∅ attrs)])) l grp k a
                      <-> add_missing ∅ attrs !! k = Some a).
    { intros k a. unfold holds, owns. simpl. rewrite list_lookup_insert by done. split.
      - intros (g' & (r' & gl' & [= <-] & Hx & Hy) & ?). simpl in Hx. rewrite lookup_insert in Hx.
        injection Hx as <-. rewrite list_lookup_middle in Hy by done. by injection Hy as <-.
      - intros Ha. exists (Group grp (add_missing ∅ attrs)). split; [|done]. eexists _, _. split_and!; [done|simpl; by rewrite lookup_insert|].
        by rewrite list_lookup_middle. }
    setoid_rewrite Hnew. split.
    + intros k. destruct (add_missing_lookup ∅ attrs k) as [E _]. unfold is_Some in E. rewrite E, lookup_empty.
      split; [intros [[? ?]|?]; [done|by right]|]. intros [[a Ha]|?]; [by apply Hold in Ha|by right].
    + intros k a Ha. right. apply add_missing_lookup in Ha as [?|(E & ? & ?)].
      * by rewrite lookup_empty in *.
      * split; [|done]. intros [b Hb]. by apply Hold in Hb.
Qed.

(** Frame: which objects AddPermission touches. *)
Lemma add_permission_frame h l grp attrs h' e :
  role_add_permission h l grp attrs = Ok (h', e) ->
  (forall l' r, h_roles h !! l' = Some r -> l' <> l -> h_roles h' !! l' = Some r)
  /\ (forall r, h_roles h !! l = Some r -> exists r', h_roles h' !! l = Some r' /\ r_id r' = r_id r
        /\ r_lock r' = r_lock r /\ r_desc r' = r_desc r
        /\ forall k, k <> grp -> r_perms r' !! k = r_perms r !! k)
  /\ length (h_roles h') = length (h_roles h)
  /\ (forall gl g, h_groups h !! gl = Some g ->
        (forall r, h_roles h !! l = Some r -> r_perms r !! grp <> Some gl) -> h_groups h' !! gl = Some g).
Proof.
  unfold role_add_permission. destruct (h_roles h !! l) as [r|] eqn:Hl; [|done]. intros H.
  destruct (r_lock r) eqn:Hlock.
  { injection H as <- <-. split_and!; [done| |done|done]. intros r0 H0. exists r0. naive_solver. }
  destruct (r_perms r !! grp) as [gl|] eqn:Hgrp.
  - destruct (h_groups h !! gl) as [g|] eqn:Hg; [|done]. injection H as <- <-. split_and!; [done| |done|].
    + intros r0 H0. exists r0. naive_solver.
    + intros gl' g' Hg' Hne. rewrite (set_group_lookup _ _ _ _ _ Hg). destruct (decide (gl = gl')) as [<-|]; [|done].
      by edestruct (Hne r).
  - injection H as <- <-. simpl. split_and!.
    + intros l' r' Hr' Hne. by rewrite list_lookup_insert_ne.
    + intros r0 [= <-]. eexists. split; [apply list_lookup_insert; by eapply lookup_lt_Some|]. simpl.
      rewrite Hlock. split_and!; [done|done|done|]. intros k Hk. by rewrite lookup_insert_ne.
    + by rewrite insert_length.
    + intros gl g Hg _. by apply lookup_app_l_Some.
Qed.

Lemma check_attrs_spec g gid attrs :
  check_attrs g gid attrs = None <-> forall a, a ∈ attrs -> is_Some (g_perms g !! attr_string a).
Proof.
  induction attrs as [|a attrs IH]; simpl.
  - split; [|done]. intros _ a H. by apply elem_of_nil in H.
  - setoid_rewrite elem_of_cons. destruct (g_perms g !! attr_string a) eqn:E.
    + rewrite IH. split; [|naive_solver]. intros H a' [->|?]; [by eexists|auto].
    + split; [done|]. intros H. destruct (H a) as [x Hx]; [by left|congruence].
Qed.
