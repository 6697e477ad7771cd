(** Several v1 Authorize calls at the same time: a call that nobody disturbs answers as if it were alone, and what others can do to it. *)
From Verif Require Import UtilsProofs RoleProofs V1Auth V1Dec V1SliceProofs.
From Verif Require Export V1PoolSpec.

Notation mem := (gmap nat (list string)).
Section good.
  Context (b : bool) (Q : string -> Prop) (P : res bool -> Prop).
  (** Run from the arrays [own] it holds, and with [old] in those it gave back, the program keeps to its arrays, writes only names fulfilling [Q], and
      returns something fulfilling [P]; unless [b], whatever names fulfilling [Q] it finds in the arrays it gave back. *)
  Fixpoint good (own old : mem) (c : xcode) : Prop :=
    match c with
    | XRet x => P x
    | XGet k => forall l arr, own !! l = None -> good (<[l := arr]> own) (delete l old) (k l)
    | XPut l k => exists arr, own !! l = Some arr /\ good (delete l own) (<[l := arr]> old) k
    | XApp l n w k => Q w /\ exists arr, own !! l = Some arr /\ n <= length arr
        /\ (n < length arr -> good (<[l := <[n := w]> arr]> own) old (k l))
        /\ (n = length arr -> forall l' e, own !! l' = None -> good (<[l' := arr ++ w :: replicate e ""]> own) (delete l' old) (k l'))
    | XSet l j w k => Q w /\ exists arr, own !! l = Some arr /\ j < length arr /\ good (<[l := <[j := w]> arr]> own) old k
    | XElem l j k => exists arr v, old !! l = Some arr /\ arr !! j = Some v /\ if b then good own old (k v) else forall v', Q v' -> good own old (k v')
    end.
  Lemma fill_good ws k : forall n l own old arr, own !! l = Some arr -> n <= length arr -> Forall Q ws ->
    (forall own' old' l' arr', (l' = l \/ own !! l' = None) -> own' !! l' = Some arr' -> (forall x v, x <> l -> x <> l' -> own !! x = Some v -> own' !! x = Some v) ->
       n + length ws <= length arr' -> take (n + length ws) arr' = take n arr ++ ws -> good own' old' (k l')) ->
    good own old (x_fill l n ws k).
  Proof.
    induction ws as [|w ws IH]; intros n l own old arr Hl Hn F K.
    - cbn [x_fill]. apply (K own old l arr); [left; reflexivity|exact Hl|intros x v _ _ H; exact H|cbn [length]; lia|]. cbn [length]. rewrite Nat.add_0_r, app_nil_r. reflexivity.
    - apply Forall_cons in F as [Hw F]. cbn [x_fill good]. split; [exact Hw|]. exists arr. split; [exact Hl|]. split; [exact Hn|]. split.
      + intros Hlt. apply (IH (S n) l _ old (<[n := w]> arr)); [apply lookup_insert|rewrite insert_length; lia|exact F|].
        intros own' old' l' arr' Hl' Ho Hs HL HT. apply (K own' old' l' arr').
        * destruct Hl' as [->|Hl']; [left; reflexivity|]. right. destruct (decide (l' = l)) as [->|N]; [rewrite lookup_insert in Hl'; discriminate|rewrite lookup_insert_ne in Hl' by congruence; exact Hl'].
        * exact Ho.
        * intros x v N1 N2 Hx. apply (Hs x v N1 N2). rewrite lookup_insert_ne by congruence. exact Hx.
        * cbn [length]. lia.
        * cbn [length]. replace (n + S (length ws)) with (S n + length ws) by lia. rewrite HT. rewrite (take_S_r _ _ w) by (apply list_lookup_insert; lia).
          rewrite take_insert by lia. rewrite <- app_assoc. reflexivity.
      + intros ->. intros l2 e Hl2. apply (IH (S (length arr)) l2 _ (delete l2 old) (arr ++ w :: replicate e "")); [apply lookup_insert|rewrite app_length; cbn [length]; lia|exact F|].
        intros own' old' l' arr' Hl' Ho Hs HL HT. apply (K own' old' l' arr').
        * destruct Hl' as [->|Hl']; right; [exact Hl2|]. destruct (decide (l' = l2)) as [->|N]; [exact Hl2|rewrite lookup_insert_ne in Hl' by congruence; exact Hl'].
        * exact Ho.
        * intros x v N1 N2 Hx. destruct (decide (x = l2)) as [->|N3]; [rewrite Hl2 in Hx; discriminate|]. apply (Hs x v N3 N2). rewrite lookup_insert_ne by congruence. exact Hx.
        * cbn [length]. lia.
        * cbn [length]. replace (length arr + S (length ws)) with (S (length arr) + length ws) by lia. rewrite HT.
          rewrite firstn_app. replace (S (length arr) - length arr) with 1 by lia. rewrite take_ge by lia. rewrite (take_ge arr) by lia. cbn [take]. rewrite <- app_assoc. reflexivity.
  Qed.
  Lemma store_good ws k : forall j l own old arr, own !! l = Some arr -> j + length ws <= length arr -> Forall Q ws ->
    (forall own' arr', own' !! l = Some arr' -> (forall x, x <> l -> own' !! x = own !! x) -> length arr' = length arr -> take (j + length ws) arr' = take j arr ++ ws -> good own' old k) ->
    good own old (x_store l j ws k).
  Proof.
    induction ws as [|w ws IH]; intros j l own old arr Hl Hn F K.
    - cbn [x_store]. apply (K own arr); [exact Hl|reflexivity|reflexivity|]. cbn [length]. rewrite Nat.add_0_r, app_nil_r. reflexivity.
    - apply Forall_cons in F as [Hw F]. cbn [x_store good length] in *. split; [exact Hw|]. exists arr. split; [exact Hl|]. split; [lia|].
      apply (IH (S j) l _ old (<[j := w]> arr)); [apply lookup_insert|rewrite insert_length; lia|exact F|].
      intros own' arr' Ho Hs HL HT. apply (K own' arr'); [exact Ho| | |].
      + intros x N. rewrite (Hs x N). apply lookup_insert_ne. congruence.
      + rewrite HL. apply insert_length.
      + replace (j + S (length ws)) with (S j + length ws) by lia. rewrite HT. rewrite (take_S_r _ _ w) by (apply list_lookup_insert; lia). rewrite take_insert by lia. rewrite <- app_assoc. reflexivity.
  Qed.
  (** The slice [s] in [old] reads [v]. *)
  Definition slice_is (old : mem) (s : option (nat * nat)) (v : option (list string)) : Prop :=
    match s, v with
    | None, None => True
    | Some (l, n), Some vs => n = length vs /\ exists arr, old !! l = Some arr /\ take n arr = vs
    | _, _ => False
    end.
  Lemma load_good vs : forall k j l own old arr, old !! l = Some arr -> take (length vs) (drop j arr) = vs ->
    (b = true -> good own old (k vs)) -> (b = false -> forall vs', Forall Q vs' -> good own old (k vs')) -> good own old (x_load l j (length vs) k).
  Proof.
    induction vs as [|v vs IH]; intros k j l own old arr Hl Ht K1 K2; cbn [x_load length].
    - destruct b; [apply K1; reflexivity|apply K2; [reflexivity|apply Forall_nil; exact I]].
    - cbn [good]. cbn [length] in Ht. destruct (arr !! j) as [v0|] eqn:E.
      2:{ apply lookup_ge_None in E. rewrite drop_ge in Ht by exact E. discriminate Ht. }
      rewrite (drop_S _ _ _ E) in Ht. cbn [take] in Ht. injection Ht as -> Ht. exists arr, v. split; [exact Hl|]. split; [exact E|]. destruct b.
      + apply (IH (fun vs' => k (v :: vs')) (S j) l own old arr Hl Ht); [intros _; apply K1; reflexivity|discriminate].
      + intros v' Hv'. apply (IH (fun vs' => k (v' :: vs')) (S j) l own old arr Hl Ht); [discriminate|]. intros _ vs' Hvs. apply K2; [reflexivity|]. apply Forall_cons. split; assumption.
  Qed.
  Lemma slice_good s v k own old : slice_is old s v ->
    (b = true -> good own old (k (default [] v))) -> (b = false -> forall vs', Forall Q vs' -> good own old (k vs')) -> good own old (x_slice s k).
  Proof.
    destruct s as [[l n]|], v as [vs|]; cbn [slice_is x_slice default]; intros H K1 K2; try contradiction.
    - destruct H as (-> & arr & Hl & Ht). apply (load_good vs k 0 l own old arr Hl); [exact Ht|exact K1|exact K2].
    - destruct b; [apply K1; reflexivity|apply K2; [reflexivity|apply Forall_nil; exact I]].
  Qed.
  Lemma pick_good s v own old rs : slice_is old s v -> forall k,
    (b = true -> good own old (k (flat_map (fun r => filter (fun rt => rt = r) (default [] v)) rs))) -> (b = false -> forall ids, Forall Q ids -> good own old (k ids)) ->
    good own old (x_pick_ids rs s k).
  Proof.
    intros S. induction rs as [|r rs IH]; intros k K1 K2; cbn [x_pick_ids].
    - destruct b; [apply K1; reflexivity|apply K2; [reflexivity|apply Forall_nil; exact I]].
    - apply (slice_good s v _ own old S).
      + intros E. apply IH; [intros _; exact (K1 E)|]. intros E'. rewrite E in E'. discriminate E'.
      + intros E vs' F. apply IH; [intros E'; rewrite E in E'; discriminate E'|]. intros _ ids Hi. apply (K2 E). apply Forall_app. split; [|exact Hi].
        apply Forall_forall. intros x Hx. apply elem_of_list_filter in Hx as [_ Hx]. rewrite Forall_forall in F. exact (F x Hx).
  Qed.
  Definition work_ok (w : slwork) : Prop := Forall Q (sw_ns_scopes w) /\ Forall Q (sw_ns_roles w) /\ Forall Q (sw_scopes w) /\ Forall Q (sw_allowed w).
  Definition work_result (w : slwork) : option (list string) := if sw_returns w then Some (compact_adjacent (sw_allowed w)) else None.
  Lemma compact_length (l : list string) : length (compact_adjacent l) <= length l.
  Proof. induction l as [|x [|y l] IH]; cbn [compact_adjacent length] in *; [lia|lia|]. destruct (decide (x = y)); cbn [length]; lia. Qed.
  Lemma allowed_good w k own old : Q "" -> work_ok w -> (forall own' old' s, slice_is old' s (work_result w) -> good own' old' (k s)) -> good own old (x_allowed w k).
  Proof.
    intros Q0 (F1 & F2 & F3 & F4) K. unfold x_allowed. cbn [good].
    intros l1 a1 N1 l2 a2 N2 l3 a3 N3 l4 a4 N4.
    assert (D21 : l2 <> l1) by (intros ->; rewrite lookup_insert in N2; discriminate).
    assert (D32 : l3 <> l2) by (intros ->; rewrite lookup_insert in N3; discriminate).
    assert (D31 : l3 <> l1) by (intros ->; rewrite lookup_insert_ne, lookup_insert in N3 by congruence; discriminate).
    assert (D43 : l4 <> l3) by (intros ->; rewrite lookup_insert in N4; discriminate).
    assert (D42 : l4 <> l2) by (intros ->; rewrite lookup_insert_ne, lookup_insert in N4 by congruence; discriminate).
    assert (D41 : l4 <> l1) by (intros ->; rewrite !lookup_insert_ne, lookup_insert in N4 by congruence; discriminate).
    set (own0 := <[l4 := a4]> _). assert (H4 : own0 !! l4 = Some a4) by apply lookup_insert.
    assert (H3 : own0 !! l3 = Some a3) by (unfold own0; rewrite lookup_insert_ne by congruence; apply lookup_insert).
    assert (H2 : own0 !! l2 = Some a2) by (unfold own0; rewrite !lookup_insert_ne by congruence; apply lookup_insert).
    assert (H1 : own0 !! l1 = Some a1) by (unfold own0; rewrite !lookup_insert_ne by congruence; apply lookup_insert).
    clearbody own0. clear N1 N2 N3 N4.
    apply (fill_good _ _ 0 l1 own0 _ a1 H1 (Nat.le_0_l _) F1). intros o1 old1 m1 b1 E1 Hm1 S1 _ _.
    assert (X : forall x v, x <> l1 -> own0 !! x = Some v -> x <> m1 /\ o1 !! x = Some v).
    { intros x v N Hx. assert (x <> m1) by (intros ->; destruct E1 as [->|E1]; [exact (N eq_refl)|rewrite E1 in Hx; discriminate]). split; [assumption|apply S1; assumption]. }
    destruct (X l2 a2 D21 H2) as [M2 H2']. destruct (X l3 a3 D31 H3) as [M3 H3']. destruct (X l4 a4 D41 H4) as [M4 H4']. clear X H1 H2 H3 H4 S1 E1 D21 D31 D41 own0.
    apply (fill_good _ _ 0 l2 o1 _ a2 H2' (Nat.le_0_l _) F2). intros o2 old2 m2 b2 E2 Hm2 S2 _ _.
    assert (X : forall x v, x <> l2 -> o1 !! x = Some v -> x <> m2 /\ o2 !! x = Some v).
    { intros x v N Hx. assert (x <> m2) by (intros ->; destruct E2 as [->|E2]; [exact (N eq_refl)|rewrite E2 in Hx; discriminate]). split; [assumption|apply S2; assumption]. }
    destruct (X m1 b1) as [M1' Hm1']; [congruence|exact Hm1|]. destruct (X l3 a3 D32 H3') as [M3' H3]. destruct (X l4 a4 D42 H4') as [M4' H4]. clear X H2' H3' H4' Hm1 S2 E2 D32 D42 o1.
    apply (fill_good _ _ 0 l3 o2 _ a3 H3 (Nat.le_0_l _) F3). intros o3 old3 m3 b3 E3 Hm3 S3 _ _.
    assert (X : forall x v, x <> l3 -> o2 !! x = Some v -> x <> m3 /\ o3 !! x = Some v).
    { intros x v N Hx. assert (x <> m3) by (intros ->; destruct E3 as [->|E3]; [exact (N eq_refl)|rewrite E3 in Hx; discriminate]). split; [assumption|apply S3; assumption]. }
    destruct (X m1 b1) as [N13 Hm1]; [congruence|exact Hm1'|]. destruct (X m2 b2) as [N23 Hm2']; [congruence|exact Hm2|]. destruct (X l4 a4 D43 H4) as [M4'' H4']. clear X H3 H4 Hm1' Hm2 S3 E3 D43 o2.
    apply (fill_good _ _ 0 l4 o3 _ a4 H4' (Nat.le_0_l _) F4). intros o4 old4 m4 b4 E4 Hm4 S4 HL HT. cbn [plus take app] in HL, HT.
    assert (X : forall x v, x <> l4 -> o3 !! x = Some v -> x <> m4 /\ o4 !! x = Some v).
    { intros x v N Hx. assert (x <> m4) by (intros ->; destruct E4 as [->|E4]; [exact (N eq_refl)|rewrite E4 in Hx; discriminate]). split; [assumption|apply S4; assumption]. }
    destruct (X m1 b1) as [N14 Hm1']; [congruence|exact Hm1|]. destruct (X m2 b2) as [N24 Hm2]; [congruence|exact Hm2'|]. destruct (X m3 b3) as [N34 Hm3']; [congruence|exact Hm3|].
    clear X Hm1 Hm2' Hm3 S4 E4 H4' o3.
    assert (B : forall o5 b5 s, o5 !! m4 = Some b5 -> (forall x, x <> m4 -> o5 !! x = o4 !! x) ->
              (forall old5, old5 !! m4 = Some b5 -> slice_is old5 s (work_result w)) -> good o5 old4 (XPut m1 (XPut m2 (XPut m3 (XPut m4 (k s)))))).
    { intros o5 b5 s Hm S5 R. cbn [good]. exists b1. split; [rewrite S5 by congruence; exact Hm1'|]. exists b2. split; [rewrite lookup_delete_ne, S5 by congruence; exact Hm2|].
      exists b3. split; [rewrite !lookup_delete_ne, S5 by congruence; exact Hm3'|]. exists b5. split; [rewrite !lookup_delete_ne by congruence; exact Hm|].
      apply K, R. apply lookup_insert. }
    unfold work_result in *. destruct (sw_returns w).
    - pose proof (compact_length (sw_allowed w)) as CL. apply (store_good _ _ 0 m4 o4 old4 b4 Hm4).
      + rewrite app_length, replicate_length. lia.
      + apply Forall_app. split; [|apply Forall_replicate; exact Q0]. apply Forall_forall. intros x Hx. pose proof (proj1 (elem_of_compact_adjacent _ _) Hx) as Hx2. rewrite Forall_forall in F4. exact (F4 x Hx2).
      + intros o5 b5 Hm5 S5 L5 T5. apply (B o5 b5); [exact Hm5|exact S5|]. intros old5 H5. split; [reflexivity|]. exists b5. split; [exact H5|].
        cbn [plus take app] in T5. rewrite app_length, replicate_length in T5.
        apply (f_equal (take (length (compact_adjacent (sw_allowed w))))) in T5. rewrite take_take, Nat.min_l in T5 by lia. rewrite take_0 in T5. cbn [app] in T5. rewrite T5. apply take_app.
    - apply (B o4 b4); [exact Hm4|reflexivity|]. intros old5 _. exact I.
  Qed.
  Lemma res_good {A} (r : res A) k own old : (forall a, r = Ok a -> good own old (k a)) -> (r = Panic -> P Panic) -> (r = Hang -> P Hang) -> good own old (x_res r k).
  Proof. destruct r as [a| |]; cbn [x_res good]; intros H1 H2 H3; [apply H1|apply H2|apply H3]; reflexivity. Qed.
  Lemma complex_good o st q p own old : Q "" ->
    let ns := to_string (uo_namespace q) in let scope := to_string (uo_scope q) in let t := to_string (uo_tenant q) in
    (forall prs w, get_principal_roles (sub o 0) st t p = Ok prs -> slice_work (sub o 1) st prs ns scope = Ok w -> work_ok w) ->
    P (authorize_complex o st q p) ->
    (b = false -> forall prs ids, get_principal_roles (sub o 0) st t p = Ok prs ->
       P (any_has (sub o 3) 1 (u_heap st) (to_string (uo_group q)) (to_string (uo_activity q)) ids (ordered (sub (sub o 3) 0) (map_to_list (registered_roles st (tp_role <$> prs))).*2))) ->
    good own old (x_complex o st q p).
  Proof.
    intros Q0 ns scope t W. unfold authorize_complex, x_complex. fold ns scope t. destruct (u_tenant st t) as [c|]; [|intros H _; exact H].
    destruct (get_principal_roles (sub o 0) st t p) as [prs| |] eqn:E; cbn [rbind x_res]; [|intros H _; exact H..].
    destruct prs as [|a prs]; [intros H _; exact H|]. set (g := _ || _). destruct g; [intros H _; exact H|]. rewrite slice_work_ok.
    destruct (slice_work (sub o 1) st (a :: prs) ns scope) as [w| |] eqn:Ew; cbn [rbind x_res]; [|intros H _; exact H..]. intros H K.
    apply allowed_good; [exact Q0|exact (W _ _ eq_refl Ew)|]. intros own' old' s S. apply (pick_good s _ own' old' _ S).
    - intros _. cbn [good]. unfold get_allowed_role_ids in H. exact H.
    - intros Eb ids _. cbn [good]. exact (K Eb (a :: prs) ids eq_refl).
  Qed.
  Lemma collect_good o st p ts : Q "" ->
    (forall i t prs w, get_principal_roles (sub (sub o i) 0) st t p = Ok prs -> slice_work (sub (sub o i) 1) st prs "" "" = Ok w -> work_ok w) ->
    forall i k own old, (collect_allowed o i st p ts = Panic -> P Panic) -> (collect_allowed o i st p ts = Hang -> P Hang) ->
    (b = true -> forall ids own' old', collect_allowed o i st p ts = Ok ids -> good own' old' (k ids)) ->
    (b = false -> forall ids own' old', Forall Q ids -> good own' old' (k ids)) ->
    good own old (x_collect o i st p ts k).
  Proof.
    intros Q0 W. induction ts as [|t ts IH]; intros i k own old P1 P2 K1 K2; cbn [x_collect].
    - destruct b; [apply K1; reflexivity|apply K2; [reflexivity|apply Forall_nil; exact I]].
    - cbn [collect_allowed] in P1, P2, K1. destruct (get_principal_roles (sub (sub o i) 0) st t p) as [prs| |] eqn:E; cbn [rbind x_res] in *; [|apply P1; reflexivity|apply P2; reflexivity].
      destruct prs as [|a prs]; cbn [nil_slice] in P1, P2, K1.
      + cbn [get_allowed_roles rbind default app] in P1, P2, K1. apply IH.
        * intros X. rewrite X in P1. apply P1. reflexivity.
        * intros X. rewrite X in P2. apply P2. reflexivity.
        * intros Eb ids own' old' X. rewrite X in K1. cbn [rbind] in K1. exact (K1 Eb ids own' old' eq_refl).
        * exact K2.
      + rewrite slice_work_ok in P1, P2, K1.
        destruct (slice_work (sub (sub o i) 1) st (a :: prs) "" "") as [w| |] eqn:Ew; cbn [rbind x_res] in *; [|apply P1; reflexivity|apply P2; reflexivity].
        apply allowed_good; [exact Q0|exact (W _ _ _ _ E Ew)|]. intros own' old' s S. apply (slice_good s _ _ own' old' S).
        * intros Eb. apply IH.
          -- intros X. rewrite X in P1. apply P1. reflexivity.
          -- intros X. rewrite X in P2. apply P2. reflexivity.
          -- intros _ ids own2 old2 X. rewrite X in K1. cbn [rbind] in K1. exact (K1 Eb _ own2 old2 eq_refl).
          -- intros Eb'. rewrite Eb in Eb'. discriminate Eb'.
        * intros Eb vs' F. apply IH.
          -- intros X. rewrite X in P1. apply P1. reflexivity.
          -- intros X. rewrite X in P2. apply P2. reflexivity.
          -- intros Eb'. rewrite Eb in Eb'. discriminate Eb'.
          -- intros _ ids own2 old2 F2. apply (K2 Eb). apply Forall_app. split; assumption.
  Qed.
  Lemma activity_good o st p act own old : Q "" ->
    (forall i t prs w, get_principal_roles (sub (sub (sub o 1) i) 0) st t p = Ok prs -> slice_work (sub (sub (sub o 1) i) 1) st prs "" "" = Ok w -> work_ok w) ->
    P (authorize_for_activity o st p act) ->
    (b = false -> forall ids, Forall Q ids -> P (any_has (sub o 2) 1 (u_heap st) "" act ids (ordered (sub (sub o 2) 0) (map_to_list (registered_roles st ids)).*2))) ->
    good own old (x_activity o st p act).
  Proof.
    intros Q0 W. unfold authorize_for_activity, x_activity. destruct (get_tenants_for_principal (sub o 0) st p) as [ts| |]; cbn [rbind x_res]; [|intros H _; exact H..].
    intros H K. apply collect_good; [exact Q0|exact W| | | |].
    - intros X. rewrite X in H. exact H.
    - intros X. rewrite X in H. exact H.
    - intros _ ids own' old' X. rewrite X in H. exact H.
    - intros Eb ids own' old' F. cbn [good]. apply (K Eb). apply Forall_forall. intros x Hx. pose proof (proj1 (elem_of_compact_adjacent _ _) Hx) as Hx2. rewrite Forall_forall in F. exact (F x Hx2).
  Qed.
End good.
