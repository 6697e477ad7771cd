(** Every non-empty result of GetAllowedRoles can be overwritten by the next call. *)
From Verif Require Import V1Model V1Slice UtilsProofs RoleProofs.
From Verif Require Export V1SliceProofs.

Lemma compact_head x (l : list string) : head (compact_adjacent (x :: l)) = Some x.
Proof.
  revert x. induction l as [|y l IH]; intros x; [done|]. cbn [compact_adjacent]. case_decide; [subst; apply IH|done].
Qed.
Definition first_cell (st : slstate) (l : nat) : option string := sl_arrays st !! l ≫= head.
Lemma read_head st l k v vs : sl_read st (Some (l, k)) = Some (v :: vs) -> first_cell st l = Some v.
Proof.
  unfold first_cell. cbn [sl_read]. destruct (sl_arrays st !! l) as [arr|]; cbn [default mbind option_bind id]; unfold id.
  - destruct arr, k; cbn [take]; try done. by intros [= <- _].
  - by rewrite take_nil.
Qed.
Lemma head_read st l k v : 0 < k -> first_cell st l = Some v -> exists vs, sl_read st (Some (l, k)) = Some (v :: vs).
Proof.
  unfold first_cell. cbn [sl_read]. destruct (sl_arrays st !! l) as [arr|]; cbn [default mbind option_bind id]; unfold id; [|done].
  destruct arr as [|a arr]; [done|]. intros Hk [= <-]. destruct k; [lia|]. cbn [take]. by eexists.
Qed.
Lemma append_first st l x xs st' l' v : sl_append st l (x :: xs) = (st', l') -> first_cell st l = Some v ->
  first_cell st' l = Some x.
Proof.
  unfold sl_append, first_cell. destruct (sl_arrays st !! l) as [arr|] eqn:E; [|done]. cbn [default mbind option_bind id]; unfold id.
  pose proof (lookup_lt_Some _ _ _ E) as Hl. destruct arr as [|a arr]; [done|]. intros H _.
  destruct (Nat.leb _ _) eqn:Hle in H; injection H as <- <-; cbn [sl_arrays].
  - by rewrite list_lookup_insert.
  - rewrite lookup_app_l by by rewrite insert_length. by rewrite list_lookup_insert.
Qed.
Lemma compact_first st l m k st' k' x xs : sl_compact st m (S k) = (st', k') ->
  (exists arr, sl_arrays st !! m = Some arr /\ take (S k) arr = x :: xs) -> first_cell st l = Some x -> first_cell st' l = Some x.
Proof.
  unfold sl_compact. intros H (arr & Hm & Ht) Hf. rewrite Hm in H. cbn [default id] in H. unfold id in H.
  rewrite Ht in H. destruct (compact_adjacent (x :: xs)) as [|a w] eqn:Hc; [by pose proof (compact_head x xs) as Hh; rewrite Hc in Hh|].
  assert (a = x) as -> by (pose proof (compact_head x xs) as Hh; rewrite Hc in Hh; by injection Hh).
  clear Hc. injection H as <- _. unfold first_cell. cbn [sl_arrays]. destruct (decide (m = l)) as [->|Hne].
  - rewrite list_lookup_insert by by eapply lookup_lt_Some. cbn [mbind option_bind].
    done.
  - by rewrite list_lookup_insert_ne.
Qed.
Lemma c50_overwritten st l k v vs w x xs : sl_reachable st -> l ∈ sl_pool st ->
  sl_read st (Some (l, k)) = Some (v :: vs) -> sw_allowed w = x :: xs ->
  exists picks, forall st' r, sl_call st picks w = (st', r) -> exists ys, sl_read st' (Some (l, k)) = Some (x :: ys).
Proof.
  intros Hr Hl Hv Hw. pose proof (sl_reachable_wf _ Hr) as W. apply elem_of_list_lookup in Hl as (i & Hi).
  exists (None, None, None, Some i). intros st' r. unfold sl_call.
  assert (0 < k) as Hk. { destruct k; [|lia]. cbn [sl_read] in Hv. by rewrite take_0 in Hv. }
  pose proof (read_head _ _ _ _ _ Hv) as Hf.
  destruct (sl_get st None) as [st1 l1] eqn:G1. destruct (sl_get st1 None) as [st2 l2] eqn:G2.
  destruct (sl_get st2 None) as [st3 l3] eqn:G3. destruct (sl_get st3 (Some i)) as [st4 l4] eqn:G4.
  destruct (get_spec _ _ _ _ W G1) as (W1 & L1 & N1 & S1 & O1 & Len1 & K1).
  destruct (get_spec _ _ _ _ W1 G2) as (W2 & L2 & N2 & S2 & O2 & Len2 & K2).
  destruct (get_spec _ _ _ _ W2 G3) as (W3 & L3 & N3 & S3 & O3 & Len3 & K3).
  destruct (get_spec _ _ _ _ W3 G4) as (W4 & L4 & N4 & S4 & O4 & Len4 & K4).
  assert (Hlt : l < length (sl_arrays st)) by (eapply (sl_valid _ W), elem_of_list_lookup_2, Hi).
  assert (P3 : sl_pool st3 = sl_pool st /\ l1 = length (sl_arrays st) /\ l2 = length (sl_arrays st1) /\ l3 = length (sl_arrays st2)).
  { unfold sl_get in G1, G2, G3. injection G1 as <- <-. injection G2 as <- <-. injection G3 as <- <-. done. }
  destruct P3 as (P3 & -> & -> & ->).
  assert (l4 = l) as ->. { unfold sl_get in G4. rewrite P3, Hi in G4. by injection G4 as _ <-. }
  assert (M1 : length (sl_arrays st) ∉ sl_pool st4) by (intros H; by apply N1, S2, S3, S4).
  assert (M2 : length (sl_arrays st1) ∉ sl_pool st4) by (intros H; by apply N2, S3, S4).
  assert (M3 : length (sl_arrays st2) ∉ sl_pool st4) by (intros H; by apply N3, S4).
  destruct (sl_append st4 _ (sw_ns_scopes w)) as [st5 m1] eqn:A1.
  assert (T1 : length (sl_arrays st) < length (sl_arrays st4)) by (clear -L1 Len2 Len3 Len4; lia).
  destruct (append_spec _ _ _ _ _ W4 T1 M1 A1) as (W5 & P5 & _ & _ & _ & Len5 & K5 & _).
  destruct (sl_append st5 _ (sw_ns_roles w)) as [st6 m2] eqn:A2.
  assert (T2 : length (sl_arrays st1) < length (sl_arrays st5)) by (clear -L2 Len3 Len4 Len5; lia).
  rewrite <-P5 in M2. destruct (append_spec _ _ _ _ _ W5 T2 M2 A2) as (W6 & P6 & _ & _ & _ & Len6 & K6 & _).
  destruct (sl_append st6 _ (sw_scopes w)) as [st7 m3] eqn:A3.
  assert (T3 : length (sl_arrays st2) < length (sl_arrays st6)) by (clear -L3 Len4 Len5 Len6; lia).
  rewrite <-P5, <-P6 in M3. destruct (append_spec _ _ _ _ _ W6 T3 M3 A3) as (W7 & P7 & _ & _ & _ & Len7 & K7 & _).
  assert (F7 : first_cell st7 l = Some v).
  { unfold first_cell in *. clear -Hf Hlt K1 K2 K3 K4 K5 K6 K7 Len1 Len2 Len3 Len4 Len5 Len6 Len7.
    rewrite K7, K6, K5, K4, K3, K2, K1; [done|..]; clear -Hlt Len1 Len2 Len3 Len4 Len5 Len6 Len7; lia. }
  destruct (sl_append st7 l (sw_allowed w)) as [st8 m4] eqn:A4. rewrite Hw in A4.
  assert (T4 : l < length (sl_arrays st7)) by (clear -Hlt Len1 Len2 Len3 Len4 Len5 Len6 Len7; lia).
  assert (N7 : l ∉ sl_pool st7) by by rewrite P7, P6, P5.
  destruct (append_spec _ _ _ _ _ W7 T4 N7 A4) as (W8 & _ & _ & _ & _ & _ & _ & R8).
  pose proof (append_first _ _ _ _ _ _ _ A4 F7) as F8.
  destruct (sw_returns w).
  - destruct (sl_compact st8 m4 (length (sw_allowed w))) as [st9 k9] eqn:Ec. rewrite Hw in Ec. cbn [length] in Ec, R8.
    pose proof (compact_first _ l _ _ _ _ _ _ Ec R8 F8) as F9. intros [= <- _].
    exact (head_read _ l k x Hk F9).
  - intros [= <- _]. exact (head_read _ l k x Hk F8).
Qed.
(** ... in particular the result of the previous call. *)
Lemma c50_next_call st picks w st1 l k w' v vs x xs : sl_reachable st -> sl_call st picks w = (st1, Some (l, k)) ->
  sl_read st1 (Some (l, k)) = Some (v :: vs) -> sw_allowed w' = x :: xs ->
  exists picks', forall st2 r, sl_call st1 picks' w' = (st2, r) -> exists ys, sl_read st2 (Some (l, k)) = Some (x :: ys).
Proof.
  intros (cs & Hst) Hc Hv Hw. assert (Hr : sl_reachable st) by by exists cs.
  destruct (call_spec _ _ _ _ _ (sl_reachable_wf _ Hr) Hc) as (_ & _ & _ & Hp & _).
  eapply c50_overwritten; [|by eapply Hp|exact Hv|exact Hw].
  exists (cs ++ [(picks, w)]). clear -Hst Hc. revert st Hst Hc. generalize sl_init.
  induction cs as [|[p1 w1] cs IH]; intros s0 st Hst Hc; cbn [sl_run app] in *.
  - subst st. cbn [fst] in Hc. by rewrite Hc.
  - destruct (sl_call s0 p1 w1) as [s1 r1]. specialize (IH s1).
    destruct (sl_run s1 cs) as [s2 rs2] eqn:E2. cbn [fst] in Hst. subst st.
    specialize (IH s2 eq_refl Hc). destruct (sl_run s1 (cs ++ [(picks, w)])) as [s3 rs3]. done.
Qed.
