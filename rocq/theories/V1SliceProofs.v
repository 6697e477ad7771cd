(** The pooled slices of GetAllowedRoles. *)
From Verif Require Import V1Model V1Slice UtilsProofs RoleProofs.

(** The machine does the work of [get_allowed_roles]. *)
Lemma slice_work_ok o st rows ns s :
  get_allowed_roles o st (Some rows) ns s
  = let! w := slice_work o st rows ns s in Ok (if sw_returns w then Some (compact_adjacent (sw_allowed w)) else None).
Proof.
  unfold get_allowed_roles, slice_work. destruct rows as [|a rows]; [done|].
  destruct (u_tenant st (tp_tenant a)) as [c|]; [|done]. cbv zeta.
  set (g1 := _ || _). destruct g1; [done|].
  match goal with |- context [rbind ?x _] => destruct x as [m| |]; [|done|done] end. cbn [rbind].
  set (g2 := _ || _). destruct g2; [done|]. cbn [rbind sw_returns sw_allowed].
  match goal with |- context [forallb ?f ?al] => by destruct (forallb f al) end.
Qed.

(** ** Invariant: pooled arrays exist and are distinct *)
Record sl_wf (st : slstate) : Prop := {
  sl_nodup : NoDup (sl_pool st);
  sl_valid : forall l, l ∈ sl_pool st -> l < length (sl_arrays st)
}.
Lemma get_spec st p st' l : sl_wf st -> sl_get st p = (st', l) ->
  sl_wf st' /\ l < length (sl_arrays st') /\ l ∉ sl_pool st'
  /\ (forall x, x ∈ sl_pool st' -> x ∈ sl_pool st)
  /\ (l ∈ sl_pool st \/ l = length (sl_arrays st))
  /\ length (sl_arrays st) <= length (sl_arrays st')
  /\ (forall x, x < length (sl_arrays st) -> sl_arrays st' !! x = sl_arrays st !! x).
Proof.
  intros W. pose proof W as [Hn Hv].
  assert (Hf : (SL (sl_arrays st ++ [replicate sl_cap ""]) (sl_pool st), length (sl_arrays st)) = (st', l) ->
    sl_wf st' /\ l < length (sl_arrays st') /\ l ∉ sl_pool st'
    /\ (forall x, x ∈ sl_pool st' -> x ∈ sl_pool st)
    /\ (l ∈ sl_pool st \/ l = length (sl_arrays st))
    /\ length (sl_arrays st) <= length (sl_arrays st')
    /\ (forall x, x < length (sl_arrays st) -> sl_arrays st' !! x = sl_arrays st !! x)).
  { intros [= <- <-]. cbn [sl_arrays sl_pool]. rewrite app_length; cbn [length]. split_and!; try done; try lia.
    - split; [done|]. cbn [sl_arrays sl_pool]. rewrite app_length. intros x Hx. apply Hv in Hx. cbn [length]. lia.
    - intros Hx. apply Hv in Hx. lia.
    - intros x Hx. by apply lookup_app_l. }
  unfold sl_get. destruct p as [i|]; [|done]. destruct (sl_pool st !! i) as [x|] eqn:E; [|done].
  clear Hf. intros [= <- <-]. cbn [sl_arrays sl_pool]. pose proof E as Hx. apply elem_of_list_lookup_2 in Hx.
  pose proof (delete_Permutation _ _ _ E) as Hp. assert (Hn' := Hn). rewrite Hp in Hn'. apply NoDup_cons in Hn' as [Hni Hnd].
  assert (Hsub : forall y, y ∈ delete i (sl_pool st) -> y ∈ sl_pool st) by (intros y Hy; rewrite Hp; by right).
  split_and!; try done; [split; [done|]|by apply Hv|by left].
  cbn [sl_arrays sl_pool]. intros y Hy. by apply Hv, Hsub.
Qed.
(** Writing to one array. *)
Lemma append_spec st l w st' l' : sl_wf st -> l < length (sl_arrays st) -> l ∉ sl_pool st -> sl_append st l w = (st', l') ->
  sl_wf st' /\ sl_pool st' = sl_pool st /\ l' < length (sl_arrays st') /\ l' ∉ sl_pool st'
  /\ (l' = l \/ l' = length (sl_arrays st)) /\ length (sl_arrays st) <= length (sl_arrays st')
  /\ (forall x, x <> l -> x < length (sl_arrays st) -> sl_arrays st' !! x = sl_arrays st !! x)
  /\ (exists arr, sl_arrays st' !! l' = Some arr /\ take (length w) arr = w).
Proof.
  intros [Hn Hv] Hl Hni. unfold sl_append. destruct (lookup_lt_is_Some_2 _ _ Hl) as [arr Ha]. rewrite Ha. cbn [default id]; unfold id.
  destruct (Nat.leb (length w) (length arr)) eqn:Hle; intros [= <- <-]; cbn [sl_arrays sl_pool].
  - apply Nat.leb_le in Hle. rewrite insert_length. split_and!; try done; [split|by left| |].
    + done.
    + cbn [sl_arrays sl_pool]. by rewrite insert_length.
    + intros x Hx _. by apply list_lookup_insert_ne.
    + eexists. split; [by apply list_lookup_insert|]. unfold overwrite. by rewrite take_app.
  - rewrite app_length, insert_length. cbn [length]. split_and!; try done; try lia.
    + split; [done|]. cbn [sl_arrays sl_pool]. rewrite app_length, insert_length. intros x Hx. apply Hv in Hx. lia.
    + intros Hx. apply Hv in Hx. lia.
    + intros x Hx Hlt. rewrite lookup_app_l by by rewrite insert_length. by apply list_lookup_insert_ne.
    + exists w. split; [|by apply take_ge]. rewrite lookup_app_r by by rewrite insert_length.
      by rewrite insert_length, Nat.sub_diag.
Qed.
Lemma compact_length_le l : length (compact_adjacent (A:=string) l) <= length l.
Proof.
  induction l as [|x l IH]; [done|]. destruct l as [|y l]; [done|]. cbn [compact_adjacent] in *.
  case_decide; cbn [length] in *; lia.
Qed.
Lemma compact_spec_arr st l k st' k' w : sl_wf st -> l < length (sl_arrays st) ->
  (exists arr, sl_arrays st !! l = Some arr /\ take k arr = w) -> sl_compact st l k = (st', k') ->
  sl_wf st' /\ sl_pool st' = sl_pool st /\ length (sl_arrays st') = length (sl_arrays st)
  /\ (forall x, x <> l -> sl_arrays st' !! x = sl_arrays st !! x)
  /\ sl_read st' (Some (l, k')) = Some (compact_adjacent w).
Proof.
  intros [Hn Hv] Hl (arr & Ha & Hw). unfold sl_compact. rewrite Ha. cbn [default id]; unfold id. intros [= <- <-].
  cbn [sl_arrays sl_pool sl_read]. rewrite insert_length. split_and!; try done; [split|..].
  - done.
  - cbn [sl_arrays sl_pool]. by rewrite insert_length.
  - intros x Hx. by apply list_lookup_insert_ne.
  - rewrite list_lookup_insert by done. cbn [default id]; unfold id. by rewrite Hw, take_app.
Qed.
Lemma put_wf st l : sl_wf st -> l < length (sl_arrays st) -> l ∉ sl_pool st -> sl_wf (sl_put st l).
Proof.
  intros [Hn Hv] Hl Hni. split; cbn [sl_put sl_pool sl_arrays].
  - by constructor.
  - intros x [->|Hx]%elem_of_cons; [done|by apply Hv].
Qed.

Lemma sep (a b a' b' n n' : nat) : a <> b -> b < n -> a' < n' -> n <= n' ->
  a' = a \/ a' = n -> b' = b \/ b' = n' -> a' <> b'.
Proof. lia. Qed.
Lemma sep_out (x l m n : nat) : x < n -> x <> l -> m = l \/ m = n -> x <> m.
Proof. lia. Qed.
Lemma put4_wf st a b c d : sl_wf st -> a < length (sl_arrays st) -> b < length (sl_arrays st) -> c < length (sl_arrays st) ->
  d < length (sl_arrays st) -> a ∉ sl_pool st -> b ∉ sl_pool st -> c ∉ sl_pool st -> d ∉ sl_pool st ->
  a <> b -> a <> c -> a <> d -> b <> c -> b <> d -> c <> d ->
  sl_wf (sl_put (sl_put (sl_put (sl_put st a) b) c) d).
Proof.
  intros. apply put_wf; [apply put_wf; [apply put_wf; [by apply put_wf|..]|..]|..]; cbn [sl_put sl_arrays sl_pool]; try done;
    rewrite ?not_elem_of_cons; split_and!; done.
Qed.

Lemma call_spec st picks w st' r : sl_wf st -> sl_call st picks w = (st', r) ->
  sl_wf st' /\ length (sl_arrays st) <= length (sl_arrays st')
  /\ sl_read st' r = (if sw_returns w then Some (compact_adjacent (sw_allowed w)) else None)
  /\ (forall l k, r = Some (l, k) -> l ∈ sl_pool st')
  /\ (forall x, x < length (sl_arrays st) -> ~ taken st picks x -> sl_arrays st' !! x = sl_arrays st !! x)
  /\ (forall x, x < length (sl_arrays st) -> ~ taken st picks x -> x ∈ sl_pool st' -> x ∈ sl_pool st).
Proof.
  intros W. destruct picks as [[[p1 p2] p3] p4]. unfold sl_call, taken.
  destruct (sl_get st p1) as [st1 l1] eqn:G1. destruct (sl_get st1 p2) as [st2 l2] eqn:G2.
  destruct (sl_get st2 p3) as [st3 l3] eqn:G3. destruct (sl_get st3 p4) as [st4 l4] eqn:G4.
  destruct (get_spec _ _ _ _ W G1) as (W1 & L1 & N1 & S1 & O1 & Len1 & K1).
  destruct (get_spec _ _ _ _ W1 G2) as (W2 & L2 & N2 & S2 & O2 & Len2 & K2).
  destruct (get_spec _ _ _ _ W2 G3) as (W3 & L3 & N3 & S3 & O3 & Len3 & K3).
  destruct (get_spec _ _ _ _ W3 G4) as (W4 & L4 & N4 & S4 & O4 & Len4 & K4).
  assert (D12 : l1 <> l2) by (intros ->; destruct O2; [done|lia]).
  assert (D13 : l1 <> l3) by (intros ->; destruct O3; [by apply N1, S2|lia]).
  assert (D14 : l1 <> l4) by (intros ->; destruct O4; [by apply N1, S2, S3|lia]).
  assert (D23 : l2 <> l3) by (intros ->; destruct O3; [done|lia]).
  assert (D24 : l2 <> l4) by (intros ->; destruct O4; [by apply N2, S3|lia]).
  assert (D34 : l3 <> l4) by (intros ->; destruct O4; [done|lia]).
  assert (M1 : l1 ∉ sl_pool st4) by (intros H; by apply N1, S2, S3, S4).
  assert (M2 : l2 ∉ sl_pool st4) by (intros H; by apply N2, S3, S4).
  assert (M3 : l3 ∉ sl_pool st4) by (intros H; by apply N3, S4).
  destruct (sl_append st4 l1 (sw_ns_scopes w)) as [st5 m1] eqn:A1.
  assert (T1 : l1 < length (sl_arrays st4)) by lia.
  destruct (append_spec _ _ _ _ _ W4 T1 M1 A1) as (W5 & P5 & B1 & Q1 & E1 & Len5 & K5 & _).
  destruct (sl_append st5 l2 (sw_ns_roles w)) as [st6 m2] eqn:A2.
  assert (T2 : l2 < length (sl_arrays st5)) by lia.
  assert (U2 : l2 ∉ sl_pool st5) by (by rewrite P5).
  destruct (append_spec _ _ _ _ _ W5 T2 U2 A2) as (W6 & P6 & B2 & Q2 & E2 & Len6 & K6 & _).
  destruct (sl_append st6 l3 (sw_scopes w)) as [st7 m3] eqn:A3.
  assert (T3 : l3 < length (sl_arrays st6)) by lia.
  assert (U3 : l3 ∉ sl_pool st6) by (by rewrite P6, P5).
  destruct (append_spec _ _ _ _ _ W6 T3 U3 A3) as (W7 & P7 & B3 & Q3 & E3 & Len7 & K7 & _).
  destruct (sl_append st7 l4 (sw_allowed w)) as [st8 m4] eqn:A4.
  assert (T4 : l4 < length (sl_arrays st7)) by lia.
  assert (U4 : l4 ∉ sl_pool st7) by (by rewrite P7, P6, P5).
  destruct (append_spec _ _ _ _ _ W7 T4 U4 A4) as (W8 & P8 & B4 & Q4 & E4 & Len8 & K8 & R8).
  assert (C : forall st9 r9,
    (if sw_returns w then let '(st, k) := sl_compact st8 m4 (length (sw_allowed w)) in (st, Some (m4, k)) else (st8, None)) = (st9, r9) ->
    sl_wf st9 /\ sl_pool st9 = sl_pool st8 /\ length (sl_arrays st9) = length (sl_arrays st8)
    /\ (forall x, x <> m4 -> sl_arrays st9 !! x = sl_arrays st8 !! x)
    /\ sl_read st9 r9 = (if sw_returns w then Some (compact_adjacent (sw_allowed w)) else None)
    /\ (forall l k, r9 = Some (l, k) -> l = m4)).
  { intros st9 r9. destruct (sw_returns w).
    - destruct (sl_compact st8 m4 (length (sw_allowed w))) as [st9' k] eqn:Ec. intros [= <- <-].
      destruct (compact_spec_arr _ _ _ _ _ _ W8 B4 R8 Ec) as (? & ? & ? & ? & ?). split_and!; try done. by intros ? ? [= <- _].
    - intros [= <- <-]. split_and!; done. }
  destruct (if sw_returns w then _ else _) as [st9 r9] eqn:E9. destruct (C _ _ eq_refl) as (W9 & P9 & Len9 & K9 & R9 & L9).
  clear C. intros [= <- <-].
  assert (F12 : m1 <> m2).
  { clear -D12 L1 L2 L3 L4 Len1 Len2 Len3 Len4 T1 T2 B1 E1 E2 Len5 Len6 Len7. apply (sep l1 l2 m1 m2 (length (sl_arrays st4)) (length (sl_arrays st5))); try done; lia. }
  assert (F13 : m1 <> m3).
  { clear -D13 L1 L2 L3 L4 Len1 Len2 Len3 Len4 T1 T3 B1 E1 E3 Len5 Len6 Len7. apply (sep l1 l3 m1 m3 (length (sl_arrays st4)) (length (sl_arrays st6))); try done; lia. }
  assert (F14 : m1 <> m4).
  { clear -D14 L1 L2 L3 L4 Len1 Len2 Len3 Len4 T1 T4 B1 E1 E4 Len5 Len6 Len7. apply (sep l1 l4 m1 m4 (length (sl_arrays st4)) (length (sl_arrays st7))); try done; lia. }
  assert (F23 : m2 <> m3).
  { clear -D23 L1 L2 L3 L4 Len1 Len2 Len3 Len4 T2 T3 B2 E2 E3 Len5 Len6 Len7. apply (sep l2 l3 m2 m3 (length (sl_arrays st5)) (length (sl_arrays st6))); try done; lia. }
  assert (F24 : m2 <> m4).
  { clear -D24 L1 L2 L3 L4 Len1 Len2 Len3 Len4 T2 T4 B2 E2 E4 Len5 Len6 Len7. apply (sep l2 l4 m2 m4 (length (sl_arrays st5)) (length (sl_arrays st7))); try done; lia. }
  assert (F34 : m3 <> m4).
  { clear -D34 L1 L2 L3 L4 Len1 Len2 Len3 Len4 T3 T4 B3 E3 E4 Len5 Len6 Len7. apply (sep l3 l4 m3 m4 (length (sl_arrays st6)) (length (sl_arrays st7))); try done; lia. }
  assert (Pall : sl_pool st9 = sl_pool st4) by congruence.
  assert (V1 : m1 ∉ sl_pool st9) by (rewrite P9, P8, P7, P6; done).
  assert (V2 : m2 ∉ sl_pool st9) by (rewrite P9, P8, P7; done).
  assert (V3 : m3 ∉ sl_pool st9) by (rewrite P9, P8; done).
  assert (V4 : m4 ∉ sl_pool st9) by (rewrite P9; done).
  split_and!.
  - apply put4_wf; try done; clear -B1 B2 B3 B4 Len5 Len6 Len7 Len8 Len9; lia.
  - cbn [sl_put sl_arrays]. clear -Len1 Len2 Len3 Len4 Len5 Len6 Len7 Len8 Len9. lia.
  - rewrite <-R9. by destruct r9 as [[]|].
  - intros l k ->. rewrite (L9 _ _ eq_refl). cbn [sl_put sl_pool]. by left.
  - intros x Hx Hnt. cbn [sl_put sl_arrays].
    assert (x <> l1 /\ x <> l2 /\ x <> l3 /\ x <> l4) as (X1 & X2 & X3 & X4) by (clear -Hnt; tauto).
    assert (Xm : x <> m4).
    { apply (sep_out x l4 m4 (length (sl_arrays st7))); [|done|done]. clear -Hx Len1 Len2 Len3 Len4 Len5 Len6 Len7. lia. }
    rewrite (K9 x Xm). clear -Hx X1 X2 X3 X4 K8 K7 K6 K5 K4 K3 K2 K1 Len1 Len2 Len3 Len4 Len5 Len6 Len7.
    rewrite (K8 x X4), (K7 x X3), (K6 x X2), (K5 x X1), K4, K3, K2, K1; try done; clear -Hx Len1 Len2 Len3 Len4 Len5 Len6 Len7; lia.
  - intros x Hx Hnt Hp. cbn [sl_put sl_pool] in Hp. rewrite Pall in Hp.
    assert (x <> l1 /\ x <> l2 /\ x <> l3 /\ x <> l4) as (X1 & X2 & X3 & X4) by (clear -Hnt; tauto).
    assert (Hb : x < length (sl_arrays st4) /\ x < length (sl_arrays st5) /\ x < length (sl_arrays st6) /\ x < length (sl_arrays st7))
      by (clear -Hx Len1 Len2 Len3 Len4 Len5 Len6 Len7; lia).
    destruct Hb as (Hb1 & Hb2 & Hb3 & Hb4).
    apply elem_of_cons in Hp as [->|Hp]; [by destruct (sep_out _ _ _ _ Hb4 X4 E4)|].
    apply elem_of_cons in Hp as [->|Hp]; [by destruct (sep_out _ _ _ _ Hb3 X3 E3)|].
    apply elem_of_cons in Hp as [->|Hp]; [by destruct (sep_out _ _ _ _ Hb2 X2 E2)|].
    apply elem_of_cons in Hp as [->|Hp]; [by destruct (sep_out _ _ _ _ Hb1 X1 E1)|].
    by apply S1, S2, S3, S4.
Qed.
Lemma sl_wf_init : sl_wf sl_init.
Proof. split; [constructor|]. by intros ? ?%elem_of_nil. Qed.
Lemma run_wf st cs st' rs : sl_wf st -> sl_run st cs = (st', rs) -> sl_wf st'.
Proof.
  revert st st' rs. induction cs as [|[p w] cs IH]; intros st st' rs W; cbn [sl_run]; [by intros [= <- _]|].
  destruct (sl_call st p w) as [st1 r] eqn:E. destruct (sl_run st1 cs) as [st2 rs2] eqn:E2. intros [= <- _].
  eapply IH; [|exact E2]. by apply (call_spec _ _ _ _ _ W E).
Qed.
Lemma sl_reachable_wf st : sl_reachable st -> sl_wf st.
Proof. intros (cs & ->). destruct (sl_run sl_init cs) as [st' rs] eqn:E. eapply run_wf; [apply sl_wf_init|exact E]. Qed.

(** A result is read correctly right after the call. *)
Lemma c50_fresh st picks w st' r : sl_reachable st -> sl_call st picks w = (st', r) ->
  sl_read st' r = (if sw_returns w then Some (compact_adjacent (sw_allowed w)) else None).
Proof. intros H E. by apply (call_spec _ _ _ _ _ (sl_reachable_wf _ H) E). Qed.
(** A later call changes only results in arrays it takes. *)
Lemma c50_stable st picks w st' r' l k : sl_reachable st -> sl_call st picks w = (st', r') ->
  l < length (sl_arrays st) -> ~ taken st picks l -> sl_read st' (Some (l, k)) = sl_read st (Some (l, k)).
Proof.
  intros H E Hl Hn. destruct (call_spec _ _ _ _ _ (sl_reachable_wf _ H) E) as (_ & _ & _ & _ & K & _).
  cbn [sl_read]. by rewrite (K l Hl Hn).
Qed.
(** ... along whole histories: as long as no later call takes the array. *)
Lemma c50_undisturbed st cs st' rs l k : sl_wf st -> l < length (sl_arrays st) -> never_taken st cs l ->
  sl_run st cs = (st', rs) -> sl_read st' (Some (l, k)) = sl_read st (Some (l, k)).
Proof.
  revert st st' rs. induction cs as [|[p w] cs IH]; intros st st' rs W Hl Hn; cbn [sl_run]; [by intros [= <- _]|].
  destruct Hn as [Hn1 Hn2]. destruct (sl_call st p w) as [st1 r] eqn:E.
  destruct (sl_run st1 cs) as [st2 rs2] eqn:E2. intros [= <- _].
  destruct (call_spec _ _ _ _ _ W E) as (W1 & Len & _ & _ & K & _). cbn [fst] in Hn2.
  rewrite (IH st1 st2 rs2 W1 ltac:(lia) Hn2 E2). cbn [sl_read]. by rewrite (K l Hl Hn1).
Qed.
