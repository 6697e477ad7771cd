(** The encoding of v1 assignments. *)
From Verif Require Import V1Model V1Spec RoleProofs.

Lemma bytes_under a b : bytes (under a b) = bytes a ++ ch_under :: bytes b.
Proof. unfold under. by rewrite !bytes_app. Qed.
Lemma split_ne s : split_under s <> [].
Proof. destruct s as [|c s]; simpl; [done|]. case_decide; [done|]. by destruct (split_under s). Qed.
Lemma split_app a b : ch_under ∉ a -> split_under (a ++ ch_under :: b) = a :: split_under b.
Proof.
  induction a as [|c a IH]; intros Ha; simpl.
  - done.
  - apply not_elem_of_cons in Ha as [Hc Ha]. rewrite decide_False by done. by rewrite IH.
Qed.
Lemma split_one a : ch_under ∉ a -> split_under a = [a].
Proof.
  induction a as [|c a IH]; intros Ha; simpl; [done|].
  apply not_elem_of_cons in Ha as [Hc Ha]. rewrite decide_False by done. by rewrite IH.
Qed.
Lemma split_clean s : Forall (fun p => ch_under ∉ p) (split_under s).
Proof.
  induction s as [|c s IH]; simpl.
  - repeat constructor. apply not_elem_of_nil.
  - case_decide; [constructor; [apply not_elem_of_nil|done]|].
    destruct (split_under s) as [|p ps]; [repeat constructor; set_solver|].
    apply Forall_cons in IH as [H1 H2]. constructor; [set_solver|done].
Qed.
Lemma split_join ps : Forall clean ps -> ps <> [] ->
  of_bytes <$> split_under (bytes (join_under ps)) = ps.
Proof.
  induction ps as [|p ps IH]; intros Hc Hne; [done|]. apply Forall_cons in Hc as [Hp Hc].
  destruct ps as [|q ps].
  - simpl. rewrite (split_one _ Hp). simpl. by rewrite of_bytes_bytes.
  - change (join_under (p :: q :: ps)) with (under p (join_under (q :: ps))).
    rewrite bytes_under, (split_app _ _ Hp). rewrite fmap_cons, of_bytes_bytes, IH; done.
Qed.
Lemma join_split s : join_under (of_bytes <$> split_under (bytes s)) = s.
Proof.
  rewrite <-(of_bytes_bytes s) at 2. generalize (bytes s) as l. clear s.
  induction l as [|c l IH]; [done|]. simpl. case_decide as Hc.
  - subst c. change (of_bytes <$> ([] :: split_under l)) with ("" :: (of_bytes <$> split_under l)).
    pose proof (split_ne l). destruct (split_under l) as [|p ps]; [done|].
    change (under "" (join_under (of_bytes <$> p :: ps)) = String ch_under (of_bytes l)). by rewrite IH.
  - pose proof (split_ne l). destruct (split_under l) as [|p ps]; [done|].
    destruct ps as [|q ps]; simpl in *; by rewrite <-IH.
Qed.
Lemma split_fields s : Forall clean (of_bytes <$> split_under (bytes s)).
Proof.
  apply Forall_fmap. eapply Forall_impl; [apply split_clean|]. intros p Hp. unfold clean. simpl.
  by rewrite bytes_of_bytes.
Qed.

Lemma row_parse_ok s a : row_parse s = Ok a <-> reads_as s a.
Proof.
  unfold row_parse. split.
  - pose proof (split_fields s) as Hc. pose proof (join_split s) as Hj.
    destruct (of_bytes <$> split_under (bytes s)) as [|p0 [|p1 [|p2 [|p3 [|p4 [|p5 rest]]]]]]; intros H; try done.
    injection H as <-. exists p5, rest. simpl. split_and!; [done|done|]. by rewrite bool_decide_eq_true.
  - intros (m & rest & Hc & -> & Hm). rewrite (split_join _ Hc) by done.
    destruct a as [p r t n sc mg]; simpl in *. f_equal. f_equal.
    destruct mg; [apply bool_decide_eq_true, Hm; done|]. apply bool_decide_eq_false. intros ->.
    by assert (false = true) by by apply Hm.
Qed.
Lemma reads_fun s a b : reads_as s a -> reads_as s b -> a = b.
Proof. rewrite <-!row_parse_ok. intros -> H. by injection H. Qed.

Lemma count_split a b : length (split_under (a ++ ch_under :: b)) = length (split_under a) + length (split_under b).
Proof.
  induction a as [|c a IH].
  - simpl. done.
  - simpl. case_decide; simpl; [by rewrite IH|].
    pose proof (split_ne (a ++ ch_under :: b)). pose proof (split_ne a).
    destruct (split_under (a ++ ch_under :: b)), (split_under a); simpl in *; done.
Qed.
Lemma split_length s : 1 <= length (split_under s).
Proof. pose proof (split_ne s). destruct (split_under s); [done|simpl; lia]. Qed.
Lemma row_string_fields a : 6 <= length (split_under (bytes (row_string a))).
Proof.
  unfold row_string. rewrite !bytes_under, !count_split.
  pose proof (split_length (bytes (tp_principal a))). pose proof (split_length (bytes (tp_role a))).
  pose proof (split_length (bytes (tp_tenant a))). pose proof (split_length (bytes (tp_ns a))).
  pose proof (split_length (bytes (tp_scope a))). pose proof (split_length (bytes (bool_word (tp_manage a)))). lia.
Qed.
(** C45 *)
Lemma row_parse_total a : exists b, row_parse (row_string a) = Ok b.
Proof.
  unfold row_parse. pose proof (row_string_fields a) as H. rewrite <-(fmap_length of_bytes) in H.
  destruct (of_bytes <$> split_under (bytes (row_string a))) as [|p0 [|p1 [|p2 [|p3 [|p4 [|p5 rest]]]]]];
    simpl in H; try lia. by eexists.
Qed.

Lemma clean_word b : clean (bool_word b).
Proof. unfold clean. destruct b; apply (bool_decide_unpack _); vm_compute; exact I. Qed.
Lemma row_string_join a : row_string a = join_under [tp_principal a; tp_role a; tp_tenant a; tp_ns a; tp_scope a; bool_word (tp_manage a)].
Proof. done. Qed.
(** C44, exactly *)
Lemma roundtrip_clean a : clean_row a -> reads_as (row_string a) a.
Proof.
  intros (H1 & H2 & H3 & H4 & H5). exists (bool_word (tp_manage a)), []. split_and!.
  - repeat constructor; try done. apply clean_word.
  - apply row_string_join.
  - by destruct (tp_manage a).
Qed.
Lemma reads_clean s a : reads_as s a -> clean_row a.
Proof.
  intros (m & rest & Hc & _). repeat (apply Forall_cons in Hc as [? Hc]). by split_and!.
Qed.
Lemma roundtrip_exact a : row_parse (row_string a) = Ok a <-> clean_row a.
Proof. rewrite row_parse_ok. split; [apply reads_clean|apply roundtrip_clean]. Qed.
Lemma reads_string_clean a b : clean_row a -> reads_as (row_string a) b <-> b = a.
Proof.
  intros Hc. split; [|intros ->; by apply roundtrip_clean].
  intros H. eapply reads_fun; [exact H|by apply roundtrip_clean].
Qed.
(** Clean assignments with the same encoding are the same. *)
Lemma row_string_inj a b : clean_row a -> clean_row b -> row_string a = row_string b -> a = b.
Proof. intros Ha Hb He. eapply reads_fun; [by apply roundtrip_clean|]. rewrite He. by apply roundtrip_clean. Qed.

(** The hole: an underscore in the principal hands the assignment to another principal. *)
Lemma clean_head p x : ch_under ∈ bytes p -> exists q rest, clean q /\ p = under q rest
  /\ forall s b, reads_as s b -> s = under p x -> tp_principal b = q.
Proof.
  intros Hin. apply elem_of_list_split_l in Hin as (l1 & l2 & Hp & Hn).
  assert (Hpu : p = under (of_bytes l1) (of_bytes l2)).
  { apply bytes_inj. by rewrite bytes_under, !bytes_of_bytes. }
  exists (of_bytes l1), (of_bytes l2). unfold clean. rewrite bytes_of_bytes. split_and!; [done|done|].
  intros s b Hr ->. apply row_parse_ok in Hr. unfold row_parse in Hr. rewrite Hpu in Hr.
  assert (He : bytes (under (under (of_bytes l1) (of_bytes l2)) x) = l1 ++ ch_under :: (l2 ++ ch_under :: bytes x)).
  { rewrite !bytes_under, !bytes_of_bytes. by rewrite <-app_assoc. }
  rewrite He, (split_app _ _ Hn), fmap_cons in Hr.
  destruct (of_bytes <$> split_under (l2 ++ ch_under :: bytes x)) as [|p1 [|p2 [|p3 [|p4 [|p5 rest]]]]]; try done.
  by injection Hr as <-.
Qed.
