(** Properties C01-C05: utils.MatchResource. *)
From Verif Require Import MatchCor.

(** C01: the call returns true exactly on the pattern's language ... *)
Theorem C01_match_true : forall value pattern,
  match_resource value pattern = Ok true <-> StrMatches pattern value.
Proof. exact (fun v p => match_true (bytes v) (bytes p)). Qed.
Print Assumptions C01_match_true.

(** ... it returns false exactly when the value is outside the language (and the scan ends) ... *)
Theorem C01_match_false : forall value pattern,
  match_resource value pattern = Ok false <-> ~ StrMatches pattern value /\ ~ StrLoops pattern value.
Proof. exact (fun v p => match_false (bytes v) (bytes p)). Qed.
Print Assumptions C01_match_false.

(** ... it never panics ... *)
Theorem C01_match_no_panic : forall value pattern, match_resource value pattern <> Panic.
Proof. exact (fun v p => match_no_panic (bytes v) (bytes p)). Qed.
Print Assumptions C01_match_no_panic.

(** ... and [Ok b] / [Hang] stand for what the Go loop does when run as long as it likes. *)
Theorem C01_match_is_the_loop : forall value pattern,
  (forall b, match_resource value pattern = Ok b <->
             exists n, mr_run n (bytes value) (bytes pattern) 0 0 = Some (Ok b)) /\
  (match_resource value pattern = Hang <->
             forall n, mr_run n (bytes value) (bytes pattern) 0 0 = None).
Proof. exact (fun v p => conj (match_bytes_ok (bytes v) (bytes p)) (match_bytes_hang (bytes v) (bytes p))). Qed.
Print Assumptions C01_match_is_the_loop.

Example C01_ex :
  match_resource "/coding/1/2/start-coding POST" "/coding/:wid/:eid/start-coding POST" = Ok true /\
  match_resource "/coding/1/2/start-qa POST" "/coding/:wid/:eid/start-coding POST" = Ok false /\
  match_resource "/coding/1" "/coding/**" = Ok true.
Proof. vm_compute. done. Qed.

(** C02 is false: the scan of this value never ends ... *)
Theorem C02_terminates_refuted :
  exists value pattern, forall n, mr_run n (bytes value) (bytes pattern) 0 0 = None.
Proof.
  exact (ex_intro _ "axb" (ex_intro _ "a*b" (proj1 (match_bytes_hang (bytes "axb") (bytes "a*b")) eq_refl))).
Qed.
Print Assumptions C02_terminates_refuted.

(** ... the inputs without an answer are exactly those where a '*' is followed in the pattern
    by another byte that still occurs in the value ... *)
Theorem C02_hang_exact : forall value pattern,
  match_resource value pattern = Hang <-> StrLoops pattern value.
Proof. exact (fun v p => match_hang (bytes v) (bytes p)). Qed.
Print Assumptions C02_hang_exact.

(** ... in particular every permission whose resource ends in '*' hangs on every request below
    that prefix, whatever the actions are ... *)
Theorem C02_star_resource_hangs : forall prefix rest action action',
  literal prefix ->
  match_resource (res_act (String.append prefix rest) action')
                 (res_act (String.append prefix "*") action) = Hang.
Proof. exact star_resource_hangs. Qed.
Print Assumptions C02_star_resource_hangs.

(** ... while patterns with no '*' except a trailing run always get an answer. *)
Theorem C02_terminates_partial : forall value pattern p n,
  bytes pattern = p ++ replicate n ch_star -> ch_star ∉ p ->
  exists b, match_resource value pattern = Ok b.
Proof.
  intros value pattern p n Hp Hs. unfold match_resource.
  destruct (match_bytes_cases (bytes value) (bytes pattern)) as [(->&_)|[(->&_)|(_&_&HL)]]; [eauto..|].
  rewrite Hp in HL. by apply loops_trailing_stars in HL.
Qed.
Print Assumptions C02_terminates_partial.

Example C02_ex : literal "/coding/" /\
  match_resource "/coding/1 GET" "/coding/* GET" = Hang /\
  bytes "/x/:id/**" = bytes "/x/:id/" ++ replicate 2 ch_star /\ ch_star ∉ bytes "/x/:id/".
Proof. vm_compute. repeat split; try done; by inversion 1 as [|??? H]; repeat (inversion H as [|??? H']; clear H; rename H' into H). Qed.

(** C03 is false: a permission whose resource ends in a parameter grants every action. *)
Theorem C03_action_enforced_refuted :
  exists res act res' act', act <> act' /\ match_resource (res_act res' act') (res_act res act) = Ok true.
Proof.
  exact (ex_intro _ "/user/:id" (ex_intro _ "GET" (ex_intro _ "/user/1" (ex_intro _ "DELETE"
    (conj (fun H : "GET" = "DELETE" => ltac:(discriminate H)) eq_refl))))).
Qed.
Print Assumptions C03_action_enforced_refuted.

(** The hole in general: prefix "r", parameter ":name", any action, any request that continues
    inside the same segment is accepted, so the request's action is never looked at. *)
Theorem C03_action_ignored : forall r name act (x : ascii) (seg : string),
  literal r -> lacks ch_slash name -> lacks ch_slash act -> lacks ch_slash seg ->
  match_resource (String.append r (String x seg))
                 (res_act (String.append r (String.append ":" name)) act) = Ok true.
Proof. exact action_ignored. Qed.
Print Assumptions C03_action_ignored.

(** What is true: if the resource's last segment and the action contain no ':' and no '*' (and
    no '*' occurs earlier), a match forces the action to be equal. *)
Theorem C03_action_enforced_partial : forall pre tail act res' act',
  lacks ch_star pre -> literal tail -> literal act ->
  lacks ch_space act -> lacks ch_space act' ->
  match_resource (res_act res' act') (res_act (String.append pre (String.append "/" tail)) act) = Ok true ->
  act' = act.
Proof. exact action_enforced. Qed.
Print Assumptions C03_action_enforced_partial.

Theorem C03_literal_permission_partial : forall res act res' act',
  literal res -> literal act ->
  match_resource (res_act res' act') (res_act res act) = Ok true ->
  res_act res' act' = res_act res act.
Proof. exact action_enforced_flat. Qed.
Print Assumptions C03_literal_permission_partial.

Example C03_ex :
  match_resource (res_act "/coding/7/open" "GET")
                 (res_act (String.append "/coding/:wid" (String.append "/" "open")) "GET") = Ok true /\
  match_resource (res_act "/coding/7/open" "POST")
                 (res_act (String.append "/coding/:wid" (String.append "/" "open")) "GET") = Ok false.
Proof. vm_compute. done. Qed.

(** C04 is false: a parameter can swallow a '/' (an empty segment and the next one). *)
Theorem C04_one_segment_refuted :
  exists pattern value, lacks ch_star pattern /\
    match_resource value pattern = Ok true /\ length (segments value) <> length (segments pattern).
Proof.
  exists "/a/:x/b", "/a//y/b". split; [|split]; [|vm_compute; reflexivity|vm_compute; discriminate].
  unfold lacks. vm_compute. intros H. repeat (inversion H as [|??? H']; clear H; rename H' into H).
Qed.
Print Assumptions C04_one_segment_refuted.

(** What is true: if every ':' starts a segment, and no parameter meets an empty segment of
    the value, matching is exactly segment-wise matching (hence equal segment counts). *)
Theorem C04_one_segment_partial : forall pattern value,
  lacks ch_star pattern ->
  Forall seg_shaped (segments pattern) ->
  (forall i ps, segments pattern !! i = Some (ch_colon :: ps) -> segments value !! i <> Some []) ->
  (match_resource value pattern = Ok true <-> SegMatches pattern value).
Proof.
  exact (fun p v H1 H2 H3 =>
    iff_trans (match_true (bytes v) (bytes p)) (matches_segments (bytes p) (bytes v) H1 H2 H3)).
Qed.
Print Assumptions C04_one_segment_partial.

Example C04_ex :
  Forall seg_shaped (segments "/coding/:wid/open") /\
  SegMatches "/coding/:wid/open" "/coding/12/open" /\
  ~ SegMatches "/coding/:wid/open" "/coding/12/34/open".
Proof.
  split; [|split].
  - repeat constructor; set_solver.
  - vm_compute. repeat constructor; done.
  - unfold SegMatches. intros H. apply Forall2_length in H. vm_compute in H. discriminate H.
Qed.

(** C05: without ':' and '*' matching is equality, and the call always returns. *)
Theorem C05_literal_exact : forall value pattern, literal pattern ->
  match_resource value pattern = Ok (bool_decide (value = pattern)).
Proof.
  intros value pattern [H1 H2]. unfold match_resource, lacks in *.
  destruct (match_bytes_cases (bytes value) (bytes pattern)) as [(->&HM&_)|[(->&HM&_)|(_&_&HL)]].
  - apply matches_literal in HM; [|done..]. apply bytes_inj in HM as ->. by rewrite bool_decide_eq_true_2.
  - rewrite bool_decide_eq_false_2; [done|]. intros ->. apply HM. by apply matches_literal.
  - by apply loops_no_star in HL.
Qed.
Print Assumptions C05_literal_exact.

Example C05_ex : literal "/admin/principal/add POST".
Proof. split; unfold lacks; vm_compute; intros H; repeat (inversion H as [|??? H']; clear H; rename H' into H). Qed.
