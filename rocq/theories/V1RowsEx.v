(** Calls that ask and assign on one v1 manager at the same time: witnesses and examples for C121. *)
From Verif Require Import V1Ex V1RowsAdd.

(** ann is a clerk in hq and a temp in lab. *)
Definition w121 : list uop :=
  [UNewTenant "hq"; UNewTenant "lab"; UAddTenant 0; UAddTenant 1; UNewRole "clerk"; UNewRole "temp"; UNewRole "boss"; UAddRole 0; UAddRole 1; UAddRole 2; UTAddRole 0 [0; 1; 2]; UTAddRole 1 [0; 1];
   UTAddScopes 0 ["web"]; URoleAddPermission 0 "" [Attr "/x" "GET"]; URoleAddPermission 1 "" [];
   UAddPrincipal "ann"; UAddPrincipal "eve"; UTAddPrincipal 0 "ann" ["clerk"]; UTAddPrincipal 1 "ann" ["temp"]].
Definition get_x : uopts := UOpts ANil ANil ANil ANil (AStr "/x GET").
Definition in_hq : uopts := UOpts (AStr "hq") ANil (AStr "web") ANil ANil.
Lemma w121_reach : ureachable (uops_state w121).
Proof. reach_uops w121. Qed.

Definition jfinal (r : option jmachine) : jmachine := default (JM ∅ false true []) r.
Definition jview (r : option jmachine) : option (bool * list (option (res jout))) :=
  (fun M => (j_dead M, map (fun c => match c with JRet r => Some r | _ => None end) (j_codes M))) <$> r.
Lemma view_run st cs xs d a : jview (jrun (jstart st cs) xs) = Some (d, a) -> jrun (jstart st cs) xs = Some (jfinal (jrun (jstart st cs) xs)) /\ j_dead (jfinal (jrun (jstart st cs) xs)) = d
  /\ forall i r, a !! i = Some (Some r) -> j_returned (jfinal (jrun (jstart st cs) xs)) i r.
Proof.
  destruct (jrun (jstart st cs) xs) as [M|]; [|discriminate]. cbn [jview fmap option_fmap option_map jfinal default]. intros [= <- <-]. split; [reflexivity|]. split; [reflexivity|]. unfold id. intros i r H. unfold j_returned.
  rewrite list_lookup_fmap in H. destruct (j_codes M !! i) as [c|]; [|discriminate]. destruct c; try discriminate. injection H as ->. reflexivity.
Qed.
Lemma view_met st cs xs d a : jview (jrun (jstart st cs) xs) = Some (d, a) -> exists M, j_met st cs M /\ j_dead M = d /\ forall i r, a !! i = Some (Some r) -> j_returned M i r.
Proof. intros H. destruct (view_run _ _ _ _ _ H) as (H1 & H2 & H3). eexists. split; [exists xs; exact H1|]. split; [exact H2|exact H3]. Qed.
Lemma all_moments (f : option jmachine -> bool) st cs xs : forallb (fun n => f (jrun (jstart st cs) (take n xs))) (seq 0 (S (length xs))) = true -> forall n, f (jrun (jstart st cs) (take n xs)) = true.
Proof.
  intros H n. assert (E : take n xs = take (Nat.min n (length xs)) xs).
  { destruct (decide (n <= length xs)) as [L|L]; [rewrite Nat.min_l by exact L; reflexivity|]. rewrite Nat.min_r by lia. rewrite !take_ge by lia. reflexivity. }
  rewrite E. apply forallb_forall with (x := Nat.min n (length xs)) in H; [exact H|]. apply in_seq. lia.
Qed.

(** ** Crashes *)
Definition lab_row : string := "ann_temp_lab___true".
Definition hq_row : string := "ann_clerk_hq___true".
Definition eve_clerk : jcall := JAddRole "eve" "clerk" 0 None None [].
Lemma c121_crash : exists st M o p q r t, ureachable st /\ j_met st [JAuthorize o p q; JAddRole "eve" r t None None []] M /\ j_dead M = true /\ p <> "eve".
Proof.
  destruct (view_met (uops_state w121) [JAuthorize id_oracle "ann" get_x; eve_clerk] [(0, None); (1, None); (1, None); (0, Some hq_row)] true [None; None]) as (M & H1 & H2 & _); [vm_compute; reflexivity|].
  exists (uops_state w121), M, id_oracle, "ann", get_x, "clerk", 0. split; [exact w121_reach|]. split; [exact H1|]. split; [exact H2|discriminate].
Qed.
(** A new assignment and its row *)
Lemma row_by st p r t ns s m c h : u_tenants st !! t = Some c -> ns = None -> h = row_string (TRow p r (ut_id c) "" (default "" s) (match m with [] => true | b :: _ => b end)) -> j_row st p r t ns s m h.
Proof. intros E -> ->. exists c, "". split; [exact E|]. split; reflexivity. Qed.
Lemma not_in_by (h : string) (v : gset string) : bool_decide (h ∈ v) = false -> h ∉ v.
Proof. apply bool_decide_eq_false. Qed.
Lemma not_empty_by (v : gset string) : bool_decide (v = ∅) = false -> v <> ∅.
Proof. apply bool_decide_eq_false. Qed.
Lemma tenant_row_by st p r t h : (fun c => row_string (TRow p r (ut_id c) "" "" true)) <$> u_tenants st !! t = Some h -> j_row st p r t None None [] h.
Proof. destruct (u_tenants st !! t) as [c|] eqn:E; [|discriminate]. intros [= <-]. exact (row_by st p r t None None [] c _ E eq_refl eq_refl). Qed.
Lemma eve_row : j_row (uops_state w121) "eve" "clerk" 0 None None [] "eve_clerk_hq___true".
Proof. apply tenant_row_by. vm_compute. reflexivity. Qed.
Lemma looks_by st p q : bool_decide (p ∈ u_principals st) = true -> j_act_only q -> j_looks st p q.
Proof.
  intros H A. split; [apply bool_decide_eq_true in H; exact H|]. split; [|right; left; exact A]. intros T. destruct A as (A & _). destruct T as (T & _). exact (T A).
Qed.
Lemma get_x_only : j_act_only get_x.
Proof. split; [reflexivity|]. split; [reflexivity|]. split; [reflexivity|]. split; [reflexivity|discriminate]. Qed.
Lemma crash_ex : exists st c p r t ns s m h, ureachable st /\ j_asks c /\ j_row st p r t ns s m h /\ j_reads st c /\ h ∉ u_rows st /\ u_rows st <> ∅.
Proof.
  exists (uops_state w121), (JAuthorize id_oracle "ann" get_x), "eve", "clerk", 0, None, None, [], "eve_clerk_hq___true". split; [exact w121_reach|]. split; [exact I|]. split; [exact eve_row|]. split; [apply looks_by; [vm_compute; reflexivity|exact get_x_only]|].
  split; [apply not_in_by; vm_compute; reflexivity|apply not_empty_by; vm_compute; reflexivity].
Qed.
(** ... and one that is there already, which never crashes *)
Lemma crash_ex_old : exists st c p r t ns s m h, ureachable st /\ j_asks c /\ j_reads st c /\ j_row st p r t ns s m h /\ h ∈ u_rows st.
Proof.
  exists (uops_state w121), (JAuthorize id_oracle "ann" get_x), "ann", "clerk", 0, None, None, [], hq_row. split; [exact w121_reach|]. split; [exact I|]. split; [apply looks_by; [vm_compute; reflexivity|exact get_x_only]|]. split; [apply tenant_row_by; vm_compute; reflexivity|]. apply (bool_decide_eq_true_1 _). vm_compute. reflexivity.
Qed.
Lemma writers_ex : exists st p r t ns s m h p' r' t' ns' s' m' h', ureachable st /\ j_row st p r t ns s m h /\ j_row st p' r' t' ns' s' m' h' /\ h ∉ u_rows st /\ h' ∉ u_rows st /\ p <> p'.
Proof.
  exists (uops_state w121), "eve", "clerk", 0, None, None, [], "eve_clerk_hq___true", "bob", "temp", 1, None, None, [], "bob_temp_lab___true". split; [exact w121_reach|]. split; [exact eve_row|]. split; [apply tenant_row_by; vm_compute; reflexivity|].
  split; [apply not_in_by; vm_compute; reflexivity|]. split; [apply not_in_by; vm_compute; reflexivity|discriminate].
Qed.

(** ** At no moment *)
Definition scan (i : nat) (hs : list string) : list (nat * option string) := (i, None) :: map (fun h => (i, Some h)) hs ++ [(i, None)].
Definition write (i : nat) : list (nat * option string) := [(i, None); (i, None); (i, None)].
Definition lost_calls : list jcall := [JAuthorize id_oracle "ann" get_x; JAddRole "ann" "clerk" 1 None None []; JAddRole "ann" "ghost" 0 None None []].
Definition lost_run : list (nat * option string) :=
  scan 0 [lab_row; hq_row] ++ scan 0 [lab_row; hq_row] ++ write 1 ++ write 2 ++ scan 0 [lab_row; hq_row; "ann_clerk_lab___true"; "ann_ghost_hq___true"].
Definition granted_in (st : ustate) (o : oracle) (p : string) (q : uopts) (r : option jmachine) : bool :=
  match r with None => true | Some M => match u_authorize o (uw_rows st (j_rows M)) p q with Ok true => true | _ => false end end.
Lemma granted_by st o p q r M : granted_in st o p q r = true -> r = Some M -> u_authorize o (uw_rows st (j_rows M)) p q = Ok true.
Proof. intros H ->. cbn [granted_in] in H. destruct (u_authorize o (uw_rows st (j_rows M)) p q) as [[]| |]; first [reflexivity|discriminate H]. Qed.
Lemma c121_moment : exists st cs xs M o p q, ureachable st /\ jrun (jstart st cs) xs = Some M /\ cs !! 0 = Some (JAuthorize o p q) /\ j_act_only q /\ j_dead M = false /\ j_returned M 0 (Ok (JBool false))
  /\ forall n M', jrun (jstart st cs) (take n xs) = Some M' -> u_authorize o (uw_rows st (j_rows M')) p q = Ok true.
Proof.
  destruct (view_run (uops_state w121) lost_calls lost_run false [Some (Ok (JBool false)); Some (Ok JDone); Some (Ok JDone)]) as (H1 & H2 & H3); [vm_compute; reflexivity|].
  assert (HA : forall n, granted_in (uops_state w121) id_oracle "ann" get_x (jrun (jstart (uops_state w121) lost_calls) (take n lost_run)) = true) by (apply all_moments; vm_compute; reflexivity).
  exists (uops_state w121), lost_calls, lost_run, (jfinal (jrun (jstart (uops_state w121) lost_calls) lost_run)), id_oracle, "ann", get_x.
  split; [exact w121_reach|]. split; [exact H1|]. split; [reflexivity|]. split; [exact get_x_only|]. split; [exact H2|]. split; [exact (H3 0 _ eq_refl)|]. intros n M' E. exact (granted_by _ _ _ _ _ _ (HA n) E).
Qed.
Definition half_calls : list jcall := [JRoles id_oracle "hq" "ann"; JAddPrincipal 0 "ann" ["temp"; "boss"]].
Definition half_run : list (nat * option string) := (0, None) :: write 1 ++ write 1 ++ [(0, Some hq_row); (0, Some "ann_boss_hq___true"); (0, Some lab_row); (0, None)].
Definition roles_told (r : res jout) : list string := match r with Ok (JRows l) => tp_role <$> l | _ => [] end.
Definition boss_only (r : res jout) : bool := bool_decide ("boss" ∈ roles_told r) && negb (bool_decide ("temp" ∈ roles_told r)).
Definition not_boss_only (st : ustate) (c : jcall) (r : option jmachine) : bool :=
  match r with None => true | Some M => negb (boss_only (j_answer (uw_rows st (j_rows M)) c)) end.
Lemma not_boss_by st c r M x : not_boss_only st c r = true -> r = Some M -> boss_only x = true -> j_answer (uw_rows st (j_rows M)) c <> x.
Proof. intros H -> Hx E. cbn [not_boss_only] in H. rewrite E, Hx in H. discriminate H. Qed.
Lemma c121_snapshot : exists st cs xs M c r, ureachable st /\ jrun (jstart st cs) xs = Some M /\ cs !! 0 = Some c /\ j_lists c /\ j_dead M = false /\ j_returned M 0 r
  /\ forall n M', jrun (jstart st cs) (take n xs) = Some M' -> j_answer (uw_rows st (j_rows M')) c <> r.
Proof.
  set (r := Ok (JRows [TRow "ann" "boss" "hq" "" "" true; TRow "ann" "clerk" "hq" "" "" true])).
  destruct (view_run (uops_state w121) half_calls half_run false [Some r; Some (Ok JDone)]) as (H1 & H2 & H3); [vm_compute; reflexivity|].
  assert (HA : forall n, not_boss_only (uops_state w121) (JRoles id_oracle "hq" "ann") (jrun (jstart (uops_state w121) half_calls) (take n half_run)) = true) by (apply all_moments; vm_compute; reflexivity).
  exists (uops_state w121), half_calls, half_run, (jfinal (jrun (jstart (uops_state w121) half_calls) half_run)), (JRoles id_oracle "hq" "ann"), r.
  split; [exact w121_reach|]. split; [exact H1|]. split; [reflexivity|]. split; [exact I|]. split; [exact H2|]. split; [exact (H3 0 _ eq_refl)|]. intros n M' E. apply (not_boss_by _ _ _ _ _ (HA n) E). vm_compute. reflexivity.
Qed.

(** ** Examples *)
Definition idle_calls : list jcall := [JAuthorize id_oracle "ann" get_x; JTenants rev_oracle "ann"; JAddPrincipal 0 "ann" ["clerk"; "nobody"]].
Lemma idle_by st c : match j_seq st c with Ok (st', _) => bool_decide (u_rows st' = u_rows st) | _ => false end = true -> (forall st' out, j_seq st c = Ok (st', out) -> st' = uw_rows st (u_rows st')) -> j_idle st c.
Proof.
  intros H HS. right. destruct (j_seq st c) as [[st' out]| |] eqn:E; [|discriminate H..]. apply bool_decide_eq_true in H. exists out. rewrite (HS st' out eq_refl), H, rows_self. reflexivity.
Qed.
Lemma seq_rows st c st' out : ~ j_asks c -> j_seq st c = Ok (st', out) -> st' = uw_rows st (u_rows st').
Proof. intros _ H. rewrite <-exec_seq in H. destruct (jexec (u_rows st) (j_code st c)) as [[w a]| |]; [|discriminate H..]. cbn [rbind fst snd] in H. apply (f_equal (fun x => match x with Ok y => y.1 | _ => st end)) in H. cbn [fst] in H. rewrite <-H. reflexivity. Qed.
Lemma idle_ex : exists st, ureachable st /\ Forall (j_idle st) idle_calls /\ exists M, j_met st idle_calls M /\ j_returned M 0 (Ok (JBool true)) /\ j_returned M 2 (Ok JDone).
Proof.
  exists (uops_state w121). split; [exact w121_reach|]. split.
  - constructor; [left; exact I|]. constructor; [left; exact I|]. constructor; [|constructor]. apply idle_by; [vm_compute; reflexivity|]. intros st' out. apply seq_rows. intros [].
  - destruct (view_met (uops_state w121) idle_calls (scan 0 [lab_row; hq_row] ++ [(2, None)] ++ scan 0 [lab_row; hq_row] ++ scan 0 [hq_row; lab_row]) false [Some (Ok (JBool true)); None; Some (Ok JDone)]) as (M & H1 & _ & H3); [vm_compute; reflexivity|].
    exists M. split; [exact H1|]. split; [exact (H3 0 _ eq_refl)|exact (H3 2 _ eq_refl)].
Qed.
Definition place_calls : list jcall := [JAuthorize id_oracle "ann" in_hq; JAssignScopes id_oracle 0 "ann" ["web"]].
Definition web_rows : list string := ["ann_clerk_hq__web_true"; "ann__hq__web_true"].
Lemma place_ex : exists st M, ureachable st /\ j_met st place_calls M /\ j_plain in_hq /\ j_returned M 0 (Ok (JBool true)) /\ u_authorize id_oracle st "ann" in_hq = Ok false /\ j_returned M 1 (Ok JDone).
Proof.
  destruct (view_met (uops_state w121) place_calls (scan 1 [lab_row; hq_row] ++ write 1 ++ scan 0 ["ann_clerk_hq__web_true"; lab_row; hq_row] ++ write 1) false [Some (Ok (JBool true)); Some (Ok JDone)]) as (M & H1 & _ & H3); [vm_compute; reflexivity|].
  exists (uops_state w121), M. split; [exact w121_reach|]. split; [exact H1|]. split; [split; [reflexivity|]; split; [reflexivity|]; left; discriminate|]. split; [exact (H3 0 _ eq_refl)|]. split; [vm_compute; reflexivity|exact (H3 1 _ eq_refl)].
Qed.
Lemma kept_ex : exists st M st', ureachable st /\ j_met st place_calls M /\ j_returned M 1 (Ok JDone) /\ j_seq st (JAssignScopes id_oracle 0 "ann" ["web"]) = Ok (st', JDone) /\ u_rows st' <> u_rows st.
Proof.
  destruct (view_met (uops_state w121) place_calls (scan 1 [lab_row; hq_row] ++ write 1 ++ scan 0 ["ann_clerk_hq__web_true"; lab_row; hq_row] ++ write 1) false [Some (Ok (JBool true)); Some (Ok JDone)]) as (M & H1 & _ & H3); [vm_compute; reflexivity|].
  exists (uops_state w121), M, (ufinal (j_seq (uops_state w121) (JAssignScopes id_oracle 0 "ann" ["web"]))). split; [exact w121_reach|]. split; [exact H1|]. split; [exact (H3 1 _ eq_refl)|]. split; [uanswered|]. intros E. apply (f_equal (fun v : gset string => bool_decide ("ann__hq__web_true" ∈ v))) in E. revert E. vm_compute. discriminate.
Qed.
Lemma alone_ex : exists st M, ureachable st /\ j_met st [JAddPrincipal 0 "eve" ["temp"; "boss"]] M /\ j_returned M 0 (Ok JDone).
Proof.
  destruct (view_met (uops_state w121) [JAddPrincipal 0 "eve" ["temp"; "boss"]] (write 0 ++ write 0) false [Some (Ok JDone)]) as (M & H1 & _ & H3); [vm_compute; reflexivity|]. exists (uops_state w121), M. split; [exact w121_reach|]. split; [exact H1|exact (H3 0 _ eq_refl)].
Qed.
Definition stuck_at (r : option jmachine) (i : nat) : bool := match r with Some M => negb (j_dead M) && match j_codes M !! i with Some (JRet _) | None => false | Some _ => true end | None => false end.
Lemma stuck_by st cs xs i : stuck_at (jrun (jstart st cs) xs) i = true -> exists M c, j_met st cs M /\ j_dead M = false /\ j_codes M !! i = Some c /\ forall r, c <> JRet r.
Proof.
  intros H. destruct (jrun (jstart st cs) xs) as [M|] eqn:E; [|discriminate H]. cbn [stuck_at] in H. apply andb_true_iff in H as [H1 H2]. apply negb_true_iff in H1. destruct (j_codes M !! i) as [c|] eqn:Ec; [|discriminate H2]. exists M, c. split; [exists xs; exact E|]. split; [exact H1|]. split; [exact Ec|]. intros r ->. discriminate H2.
Qed.
Lemma waiting_ex : exists st cs M i c, ureachable st /\ j_met st cs M /\ j_dead M = false /\ j_codes M !! i = Some c /\ forall r, c <> JRet r.
Proof.
  destruct (stuck_by (uops_state w121) half_calls [(0, None); (1, None); (1, None)] 0) as (M & c & H1 & H2 & H3 & H4); [vm_compute; reflexivity|].
  exists (uops_state w121), half_calls, M, 0, c. split; [exact w121_reach|]. split; [exact H1|]. split; [exact H2|]. split; [exact H3|exact H4].
Qed.
