(** A line of roles, each with the one made before it as its only descendant. *)
From Verif Require Import RootCor3.
From Verif Require Export RegProofs RoleCor RoleRefuse.
From Verif Require Export CostProofs.

Fixpoint line_name (i : nat) : string := match i with 0 => "r" | S j => String "r" (line_name j) end.
Definition line_group : group := Group "page" {["/x GET" := Attr "/x" "GET"]}.
Definition line_role (i : nat) : role_obj := Role (line_name i) false {["page" := i]} (match i with 0 => ∅ | S j => {[line_name j := j]} end).
Definition line_heap (n : nat) : rheap := RHeap (line_role <$> seq 0 (S n)) (replicate (S n) line_group).
Definition line_next (n : nat) : list op := [ONewRole (line_name (S n)); ORoleAddPermission (S n) "page" [Attr "/x" "GET"]; ORoleAddDescendant (S n) [n]].
Lemma insert_last {A} (l : list A) n x y : n = length l -> <[n := y]> (l ++ [x]) = l ++ [y].
Proof. intros ->. rewrite insert_app_r_alt by lia. rewrite Nat.sub_diag. reflexivity. Qed.
Lemma lookup_last {A} (l : list A) n x : n = length l -> (l ++ [x]) !! n = Some x.
Proof. intros ->. rewrite lookup_app_r by lia. rewrite Nat.sub_diag. reflexivity. Qed.
Lemma line_length n : S n = length (line_role <$> seq 0 (S n)).
Proof. rewrite fmap_length, seq_length. reflexivity. Qed.
Lemma line_lookup n i : i <= n -> (line_role <$> seq 0 (S n)) !! i = Some (line_role i).
Proof. intros L. rewrite list_lookup_fmap, lookup_seq_lt by lia. reflexivity. Qed.
Lemma line_step o i st n : run o i (with_heap st (line_heap n)) (line_next n) = Ok (with_heap st (line_heap (S n)), [RLoc (S n); RErr None; RErr None]).
Proof.
  unfold line_next. cbn [run step rbind fst snd]. unfold new_role. cbn [fst snd s_heap with_heap h_roles h_groups line_heap]. rewrite <- (line_length n).
  unfold role_add_permission. cbn [h_roles h_groups]. rewrite (lookup_last _ _ _ (line_length n)). cbn [r_lock r_perms]. rewrite lookup_empty. cbn [ret_heap rbind fst snd s_heap with_heap r_id r_desc].
  rewrite replicate_length, (insert_last _ _ _ _ (line_length n)).
  unfold role_add_descendant. cbn [h_roles h_groups]. rewrite (lookup_last _ _ _ (line_length n)). cbn [r_lock r_desc add_descendants_loop h_roles].
  rewrite (lookup_app_l_Some _ _ _ _ (line_lookup n n (Nat.le_refl n))). cbn [r_id line_role]. rewrite lookup_empty. cbn [ret_heap rbind fst snd r_id r_lock r_perms h_roles h_groups s_heap with_heap].
  unfold set_role. cbn [h_roles h_groups]. rewrite (insert_last _ _ _ _ (line_length n)). unfold line_heap. rewrite (seq_S (S n)), fmap_app. cbn [fmap list_fmap Nat.add line_role].
  assert (G : replicate (S (S n)) line_group = replicate (S n) line_group ++ [Group "page" (add_missing ∅ [Attr "/x" "GET"])]) by exact (replicate_cons_app (S n) line_group).
  rewrite G. reflexivity.
Qed.
Fixpoint line_ops (n : nat) : list op := match n with 0 => [ONewRole (line_name 0); ORoleAddPermission 0 "page" [Attr "/x" "GET"]] | S m => line_ops m ++ line_next m end.
Lemma line_run o n : exists outs, run o 0 init_state (line_ops n) = Ok (with_heap init_state (line_heap n), outs).
Proof.
  induction n as [|n [outs IH]].
  - eexists. reflexivity.
  - exists (outs ++ [RLoc (S n); RErr None; RErr None]). cbn [line_ops]. rewrite run_app, IH. cbn [rbind fst snd]. rewrite line_step. reflexivity.
Qed.
Lemma line_reachable n : reachable (with_heap init_state (line_heap n)).
Proof. destruct (line_run id_oracle n) as [outs H]. exists id_oracle, (line_ops n), outs. exact H. Qed.
Lemma line_edge n l d : role_edge (line_heap n) l d -> l <= n /\ l = S d.
Proof.
  intros (m & k & Hm & Hk). unfold role_children in Hm. destruct (h_roles (line_heap n) !! l) as [r|] eqn:E; [|discriminate]. injection Hm as <-.
  cbn [line_heap h_roles] in E. rewrite list_lookup_fmap in E. destruct (seq 0 (S n) !! l) as [x|] eqn:S; [|discriminate]. apply lookup_seq in S as [-> S]. injection E as <-. split; [lia|].
  destruct l as [|j]; cbn [r_desc line_role Nat.add] in Hk; [rewrite lookup_empty in Hk; discriminate|]. apply lookup_singleton_Some in Hk as [_ ->]. reflexivity.
Qed.
Lemma line_steps n m l d : nsteps (role_edge (line_heap n)) m l d -> l = m + d /\ (m = 0 \/ l <= n).
Proof. induction 1 as [x|m x y z E _ IH]; [lia|]. apply line_edge in E. lia. Qed.
Lemma line_role_at n l : l <= n -> h_roles (line_heap n) !! l = Some (line_role l).
Proof. exact (line_lookup n l). Qed.
Lemma line_kids n l : l <= n -> kids (line_heap n) l = match l with 0 => [] | S j => [(line_name j, j)] end.
Proof. intros L. unfold kids. rewrite (line_role_at n l L). destruct l as [|j]; cbn [r_desc line_role]; [apply map_to_list_empty|apply map_to_list_singleton]. Qed.
Lemma line_keeps n l : l <= n -> keeps (line_heap n) "page" l = true.
Proof. intros L. unfold keeps. rewrite (line_role_at n l L). apply bool_decide_eq_true. cbn [r_perms line_role]. rewrite lookup_singleton. eauto. Qed.
Lemma line_counts n l : l <= n -> counts (line_heap n) [] l = true.
Proof. intros L. unfold counts. rewrite (line_role_at n l L). reflexivity. Qed.
Lemma line_below n l : l <= n -> below (S l) (line_heap n) l.
Proof. intros L m x H. apply line_steps in H. lia. Qed.
Lemma pow_pos n : 1 <= 2 ^ n.
Proof. induction n; cbn [Nat.pow]; lia. Qed.
Lemma line_gains n l : l <= n -> gains (line_heap n) (counts_one (line_heap n) []) (opens (line_heap n) "page" []) (S l) l = 2 ^ l - 1.
Proof.
  induction l as [|l IH]; intros L; cbn [gains]; rewrite (line_kids n _ L); [reflexivity|]. cbn [sum_list_with snd]. change (sum_list_with _ (kids (line_heap n) l)) with (gains (line_heap n) (counts_one (line_heap n) []) (opens (line_heap n) "page" []) (S l) l).
  rewrite IH by lia. unfold opens, counts_one. rewrite line_keeps, line_counts by lia. cbn [andb Nat.pow]. pose proof (pow_pos l). lia.
Qed.
Lemma line_acyclic n l : ~ cyclic_from (line_heap n) l.
Proof. intros (d & _ & C). apply tc_nsteps in C as (m & Hm & C). apply line_steps in C. lia. Qed.
Lemma line_owns n d g grp : owns (line_heap n) d grp g -> g = line_group.
Proof. intros (r & gl & _ & _ & H). cbn [line_heap h_groups] in H. apply lookup_replicate in H as [-> _]. reflexivity. Qed.
Lemma line_no_match : match_resource "/y GET" "/x GET" = Ok false.
Proof. vm_compute. reflexivity. Qed.
Lemma line_other k a : g_perms line_group !! k = Some a -> k = "/x GET".
Proof. cbn [g_perms line_group]. intros H. apply lookup_singleton_Some in H as [<- _]. reflexivity. Qed.
Lemma line_refused n o : role_has o (line_heap n) n "page" "/y GET" [] = Ok false.
Proof.
  assert (W : wf_heap (line_heap n)) by exact (wf_roles_heap _ (reachable_wf _ (line_reachable n))). destruct (proj1 (match_resource_false _ _) line_no_match) as [NM NL].
  apply (role_has_false o (line_heap n) n "page" "/y GET" [] W); [rewrite (line_role_at n n (Nat.le_refl n)); eauto|]. split.
  - assert (NO : forall d g, owns (line_heap n) d "page" g -> ~ offers g "/y GET").
    { intros d g Hg (k & a & Hk & O). apply line_owns in Hg as ->. apply line_other in Hk as ->. destruct O as [O|O]; [discriminate|exact (NM O)]. }
    intros (g & Hg & [O|(d & gd & _ & _ & Hgd & O)]); [exact (NO _ _ Hg O)|exact (NO _ _ Hgd O)].
  - assert (NS : forall d g, owns (line_heap n) d "page" g -> ~ stalls g "/y GET") by (intros d g Hg (k & a & Hk & O); apply line_owns in Hg as ->; apply line_other in Hk as ->; exact (NL O)).
    intros g Hg. split; [apply line_acyclic|]. split; [exact (NS _ _ Hg)|]. intros d gd _ _ Hgd. exact (NS _ _ Hgd).
Qed.
Lemma line_calls n o : counted_has o (line_heap n) n "page" "/y GET" [] = Ok (false, 2 ^ n).
Proof.
  pose proof (counted_same o (line_heap n) n "page" "/y GET" []) as E. rewrite line_refused in E. destruct (counted_has o (line_heap n) n "page" "/y GET" []) as [[b m]| |] eqn:C; [|discriminate..]. injection E as ->.
  do 2 f_equal. unfold counted_has in C. apply (counted_gains _ _ _ _ _ _ _ _ _ (line_below n n (Nat.le_refl n))) in C. rewrite (line_keeps n n (Nat.le_refl n)), line_gains in C by lia. rewrite C. pose proof (pow_pos n). lia.
Qed.
Definition line_perm : attr := Attr "/x" "GET".
Lemma line_held n l : l <= n -> held (line_heap n) "page" line_perm l = 1.
Proof.
  intros L. unfold held. rewrite (line_role_at n l L). cbn [r_perms line_role]. rewrite lookup_singleton. unfold held_in. cbn [line_heap h_groups]. rewrite lookup_replicate_2 by lia. vm_compute. reflexivity.
Qed.
Lemma line_listed_gains n l : l <= n -> gains (line_heap n) (held (line_heap n) "page" line_perm) (fun _ => true) (S l) l = 2 ^ l - 1.
Proof.
  induction l as [|l IH]; intros L; cbn [gains]; rewrite (line_kids n _ L); [reflexivity|]. cbn [sum_list_with snd]. change (sum_list_with _ (kids (line_heap n) l)) with (gains (line_heap n) (held (line_heap n) "page" line_perm) (fun _ => true) (S l) l).
  rewrite IH by lia. rewrite line_held by lia. cbn [Nat.pow]. pose proof (pow_pos l). lia.
Qed.
Lemma line_listed n o m : get_all_implicit_permissions o (line_heap n) n = Ok m -> times m "page" line_perm = 2 ^ n.
Proof.
  intros H. unfold get_all_implicit_permissions in H. apply (all_times _ "page" line_perm _ _ _ _ _ _ (line_below n n (Nat.le_refl n))) in H. rewrite line_held, line_listed_gains in H by lia.
  rewrite H. change (times ∅ "page" line_perm) with 0. pose proof (pow_pos n). lia.
Qed.

(** ** Consequences *)
Lemma has_lower o h l grp perm allowed m w d : counted_has o h l grp perm allowed = Ok (false, m) -> keeps h grp l = true -> leads h l w = Some d -> counts h allowed d = true -> w <> [] ->
  (forall s, s ∈ stops h l w -> keeps h grp s = true /\ counts h allowed s = true) -> 2 ^ pred (length w) < m.
Proof.
  intros H K D C N S. destruct (counted_refused _ _ _ _ _ _ _ H) as (ws & [_ P] & ->). assert (Hw : w ∈ ws) by (apply P; split; [exact N|split; [exact K|exists d; split; assumption]]).
  pose proof (sum_elem (doublings h grp allowed l) w ws Hw) as L. assert (E : doublings h grp allowed l w = 2 ^ pred (length w)); [|lia]. unfold doublings. rewrite <- (stops_length h l w d D). do 2 f_equal.
  revert S. generalize (stops h l w). intros ss. induction ss as [|s ss IH]; intros S; [reflexivity|]. rewrite filter_cons. destruct (S s (elem_of_list_here _ _)) as [S1 S2]. rewrite S1, S2.
  destruct (decide (true && true = true)) as [_|X]; [|destruct (X eq_refl)]. f_equal. apply IH. intros s' Hs'. apply S. right. exact Hs'.
Qed.
Lemma has_once o h l grp perm allowed m : counted_has o h l grp perm allowed = Ok (false, m) ->
  (forall w s, s ∈ stops h l w -> keeps h grp s = false \/ counts h allowed s = false) -> exists ws, ways_passed h grp allowed l ws /\ m = S (length ws).
Proof.
  intros H S. destruct (counted_refused _ _ _ _ _ _ _ H) as (ws & P & ->). exists ws. split; [exact P|]. f_equal. clear P H. induction ws as [|w ws IH]; [reflexivity|]. cbn [sum_list_with length]. rewrite IH.
  assert (E : doublings h grp allowed l w = 1); [|lia]. unfold doublings. assert (F : filter (fun d => keeps h grp d && counts h allowed d = true) (stops h l w) = []); [|rewrite F; reflexivity].
  apply elem_of_nil_inv. intros s. rewrite elem_of_list_filter. intros [T Hs]. destruct (S w s Hs) as [X|X]; rewrite X in T; [discriminate|]. rewrite andb_comm in T. discriminate.
Qed.
Lemma listed_lower o h l m grp a w d : wf_heap h -> get_all_implicit_permissions o h l = Ok m -> leads h l w = Some d -> holds h d grp (attr_string a) a -> 2 ^ pred (length w) <= times m grp a.
Proof.
  intros W H D A. destruct (all_listed h W grp a o l m H) as (ws & [_ P] & ->). assert (Hw : w ∈ ws) by (apply P; exists d; split; assumption). exact (sum_elem (fun w => 2 ^ pred (length w)) w ws Hw).
Qed.
(** ** Statements *)
Lemma c118_grows n : exists st l, reachable st /\ length (h_roles (s_heap st)) = S n /\ forall o, counted_has o (s_heap st) l "page" "/y GET" [] = Ok (false, 2 ^ n).
Proof. exists (with_heap init_state (line_heap n)), n. split; [apply line_reachable|]. split; [symmetry; apply line_length|]. intros o. apply line_calls. Qed.
Lemma c52_grows n : exists st l, reachable st /\ length (h_roles (s_heap st)) = S n /\ forall o, exists m, get_all_implicit_permissions o (s_heap st) l = Ok m /\ times m "page" (Attr "/x" "GET") = 2 ^ n.
Proof.
  exists (with_heap init_state (line_heap n)), n. split; [apply line_reachable|]. split; [symmetry; apply line_length|]. intros o.
  assert (W : wf_heap (line_heap n)) by exact (wf_roles_heap _ (reachable_wf _ (line_reachable n))). assert (Hl : is_Some (h_roles (line_heap n) !! n)) by (rewrite (line_role_at n n (Nat.le_refl n)); eauto).
  destruct (all_perms_returns o (line_heap n) n W Hl) as [[[m H] _]|[_ C]]; [|destruct (line_acyclic n n C)]. exists m. split; [exact H|]. exact (line_listed n o m H).
Qed.
Lemma c118_ex : reachable (ops_state (line_ops 3)) /\ counted_has rev_oracle (s_heap (ops_state (line_ops 3))) 3 "page" "/y GET" [] = Ok (false, 8)
  /\ leads (s_heap (ops_state (line_ops 3))) 3 ["rrr"; "rr"; "r"] = Some 0 /\ stops (s_heap (ops_state (line_ops 3))) 3 ["rrr"; "rr"; "r"] = [2; 1]
  /\ doublings (s_heap (ops_state (line_ops 3))) "page" [] 3 ["rrr"; "rr"; "r"] = 4 /\ doublings (s_heap (ops_state (line_ops 3))) "page" ["rr"; "r"] 3 ["rrr"; "rr"; "r"] = 2
  /\ counted_has rev_oracle (s_heap (ops_state (line_ops 3))) 3 "page" "/y GET" ["rr"; "r"] = Ok (false, 4)
  /\ counted_has rev_oracle (s_heap (ops_state (line_ops 3))) 3 "page" "/y GET" ["r"] = Ok (false, 2).
Proof. split; [reach_ops (line_ops 3)|]. repeat split; vm_compute; reflexivity. Qed.
