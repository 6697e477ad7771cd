(** Property C118 and further parts of C52: what a hierarchy of roles costs. *)
From Verif Require Import CostEx.

(** Counting changes nothing: the answer is that of Has. *)
Theorem C118_same_answer (o : oracle) (h : rheap) (l : nat) (grp perm : string) (allowed : list string) :
  (let! x := counted_has o h l grp perm allowed in Ok x.1) = role_has o h l grp perm allowed.
Proof. exact (counted_same o h l grp perm allowed). Qed.
Print Assumptions C118_same_answer.
(** C118 is false: for every n a program can make n + 1 roles such that one call of Has that is refused makes 2 ^ n calls, whatever the order of iteration. *)
Theorem C118_each_role_once_refuted (n : nat) : exists st l, reachable st /\ length (h_roles (s_heap st)) = S n
  /\ forall o, counted_has o (s_heap st) l "page" "/y GET" [] = Ok (false, 2 ^ n).
Proof. exact (c118_grows n). Qed.
Print Assumptions C118_each_role_once_refuted.
(** Exactly: a refusal takes one call for the role itself and, for each way down to a role that counts, as many as the roles in between double it to. *)
Theorem C118_calls (o : oracle) (h : rheap) (l : nat) (grp perm : string) (allowed : list string) (n : nat) :
  counted_has o h l grp perm allowed = Ok (false, n) ->
  exists ws, ways_passed h grp allowed l ws /\ n = S (sum_list_with (doublings h grp allowed l) ws).
Proof. exact (counted_refused h grp perm allowed o l n). Qed.
Print Assumptions C118_calls.
(** So one way of k steps on which all roles count and keep something for the group takes more than 2 ^ (k - 1) calls … *)
Theorem C118_long_way (o : oracle) (h : rheap) (l : nat) (grp perm : string) (allowed : list string) (n : nat) (w : list string) (d : nat) :
  counted_has o h l grp perm allowed = Ok (false, n) -> keeps h grp l = true ->
  leads h l w = Some d -> counts h allowed d = true -> w <> [] ->
  (forall s, s ∈ stops h l w -> keeps h grp s = true /\ counts h allowed s = true) -> 2 ^ pred (length w) < n.
Proof. exact (has_lower o h l grp perm allowed n w d). Qed.
Print Assumptions C118_long_way.
(** … and with no role in between that counts and keeps something for the group, it is one call for each way. *)
Theorem C118_each_way_once_partial (o : oracle) (h : rheap) (l : nat) (grp perm : string) (allowed : list string) (n : nat) :
  counted_has o h l grp perm allowed = Ok (false, n) ->
  (forall w s, s ∈ stops h l w -> keeps h grp s = false \/ counts h allowed s = false) ->
  exists ws, ways_passed h grp allowed l ws /\ n = S (length ws).
Proof. exact (has_once o h l grp perm allowed n). Qed.
Print Assumptions C118_each_way_once_partial.
Example C118_ex : reachable (ops_state (line_ops 3)) /\ counted_has rev_oracle (s_heap (ops_state (line_ops 3))) 3 "page" "/y GET" [] = Ok (false, 8)
  /\ leads (s_heap (ops_state (line_ops 3))) 3 ["rrr"; "rr"; "r"] = Some 0 /\ stops (s_heap (ops_state (line_ops 3))) 3 ["rrr"; "rr"; "r"] = [2; 1]
  /\ doublings (s_heap (ops_state (line_ops 3))) "page" [] 3 ["rrr"; "rr"; "r"] = 4 /\ doublings (s_heap (ops_state (line_ops 3))) "page" ["rr"; "r"] 3 ["rrr"; "rr"; "r"] = 2
  /\ counted_has rev_oracle (s_heap (ops_state (line_ops 3))) 3 "page" "/y GET" ["rr"; "r"] = Ok (false, 4)
  /\ counted_has rev_oracle (s_heap (ops_state (line_ops 3))) 3 "page" "/y GET" ["r"] = Ok (false, 2).
Proof. exact c118_ex. Qed.

(** C52: how often a permission is listed: once if the role holds it itself, and for each way of k steps to a role that holds it 2 ^ (k - 1) times. *)
Theorem C52_times (o : oracle) (st : state) (l : nat) (m : gmap string (list attr)) (grp : string) (a : attr) :
  reachable st -> get_all_implicit_permissions o (s_heap st) l = Ok m ->
  exists ws, ways_to (s_heap st) l (fun d => holds (s_heap st) d grp (attr_string a) a) ws
    /\ times m grp a = sum_list_with (fun w => 2 ^ pred (length w)) ws.
Proof. exact (fun H => all_listed (s_heap st) (wf_roles_heap _ (reachable_wf st H)) grp a o l m). Qed.
Print Assumptions C52_times.
(** With n + 1 roles, one permission can be listed 2 ^ n times. *)
Theorem C52_grows_refuted (n : nat) : exists st l, reachable st /\ length (h_roles (s_heap st)) = S n
  /\ forall o, exists m, get_all_implicit_permissions o (s_heap st) l = Ok m /\ times m "page" (Attr "/x" "GET") = 2 ^ n.
Proof. exact (c52_grows n). Qed.
Print Assumptions C52_grows_refuted.
