(** Properties of concurrent changes of one role. *)
From Verif Require Import CRoleProofs CRoleEx CRoleSpec.

(** ** C85: permissions added at the same time are all there afterwards *)
(** The property is [all_kept] for every role and all calls.  It is false. *)
Theorem C85_all_kept_refuted :
  ~ (forall (s : rsh) (calls : list rcall), role_ok s calls -> r_lock s = false -> all_kept s calls).
Proof. exact kept_false. Qed.
Print Assumptions C85_all_kept_refuted.
(** Exactly when several AddPermission calls are safe in every interleaving *)
Theorem C85_kept_exact (s : rsh) (calls : list rcall) : role_ok s calls -> adds_only calls -> r_lock s = false ->
  all_kept s calls <-> no_rival_groups s calls.
Proof. exact (kept_exact s calls). Qed.
Print Assumptions C85_kept_exact.
(** The hole: any of the calls for a new group can wipe out what all others added to it, and nobody gets an error. *)
Theorem C85_last_wins (s : rsh) (calls : list rcall) (j : nat) (g : string) (ps : list string) :
  role_ok s calls -> adds_only calls -> r_lock s = false -> r_groups s !! g = None -> calls !! j = Some (RAdd g ps) ->
  exists s' pcs, qmet s calls (s', pcs) /\ (forall i, i < length calls -> pcs !! i = Some (QDone true)) /\
    forall p, holds s' g p <-> p ∈ ps.
Proof. exact (fun Hok Ha Hl Hg Hj => last_wins s calls Ha j g ps Hj Hok Hl Hg). Qed.
Print Assumptions C85_last_wins.
(** A group the role had before loses nothing at any moment, whatever is called beside. *)
Theorem C85_old_group (s : rsh) (calls : list rcall) (s' : rsh) (pcs : list qpc) (g : string) (l : nat) :
  role_ok s calls -> r_groups s !! g = Some l -> qmet s calls (s', pcs) ->
  r_groups s' !! g = Some l /\ (forall p, holds s g p -> holds s' g p) /\
  forall i ps p, calls !! i = Some (RAdd g ps) -> pcs !! i = Some (QDone true) -> p ∈ ps -> holds s' g p.
Proof. exact (old_group_kept s calls s' pcs g l). Qed.
Print Assumptions C85_old_group.
(** No permission appears that was not there and that nobody adds. *)
Theorem C85_nothing_else (s : rsh) (calls : list rcall) (s' : rsh) (pcs : list qpc) (g p : string) :
  role_ok s calls -> one_name s -> adds_only calls -> qmet s calls (s', pcs) -> holds s' g p ->
  holds s g p \/ exists ps, RAdd g ps ∈ calls /\ p ∈ ps.
Proof. exact (fun Hok H1 Ha Hm Hh => no_extra s calls Ha s' pcs g p Hok H1 Hm Hh). Qed.
Print Assumptions C85_nothing_else.
Example C85_example : role_ok er er_fine /\ one_name er /\ adds_only er_fine /\ no_rival_groups er er_fine /\
  exists s', qmet er er_fine (s', [QDone true; QDone true; QDone true]) /\
  holds s' "docs" "/docs GET" /\ holds s' "docs" "/docs PUT" /\ holds s' "docs" "/docs POST" /\ holds s' "logs" "/logs GET".
Proof. exact (conj (er_ok _ er_fine_adds) (conj er_one (conj er_fine_adds (conj er_fine_no_rivals c85_ex)))). Qed.
Example C85_example_lost : role_ok er er_lost /\ adds_only er_lost /\ exists s' pcs, qmet er er_lost (s', pcs) /\
  pcs !! 0 = Some (QDone true) /\ pcs !! 1 = Some (QDone true) /\
  ~ holds s' "logs" "/logs GET" /\ holds s' "logs" "/logs PUT".
Proof. exact (conj (er_ok _ er_lost_adds) (conj er_lost_adds c85_ex_lost)). Qed.

(** ** C86: once Lock has returned, the role does not change *)
(** The property is [lock_freezes] when nobody unlocks.  It is false. *)
Theorem C86_lock_refuted :
  ~ (forall (s : rsh) (calls : list rcall), role_ok s calls -> no_unlock calls -> lock_freezes s calls).
Proof. exact lock_false. Qed.
Print Assumptions C86_lock_refuted.
(** The hole: every permission that is not there can still appear after Lock has returned. *)
Theorem C86_still_added (s : rsh) (g p : string) : let calls := [RAdd g [p]; RLock true] in
  role_ok s calls -> r_lock s = false -> ~ holds s g p ->
  exists now later s1 pcs1 s2 pcs2, qrun calls (qstart s calls) now = Some (s1, pcs1) /\ pcs1 !! 1 = Some (QDone true) /\
    r_lock s1 = true /\ ~ holds s1 g p /\ qrun calls (s1, pcs1) later = Some (s2, pcs2) /\
    pcs2 = [QDone true; QDone true] /\ r_lock s2 = true /\ holds s2 g p.
Proof. exact (lock_hole s g p). Qed.
Print Assumptions C86_still_added.
(** It holds when no call is under way at that moment; missing: the other moments. *)
Theorem C86_lock_partial (s : rsh) (calls : list rcall) (now later : list nat) (s1 : rsh) (pcs1 : list qpc) (s2 : rsh)
  (pcs2 : list qpc) (i : nat) : no_unlock calls ->
  qrun calls (qstart s calls) now = Some (s1, pcs1) -> calls !! i = Some (RLock true) -> pcs1 !! i = Some (QDone true) ->
  quiet pcs1 -> qrun calls (s1, pcs1) later = Some (s2, pcs2) -> s2 = s1.
Proof. exact (quiet_lock_freezes s calls now later s1 pcs1 s2 pcs2 i). Qed.
Print Assumptions C86_lock_partial.
Example C86_example : q_after er er_locked [0; 0; 0; 0; 1] = Some [QDone true; QDone true; QStart] /\
  quiet [QDone true; QDone true; QStart] /\ no_unlock er_locked /\
  q_after er er_locked ([0; 0; 0; 0; 1] ++ [2]) = Some [QDone true; QDone true; QDone false].
Proof. exact c86_ex. Qed.
