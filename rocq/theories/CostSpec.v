(** Ways down a hierarchy of roles, and how often something at their ends is met. *)
From Verif Require Export CostModel RoleSpec.

Definition child (h : rheap) (l : nat) (id : string) : option nat :=
  match h_roles h !! l with Some r => r_desc r !! id | None => None end.
(** A way down from the role [l] is given by the ids of the descendants followed; it leads to a role. *)
Fixpoint leads (h : rheap) (l : nat) (w : list string) : option nat :=
  match w with
  | [] => Some l
  | id :: w' => match child h l id with Some c => leads h c w' | None => None end
  end.
(** The roles in between: neither the first nor the last *)
Fixpoint stops (h : rheap) (l : nat) (w : list string) : list nat :=
  match w with
  | [] | [_] => []
  | id :: w' => match child h l id with Some c => c :: stops h c w' | None => [] end
  end.
(** [ws] are all the ways from [l] to roles with [P], each once. *)
Definition ways_to (h : rheap) (l : nat) (P : nat -> Prop) (ws : list (list string)) : Prop :=
  NoDup ws /\ forall w, w ∈ ws <-> exists d, leads h l w = Some d /\ P d.
(** How often an attribute is listed under a group *)
Definition times (m : gmap string (list attr)) (grp : string) (a : attr) : nat :=
  length (filter (fun b => b = a) (default [] (m !! grp))).
(** The role keeps something for the group; it counts as a descendant. *)
Definition keeps (h : rheap) (grp : string) (d : nat) : bool :=
  match h_roles h !! d with Some r => bool_decide (is_Some (r_perms r !! grp)) | None => false end.
Definition counts (h : rheap) (allowed : list string) (d : nat) : bool :=
  match h_roles h !! d with Some r => bool_decide (allowed = []) || bool_decide (r_id r ∈ allowed) | None => false end.
(** Each role on the way that counts and keeps something for the group doubles the number of calls. *)
Definition doublings (h : rheap) (grp : string) (allowed : list string) (l : nat) (w : list string) : nat :=
  2 ^ length (filter (fun d => keeps h grp d && counts h allowed d = true) (stops h l w)).
(** The ways of one or more steps to the roles to which Has, asked on [l], is passed on *)
Definition ways_passed (h : rheap) (grp : string) (allowed : list string) (l : nat) (ws : list (list string)) : Prop :=
  NoDup ws /\ forall w, w ∈ ws <-> w <> [] /\ keeps h grp l = true /\ exists d, leads h l w = Some d /\ counts h allowed d = true.
