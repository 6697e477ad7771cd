(** Vocabulary for what the methods of a role change. *)
From Verif Require Export RoleSpec.

(** [a] is the first element of [l] with the key [k]. *)
Definition first_with {A K} (key : A -> K) (l : list A) (k : K) (a : A) : Prop :=
  exists pre post, l = pre ++ a :: post /\ key a = k /\ forall b, b ∈ pre -> key b <> k.
(** The id of the role at [l], if there is one. *)
Definition id_at (h : rheap) (l : nat) : option string := r_id <$> h_roles h !! l.
(** Role [d] is stored as the descendant [k] of role [l]. *)
Definition child (h : rheap) (l : nat) (k : string) (d : nat) : Prop :=
  exists r, h_roles h !! l = Some r /\ r_desc r !! k = Some d.
(** The lock of the role at [l] is not set. *)
Definition unlocked (h : rheap) (l : nat) : Prop := exists r, h_roles h !! l = Some r /\ r_lock r = false.
(** The roles other than [l] have the same groups and descendants, [l] has the same id and lock. *)
Definition only_role (h h' : rheap) (l : nat) : Prop :=
  length (h_roles h') = length (h_roles h)
  /\ (forall x, id_at h' x = id_at h x) /\ (forall x, unlocked h' x <-> unlocked h x)
  /\ (forall x, x <> l -> h_roles h' !! x = h_roles h !! x).
