(** Specification vocabulary for roles and their permissions. *)
From Verif Require Export RoleModel MatchSpec.

(** Graphs given by children maps (roles, and later tenants). *)
Definition child_of (next : nat -> option (gmap string nat)) (l d : nat) : Prop :=
  exists m k, next l = Some m /\ m !! k = Some d.

(** Role [d] is a direct descendant of role [l]. *)
Definition role_edge (h : rheap) : nat -> nat -> Prop := child_of (role_children h).
(** ... at one or more steps. *)
Definition descends (h : rheap) : nat -> nat -> Prop := tc (role_edge h).
(** A cycle of descendants can be reached from [l]. *)
Definition cyclic_from (h : rheap) (l : nat) : Prop :=
  exists d, rtc (role_edge h) l d /\ tc (role_edge h) d d.

(** Role [l] itself has the resource group [grp], which is the group [g]. *)
Definition owns (h : rheap) (l : nat) (grp : string) (g : group) : Prop :=
  exists r gl, h_roles h !! l = Some r /\ r_perms r !! grp = Some gl /\ h_groups h !! gl = Some g.
(** The group contains a permission that is, or as a pattern accepts, [perm]. *)
Definition offers (g : group) (perm : string) : Prop :=
  exists k a, g_perms g !! k = Some a /\ (k = perm \/ StrMatches k perm).
(** The group contains a permission on which matching [perm] does not terminate. *)
Definition stalls (g : group) (perm : string) : Prop :=
  exists k a, g_perms g !! k = Some a /\ StrLoops k perm.

Definition has_id (h : rheap) (l : nat) (id : string) : Prop :=
  exists r, h_roles h !! l = Some r /\ r_id r = id.

(** What Role.Has decides: the role has the group itself, and the permission is offered by its
    own group or by the same-named group of an admitted descendant. *)
Definition permits (h : rheap) (l : nat) (grp perm : string) (allowed : list string) : Prop :=
  exists g, owns h l grp g /\
    (offers g perm \/
     exists d gd, descends h l d /\ (allowed = [] \/ exists id, has_id h d id /\ id ∈ allowed)
                  /\ owns h d grp gd /\ offers gd perm).

(** Pointers stored in the heap are valid, and stored under the right keys. *)
Definition wf_heap (h : rheap) : Prop :=
  (forall l r k d, h_roles h !! l = Some r -> r_desc r !! k = Some d -> has_id h d k)
  /\ (forall l r k gl, h_roles h !! l = Some r -> r_perms r !! k = Some gl ->
        exists g, h_groups h !! gl = Some g /\ g_id g = k)
  /\ (forall gl g k a, h_groups h !! gl = Some g -> g_perms g !! k = Some a -> k = attr_string a).

(** Role [l] has attribute [a] stored under key [k] in its group [grp]. *)
Definition holds (h : rheap) (l : nat) (grp k : string) (a : attr) : Prop :=
  exists g, owns h l grp g /\ g_perms g !! k = Some a.

(** A map from groups to attribute lists, as the Get*Permissions queries return it, lists [a] under [grp]. *)
Definition listed (m : gmap string (list attr)) (grp : string) (a : attr) : Prop :=
  exists l, m !! grp = Some l /\ a ∈ l.

(** [glue x y] is "x y". *)
Definition glue (x y : string) : string := String.append x (String.append " " y).

(** No role other than [l] points to group [gl]. *)
Definition private (h : rheap) (l gl : nat) : Prop :=
  forall l' r' k, l' <> l -> h_roles h !! l' = Some r' -> r_perms r' !! k <> Some gl.
(** The group object stored for role [l] under [grp] is the one at [gl]. *)
Definition points (h : rheap) (l : nat) (grp : string) (gl : nat) : Prop :=
  exists r, h_roles h !! l = Some r /\ r_perms r !! grp = Some gl.
