(** What a user expects of the v2 role graph, stated without the model's loops. *)
From Verif Require Export DagModel.

(** [c] is a direct child of [r]. *)
Definition child (e : gmap string (list string)) (r c : string) : Prop :=
  exists cs, e !! r = Some cs /\ c ∈ cs.
(** No role is its own transitive child. *)
Definition acyclic (e : gmap string (list string)) : Prop := forall r, ~ tc (child e) r r.

(** The roles met when the tree below each role of the list is written out in full, parents
    first; a role met along two paths is written twice.  Infinite trees have no listing. *)
Inductive listing (e : gmap string (list string)) : list string -> list string -> Prop :=
| listing_nil : listing e [] []
| listing_cons r rs below rest :
    listing e (default [] (e !! r)) below -> listing e rs rest ->
    listing e (r :: rs) (r :: below ++ rest).

(** The edges after AddChildRole(parent, cs...) has been accepted. *)
Definition with_children (e : gmap string (list string)) (parent : string) (cs : list string)
    : gmap string (list string) :=
  <[parent := default [] (e !! parent) ++ cs]> e.

(** The role object registered under a name. *)
Definition registered (h : list vrole) (d : dag) (name : string) (r : vrole) : Prop :=
  exists l, d_roles d !! name = Some l /\ h !! l = Some r.
(** One step down the graph from a registered role. *)
Definition below (h : list vrole) (d : dag) (a b : string) : Prop :=
  (exists r, registered h d a r) /\ child (d_edges d) a b.
(** [name] confers permission [p]: some registered role below it has it. *)
Definition confers (h : list vrole) (d : dag) (name p : string) : Prop :=
  exists name' r, rtc (below h d) name name' /\ registered h d name' r /\ p ∈ vr_perms r.
(** [name] includes role [x]: a registered role of that name is below it. *)
Definition includes (h : list vrole) (d : dag) (name x : string) : Prop :=
  exists name' r, rtc (below h d) name name' /\ registered h d name' r /\ x = vr_name r.
(** Every registered name has a role object (pointers are never nil). *)
Definition dag_wf (h : list vrole) (d : dag) : Prop :=
  forall name l, d_roles d !! name = Some l -> exists r, h !! l = Some r.
