(** What a user expects of the permissions of package v2: different ones are different. *)
From Verif Require Export PermModel V2GrowSpec.
Local Open Scope string_scope.

(** The role of the name [n], or a role below it, has the permission [p]. *)
Definition gives (st : vstate) (n : string) (p : vperm) : Prop := confers (w_roles st) (w_dag st) n (vp_string p).
(** The permissions differ in more than the category, and a space cannot hide it. *)
Definition told_apart (p p' : vperm) : Prop :=
  (vp_resource p, vp_action p) <> (vp_resource p', vp_action p') /\
  (lacks ch_space (vp_resource p) /\ lacks ch_space (vp_resource p') \/ lacks ch_space (vp_action p) /\ lacks ch_space (vp_action p')).
(** The request is for something the permission [p] is about. *)
Definition concerns (q : request) (p : vperm) : Prop := matches_perm q (vp_string p).
