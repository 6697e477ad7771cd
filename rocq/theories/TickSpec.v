(** What a user expects of a v2 decision during which time passes. *)
From Verif Require Export V2Spec TickModel.

(** The call lasts from the instant [t0] to the instant [t1], and the clock is never turned back meanwhile. *)
Definition lasts (clock : nat -> Z) (t0 t1 : Z) : Prop :=
  (forall k, (t0 <= clock k <= t1)%Z) /\ forall i j, i <= j -> (clock i <= clock j)%Z.
(** The answer [b] is the right one at some instant between [t0] and [t1]. *)
Definition right_meanwhile (right : Z -> Prop) (t0 t1 : Z) (b : bool) : Prop :=
  exists t, (t0 <= t <= t1)%Z /\ (b = true <-> right t).
(** Some permission held at the instant [yes] matches: a scoped one, or an unscoped one if nothing scoped is held at the
    instant [no].  With [yes] and [no] the same instant this is [v2_allowed]. *)
Definition allows_then (st : vstate) (yes no : Z) (q : request) : Prop :=
  exists t c n p, target st q t /\ tenant_at st t c /\ uses_namespace c q n /\ matches_perm q p /\
    (scoped_perm st yes (q_principal q) t n (q_scope q) p \/
     global_perm st yes (q_principal q) t n (q_scope q) p /\
       forall p', ~ scoped_perm st no (q_principal q) t n (q_scope q) p').
(** No assignment of [user] runs out between [t0] and [t1]. *)
Definition none_runs_out (st : vstate) (user : string) (t0 t1 : Z) : Prop :=
  forall pr, assigned st pr -> pr_principal pr = user -> expired t1 pr -> expired t0 pr.
