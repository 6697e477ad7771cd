(** What a user expects of a v2 decision that runs while assignments are changed. *)
From Verif Require Export V2Spec CDecModel.

(** The authorizer at the moment the list of assignments is [l] *)
Definition at_moment (st : vstate) (l : list (option nat)) : vstate := vw_assign st l.
(** [lo] is assigned all the time, [hi] is all that is assigned at some time during the call. *)
Definition within (views : nat -> list (option nat)) (lo hi : list (option nat)) : Prop :=
  forall k p, (p ∈ lo -> p ∈ views k) /\ (p ∈ views k -> p ∈ hi).
(** Assignments are only added: from [v] at the start to [v ++ new] at the end, reading after reading. *)
Definition growing_views (v new : list (option nat)) (views : nat -> list (option nat)) : Prop :=
  exists time : nat -> nat, (forall i j, i <= j -> time i <= time j) /\ forall k, views k = v ++ take (time k) new.
(** The decision [b] is the right one for the list at some moment between start and end. *)
Definition right_at_some_moment (decided : list (option nat) -> Prop) (v new : list (option nat)) (b : bool) : Prop :=
  exists n, b = true <-> decided (v ++ take n new).
(** Some permission held in [yes] matches: a scoped one, or an unscoped one if nothing scoped is held in [no].
    With [yes] and [no] the same moment this is [v2_allowed]. *)
Definition allows (yes no : vstate) (now : Z) (q : request) : Prop :=
  exists t c n p, target yes q t /\ tenant_at yes t c /\ uses_namespace c q n /\ matches_perm q p /\
    (scoped_perm yes now (q_principal q) t n (q_scope q) p \/
     global_perm yes now (q_principal q) t n (q_scope q) p /\
       forall p', ~ scoped_perm no now (q_principal q) t n (q_scope q) p').
(** The request names a tenant (or there is a default one), and this tenant has no child tenants. *)
Definition one_leaf (st : vstate) (q : request) : Prop :=
  exists name t c, names st q name /\ w_reg st !! name = Some t /\ tenant_at st t c /\ vt_children c = ∅.
(** No nil pointer is among the assignments. *)
Definition real_rows (st : vstate) (l : list (option nat)) : Prop :=
  forall p, p ∈ l -> exists i pr, p = Some i /\ w_prs st !! i = Some pr.
