(** Which jobs a call of package v2 consists of, in terms of V2Spec (not of the traversal). *)
From Verif Require Export PoolSpec V2Spec.

(** A call of Authorize or Can at the instant [now]. *)
Inductive call : Type :=
| CallAuthorize (now : Z) (q : request)
| CallCan (now : Z) (q : request) (roles : list string).
(** [j] is the work for tenant [t] and namespace [n]: the sets contain what the principal's
    assignments give there, and the reading loop looks for what the call asks for. *)
Definition job_for (st : vstate) (c : call) (t : nat) (n : string) (j : job) : Prop :=
  match c with
  | CallAuthorize now q =>
      j_uses_global j = true /\
      (forall p, p ∈ j_scoped j <-> scoped_perm st now (q_principal q) t n (q_scope q) p) /\
      (forall p, p ∈ j_global j <-> global_perm st now (q_principal q) t n (q_scope q) p) /\
      (forall p, j_match j p = true <-> matches_perm q p)
  | CallCan now q roles =>
      j_uses_global j = false /\
      (forall x, x ∈ j_scoped j <-> holds_role st now (q_principal q) t n x) /\
      j_global j = ∅ /\
      (forall x, j_match j x = true <-> x ∈ roles)
  end.
Definition call_request (c : call) : request :=
  match c with CallAuthorize _ q => q | CallCan _ q _ => q end.
(** One job for every target tenant with a usable namespace, and no other job. *)
Definition jobs_of (st : vstate) (c : call) (js : list job) : Prop :=
  (forall j, j ∈ js -> exists t cont n, target st (call_request c) t /\ tenant_at st t cont /\
     uses_namespace cont (call_request c) n /\ job_for st c t n j) /\
  (forall t cont n, target st (call_request c) t -> tenant_at st t cont -> uses_namespace cont (call_request c) n ->
     exists j, j ∈ js /\ job_for st c t n j).
(** The right answer (what C31, C33 and C43 prove of a call alone). *)
Definition right_answer (st : vstate) (c : call) : Prop :=
  match c with
  | CallAuthorize now q => v2_allowed st now q
  | CallCan now q roles => v2_can_allowed st now q roles
  end.
