(** Property C119: v1 Authorize calls made by several goroutines at the same time, while nobody changes the manager. *)
From Verif Require Import V1PoolLemmas V1PoolEx V1PoolSpec.

(** C119.  Calls of v1 Authorize made at the same time do mix their results, although all of them only read: GetAllowedRoles gives the array of its result back to the
    pool before the caller reads it.  A request for an activity is granted because another principal may do it; … *)
Theorem C119_granted_refuted : exists st cs M es i o p q, ureachable st /\ x_met st cs M es /\ cs !! i = Some (o, p, q) /\ x_answered M i (Ok true) /\ u_authorize o st p q = Ok false
  /\ q = UOpts ANil ANil ANil ANil (AStr "/x GET").
Proof. exact c119_granted. Qed.
Print Assumptions C119_granted_refuted.
(** … so is one with a tenant, if a role below the principal's own may do it; … *)
Theorem C119_below_refuted : exists st cs M es i o p q, ureachable st /\ x_met st cs M es /\ cs !! i = Some (o, p, q) /\ x_answered M i (Ok true) /\ u_authorize o st p q = Ok false
  /\ q = UOpts (AStr "hq") ANil ANil (AStr "page") (AStr "/x GET").
Proof. exact c119_below. Qed.
Print Assumptions C119_below_refuted.
(** … and one that should be granted is refused. *)
Theorem C119_denied_refuted : exists st cs M es i o p q, ureachable st /\ x_met st cs M es /\ cs !! i = Some (o, p, q) /\ x_answered M i (Ok false) /\ u_authorize o st p q = Ok true.
Proof. exact c119_denied. Qed.
Print Assumptions C119_denied_refuted.

(** What holds.  A call answers as if it were the only one, however the calls are interleaved, if nobody had taken an array anew when it read in it. *)
Theorem C119_undisturbed_partial (st : ustate) (cs : list xcall) (M : xmachine) (es : list xevent) (i : nat) (o : oracle) (p : string) (q : uopts) (r : res bool) :
  ureachable st -> x_met st cs M es -> cs !! i = Some (o, p, q) -> x_undisturbed i es -> x_answered M i r -> r = u_authorize o st p q.
Proof. exact (undisturbed_right st cs M es i o p q r). Qed.
Print Assumptions C119_undisturbed_partial.
(** Two calls that take turns step by step, each in arrays of its own *)
Example C119_ex : ureachable st119 /\ xrun (xstart st119 (two "ann" "eve" (only_act "/x GET"))) s_mixed = Some end_mixed
  /\ x_undisturbed 0 end_mixed.2 /\ x_undisturbed 1 end_mixed.2 /\ x_answered end_mixed.1 0 (Ok true) /\ x_answered end_mixed.1 1 (Ok false)
  /\ (exists l, XLook 0 l ∈ end_mixed.2) /\ exists l, XLook 1 l ∈ end_mixed.2.
Proof. exact c119_ex. Qed.
(** So does a call during which no other moves, whatever happened before and happens after. *)
Theorem C119_in_turn (st : ustate) (cs : list xcall) (xs : list (nat * option nat)) (M : xmachine) (es : list xevent) (i : nat) (o : oracle) (p : string) (q : uopts) (r : res bool) :
  ureachable st -> xrun (xstart st cs) xs = Some (M, es) -> cs !! i = Some (o, p, q) -> x_in_turn i xs -> x_answered M i r -> r = u_authorize o st p q.
Proof. exact (in_turn_right st cs xs M es i o p q r). Qed.
Print Assumptions C119_in_turn.
Theorem C119_alone (st : ustate) (xs : list (nat * option nat)) (M : xmachine) (es : list xevent) (o : oracle) (p : string) (q : uopts) (r : res bool) :
  ureachable st -> xrun (xstart st [(o, p, q)]) xs = Some (M, es) -> x_answered M 0 r -> r = u_authorize o st p q.
Proof. exact (alone_right st xs M es o p q r). Qed.
Print Assumptions C119_alone.
(** Two calls one after the other, in the same arrays *)
Example C119_turns_ex : xrun (xstart st119 (two "ann" "eve" (only_act "/x GET"))) s_turns = Some end_turns /\ x_in_turn 0 s_turns /\ x_in_turn 1 s_turns
  /\ x_answered end_turns.1 0 (Ok true) /\ x_answered end_turns.1 1 (Ok false)
  /\ exists es1 es2 es3, end_turns.2 = es1 ++ XTake 0 3 :: es2 ++ XTake 1 3 :: es3 /\ (forall j, XTake j 3 ∉ es2) /\ XBack 0 3 ∈ es2.
Proof. exact c119_turns_ex. Qed.
(** The requests that do not need GetAllowedRoles (no resource group and no activity) are always answered rightly. *)
Theorem C119_places (st : ustate) (cs : list xcall) (M : xmachine) (es : list xevent) (i : nat) (o : oracle) (p : string) (q : uopts) (r : res bool) :
  ureachable st -> x_met st cs M es -> cs !! i = Some (o, p, q) -> uo_group q = ANil -> uo_activity q = ANil ->
  uo_tenant q <> ANil \/ uo_namespace q <> ANil \/ uo_scope q <> ANil -> x_answered M i r -> r = u_authorize o st p q.
Proof. exact (plain_same st cs M es i o p q r). Qed.
Print Assumptions C119_places.

(** How far a wrong answer can go.  A request that is not for an activity alone is granted only if a role assigned to the principal in that tenant gives the
    activity on that group, all roles below it counting. *)
Theorem C119_own_roles (st : ustate) (cs : list xcall) (M : xmachine) (es : list xevent) (i : nat) (o : oracle) (p : string) (q : uopts) :
  ureachable st -> x_met st cs M es -> cs !! i = Some (o, p, q) -> complex_request q -> x_answered M i (Ok true) ->
  exists a, member st p (to_string (uo_tenant q)) a /\ role_can st (tp_role a) (to_string (uo_group q)) (to_string (uo_activity q)).
Proof. exact (own_roles st cs M es i o p q). Qed.
Print Assumptions C119_own_roles.
(** A request for an activity alone is granted only if some role gives it whose name one of the calls under way handles (or is empty). *)
Theorem C119_mixed (st : ustate) (cs : list xcall) (M : xmachine) (es : list xevent) (i : nat) (o : oracle) (p : string) (act : any) :
  ureachable st -> x_met st cs M es -> cs !! i = Some (o, p, UOpts ANil ANil ANil ANil act) -> act <> ANil -> x_answered M i (Ok true) ->
  exists x, x_name st cs x /\ role_can st x "" (to_string act).
Proof. exact (mixed_roles st cs M es i o p act). Qed.
Print Assumptions C119_mixed.
(** A call panics only if it panics alone. *)
Theorem C119_panics (st : ustate) (cs : list xcall) (M : xmachine) (es : list xevent) (i : nat) (o : oracle) (p : string) (q : uopts) :
  ureachable st -> x_met st cs M es -> cs !! i = Some (o, p, q) -> x_answered M i Panic -> u_authorize o st p q = Panic.
Proof. exact (panic_same st cs M es i o p q). Qed.
Print Assumptions C119_panics.

(** No array is handed out twice: between two takings of an array the first taker gives it back. *)
Theorem C119_exclusive (st : ustate) (cs : list xcall) (M : xmachine) (es es1 : list xevent) (i l : nat) (es2 : list xevent) (k : nat) (es3 : list xevent) :
  ureachable st -> x_met st cs M es -> es = es1 ++ XTake i l :: es2 ++ XTake k l :: es3 -> (forall j, XTake j l ∉ es2) -> XBack i l ∈ es2.
Proof. exact (exclusive st cs M es es1 i l es2 k es3). Qed.
Print Assumptions C119_exclusive.
(** A call that has not returned can always go on, and all come to an end (apart from a call of Has that goes on for ever, C115). *)
Theorem C119_goes_on (st : ustate) (cs : list xcall) (M : xmachine) (es : list xevent) (i : nat) :
  ureachable st -> x_met st cs M es -> i < length cs -> (exists r, x_answered M i r) \/ exists pick M' es', xstep M (i, pick) = Some (M', es').
Proof. exact (progress st cs M es i). Qed.
Print Assumptions C119_goes_on.
Theorem C119_ends (st : ustate) (cs : list xcall) : ~ x_for_ever st cs.
Proof. exact (not_for_ever st cs). Qed.
Print Assumptions C119_ends.
