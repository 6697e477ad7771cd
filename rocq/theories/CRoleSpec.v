(** What a user expects of concurrent changes of one role. *)
From Verif Require Export CRoleModel.

(** The role has permission [p] in group [g]. *)
Definition holds (s : rsh) (g p : string) : Prop :=
  exists l x, r_groups s !! g = Some l /\ r_heap s !! l = Some x /\ p ∈ x.
(** All pointers lead somewhere. *)
Definition role_ok (s : rsh) (calls : list rcall) : Prop :=
  (forall g l, r_groups s !! g = Some l -> is_Some (r_heap s !! l)) /\
  forall g l, RShare g l ∈ calls -> is_Some (r_heap s !! l).
Definition qmet (s : rsh) (calls : list rcall) (st : rsh * list qpc) : Prop :=
  exists sched, qrun calls (qstart s calls) sched = Some st.
(** All calls have returned. *)
Definition all_returned (pcs : list qpc) : Prop := Forall (fun pc => exists ok, pc = QDone ok) pcs.
(** What AddPermission has added without an error is there once all calls have returned. *)
Definition all_kept (s : rsh) (calls : list rcall) : Prop :=
  forall s' pcs, qmet s calls (s', pcs) -> all_returned pcs ->
  forall i g ps p, calls !! i = Some (RAdd g ps) -> pcs !! i = Some (QDone true) -> p ∈ ps -> holds s' g p.
(** Of two calls for a group the role does not have yet, each adds what the other one adds. *)
Definition no_rival_groups (s : rsh) (calls : list rcall) : Prop :=
  forall i j g ps ps', i <> j -> calls !! i = Some (RAdd g ps) -> calls !! j = Some (RAdd g ps') ->
  r_groups s !! g = None -> forall p, p ∈ ps -> p ∈ ps'.
Definition adds_only (calls : list rcall) : Prop := forall c, c ∈ calls -> exists g ps, c = RAdd g ps.
(** Nobody unlocks the role. *)
Definition no_unlock (calls : list rcall) : Prop := RLock false ∉ calls.
(** Once a Lock call has returned, the permissions of the role do not change any more. *)
Definition lock_freezes (s : rsh) (calls : list rcall) : Prop :=
  forall now later s1 pcs1 s2 pcs2 i, qrun calls (qstart s calls) now = Some (s1, pcs1) ->
  calls !! i = Some (RLock true) -> pcs1 !! i = Some (QDone true) -> qrun calls (s1, pcs1) later = Some (s2, pcs2) ->
  forall g p, holds s2 g p <-> holds s1 g p.
(** No call is under way. *)
Definition quiet (pcs : list qpc) : Prop := Forall (fun pc => pc = QStart \/ exists ok, pc = QDone ok) pcs.
(** No group object is in the role under two names (a group is kept under its own id). *)
Definition one_name (s : rsh) : Prop :=
  forall g g' l, r_groups s !! g = Some l -> r_groups s !! g' = Some l -> g = g'.
