(** Properties C64 and C65: what the root package's additions change. *)
From Verif Require Import AuthModel AuthSpec RootSpec RoleEffSpec.
From Verif Require Import RootInv RoleCor RootCor RootGrow.

(** C64: AddDescendant adds, for each id that is not yet a descendant's, the first given role with it, and nothing
    else. *)
Theorem C64_add_descendant (h : rheap) (l : nat) (ds : list nat) (h' : rheap) (e : goerr) :
  role_add_descendant h l ds = Ok (h', e) -> unlocked h l ->
  e = None /\ only_role h h' l /\ h_groups h' = h_groups h
  /\ (forall grp g, owns h' l grp g <-> owns h l grp g)
  /\ (forall k d, child h' l k d <->
        child h l k d \/ (forall d', ~ child h l k d') /\ first_with (id_at h) ds (Some k) d).
Proof. exact (add_descendant_eff h l ds h' e). Qed.
Print Assumptions C64_add_descendant.
(** AddPermissionResourceGroup stores the given group object, unless the role has one with this id. *)
Theorem C64_add_group (h : rheap) (l gl : nat) (g : group) (h' : rheap) (e : goerr) :
  role_add_group h l gl = Ok (h', e) -> unlocked h l -> h_groups h !! gl = Some g ->
  e = None /\ only_role h h' l /\ h_groups h' = h_groups h
  /\ (forall k d, child h' l k d <-> child h l k d)
  /\ (forall k x, points h' l k x <-> points h l k x \/ (forall x', ~ points h l k x') /\ k = g_id g /\ x = gl).
Proof. exact (role_add_group_eff h l gl g h' e). Qed.
Print Assumptions C64_add_group.
(** AddPermission adds the first given attribute for each key the group does not have; roles that do not share the
    group object are unchanged, as are all descendants. *)
Theorem C64_add_permission (st : state) (l : nat) (grp : string) (attrs : list attr) (h' : rheap) (e : goerr) (H : reachable st) :
  role_add_permission (s_heap st) l grp attrs = Ok (h', e) -> unlocked (s_heap st) l ->
  e = None
  /\ (forall x k d, child h' x k d <-> child (s_heap st) x k d)
  /\ (forall k a, holds h' l grp k a <->
        holds (s_heap st) l grp k a \/ (forall a', ~ holds (s_heap st) l grp k a') /\ first_with attr_string attrs k a)
  /\ (forall x g k a, (x = l /\ g = grp \/ exists gl, points (s_heap st) l grp gl /\ points (s_heap st) x g gl)
                      \/ (holds h' x g k a <-> holds (s_heap st) x g k a)).
Proof. exact (add_permission_eff (s_heap st) l grp attrs h' e (wf_roles_heap _ (reachable_wf st H))). Qed.
Print Assumptions C64_add_permission.
Example C64_ex : exists h h', reachable (ops_state w64_ops) /\ h = s_heap (ops_state w64_ops) /\ unlocked h 0
  /\ role_add_descendant h 0 [1; 3] = Ok (h', None)
  /\ get_descendant_roles id_oracle h 0 = Ok [2]
  /\ (exists ds, get_descendant_roles id_oracle h' 0 = Ok ds /\ (2 ∈ ds /\ 3 ∈ ds /\ 1 ∉ ds)).
Proof. exact c64_ex. Qed.

(** C65: what Role.Has says yes to stays so, whatever is called later. *)
Theorem C65_has_stays (o1 : oracle) (i : nat) (o2 o3 : oracle) (st : state) (ops : list op) (st' : state) (outs : list out)
    (l : nat) (grp perm : string) (allowed : list string) (b : bool) :
  reachable st -> run o1 i st ops = Ok (st', outs) ->
  role_has o2 (s_heap st) l grp perm allowed = Ok true -> role_has o3 (s_heap st') l grp perm allowed = Ok b -> b = true.
Proof. exact (has_stays o1 i o2 o3 st ops st' outs l grp perm allowed b). Qed.
Print Assumptions C65_has_stays.
(** For Authorize this is false: adding a row can destroy another one (C08). *)
Theorem C65_grants_stay_refuted : exists st st1 st2 st3, reachable st
  /\ authorize id_oracle st "ann" (tenant_only "acme") = Ok (st1, true)
  /\ step id_oracle st1 (OAddData w65_row) = Ok (st2, RUnit)
  /\ authorize id_oracle st2 "ann" (tenant_only "acme") = Ok (st3, false).
Proof. exact c65_refuted. Qed.
Print Assumptions C65_grants_stay_refuted.
(** That is the only way: as long as Data() still returns every row it returned, grants stay. *)
Theorem C65_grants_stay_partial (o1 : oracle) (st : state) (p : string) (q : opts) (st1 : state) (o2 : oracle) (i : nat)
    (ops : list op) (st2 : state) (outs : list out) (o3 : oracle) (st3 : state) (b : bool) :
  reachable st -> authorize o1 st p q = Ok (st1, true) ->
  run o2 i st1 ops = Ok (st2, outs) -> (forall d, stored st1 d -> stored st2 d) ->
  authorize o3 st2 p q = Ok (st3, b) -> b = true.
Proof. exact (authorize_stays o1 st p q st1 o2 i ops st2 outs o3 st3 b). Qed.
Print Assumptions C65_grants_stay_partial.
Example C65_ex : exists st1 st2 outs, run id_oracle 0 init_state w65_ops = Ok (st1, ops_outs w65_ops)
  /\ run id_oracle 7 st1 w65_more = Ok (st2, outs) /\ (forall d, stored st1 d -> stored st2 d)
  /\ exists st3, authorize rev_oracle st2 "ann" (tenant_only "acme") = Ok (st3, true).
Proof. exact c65_ex. Qed.
