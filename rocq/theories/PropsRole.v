(** Properties C20 to C24, C26 and C52: roles. *)
From Verif Require Import RoleModel RoleSpec RootModel AuthModel RootSpec RootInv RoleOps RoleLock RoleHas RoleCor.

(** C20: whatever Has returns is exactly [permits]: the role owns the group, and its own group
    or that of an admitted transitive descendant offers the permission. *)
Theorem C20_has_exact (o : oracle) (h : rheap) (l : nat) (grp perm : string) (allowed : list string) (b : bool) :
  role_has o h l grp perm allowed = Ok b -> (b = true <-> permits h l grp perm allowed).
Proof. exact (role_has_ok o h l grp perm allowed b). Qed.
Print Assumptions C20_has_exact.

(** Has returns on every acyclic graph whose patterns do not make matching loop. *)
Theorem C20_has_returns (o : oracle) (st : state) (l : nat) (grp perm : string) (allowed : list string) :
  reachable st -> is_Some (h_roles (s_heap st) !! l) -> ~ cyclic_from (s_heap st) l ->
  (forall d g, rtc (role_edge (s_heap st)) l d -> owns (s_heap st) d grp g -> ~ stalls g perm) ->
  exists b, role_has o (s_heap st) l grp perm allowed = Ok b.
Proof. exact (fun H => role_has_returns o (s_heap st) l grp perm allowed (wf_roles_heap _ (reachable_wf st H))). Qed.
Print Assumptions C20_has_returns.

(** The recursion bound of the model is no bound: any larger one gives the same result. *)
Theorem C20_fuel_irrelevant (n : nat) (o : oracle) (st : state) (l : nat) (grp perm : string) (allowed : list string) :
  reachable st -> is_Some (h_roles (s_heap st) !! l) -> length (h_roles (s_heap st)) < n ->
  has_fuel n o (s_heap st) l grp perm allowed = role_has o (s_heap st) l grp perm allowed.
Proof. exact (fun H => role_has_stable n o (s_heap st) l grp perm allowed (wf_roles_heap _ (reachable_wf st H))). Qed.
Print Assumptions C20_fuel_irrelevant.

Example C20_ex :
  let h := s_heap (ops_state ex_roles) in
  role_has rev_oracle h 0 "page" "/users/7 POST" [] = Ok true
  /\ role_has id_oracle h 0 "page" "/users/7 POST" ["coder"] = Ok true
  /\ role_has id_oracle h 0 "page" "/users/7 POST" ["lead"] = Ok false
  /\ role_has id_oracle h 0 "page" "/other" [] = Ok false
  /\ role_has id_oracle h 1 "page" "/users/7 POST" [] = Ok false.
Proof. vm_compute. repeat split. Qed.

(** C21 is false: a role that does not itself own the group inherits nothing in it. *)
Theorem C21_inherits_refuted : exists st grp perm l d,
  reachable st /\ descends (s_heap st) l d
  /\ forall o, role_has o (s_heap st) d grp perm [] = Ok true
            /\ role_has o (s_heap st) l grp perm [] = Ok false.
Proof. exact c21_refuted. Qed.
Print Assumptions C21_inherits_refuted.

(** ... whatever its descendants have. *)
Theorem C21_no_group_no_inheritance (o : oracle) (h : rheap) (l : nat) (grp perm : string) (allowed : list string) (r : role_obj) :
  h_roles h !! l = Some r -> r_perms r !! grp = None -> role_has o h l grp perm allowed = Ok false.
Proof. exact (has_without_group o h l grp perm allowed r). Qed.
Print Assumptions C21_no_group_no_inheritance.

(** C21 holds for roles that own the group (even an empty one). *)
Theorem C21_inherits_partial (o o' : oracle) (h : rheap) (l d : nat) (grp perm : string) (g : group) (b : bool) :
  owns h l grp g -> descends h l d -> role_has o h d grp perm [] = Ok true ->
  role_has o' h l grp perm [] = Ok b -> b = true.
Proof. exact (has_inherits o o' h l d grp perm g b). Qed.
Print Assumptions C21_inherits_partial.
Example C21_ex :
  let h := s_heap (ops_state ex_roles) in
  descends h 0 2 /\ (exists g, owns h 0 "page" g)
  /\ role_has id_oracle h 2 "page" "/users/7 POST" [] = Ok true.
Proof. exact c21_ex. Qed.

(** C22 is false: AddDescendant accepts cycles, and then no query returns. *)
Theorem C22_terminates_refuted : exists st l grp perm,
  reachable st /\ is_Some (h_roles (s_heap st) !! l)
  /\ forall o, role_has o (s_heap st) l grp perm [] = Hang
            /\ get_descendant_roles o (s_heap st) l = Hang
            /\ get_all_implicit_permissions o (s_heap st) l = Hang.
Proof. exact c22_refuted. Qed.
Print Assumptions C22_terminates_refuted.

(** Exactly which queries return: those on roles from which no cycle is reachable. *)
Theorem C22_descendants_exact (o : oracle) (st : state) (l : nat) :
  reachable st -> is_Some (h_roles (s_heap st) !! l) ->
  (exists ds, get_descendant_roles o (s_heap st) l = Ok ds) /\ ~ cyclic_from (s_heap st) l
  \/ get_descendant_roles o (s_heap st) l = Hang /\ cyclic_from (s_heap st) l.
Proof. exact (fun H => descendant_roles_exact o (s_heap st) l (wf_roles_heap _ (reachable_wf st H))). Qed.
Print Assumptions C22_descendants_exact.
Theorem C22_all_permissions_exact (o : oracle) (st : state) (l : nat) :
  reachable st -> is_Some (h_roles (s_heap st) !! l) ->
  (exists m, get_all_implicit_permissions o (s_heap st) l = Ok m) /\ ~ cyclic_from (s_heap st) l
  \/ get_all_implicit_permissions o (s_heap st) l = Hang /\ cyclic_from (s_heap st) l.
Proof. exact (fun H => all_perms_returns o (s_heap st) l (wf_roles_heap _ (reachable_wf st H))). Qed.
Print Assumptions C22_all_permissions_exact.
Theorem C22_has_cycle_hangs (o : oracle) (st : state) (l : nat) (grp perm : string) (allowed : list string) (g : group) :
  reachable st -> cyclic_from (s_heap st) l -> owns (s_heap st) l grp g -> ~ offers g perm ->
  role_has o (s_heap st) l grp perm allowed = Hang.
Proof. exact (fun H => role_has_cycle_hangs o (s_heap st) l grp perm allowed g (wf_roles_heap _ (reachable_wf st H))). Qed.
Print Assumptions C22_has_cycle_hangs.

(** What GetDescendantRoles returns is exactly the transitive descendants. *)
Theorem C22_descendants_correct (o : oracle) (h : rheap) (l : nat) (ds : list nat) :
  get_descendant_roles o h l = Ok ds -> forall d, d ∈ ds <-> descends h l d.
Proof. exact (descendant_roles_elem o h l ds). Qed.
Print Assumptions C22_descendants_correct.

(** C22 holds for programs that never add a descendant that already reaches the receiver. *)
Theorem C22_terminates_partial (o : oracle) (ops : list op) (st : state) (outs : list out) :
  run_careful o 0 init_state ops st outs ->
  forall o' l, is_Some (h_roles (s_heap st) !! l) ->
    (exists ds, get_descendant_roles o' (s_heap st) l = Ok ds)
    /\ (exists m, get_all_implicit_permissions o' (s_heap st) l = Ok m)
    /\ forall grp perm allowed,
         (forall d g, rtc (role_edge (s_heap st)) l d -> owns (s_heap st) d grp g -> ~ stalls g perm) ->
         exists b, role_has o' (s_heap st) l grp perm allowed = Ok b.
Proof. exact (careful_terminates o ops st outs). Qed.
Print Assumptions C22_terminates_partial.
Example C22_ex : exists st outs, run_careful id_oracle 0 init_state ex_roles st outs.
Proof. exact c22_ex. Qed.

(** C23, direct calls: a locked role refuses every change. *)
Theorem C23_locked_refuses (h : rheap) (l : nat) (r : role_obj) :
  h_roles h !! l = Some r -> r_lock r = true ->
  (forall ds, role_add_descendant h l ds = Ok (h, err_locked))
  /\ (forall grp attrs, role_add_permission h l grp attrs = Ok (h, err_locked))
  /\ (forall gl, role_add_group h l gl = Ok (h, err_locked)).
Proof. exact (locked_refuses h l r). Qed.
Print Assumptions C23_locked_refuses.

(** C23 is false: a group object shared with another role can still be extended. *)
Theorem C23_locked_frozen_refuted : exists before after l grp perm st st' outs outs',
  run id_oracle 0 init_state before = Ok (st, outs)
  /\ run id_oracle 0 st after = Ok (st', outs')
  /\ OLock l ∈ before /\ OUnlock l ∉ before /\ OUnlock l ∉ after
  /\ (forall o, role_has o (s_heap st) l grp perm [] = Ok false)
  /\ (forall o, role_has o (s_heap st') l grp perm [] = Ok true).
Proof. exact c23_refuted. Qed.
Print Assumptions C23_locked_frozen_refuted.

(** Over every history, the role object (id, lock, group pointers, descendants) is frozen. *)
Theorem C23_locked_object_frozen (o : oracle) (i : nat) (st : state) (ops : list op) (st' : state) (outs : list out)
    (l : nat) (ro : role_obj) :
  run o i st ops = Ok (st', outs) -> h_roles (s_heap st) !! l = Some ro -> r_lock ro = true ->
  OUnlock l ∉ ops -> h_roles (s_heap st') !! l = Some ro.
Proof. exact (run_locked o i st ops st' outs l ro). Qed.
Print Assumptions C23_locked_object_frozen.

(** ... and so are its permissions, if its group objects are not shared. *)
Theorem C23_locked_frozen_partial (o : oracle) (i : nat) (st : state) (ops : list op) (st' : state) (outs : list out)
    (l : nat) (ro : role_obj) :
  reachable st -> run o i st ops = Ok (st', outs) ->
  h_roles (s_heap st) !! l = Some ro -> r_lock ro = true -> OUnlock l ∉ ops ->
  (forall grp gl, r_perms ro !! grp = Some gl ->
     private (s_heap st) l gl /\ (forall attrs, OGroupAdd gl attrs ∉ ops) /\ (forall l', ORoleAddGroup l' gl ∉ ops)) ->
  forall grp k a, holds (s_heap st') l grp k a <-> holds (s_heap st) l grp k a.
Proof. exact (fun H => run_locked_holds o i st ops st' outs l ro (wf_roles_heap _ (reachable_wf st H))). Qed.
Print Assumptions C23_locked_frozen_partial.
Example C23_ex :
  let st := ops_state (ex_roles ++ [OLock 2]) in
  exists ro, h_roles (s_heap st) !! 2 = Some ro /\ r_lock ro = true
    /\ forall grp gl, r_perms ro !! grp = Some gl -> private (s_heap st) 2 gl.
Proof. exact c23_ex. Qed.

(** C24: AddPermissionsToRole never crashes; on error nothing changes. *)
Theorem C24_error_changes_nothing (st : state) (rid gid : string) (attrs : list attr) :
  reachable st -> exists st' e, add_permissions_to_role st rid gid attrs = Ok (st', e)
    /\ (e <> None -> st' = st).
Proof. exact (fun H => c24_error st rid gid attrs (reachable_wf st H)). Qed.
Print Assumptions C24_error_changes_nothing.

(** It succeeds exactly when role and group are registered, the role is unlocked and every
    attribute is in the group. *)
Theorem C24_success_iff (st : state) (rid gid : string) (attrs : list attr) (st' : state) (e : goerr) :
  reachable st -> add_permissions_to_role st rid gid attrs = Ok (st', e) ->
  (e = None <-> exists r ro gl g, m_roles st !! rid = Some r /\ h_roles (s_heap st) !! r = Some ro
     /\ r_lock ro = false /\ m_groups st !! gid = Some gl /\ h_groups (s_heap st) !! gl = Some g
     /\ forall a, a ∈ attrs -> is_Some (g_perms g !! attr_string a)).
Proof. exact (fun H => add_permissions_to_role_iff st rid gid attrs st' e (reachable_wf st H)). Qed.
Print Assumptions C24_success_iff.

(** Effect: exactly the old permissions plus the new ones; nothing else changes, except in
    roles that share the group object. *)
Theorem C24_effect_partial (st : state) (rid gid : string) (attrs : list attr) (st' : state) (r : nat) :
  reachable st -> add_permissions_to_role st rid gid attrs = Ok (st', None) -> m_roles st !! rid = Some r ->
  (forall k, (exists a, holds (s_heap st') r gid k a) <->
       (exists a, holds (s_heap st) r gid k a) \/ exists a, a ∈ attrs /\ attr_string a = k)
  /\ (forall k a, holds (s_heap st') r gid k a -> holds (s_heap st) r gid k a
       \/ (~ exists b, holds (s_heap st) r gid k b) /\ a ∈ attrs /\ attr_string a = k)
  /\ (forall grp k a, grp <> gid -> (holds (s_heap st') r grp k a <-> holds (s_heap st) r grp k a))
  /\ (forall l grp k a, l <> r -> (~ exists gl, points (s_heap st) r gid gl /\ points (s_heap st) l grp gl) ->
       is_Some (h_roles (s_heap st) !! l) ->
       (holds (s_heap st') l grp k a <-> holds (s_heap st) l grp k a))
  /\ (forall l ro, h_roles (s_heap st) !! l = Some ro ->
       exists ro', h_roles (s_heap st') !! l = Some ro' /\ r_id ro' = r_id ro /\ r_lock ro' = r_lock ro
                   /\ r_desc ro' = r_desc ro)
  /\ st' = with_heap st (s_heap st').
Proof. exact (fun H => c24_effect st rid gid attrs st' r (reachable_wf st H)). Qed.
Print Assumptions C24_effect_partial.

(** "Nothing else changes" is false in general: the other role gains the permission. *)
Theorem C24_nothing_else_refuted : exists st st' other grp k a,
  reachable st /\ add_permissions_to_role st "a" "page" [Attr "/x" "GET"] = Ok (st', None)
  /\ m_roles st !! "b" = Some other /\ m_roles st !! "a" <> Some other
  /\ holds (s_heap st') other grp k a /\ ~ exists b, holds (s_heap st) other grp k b.
Proof. exact c24_refuted. Qed.
Print Assumptions C24_nothing_else_refuted.

(** C26 is false: ("a b", "c") and ("a", "b c") share the key "a b c". *)
Theorem C26_distinct_refuted : exists a b, a <> b /\ attr_string a = attr_string b.
Proof. exact c26_refuted. Qed.
Print Assumptions C26_distinct_refuted.

(** Exactly which attributes collide. *)
Theorem C26_collision_exact (a b : attr) :
  attr_string a = attr_string b <->
  a = b \/ (exists m, resource b = glue (resource a) m /\ action a = glue m (action b))
        \/ (exists m, resource a = glue (resource b) m /\ action b = glue m (action a)).
Proof. exact (attr_string_eq a b). Qed.
Print Assumptions C26_collision_exact.

(** C26 holds when resources, or actions, contain no space. *)
Theorem C26_distinct_partial (a b : attr) :
  (lacks ch_space (resource a) /\ lacks ch_space (resource b)) \/ (lacks ch_space (action a) /\ lacks ch_space (action b)) ->
  attr_string a = attr_string b -> a = b.
Proof. exact (attr_string_inj_nospace a b). Qed.
Print Assumptions C26_distinct_partial.
Example C26_ex : lacks ch_space (resource (Attr "/x" "GET")) /\ lacks ch_space (resource (Attr "/y" "GET ALL"))
  /\ attr_string (Attr "/x" "GET") <> attr_string (Attr "/y" "GET ALL").
Proof. exact c26_ex. Qed.

(** C52: as a set, GetAllImplicitPermissions is exact ... *)
Theorem C52_all_permissions_partial (o : oracle) (h : rheap) (l : nat) (m : gmap string (list attr)) :
  get_all_implicit_permissions o h l = Ok m ->
  forall grp, (is_Some (m !! grp) <-> exists d g, rtc (role_edge h) l d /\ owns h d grp g)
    /\ forall a, listed m grp a <-> exists d k, rtc (role_edge h) l d /\ holds h d grp k a.
Proof. exact (all_perms_ok o h l m). Qed.
Print Assumptions C52_all_permissions_partial.
(** ... and so are GetPermissions and GetResourceGroupPermissions for the role itself. *)
Theorem C52_own_permissions (o : oracle) (h : rheap) (l : nat) (m : gmap string (list attr)) :
  get_permissions o h l = Ok m ->
  forall grp, (is_Some (m !! grp) <-> exists g, owns h l grp g)
    /\ forall a, listed m grp a <-> exists k, holds h l grp k a.
Proof. exact (get_permissions_ok o h l m). Qed.
Print Assumptions C52_own_permissions.
Theorem C52_group_permissions (o : oracle) (h : rheap) (l : nat) (grp : string) (ps : list attr) :
  get_group_permissions o h l grp = Ok ps -> forall a, a ∈ ps <-> exists k, holds h l grp k a.
Proof. exact (get_group_permissions_ok o h l grp ps). Qed.
Print Assumptions C52_group_permissions.
(** Whatever is listed in a group the role owns is also granted by Has. *)
Theorem C52_listed_granted (o o' : oracle) (st : state) (l : nat) (m : gmap string (list attr)) (grp : string) (a : attr) (g : group) (b : bool) :
  reachable st -> get_all_implicit_permissions o (s_heap st) l = Ok m -> listed m grp a -> owns (s_heap st) l grp g ->
  role_has o' (s_heap st) l grp (attr_string a) [] = Ok b -> b = true.
Proof. exact (fun H => listed_granted o o' (s_heap st) l m grp a g b (wf_roles_heap _ (reachable_wf st H))). Qed.
Print Assumptions C52_listed_granted.
(** "Each once" is false: a grandchild's permission is listed twice. *)
Theorem C52_each_once_refuted : exists st l grp m,
  reachable st /\ get_all_implicit_permissions id_oracle (s_heap st) l = Ok m
  /\ m !! grp = Some [Attr "/x" "GET"; Attr "/x" "GET"].
Proof. exact c52_refuted. Qed.
Print Assumptions C52_each_once_refuted.
Example C52_ex : exists m,
  get_all_implicit_permissions id_oracle (s_heap (ops_state ex_roles)) 1 = Ok m
  /\ m !! "page" = Some [Attr "/users/:id" "POST"].
Proof. eexists. split; vm_compute; reflexivity. Qed.
