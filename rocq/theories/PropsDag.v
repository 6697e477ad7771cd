(** Properties of concurrent calls on a v2 role graph. *)
From Verif Require Import DagProofs CDagProofs CDagTurn CDagHole CDagBetween CDagRace CDagEx CDagSpec.

(** ** C76: concurrent calls on a role graph act as if made one after the other *)
(** The property is [as_if_in_turn] for any mixture of calls.  It is false. *)
Theorem C76_in_turn_refuted : ~ (forall (h : list vrole) (d : dag) (calls : list gcall),
  Forall (valid_call h) calls -> dag_wf h d -> acyclic (d_edges d) -> as_if_in_turn h d calls).
Proof. exact in_turn_false. Qed.
Print Assumptions C76_in_turn_refuted.
(** It holds for calls that do not get in each other's way; missing: the other mixtures. *)
Theorem C76_in_turn_partial (h : list vrole) (d : dag) (calls : list gcall) :
  Forall (valid_call h) calls -> apart d calls -> as_if_in_turn h d calls.
Proof. exact (fun Hv Hap => apart_in_turn calls h d Hv Hap). Qed.
Print Assumptions C76_in_turn_partial.
(** Two first resolutions of one role, an edge being added meanwhile: one can answer for the graph without the edge, the
    other one for the graph with it, and both answers are final for the caller. *)
Theorem C76_two_answers (h : list vrole) (d : dag) (name p : string) (cs : list string) (d1 : dag) :
  dag_wf h d -> d_resolved d !! name = None -> dag_add_child d p cs = Ok (d1, None) ->
  exists s a b, met h d [CResolve true name; CAddChild p cs; CResolve true name]
      (s, [PDone (OSet a); PDone (OErr None); PDone (OSet b)]) /\
    (forall x, x ∈ a <-> confers h d name x) /\ (forall x, x ∈ b <-> confers h d1 name x) /\
    d_resolved (g_dag s) !! name = Some b.
Proof. exact (hole_two h d name p cs d1). Qed.
Print Assumptions C76_two_answers.
Theorem C76_two_answers_children (h : list vrole) (d : dag) (name p : string) (cs : list string) (d1 : dag) :
  dag_wf h d -> d_resolved d !! name = None -> dag_add_child d p cs = Ok (d1, None) ->
  exists s a b, met h d [CResolve false name; CAddChild p cs; CResolve false name]
      (s, [PDone (OSet a); PDone (OErr None); PDone (OSet b)]) /\
    (forall x, x ∈ a <-> includes h d name x) /\ (forall x, x ∈ b <-> includes h d1 name x) /\
    d_resolved (g_dag s) !! name = Some b.
Proof. exact (hole_two_children h d name p cs d1). Qed.
Print Assumptions C76_two_answers_children.
(** One after the other two resolutions of a role agree, so whenever the edge matters no order explains the answers. *)
Theorem C76_no_order (h : list vrole) (d : dag) (name p : string) (cs : list string) (d1 : dag) (x : string) :
  dag_wf h d -> d_resolved d !! name = None -> dag_add_child d p cs = Ok (d1, None) ->
  confers h d1 name x -> ~ confers h d name x ->
  ~ as_if_in_turn h d [CResolve true name; CAddChild p cs; CResolve true name].
Proof. exact (hole_not_in_turn h d name p cs d1 x). Qed.
Print Assumptions C76_no_order.
(** A first resolution can see any part [ps1] of what one AddPermission call grants, and this is what is remembered. *)
Theorem C76_half_seen (h : list vrole) (d : dag) (name : string) (l : nat) (r : vrole) (ps1 ps2 : list (string * string)) :
  dag_wf h d -> d_resolved d !! name = None -> h !! l = Some r ->
  exists s a, met h d [CResolve true name; CPerm true l (ps1 ++ ps2)] (s, [PDone (OSet a); PDone OUnit]) /\
    (forall x, x ∈ a <-> confers (<[l := vrole_add r ps1]> h) d name x) /\ d_resolved (g_dag s) !! name = Some a /\
    g_heap s = <[l := vrole_add r (ps1 ++ ps2)]> h.
Proof. exact (hole_half h d name l r ps1 ps2). Qed.
Print Assumptions C76_half_seen.
Example C76_hyps : dag_wf e_heap e_dag /\ dag_add_child e_dag "lead" ["crew"] = Ok (e_dag1, None) /\
  confers e_heap e_dag1 "lead" "/logs GET" /\ ~ confers e_heap e_dag "lead" "/logs GET".
Proof. exact (conj e_wf (conj e_add e_differs)). Qed.
Example C76_half : (exists s, met e_heap e_dag e_grant (s, [PDone (OSet {["/doc GET"]}); PDone OUnit])) /\
  forall order outs hd', order ≡ₚ seq 0 2 -> in_turn e_grant (e_heap, e_dag) order hd' outs ->
    ~ Forall2 (fun i out => [PDone (OSet {["/doc GET"]}); PDone OUnit] !! i = Some (PDone out)) order outs.
Proof. exact (conj e_half e_half_alone). Qed.
Example C76_apart : apart e_dag e_apart /\ Forall (valid_call e_heap) e_apart /\ exists s, met e_heap e_dag e_apart
  (s, [PDone (OErr None); PDone (OSet {["lead"; "crew"]}); PDone OUnit; PDone (OGet (Some 1))]).
Proof. exact (conj e_apart_ok (conj e_apart_valid e_apart_run)). Qed.

(** ** C82: calls on a role graph are free of data races *)
(** The property: no [race] in any state met.  It is false. *)
Theorem C82_race_free_refuted : ~ (forall (h : list vrole) (d : dag) (calls : list gcall) st x i j,
  Forall (valid_call h) calls -> dag_wf h d -> met h d calls st -> ~ race calls st x i j).
Proof. exact race_free_false. Qed.
Print Assumptions C82_race_free_refuted.
(** AddRole races with GetRole, whatever the graph and the names. *)
Theorem C82_get_role (h : list vrole) (d : dag) (l : nat) (ls : list nat) (name : string) :
  exists st, met h d [CAddRole (l :: ls); CGet name] st /\ race [CAddRole (l :: ls); CGet name] st VRoles 0 1.
Proof. exact (race_roles h d l ls name). Qed.
Print Assumptions C82_get_role.
(** AddPermission and RemovePermission race with the first ResolvePermissions of the role. *)
Theorem C82_permissions (add : bool) (h : list vrole) (d : dag) (name : string) (l : nat) (p : string * string)
    (ps : list (string * string)) :
  d_roles d !! name = Some l -> d_resolved d !! name = None ->
  exists st, met h d [CPerm add l (p :: ps); CResolve true name] st /\
    race [CPerm add l (p :: ps); CResolve true name] st (VPerms l) 0 1.
Proof. exact (race_perms add h d name l p ps). Qed.
Print Assumptions C82_permissions.
(** There are no others. *)
Theorem C82_races_partial (h : list vrole) (d : dag) (calls : list gcall) st (x : gvar) (i j : nat) :
  met h d calls st -> race calls st x i j ->
  (x = VRoles /\ (exists ls, calls !! i = Some (CAddRole ls)) /\ exists name, calls !! j = Some (CGet name)) \/
  exists l add ps name V R y q, x = VPerms l /\ calls !! i = Some (CPerm add l ps) /\ calls !! j = Some (CResolve true name) /\
    st.2 !! j = Some (PLoop V R (y :: q)) /\ d_roles (g_dag st.1) !! y = Some l.
Proof. exact (race_kinds h d calls st x i j). Qed.
Print Assumptions C82_races_partial.
(** So the edges and the remembered answers are safe, and everything is without GetRole and without changes of
    permissions beside ResolvePermissions. *)
Theorem C82_edges_cache (h : list vrole) (d : dag) (calls : list gcall) st (i j : nat) :
  met h d calls st -> ~ race calls st VEdges i j /\ ~ race calls st VCache i j.
Proof. exact (edges_cache_safe h d calls st i j). Qed.
Print Assumptions C82_edges_cache.
Theorem C82_safe_mixture (h : list vrole) (d : dag) (calls : list gcall) st (x : gvar) (i j : nat) :
  met h d calls st -> (forall name, CGet name ∉ calls) ->
  (forall add l ps name, CPerm add l ps ∈ calls -> CResolve true name ∉ calls) -> ~ race calls st x i j.
Proof. exact (safe_mixture h d calls st x i j). Qed.
Print Assumptions C82_safe_mixture.
Example C82_hyps : d_roles e_dag !! "lead" = Some 0 /\ d_resolved e_dag !! "lead" = None.
Proof. exact (conj eq_refl eq_refl). Qed.

(** ** C83: concurrent calls never close a cycle and never block each other for good *)
Theorem C83_acyclic (h : list vrole) (d : dag) (calls : list gcall) (st : gsh * list gpc) :
  acyclic (d_edges d) -> met h d calls st -> acyclic (d_edges (g_dag st.1)).
Proof. exact (met_acyclic h d calls st). Qed.
Print Assumptions C83_acyclic.
Theorem C83_no_deadlock (h : list vrole) (d : dag) (calls : list gcall) (s : gsh) (pcs : list gpc) :
  Forall (valid_call h) calls -> dag_wf h d -> met h d calls (s, pcs) ->
  Forall over pcs \/ exists i st', gstep calls (s, pcs) i = Some st'.
Proof. exact (no_deadlock h d calls s pcs). Qed.
Print Assumptions C83_no_deadlock.
Example C83_cycle : exists s, met e_heap e_dag [CAddChild "lead" ["crew"]; CAddChild "crew" ["lead"]]
  (s, [PDone (OErr None); PDone (OErr (Some "circular role dependency detected: crew -> lead"))]).
Proof. exact e_cycle. Qed.
Example C83_waits : exists st, grun e_grow (gstart e_heap e_dag e_grow) [1] = Some st /\
  gstep e_grow st 0 = None /\ is_Some (gstep e_grow st 1).
Proof. exact e_waits. Qed.

(** ** C84: while a graph only grows, every answer lies between what held at the start and what holds now *)
Theorem C84_between (h : list vrole) (d : dag) (k : bool) (calls : list gcall) (s : gsh) (pcs : list gpc)
    (i : nat) (name : string) (a : gset string) :
  Forall (valid_call h) calls -> dag_wf h d -> growing h d k calls -> met h d calls (s, pcs) ->
  calls !! i = Some (CResolve k name) -> d_resolved d !! name = None -> pcs !! i = Some (PDone (OSet a)) ->
  (forall x, gives k h d name x -> x ∈ a) /\ forall x, x ∈ a -> gives k (g_heap s) (g_dag s) name x.
Proof. exact (fun Hv Hwf Hg => answers_between calls h d k Hv Hwf Hg s pcs i name a). Qed.
Print Assumptions C84_between.
Example C84_case : growing e_heap e_dag true e_grow /\ Forall (valid_call e_heap) e_grow /\ exists s, met e_heap e_dag e_grow
  (s, [PDone (OSet {["/logs GET"; "/doc GET"]}); PDone (OErr None); PDone OUnit; PDone (OSet {["/logs GET"; "/doc GET"]})]).
Proof. exact (conj e_growing (conj e_grow_valid e_grow_run)). Qed.
