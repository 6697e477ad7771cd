(** What a user expects of concurrent calls on a v2 role graph. *)
From Verif Require Export DagSpec CDagModel.

(** Every pointer given to a call is a role object. *)
Definition valid_call (h : list vrole) (c : gcall) : Prop :=
  match c with
  | CAddRole ls => forall l, l ∈ ls -> is_Some (h !! l)
  | CPerm _ l _ => is_Some (h !! l)
  | _ => True
  end.
Definition over (pc : gpc) : Prop := exists out, pc = PDone out.
(** [st] is met when the calls run on the graph. *)
Definition met (h : list vrole) (d : dag) (calls : list gcall) (st : gsh * list gpc) : Prop :=
  exists sched, grun calls (gstart h d calls) sched = Some st.

(** ** One after the other *)

(** A call made alone, by the sequential model *)
Definition alone (hd : list vrole * dag) (c : gcall) : res (list vrole * dag * gout) :=
  match c with
  | CAddRole ls => let! d := dag_add_roles hd.1 hd.2 ls in Ok (hd.1, d, OUnit)
  | CAddChild p cs => let! r := dag_add_child hd.2 p cs in Ok (hd.1, r.1, OErr r.2)
  | CResolve true name => let! r := resolve_permissions hd.1 hd.2 name in Ok (hd.1, r.1, OSet r.2)
  | CResolve false name => let! r := resolve_child_roles hd.1 hd.2 name in Ok (hd.1, r.1, OSet r.2)
  | CPerm add l ps =>
      match hd.1 !! l with
      | None => Panic
      | Some r => Ok (<[l := if add then vrole_add r ps else vrole_remove r ps]> hd.1, hd.2, OUnit)
      end
  | CGet name => Ok (hd, OGet (d_roles hd.2 !! name))
  end.
(** [in_turn calls hd order hd' outs]: the calls, made alone in this order, lead from [hd] to [hd'] and return [outs]. *)
Inductive in_turn (calls : list gcall) : list vrole * dag -> list nat -> list vrole * dag -> list gout -> Prop :=
| in_turn_nil hd : in_turn calls hd [] hd []
| in_turn_cons hd i c hd1 out order hd' outs :
    calls !! i = Some c -> alone hd c = Ok (hd1, out) -> in_turn calls hd1 order hd' outs ->
    in_turn calls hd (i :: order) hd' (out :: outs).
(** [i] comes before [j] in the order. *)
Definition before (order : list nat) (i j : nat) : Prop := exists o1 o2, order = o1 ++ o2 /\ i ∈ o1 /\ j ∈ o2.
(** When all calls have returned, role objects, graph and results are those of the same calls made one after the other;
    and a call that had returned before another one began comes before it. *)
Definition as_if_in_turn (h : list vrole) (d : dag) (calls : list gcall) : Prop :=
  forall sched s pcs, grun calls (gstart h d calls) sched = Some (s, pcs) -> Forall over pcs ->
  exists order outs, order ≡ₚ seq 0 (length calls) /\ in_turn calls (h, d) order (g_heap s, g_dag s) outs /\
    Forall2 (fun i out => pcs !! i = Some (PDone out)) order outs /\
    forall now later st1 i j out, sched = now ++ later -> grun calls (gstart h d calls) now = Some st1 ->
      st1.2 !! i = Some (PDone out) -> st1.2 !! j = Some PStart -> before order i j.

(** ** Data races *)

(** The shared variables: the maps roles, edges and resolved of the graph, and the map Permissions of a role *)
Inductive gvar : Type := VRoles | VEdges | VCache | VPerms (l : nat).
(** What the next step of a goroutine touches; [true] for a write.  A round of the loop looks the role up, copies its
    permissions and reads its children. *)
Definition touches (s : gsh) (c : gcall) (pc : gpc) : list (gvar * bool) :=
  match c, pc with
  | CAddRole _, PRoleIn (_ :: _) => [(VRoles, true)]
  | CAddChild _ _, PChildIn => [(VEdges, false)]
  | CAddChild _ _, PChildOk => [(VEdges, true)]
  | CResolve _ _, PRead => [(VCache, false)]
  | CResolve k _, PLoop V _ (x :: _) =>
      if bool_decide (x ∈ V) then []
      else (VRoles, false) ::
           match d_roles (g_dag s) !! x with
           | None => []
           | Some l => (VEdges, false) :: (if k then [(VPerms l, false)] else [])
           end
  | CResolve _ _, PLoop _ _ [] => [(VCache, true)]
  | CPerm _ l _, PPermIn (_ :: _) => [(VPerms l, true)]
  | CGet _, PStart => [(VRoles, false)]
  | _, _ => []
  end.
(** Two goroutines may touch [x] in either order next, one of them writing. *)
Definition race (calls : list gcall) (st : gsh * list gpc) (x : gvar) (i j : nat) : Prop :=
  exists ci cj pi pj b, calls !! i = Some ci /\ calls !! j = Some cj /\ st.2 !! i = Some pi /\ st.2 !! j = Some pj /\
    i <> j /\ (x, true) ∈ touches st.1 ci pi /\ (x, b) ∈ touches st.1 cj pj.

(** ** When calls do not get in each other's way *)

(** Nobody looks a role up by GetRole while roles are added; of a role whose resolution is not remembered, there is at
    most one resolution; and permissions of roles are not changed while ResolvePermissions works. *)
Record apart (d : dag) (calls : list gcall) : Prop := {
  ap_get : forall i j name ls, calls !! i = Some (CGet name) -> calls !! j <> Some (CAddRole ls);
  ap_once : forall i j k k' name, calls !! i = Some (CResolve k name) -> calls !! j = Some (CResolve k' name) ->
              i <> j -> is_Some (d_resolved d !! name);
  ap_perm : forall i j add l ps name, calls !! i = Some (CPerm add l ps) -> calls !! j = Some (CResolve true name) ->
              is_Some (d_resolved d !! name)
}.

(** ** While the graph only grows *)

(** The role object is given to some AddRole call. *)
Definition offered (calls : list gcall) (l : nat) : Prop := exists ls, CAddRole ls ∈ calls /\ l ∈ ls.
(** Nothing is removed, no name changes its role object, and the resolutions are all of kind [k]. *)
Record growing (h : list vrole) (d : dag) (k : bool) (calls : list gcall) : Prop := {
  gr_calls : forall c, c ∈ calls -> match c with CResolve k' _ => k' = k | CPerm add _ _ => add = true | _ => True end;
  gr_new : forall l r l', offered calls l -> h !! l = Some r -> d_roles d !! vr_name r = Some l' -> l' = l;
  gr_one : forall l l' r r', offered calls l -> offered calls l' -> h !! l = Some r -> h !! l' = Some r' ->
             vr_name r = vr_name r' -> l = l'
}.
(** What ResolvePermissions ([true]) or ResolveChildRoles ([false]) should answer *)
Definition gives (k : bool) (h : list vrole) (d : dag) (name x : string) : Prop :=
  if k then confers h d name x else includes h d name x.
