(** What a user expects who changes an answer of ResolvePermissions or ResolveChildRoles. *)
From Verif Require Export CDagSpec DagHeldModel.

(** The calls, made one after the other *)
Fixpoint in_order (hd : list vrole * dag) (calls : list gcall) : res (list vrole * dag * list gout) :=
  match calls with
  | [] => Ok (hd, [])
  | c :: calls' => let! r := alone hd c in let! rs := in_order r.1 calls' in Ok (rs.1, r.2 :: rs.2)
  end.
(** Whatever a caller does with an answer, later calls return what they would have returned. *)
Definition dag_answers_are_own (h : list vrole) (d : dag) : Prop :=
  forall name s d' calls hd outs, edit_answer d name s = Some d' -> in_order (h, d) calls = Ok (hd, outs) ->
  exists hd', in_order (h, d') calls = Ok (hd', outs).
(** The outcomes, with [s] for every resolution of [name] *)
Definition replaced (name : string) (s : gset string) (c : gcall) (out : gout) : gout :=
  match c with CResolve _ n => if decide (n = name) then OSet s else out | _ => out end.
Definition asks_for (name : string) (c : gcall) : Prop := exists k, c = CResolve k name.
