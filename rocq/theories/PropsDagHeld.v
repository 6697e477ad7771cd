(** C93: answers of a v2 role graph that are shared with the caller. *)
From Verif Require Import CDagEx DagHeldProofs DagHeldSpec.

(** ** C93: no answer of a role graph depends on what a caller does with an earlier one *)
Theorem C93_own_refuted : exists (h : list vrole) (d : dag),
  (exists calls h1 outs, in_order (h, new_dag) calls = Ok (h1, d, outs)) /\ ~ dag_answers_are_own h d.
Proof. exact c93_refuted. Qed.
Print Assumptions C93_own_refuted.
(** Exactly: what a caller made of one answer for a role is what every later resolution of it returns, of permissions and of
    child roles alike, whatever is done to the graph; all other outcomes stay as they are. *)
Theorem C93_edited (h : list vrole) (d : dag) (name : string) (s : gset string) (d' : dag) (calls : list gcall)
    (h1 : list vrole) (d1 : dag) (outs : list gout) :
  edit_answer d name s = Some d' -> in_order (h, d) calls = Ok (h1, d1, outs) ->
  exists d1', edit_answer d1 name s = Some d1' /\ in_order (h, d') calls = Ok (h1, d1', zip_with (replaced name s) calls outs).
Proof. exact (edited_in_order h d name s d' calls h1 d1 outs). Qed.
Print Assumptions C93_edited.
(** So calls that resolve other roles return what they would have returned. *)
Theorem C93_others_partial (h : list vrole) (d : dag) (name : string) (s : gset string) (d' : dag) (calls : list gcall)
    (h1 : list vrole) (d1 : dag) (outs : list gout) :
  edit_answer d name s = Some d' -> Forall (fun c => ~ asks_for name c) calls -> in_order (h, d) calls = Ok (h1, d1, outs) ->
  exists d1', in_order (h, d') calls = Ok (h1, d1', outs).
Proof. exact (edited_others h d name s d' calls h1 d1 outs). Qed.
Print Assumptions C93_others_partial.
Example C93_ex : let ask d := set_outs (in_order (e_heap, d) [CResolve true "crew"; CResolve false "lead"; CResolve false "crew"]) in
  (exists x, d_resolved held_dag !! "crew" = Some x) /\ ask held_dag = [{["/logs GET"]}; {["lead"]}; {["/logs GET"]}]
  /\ ask (edited_dag {["/admin *"]}) = [{["/admin *"]}; {["lead"]}; {["/admin *"]}].
Proof. exact c93_ex. Qed.
