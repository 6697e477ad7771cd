(** Proofs about changed answers of a v2 role graph. *)
From Verif Require Import RoleProofs CDagEx DagHeldSpec.

Definition upd (name : string) (s : gset string) (d : dag) : dag := Dag (d_roles d) (d_edges d) (<[name := s]> (d_resolved d)).
Lemma edit_answer_upd (d : dag) (name : string) (s : gset string) (d' : dag) :
  edit_answer d name s = Some d' <-> is_Some (d_resolved d !! name) /\ d' = upd name s d.
Proof.
  unfold edit_answer. destruct (d_resolved d !! name) as [x|]; cbn; split.
  - intros [= <-]. split; [exists x|]; reflexivity.
  - intros [_ ->]. reflexivity.
  - discriminate.
  - intros [[x H] _]. discriminate.
Qed.
Lemma upd_roles (name : string) (s : gset string) (h : list vrole) (ls : list nat) : forall d d1,
  dag_add_roles h d ls = Ok d1 -> dag_add_roles h (upd name s d) ls = Ok (upd name s d1) /\ d_resolved d1 = d_resolved d.
Proof.
  induction ls as [|l ls IH]; cbn; intros d d1 H; [injection H as <-; split; reflexivity|].
  destruct (h !! l) as [r|]; [|discriminate]. exact (IH _ d1 H).
Qed.
Lemma upd_child (name : string) (s : gset string) (d : dag) (p : string) (cs : list string) (d1 : dag) (e : option string) :
  dag_add_child d p cs = Ok (d1, e) -> dag_add_child (upd name s d) p cs = Ok (upd name s d1, e) /\ d_resolved d1 = d_resolved d.
Proof.
  unfold dag_add_child. cbn [upd d_edges]. destruct (check_circular (d_edges d) p cs) as [[err|]| |]; cbn; [..|discriminate|discriminate];
    intros [= <- <-]; split; reflexivity.
Qed.
Lemma upd_bfs (contrib : vrole -> gset string) (name : string) (s : gset string) (h : list vrole) (d : dag) (fuel : nat) : forall visited result queue,
  bfs contrib fuel h (upd name s d) visited result queue = bfs contrib fuel h d visited result queue.
Proof.
  induction fuel as [|fuel IH]; intros visited result queue; cbn; [reflexivity|]. destruct queue as [|c q]; [reflexivity|].
  rewrite !IH. destruct (bool_decide (c ∈ visited)); [reflexivity|]. destruct (d_roles d !! c) as [l|]; [|reflexivity].
  destruct (h !! l) as [r|]; [|reflexivity]. apply IH.
Qed.
Lemma upd_resolve (contrib : vrole -> gset string) (name : string) (s : gset string) (h : list vrole) (d : dag) (n : string) (d1 : dag) (a : gset string) :
  is_Some (d_resolved d !! name) -> resolve contrib h d n = Ok (d1, a) ->
  resolve contrib h (upd name s d) n = Ok (upd name s d1, if decide (n = name) then s else a) /\ is_Some (d_resolved d1 !! name).
Proof.
  intros [x Hx]. unfold resolve. cbn [upd d_resolved d_edges d_roles]. destruct (decide (n = name)) as [->|Hn].
  - rewrite Hx, lookup_insert. intros [= <- <-]. split; [reflexivity|]. exists x. exact Hx.
  - rewrite lookup_insert_ne; [|congruence]. destruct (d_resolved d !! n) as [y|] eqn:E.
    + intros [= <- <-]. split; [reflexivity|]. exists x. exact Hx.
    + rewrite upd_bfs. destruct (bfs contrib (2 + edge_count (d_edges d)) h d ∅ ∅ [n]) as [r| |]; cbn; [|discriminate..].
      intros [= <- <-]. unfold upd. cbn. split; [|exists x; rewrite lookup_insert_ne; [exact Hx|exact Hn]].
      rewrite (insert_commute _ n name); [reflexivity|exact Hn].
Qed.
Lemma upd_alone (name : string) (s : gset string) (h : list vrole) (d : dag) (c : gcall) (h1 : list vrole) (d1 : dag) (out : gout) :
  is_Some (d_resolved d !! name) -> alone (h, d) c = Ok (h1, d1, out) ->
  alone (h, upd name s d) c = Ok (h1, upd name s d1, replaced name s c out) /\ is_Some (d_resolved d1 !! name).
Proof.
  intros Hs. destruct c as [ls|p cs|k n|add l ps|n]; cbn.
  - intros H. apply rbind_ok in H as (d2 & H & E). injection E as <- <- <-. destruct (upd_roles name s h ls d d2 H) as [-> Hr].
    rewrite Hr. split; [reflexivity|exact Hs].
  - intros H. apply rbind_ok in H as ([d2 e] & H & E). injection E as <- <- <-. destruct (upd_child name s d p cs d2 e H) as [-> Hr].
    cbn. rewrite Hr. split; [reflexivity|exact Hs].
  - destruct k; intros H; apply rbind_ok in H as ([d2 a] & H & E); injection E as <- <- <-;
      (destruct (upd_resolve _ name s h d n d2 a Hs H) as [Hu Hr]); unfold resolve_permissions, resolve_child_roles; rewrite Hu; cbn;
      (split; [destruct (decide (n = name)); reflexivity|exact Hr]).
  - destruct (h !! l) as [r|]; [|discriminate]. intros [= <- <- <-]. split; [reflexivity|exact Hs].
  - intros [= <- <- <-]. split; [reflexivity|exact Hs].
Qed.
Lemma upd_in_order (name : string) (s : gset string) (calls : list gcall) : forall h d h1 d1 outs,
  is_Some (d_resolved d !! name) -> in_order (h, d) calls = Ok (h1, d1, outs) ->
  in_order (h, upd name s d) calls = Ok (h1, upd name s d1, zip_with (replaced name s) calls outs).
Proof.
  induction calls as [|c calls IH]; intros h d h1 d1 outs Hs H; cbn [in_order] in *; [injection H as <- <- <-; reflexivity|].
  apply rbind_ok in H as ([[h2 d2] out] & H & E). apply rbind_ok in E as ([[h3 d3] outs'] & E & F). injection F as <- <- <-.
  destruct (upd_alone name s h d c h2 d2 out Hs H) as [-> Hs2]. cbn [rbind fst snd].
  rewrite (IH h2 d2 h3 d3 outs' Hs2 E). reflexivity.
Qed.
Lemma edited_in_order (h : list vrole) (d : dag) (name : string) (s : gset string) (d' : dag) (calls : list gcall) (h1 : list vrole) (d1 : dag) (outs : list gout) :
  edit_answer d name s = Some d' -> in_order (h, d) calls = Ok (h1, d1, outs) ->
  exists d1', edit_answer d1 name s = Some d1' /\ in_order (h, d') calls = Ok (h1, d1', zip_with (replaced name s) calls outs).
Proof.
  intros He H. apply edit_answer_upd in He as [Hs ->].
  exists (upd name s d1). split; [|exact (upd_in_order name s calls h d h1 d1 outs Hs H)].
  apply edit_answer_upd. split; [|reflexivity].
  revert h d Hs outs H. induction calls as [|c calls IH]; intros h d Hs outs H; cbn [in_order] in H; [injection H as _ <- _; exact Hs|].
  apply rbind_ok in H as ([[h2 d2] out] & H & E). apply rbind_ok in E as ([[h3 d3] outs'] & E & F). injection F as <- <- <-.
  destruct (upd_alone name s h d c h2 d2 out Hs H) as [_ Hs2]. exact (IH h2 d2 Hs2 outs' E).
Qed.
Lemma not_asked (name : string) (s : gset string) (calls : list gcall) : forall hd hd' outs,
  Forall (fun c => ~ asks_for name c) calls -> in_order hd calls = Ok (hd', outs) -> zip_with (replaced name s) calls outs = outs.
Proof.
  induction calls as [|c calls IH]; intros hd hd' outs Hf H; cbn [in_order] in H; [injection H as _ <-; reflexivity|].
  apply Forall_cons in Hf as [Hc Hf]. apply rbind_ok in H as ([hd2 out] & H & E). apply rbind_ok in E as ([hd3 outs'] & E & F). injection F as <- <-.
  cbn [zip_with snd]. rewrite (IH _ _ _ Hf E). f_equal. destruct c as [| |k n| |]; try reflexivity. cbn.
  destruct (decide (n = name)) as [->|]; [|reflexivity]. destruct Hc. exists k. reflexivity.
Qed.

Lemma edited_others (h : list vrole) (d : dag) (name : string) (s : gset string) (d' : dag) (calls : list gcall) (h1 : list vrole) (d1 : dag) (outs : list gout) :
  edit_answer d name s = Some d' -> Forall (fun c => ~ asks_for name c) calls -> in_order (h, d) calls = Ok (h1, d1, outs) ->
  exists d1', in_order (h, d') calls = Ok (h1, d1', outs).
Proof.
  intros He Hf H. destruct (edited_in_order h d name s d' calls h1 d1 outs He H) as (d1' & _ & E). exists d1'.
  rewrite (not_asked name s calls _ _ _ Hf H) in E. exact E.
Qed.

(** ** Witness: the graph after one resolution *)
Definition held_calls : list gcall := [CAddRole [0; 1]; CResolve true "crew"].
Definition held_dag : dag := match in_order (e_heap, new_dag) held_calls with Ok (_, d, _) => d | _ => new_dag end.
Definition set_outs (r : res (list vrole * dag * list gout)) : list (gset string) :=
  match r with Ok (_, outs) => omap (fun out => match out with OSet s => Some s | _ => None end) outs | _ => [] end.
Definition edited_dag (s : gset string) : dag := default new_dag (edit_answer held_dag "crew" s).
Lemma held_edit (s : gset string) : edit_answer held_dag "crew" s = Some (edited_dag s).
Proof. unfold edited_dag, edit_answer. destruct (d_resolved held_dag !! "crew") as [x|] eqn:E; [reflexivity|]. vm_compute in E. discriminate. Qed.
Lemma c93_ex : let ask d := set_outs (in_order (e_heap, d) [CResolve true "crew"; CResolve false "lead"; CResolve false "crew"]) in
  (exists x, d_resolved held_dag !! "crew" = Some x) /\ ask held_dag = [{["/logs GET"]}; {["lead"]}; {["/logs GET"]}]
  /\ ask (edited_dag {["/admin *"]}) = [{["/admin *"]}; {["lead"]}; {["/admin *"]}].
Proof. cbn zeta. split_and!; [apply (edit_answer_upd held_dag "crew" ∅ (edited_dag ∅)); apply held_edit|apply (bool_decide_unpack _); vm_compute; exact I..]. Qed.
Lemma c93_refuted : exists h d, (exists calls h1 outs, in_order (h, new_dag) calls = Ok (h1, d, outs)) /\ ~ dag_answers_are_own h d.
Proof.
  exists e_heap, held_dag. split.
  - exists held_calls. unfold held_dag. destruct (in_order (e_heap, new_dag) held_calls) as [[[h1 d1] outs]| |] eqn:E; [exists h1, outs; reflexivity|vm_compute in E; discriminate..].
  - intros H. destruct (in_order (e_heap, held_dag) [CResolve true "crew"]) as [[hd outs]| |] eqn:E; [|vm_compute in E; discriminate..].
    destruct (H "crew" {["/admin *"]} _ [CResolve true "crew"] hd outs (held_edit _) E) as [hd' E'].
    assert (A : set_outs (in_order (e_heap, held_dag) [CResolve true "crew"]) = set_outs (in_order (e_heap, edited_dag {["/admin *"]}) [CResolve true "crew"]))
      by (rewrite E, E'; reflexivity).
    clear -A. revert A. apply (bool_decide_unpack _). vm_compute. exact I.
Qed.
