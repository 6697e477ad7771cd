(** Data races on a role graph. *)
From Verif Require Import CDagModel CDagProofs CDagTurn CDagHole CDagSpec.

(** AddRole and GetRole always can collide. *)
Lemma race_roles h d l ls name :
  exists st, met h d [CAddRole (l :: ls); CGet name] st /\ race [CAddRole (l :: ls); CGet name] st VRoles 0 1.
Proof.
  eexists. split.
  - exists [0]. reflexivity.
  - exists (CAddRole (l :: ls)), (CGet name), (PRoleIn (l :: ls)), PStart, false.
    repeat (split; [reflexivity|]). split; [done|]. split; left.
Qed.
(** So can changing the permissions of a role and the first resolution of it. *)
Lemma race_perms add h d name l p ps : d_roles d !! name = Some l -> d_resolved d !! name = None ->
  exists st, met h d [CPerm add l (p :: ps); CResolve true name] st /\
    race [CPerm add l (p :: ps); CResolve true name] st (VPerms l) 0 1.
Proof.
  intros Hl Hn. exists (GSh h d (Some 1) ∅ {[l := 0]}, [PPermIn (p :: ps); PLoop ∅ ∅ [name]]). split.
  - change (hops [CPerm add l (p :: ps); CResolve true name] (GSh h d None ∅ ∅, [PStart; PStart])
      (GSh h d (Some 1) ∅ {[l := 0]}, [PPermIn (p :: ps); PLoop ∅ ∅ [name]])).
    eapply (hops_one _ _ _ 0); [reflexivity|reflexivity|reflexivity|]. cbn [insert list_insert].
    eapply hops_trans; [eapply (miss_hops _ 1); [reflexivity|reflexivity|exact Hn]|]. cbn [insert list_insert].
    eapply (hops_one _ _ _ 1); [reflexivity|reflexivity|reflexivity|]. apply hops_refl.
  - exists (CPerm add l (p :: ps)), (CResolve true name), (PPermIn (p :: ps)), (PLoop ∅ ∅ [name]), false.
    repeat (split; [reflexivity|]). split; [done|]. split; [left|]. cbn [touches fst g_dag].
    rewrite bool_decide_eq_false_2 by set_solver. rewrite Hl. right. right. left.
Qed.
(** The edges and the remembered answers are safe. *)
Lemma edges_cache_safe h d calls st i j : met h d calls st -> ~ race calls st VEdges i j /\ ~ race calls st VCache i j.
Proof.
  intros Hm. split; intros Hr; destruct (race_kinds _ _ _ _ _ _ _ Hm Hr) as [[H _]|(l & add & ps & name & V & R & y & q & H & _)];
    discriminate.
Qed.
(** So is everything when nobody calls GetRole and permissions are not changed while ResolvePermissions is called. *)
Lemma safe_mixture h d calls st x i j : met h d calls st -> (forall name, CGet name ∉ calls) ->
  (forall add l ps name, CPerm add l ps ∈ calls -> CResolve true name ∉ calls) -> ~ race calls st x i j.
Proof.
  intros Hm Hg Hp Hr. destruct (race_kinds _ _ _ _ _ _ _ Hm Hr) as [(_ & _ & name & Hj)|(l & add & ps & name & V & R & y & q & _ & Hi & Hj & _)].
  - by apply elem_of_list_lookup_2, Hg in Hj.
  - apply elem_of_list_lookup_2 in Hi, Hj. by apply (Hp add l ps name Hi).
Qed.
