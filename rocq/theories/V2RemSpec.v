(** What a user expects of v2 RemovePrincipalRole, stated without the model's loops. *)
From Verif Require Export V2Spec.

(** An assignment meets the criteria: every field given in the target has the same value. *)
Definition meets (target pr : prole) : Prop :=
  (pr_principal target = "" \/ pr_principal pr = pr_principal target) /\
  (pr_tenant target = "" \/ pr_tenant pr = pr_tenant target) /\
  (pr_namespace target = "" \/ pr_namespace pr = pr_namespace target) /\
  (pr_scope target = "" \/ pr_scope pr = pr_scope target) /\
  (pr_role target = "" \/ pr_role pr = pr_role target).
(** The assignment object [l] meets the criteria. *)
Definition obj_meets (st : vstate) (target : prole) (l : nat) : Prop :=
  exists pr, w_prs st !! l = Some pr /\ meets target pr.
(** [ks] is what should remain of the assignments [ls]: those not meeting the criteria, in order. *)
Inductive remains (st : vstate) (target : prole) : list nat -> list nat -> Prop :=
| remains_nil : remains st target [] []
| remains_drop l ls ks : obj_meets st target l -> remains st target ls ks -> remains st target (l :: ls) ks
| remains_keep l ls ks : ~ obj_meets st target l -> remains st target ls ks ->
    remains st target (l :: ls) (l :: ks).
(** Nothing that stays comes after something that goes. *)
Definition go_last (st : vstate) (target : prole) (ls : list nat) : Prop :=
  forall i j l m, i < j -> ls !! i = Some l -> ls !! j = Some m ->
    obj_meets st target l -> obj_meets st target m.
(** The assignments of [user] in tenant [t] according to the index. *)
Definition indexed (st : vstate) (user t : string) : list nat :=
  default [] (default ∅ (w_index st !! user) !! t).
(** The objects among [ls] that assign something to [user] in tenant [t], in order. *)
Inductive given (st : vstate) (user t : string) : list nat -> list nat -> Prop :=
| given_nil : given st user t [] []
| given_other l ls ks pr : w_prs st !! l = Some pr -> ~ (pr_principal pr = user /\ pr_tenant pr = t) ->
    given st user t ls ks -> given st user t (l :: ls) ks
| given_this l ls ks pr : w_prs st !! l = Some pr -> pr_principal pr = user -> pr_tenant pr = t ->
    given st user t ls ks -> given st user t (l :: ls) (l :: ks).
(** The assignment list holds exactly the objects [ls]. *)
Definition list_is (st : vstate) (ls : list nat) : Prop := w_assign st = Some <$> ls.
(** The index lists exactly the assignments held. *)
Definition index_agrees (st : vstate) : Prop :=
  exists ls, list_is st ls /\ forall user t, given st user t ls (indexed st user t).
