(** Reading a list of calls: the calls made, each with what it returned, the latest first *)
From stdpp Require Export list.

(** Some call said so, at its time (after the calls [h]); the value the first one that said anything gave; the value the
    latest one gave *)
Fixpoint ever {E} (says : list E -> E -> Prop) (h : list E) : Prop :=
  match h with [] => False | e :: h' => says h' e \/ ever says h' end.
Fixpoint first_of {E A} (says : list E -> E -> A -> Prop) (h : list E) (a : A) : Prop :=
  match h with [] => False | e :: h' => first_of says h' a \/ (forall b, ~ first_of says h' b) /\ says h' e a end.
Fixpoint last_of {E A} (says : list E -> E -> A -> Prop) (h : list E) (a : A) : Prop :=
  match h with [] => False | e :: h' => says h' e a \/ (forall b, ~ says h' e b) /\ last_of says h' a end.
(** Every call is so. *)
Fixpoint always {E} (P : list E -> E -> Prop) (h : list E) : Prop :=
  match h with [] => True | e :: h' => P h' e /\ always P h' end.
(** The first element of the list that is so *)
Definition first_in {A} (P : A -> Prop) (l : list A) (a : A) : Prop := exists l1 l2, l = l1 ++ a :: l2 /\ P a /\ Forall (fun b => ~ P b) l1.
(** The element is reached before one that is not so. *)
Definition reached {A} (P : A -> Prop) (l : list A) (a : A) : Prop := exists l1 l2, l = l1 ++ a :: l2 /\ Forall P l1 /\ P a.

