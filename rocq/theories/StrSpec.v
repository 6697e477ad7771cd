(** What a user expects of Intersection, Union and ToInt64. *)
From Verif Require Export StrModel.

Global Instance field_eq_dec : EqDecision field.
Proof. solve_decision. Defined.
Global Instance item_eq_dec : EqDecision item.
Proof. solve_decision. Defined.

(** The set operations, as lists: the elements of [b] that are, or are not, in [a] *)
Definition common (a b : list item) : list item := filter (fun i => i ∈ a) b.
Definition missing (a b : list item) : list item := filter (fun i => i ∉ a) b.

Fixpoint mentions (c : ascii) (s : string) : Prop :=
  match s with EmptyString => False | String d s' => c = d \/ mentions c s' end.

(** A slice of one struct type: every element has the same fields, all of them exported. *)
Definition of_struct_type (names : list string) (i : item) : Prop :=
  match i with IStruct fs => f_name <$> fs = names /\ Forall (fun f => f_exported f = true) fs | _ => False end.
(** No value prints a bar. *)
Definition no_bar (i : item) : Prop :=
  match i with
  | IStruct fs => Forall (fun f => ~ mentions "|" (f_text f)) fs
  | IMapStr m => map_Forall (fun k v => ~ mentions ":" k /\ ~ mentions "|" v) m
  | _ => False
  end.
Definition is_str_map (i : item) : Prop := match i with IMapStr _ => True | _ => False end.
(** The slices a caller may hand over: one struct type, or maps with string keys, that print no separators *)
Definition separable (l : list item) : Prop :=
  Forall no_bar l /\ ((exists names, Forall (of_struct_type names) l) \/ Forall is_str_map l).
(** Serialize of the element panics *)
Definition unserializable (i : item) : Prop :=
  match i with IStruct fs => Exists (fun f => f_exported f = false) fs | IOther => True | _ => False end.
