(** C70, C71: set operations on slices of structs and maps; the number of a string. *)
From Coq Require Import ZArith.
From Verif Require Import StrProofs StrEx StrSpec.

(** ** C70: Intersection and Union are the set operations *)
(** Elements of one struct type: one that is not in [a] is answered, and lost from the union. *)
Theorem C70_struct_refuted (o : oracle) : exists (a b : list item) (names : list string), Forall (of_struct_type names) (a ++ b)
  /\ intersection o a b = Ok b /\ common a b = [] /\ union_of o a b = Ok a /\ b ≠ [] /\ missing a b = b.
Proof. exact (c70_struct o). Qed.
Print Assumptions C70_struct_refuted.
(** A map with int keys, intersected with itself, may be missed. *)
Theorem C70_int_keys_refuted : exists (o : oracle) (i : item), (exists m, i = IMapInt m)
  /\ intersection o [i] [i] = Ok [] /\ union_of o [i] [i] = Ok [i; i].
Proof. exact c70_int. Qed.
Print Assumptions C70_int_keys_refuted.
(** The union may hold an element twice, even if no separators are printed. *)
Theorem C70_union_twice_refuted (o : oracle) : exists a b l, separable (a ++ b) /\ union_of o a b = Ok l /\ ~ NoDup l.
Proof. exact (c70_twice o). Qed.
Print Assumptions C70_union_twice_refuted.
(** If no value prints a bar (and, for maps with string keys, no key a colon) both answer exactly the set operation, in order. *)
Theorem C70_intersection_partial (o : oracle) (a b : list item) : separable (a ++ b) -> intersection o a b = Ok (common a b).
Proof. exact (intersection_exact o a b). Qed.
Print Assumptions C70_intersection_partial.
Theorem C70_union_partial (o : oracle) (a b : list item) : separable (a ++ b) -> union_of o a b = Ok (a ++ missing a b).
Proof. exact (union_exact o a b). Qed.
Print Assumptions C70_union_partial.
Example C70_ex : separable ([pair_of "x" "y"; pair_of "u" "v"] ++ [pair_of "u" "v"; pair_of "x" "z"])
  /\ separable ([d70 "1" "ann"] ++ [d70 "2" "ann"; d70 "1" "ann"])
  /\ intersection id_oracle [pair_of "x" "y"; pair_of "u" "v"] [pair_of "u" "v"; pair_of "x" "z"] = Ok [pair_of "u" "v"]
  /\ union_of id_oracle [d70 "1" "ann"] [d70 "2" "ann"; d70 "1" "ann"] = Ok [d70 "1" "ann"; d70 "2" "ann"].
Proof. exact c70_ex. Qed.
(** They panic exactly if some element is neither a map nor a struct, or has a field that is not exported. *)
Theorem C70_panics (o : oracle) (a b : list item) :
  (intersection o a b = Panic <-> Exists unserializable (a ++ b)) /\ (union_of o a b = Panic <-> Exists unserializable (a ++ b)).
Proof. exact (setops_panic o a b). Qed.
Print Assumptions C70_panics.
Example C70_panics_ex : intersection id_oracle [pair_of "x" "y"] [IOther] = Panic
  /\ union_of id_oracle [IStruct [Field "A" true "x"; Field "b" false "y"]] [] = Panic /\ union_of id_oracle [] [] = Ok [].
Proof. exact c70_panic_ex. Qed.

(** ** C71: ToInt64 tells strings apart *)
Theorem C71_distinct_refuted : exists s t : string, s ≠ t /\ to_int64 s = to_int64 t.
Proof. exact c71_refuted. Qed.
Print Assumptions C71_distinct_refuted.
(** Strings that differ in one byte have different numbers. *)
Theorem C71_one_byte_partial (s t : string) (c d : ascii) : to_int64 (s ++ String c t) = to_int64 (s ++ String d t) -> c = d.
Proof. exact (to_int64_one_byte s t c d). Qed.
Print Assumptions C71_one_byte_partial.
(** A common ending changes nothing: the numbers agree exactly if those of the beginnings do. *)
Theorem C71_ending_partial (s s' t : string) : to_int64 (s ++ t) = to_int64 (s' ++ t) <-> to_int64 s = to_int64 s'.
Proof. exact (to_int64_suffix s s' t). Qed.
Print Assumptions C71_ending_partial.
Theorem C71_range (s : string) : (0 <= to_int64 s < 2 ^ 64)%Z.
Proof. exact (to_int64_range s). Qed.
Print Assumptions C71_range.
Example C71_ex : to_int64 "user" ≠ to_int64 "uses" /\ to_int64 "" = 14695981039346656037%Z /\ to_int64 "a" = 12638153115695167422%Z.
Proof. exact c71_ex. Qed.
