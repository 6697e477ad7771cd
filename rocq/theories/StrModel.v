(** The set operations on slices of structs and maps and the 64-bit number of a string (utils/str.go). *)
From Coq Require Import ZArith.
From stdpp Require Import gmap sorting pretty.
From Verif Require Export Base.

(** What Serialize sees of an element by reflection.  Of a value only the text that [fmt] prints for it with %v is kept.
    A struct has its fields in the order of their declaration; a map has string keys or int keys; every other kind (a pointer, a
    string, a number, a slice, a nil interface) is [IOther]. *)
Record field : Type := Field { f_name : string; f_exported : bool; f_text : string }.
Inductive item : Type :=
| IStruct (fs : list field)
| IMapStr (m : gmap string string)
| IMapInt (m : gmap Z string)
| IOther.

(** The order of two Go strings: bytewise *)
Definition go_le (x y : string) : Prop := String.leb x y = true.
Global Instance go_le_dec x y : Decision (go_le x y) := decide (String.leb x y = true).

(** fmt.Sprintf("%s:%v|", name, value), utils/str.go:173 and 181 *)
Definition piece (name text : string) : string := (name ++ ":" ++ text ++ "|")%string.

(** utils/str.go:180-182: the loop over the fields; Interface() panics at a field that is not exported. *)
Fixpoint serialize_fields (fs : list field) : res string :=
  match fs with
  | [] => Ok ""
  | f :: fs' =>
      if f_exported f then let! rest := serialize_fields fs' in Ok (piece (f_name f) (f_text f) ++ rest)%string
      else Panic
  end.
(** utils/str.go:172-174: the loop over the keys of a map *)
Definition serialize_entries {K} (text : K -> option string) (show : K -> string) (keys : list K) : string :=
  String.concat "" ((fun k => piece (show k) (default "" (text k))) <$> keys).
(** utils/str.go:164-185 Serialize.  MapKeys comes in any order, 167.  The keys are compared by [Value.String], 168-170, which is
    the key itself for a string and the constant "<int Value>" for an int, so that int keys stay in the order they come in.
    "%s" prints an int key i as "%!s(int=i)".  v.NumField, 180, panics for what is not a struct, v.Type, 179, for a nil
    interface. *)
Definition serialize (o : oracle) (i : item) : res string :=
  match i with
  | IMapStr m => Ok (serialize_entries (fun k => m !! k) (fun k => k) (merge_sort go_le (ordered o (map_to_list m).*1)))
  | IMapInt m => Ok (serialize_entries (fun k => m !! k) (fun k => "%!s(int=" ++ pretty k ++ ")")%string (ordered o (map_to_list m).*1))
  | IStruct fs => serialize_fields fs
  | IOther => Panic
  end.

(** utils/str.go:133-135, 150-153: the texts of the elements of [a]; the n-th call of Serialize meets the order [sub o n]. *)
Fixpoint texts (o : oracle) (n : nat) (a : list item) : res (list string) :=
  match a with
  | [] => Ok []
  | i :: a' => let! s := serialize (sub o n) i in let! l := texts o (S n) a' in Ok (s :: l)
  end.
(** utils/str.go:137-141, 155-159: the elements of [b] whose text is ([want] = true) or is not among [set] *)
Fixpoint pick (o : oracle) (n : nat) (want : bool) (set : list string) (b : list item) : res (list item) :=
  match b with
  | [] => Ok []
  | i :: b' =>
      let! s := serialize (sub o n) i in
      let! l := pick o (S n) want set b' in
      Ok (if Bool.eqb (bool_decide (s ∈ set)) want then i :: l else l)
  end.
(** utils/str.go:129-144 Intersection *)
Definition intersection (o : oracle) (a b : list item) : res (list item) :=
  let! set := texts o 0 a in pick o (length a) true set b.
(** utils/str.go:146-162 Union *)
Definition union_of (o : oracle) (a b : list item) : res (list item) :=
  let! set := texts o 0 a in let! l := pick o (length a) false set b in Ok (a ++ l).

(** utils/str.go:27-31 ToInt64: FNV-1 of package hash/fnv of the Go library, New64: start at the offset basis; per byte first
    multiply by the prime, in 64 bits, then xor the byte in. *)
Definition fnv_byte (h : Z) (c : ascii) : Z := Z.lxor (h * 1099511628211 mod 2 ^ 64) (Z.of_nat (nat_of_ascii c)).
Fixpoint fnv_from (h : Z) (s : string) : Z :=
  match s with
  | EmptyString => h
  | String c s' => fnv_from (fnv_byte h c) s'
  end.
Definition to_int64 (s : string) : Z := fnv_from 14695981039346656037 s.
