(** Models of the small helpers in utils/ and ds/. *)
From Verif Require Export Base.

Section slices.
  Context {A : Type} `{EqDecision A}.

  (** utils/str.go:120-127 Contains; also slices.Contains of the Go library. *)
  Fixpoint contains (l : list A) (x : A) : bool :=
    match l with
    | [] => false
    | y :: l' => if decide (y = x) then true else contains l' x
    end.

  (** utils/str.go:108-118 Compact: [keys] is the set of elements met so far, kept here as a
      list; [result] is built by appending. *)
  Fixpoint compact_loop (keys result l : list A) : list A :=
    match l with
    | [] => result
    | x :: l' => if contains keys x then compact_loop keys result l'
                 else compact_loop (x :: keys) (result ++ [x]) l'
    end.
  Definition compact (l : list A) : list A := compact_loop [] [] l.

  (** slices.Compact of the Go library (used at authorize.go:122-123 and in v1): drops an
      element equal to its predecessor. *)
  Fixpoint compact_adjacent (l : list A) : list A :=
    match l with
    | x :: (y :: _) as l' => if decide (x = y) then compact_adjacent l' else x :: compact_adjacent l'
    | _ => l
    end.
End slices.

(** utils/filters.go:24-34 JoinSlices *)
Definition join_slices {T U V} (left : list T) (right : list U)
    (join_fn : T -> U -> bool) (combine_fn : T -> U -> V) : list V :=
  flat_map (fun l => flat_map (fun r => if join_fn l r then [combine_fn l r] else []) right) left.

(** utils/filters.go:11-18 FilterByFields *)
Fixpoint filter_by_fields {T} (filter row : T) (fields : list (T -> any)) : bool :=
  match fields with
  | [] => true
  | f :: fs => if is_nil (f row) || negb (any_eq (f row) (f filter)) then false
               else filter_by_fields filter row fs
  end.

(** ds/ds.go:3-23: the three implementations of Link. *)
Inductive link (A : Type) : Type :=
| LEmpty
| LAppend (element : A) (next : link A)
| LConcat (l1 l2 : link A).
Arguments LEmpty {_}.
Arguments LAppend {_} _ _.
Arguments LConcat {_} _ _.

Section link.
  Context {A : Type}.
  (** ds/ds.go:25-27, 41-43, 61-63 IsEmpty *)
  Definition link_is_empty (l : link A) : bool := match l with LEmpty => true | _ => false end.
  (** ds/ds.go:29-31, 45-47, 65-67 Append *)
  Definition link_append (l : link A) (x : A) : link A := LAppend x l.
  (** ds/ds.go:33-35, 49-54, 69-74 Concat *)
  Definition link_concat (l other : link A) : link A :=
    match l with
    | LEmpty => other
    | _ => if link_is_empty other then l else LConcat l other
    end.
  (** ds/ds.go:37-39, 56-59, 76-79 AsSlice *)
  Fixpoint link_as_slice (l : link A) : list A :=
    match l with
    | LEmpty => []
    | LAppend x next => link_as_slice next ++ [x]
    | LConcat l1 l2 => link_as_slice l1 ++ link_as_slice l2
    end.

  (** Every way a client can build a link (Empty, Append, Concat; the struct types are not
      exported). *)
  Inductive link_expr : Type :=
  | EEmpty
  | EAppend (e : link_expr) (x : A)
  | EConcat (e1 e2 : link_expr).
  Fixpoint link_eval (e : link_expr) : link A :=
    match e with
    | EEmpty => LEmpty
    | EAppend e x => link_append (link_eval e) x
    | EConcat e1 e2 => link_concat (link_eval e1) (link_eval e2)
    end.
End link.
Arguments link_expr : clear implicits.
