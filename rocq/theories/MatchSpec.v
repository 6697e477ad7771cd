(** Specification of the pattern language, independent of the scanning algorithm. *)
From Verif Require Export Base.

(** The rest of a string starts at a path boundary: it is empty or begins with '/'. *)
Definition at_boundary (l : list ascii) : Prop :=
  l = [] \/ exists l', l = ch_slash :: l'.

(** [Matches p v]: the value [v] belongs to the language of the pattern [p]. *)
Inductive Matches : list ascii -> list ascii -> Prop :=
| M_nil : Matches [] []
| M_lit c p v :                               (* an ordinary byte matches itself *)
    c <> ch_colon -> c <> ch_star -> Matches p v -> Matches (c :: p) (c :: v)
| M_param name p x seg v :                    (* ":name" stands for one byte [x] and the rest
                                                 [seg] of that path segment *)
    ch_slash ∉ name -> at_boundary p ->
    ch_slash ∉ seg -> at_boundary v ->
    Matches p v -> Matches (ch_colon :: name ++ p) (x :: seg ++ v)
| M_star v : Matches [ch_star] v              (* a final '*' accepts everything *)
| M_stars p v :                               (* runs of '*' collapse *)
    Matches (ch_star :: p) v -> Matches (ch_star :: ch_star :: p) v.

(** [Loops p v]: scanning [p] against [v] reaches a '*' that is followed in the pattern by a
    byte other than '*' which occurs in the rest of the value. *)
Inductive Loops : list ascii -> list ascii -> Prop :=
| L_star c p v : c <> ch_star -> c ∈ v -> Loops (ch_star :: c :: p) v
| L_stars p v : Loops (ch_star :: p) v -> Loops (ch_star :: ch_star :: p) v
| L_lit c p v : c <> ch_colon -> c <> ch_star -> Loops p v -> Loops (c :: p) (c :: v)
| L_param name p x seg v :
    ch_slash ∉ name -> at_boundary p ->
    ch_slash ∉ seg -> at_boundary v ->
    Loops p v -> Loops (ch_colon :: name ++ p) (x :: seg ++ v).

(** The same on strings. *)
Definition StrMatches (pattern value : string) : Prop := Matches (bytes pattern) (bytes value).
Definition StrLoops (pattern value : string) : Prop := Loops (bytes pattern) (bytes value).

(** The byte [c] does not occur in the string [s]. *)
Definition lacks (c : ascii) (s : string) : Prop := c ∉ bytes s.

(** Neither ':' nor '*' occurs: every byte stands for itself. *)
Definition literal (s : string) : Prop := lacks ch_colon s /\ lacks ch_star s.

(** The string under which a permission is stored and against which a request is checked:
    role.go:18-24, v2/role.go:8-10, v2/v2.go:69-71. *)
Definition res_act (resource action : string) : string :=
  String.append resource (String.append " " action).

(** [strings.Split] on one separator byte; always at least one piece. *)
Fixpoint split_on (c : ascii) (l : list ascii) : list (list ascii) :=
  match l with
  | [] => [[]]
  | x :: l' =>
      if decide (x = c) then [] :: split_on c l'
      else match split_on c l' with
           | [] => [[x]]                       (* impossible: split_on is never empty *)
           | s :: ss => (x :: s) :: ss
           end
  end.

(** Path segments. *)
Definition segments (s : string) : list (list ascii) := split_on ch_slash (bytes s).

(** Segment-wise matching as a user of path patterns expects it: same number of segments,
    a segment ":name" matches any non-empty segment, any other segment matches itself. *)
Definition seg_ok (ps vs : list ascii) : Prop :=
  match ps with
  | c :: _ => if decide (c = ch_colon) then vs <> [] else ps = vs
  | [] => vs = []
  end.
Definition SegMatches (pattern value : string) : Prop :=
  Forall2 seg_ok (segments pattern) (segments value).

(** A pattern segment in which a colon can only be the first byte: ":name" or plain text. *)
Definition seg_shaped (ps : list ascii) : Prop :=
  match ps with [] => True | c :: ps' => ch_colon ∉ ps' end.
