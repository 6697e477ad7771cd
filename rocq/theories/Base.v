(** Common vocabulary of the model: outcomes, dynamic values, iteration-order oracles. *)
From Coq Require Export Ascii.
From stdpp Require Export prelude strings list gmap pretty.

(** ** Outcomes of a Go call.
    [Ok a]  : the call returned [a].
    [Panic] : the call panicked (nil dereference, failed type assertion, index out of range).
    [Hang]  : the call never returns (endless loop, or unbounded recursion, which in Go ends
              in a fatal stack overflow). *)
Inductive res (A : Type) : Type :=
| Ok (a : A)
| Panic
| Hang.
Arguments Ok {_} _.
Arguments Panic {_}.
Arguments Hang {_}.

Definition rbind {A B} (x : res A) (f : A -> res B) : res B :=
  match x with Ok a => f a | Panic => Panic | Hang => Hang end.
Notation "'let!' x := e1 'in' e2" := (rbind e1 (fun x => e2))
  (at level 200, x pattern, e1 at level 200, e2 at level 200, right associativity).

Global Instance res_eq_dec `{EqDecision A} : EqDecision (res A).
Proof. solve_decision. Defined.

(** ** Go's [any].
    The library stores strings and booleans in [any] fields; [AInt] stands for every other
    comparable dynamic type (simplification: one representative type is enough to make type
    assertions fail).  Uncomparable dynamic types are not modelled. *)
Inductive any : Type :=
| ANil
| AStr (s : string)
| ABool (b : bool)
| AInt (z : Z).

Global Instance any_eq_dec : EqDecision any.
Proof. solve_decision. Defined.

(** utils/filters.go:3-5 IsNil *)
Definition is_nil (v : any) : bool := match v with ANil => true | _ => false end.

(** utils/filters.go:7-9 Match: Go interface equality. *)
Definition any_eq (v w : any) : bool := bool_decide (v = w).

(** utils/str.go:12-25 ToString, on the modelled dynamic types. *)
Definition to_string (v : any) : string :=
  match v with
  | ANil => ""
  | AStr s => s
  | ABool true => "true"
  | ABool false => "false"
  | AInt z => pretty z
  end.

(** ** Iteration order.
    Go randomises [range] over maps, and xsync maps give no order either.  An [oracle] fixes,
    for every address (one per iteration site of a run), the order in which the entries are
    visited; the only thing known about it is that it is a permutation. *)
Record oracle : Type := Oracle {
  shuffle : list nat -> forall A : Type, list A -> list A;
  shuffle_perm : forall addr A (l : list A), shuffle addr A l ≡ₚ l
}.

(** The [k]-th sub-call of a run gets its own independent family of orders. *)
Definition sub (o : oracle) (k : nat) : oracle :=
  Oracle (fun addr => shuffle o (k :: addr)) (fun addr => shuffle_perm o (k :: addr)).

Definition ordered {A} (o : oracle) (l : list A) : list A := shuffle o [] A l.
Global Arguments ordered : simpl never.
Global Arguments sub : simpl never.

Lemma ordered_perm {A} (o : oracle) (l : list A) : ordered o l ≡ₚ l.
Proof. apply shuffle_perm. Qed.

Lemma elem_of_ordered {A} (o : oracle) (l : list A) x : x ∈ ordered o l <-> x ∈ l.
Proof. by rewrite ordered_perm. Qed.

Lemma ordered_nil {A} (o : oracle) : ordered o (@nil A) = [].
Proof. apply Permutation_nil_r, ordered_perm. Qed.

(** Two concrete oracles, used by examples and witnesses. *)
Definition id_oracle : oracle := Oracle (fun _ _ l => l) (fun _ _ l => Permutation_refl l).
Program Definition rev_oracle : oracle := Oracle (fun _ A l => reverse l) _.
Next Obligation. intros. simpl. apply reverse_Permutation. Qed.

(** ** Byte strings *)
Definition bytes (s : string) : list ascii := String.list_ascii_of_string s.
Definition of_bytes (l : list ascii) : string := String.string_of_list_ascii l.

Lemma of_bytes_bytes s : of_bytes (bytes s) = s.
Proof. apply String.string_of_list_ascii_of_string. Qed.
Lemma bytes_of_bytes l : bytes (of_bytes l) = l.
Proof. apply String.list_ascii_of_string_of_list_ascii. Qed.
Lemma bytes_inj s t : bytes s = bytes t -> s = t.
Proof. intros H. by rewrite <-(of_bytes_bytes s), H, of_bytes_bytes. Qed.
Lemma bytes_app s t : bytes (String.append s t) = bytes s ++ bytes t.
Proof.
  induction s as [|c s IH]; [done|].
  change (c :: bytes (String.append s t) = c :: (bytes s ++ bytes t)). by rewrite IH.
Qed.

Definition ch_slash : ascii := "/"%char.
Definition ch_colon : ascii := ":"%char.
Definition ch_star : ascii := "*"%char.
Definition ch_space : ascii := " "%char.
