(** Reading JSON: what a user who takes the text of AsString or String apart finds in it. *)
From Verif Require Export JsonModel AuthSpec.
Local Open Scope string_scope.

(** ** Text *)
(** The UTF-8 encoding of a code point (RFC 3629) *)
Definition utf8 (c : N) : string :=
  let b n := ascii_of_N n in
  if (c <? 128)%N then String (b c) ""
  else if (c <? 2048)%N then String (b (192 + c / 64)%N) (String (b (128 + c mod 64)%N) "")
  else if (c <? 65536)%N then String (b (224 + c / 4096)%N) (String (b (128 + (c / 64) mod 64)%N) (String (b (128 + c mod 64)%N) ""))
  else String (b (240 + c / 262144)%N) (String (b (128 + (c / 4096) mod 64)%N) (String (b (128 + (c / 64) mod 64)%N) (String (b (128 + c mod 64)%N) ""))).
(** A character: a code point that is not a surrogate *)
Definition scalar (c : N) : Prop := (c < 55296 \/ 57343 < c < 1114112)%N.
Fixpoint utf8_all (cs : list N) : string :=
  match cs with [] => "" | c :: cs' => utf8 c ++ utf8_all cs' end.
(** The string is text. *)
Definition is_text (s : string) : Prop := exists cs, Forall scalar cs /\ s = utf8_all cs.
Definition text_value (v : any) : Prop := match v with AStr s => is_text s | _ => True end.
Definition text_row (d : data) : Prop :=
  text_value (tenant d) /\ text_value (namespace d) /\ text_value (scope d) /\ text_value (principal d) /\ text_value (role d) /\ text_value (manage d).

(** ** Reading (RFC 8259, without spaces; a code point written as a pair of \u is not read) *)
Definition hex_value (a : ascii) : option N :=
  let n := byte_of a in
  if (48 <=? n)%N && (n <=? 57)%N then Some (n - 48)%N
  else if (97 <=? n)%N && (n <=? 102)%N then Some (n - 87)%N
  else if (65 <=? n)%N && (n <=? 70)%N then Some (n - 55)%N
  else None.
Definition hex4 (a b c d : ascii) : option N :=
  match hex_value a, hex_value b, hex_value c, hex_value d with
  | Some w, Some x, Some y, Some z => Some (4096 * w + 256 * x + 16 * y + z)%N
  | _, _, _, _ => None
  end.
(** What stands for what after a backslash *)
Definition escape_value (a : ascii) : option ascii :=
  let n := byte_of a in
  if (n =? 34)%N || (n =? 92)%N || (n =? 47)%N then Some a
  else if (n =? 98)%N then Some (ascii_of_N 8)
  else if (n =? 102)%N then Some (ascii_of_N 12)
  else if (n =? 110)%N then Some (ascii_of_N 10)
  else if (n =? 114)%N then Some (ascii_of_N 13)
  else if (n =? 116)%N then Some (ascii_of_N 9)
  else None.
Definition before (x : string) (r : option (string * string)) : option (string * string) :=
  match r with Some (s, rest) => Some (x ++ s, rest) | None => None end.
(** A string after the opening quote: what it says, and what follows *)
Fixpoint read_body (s : string) : option (string * string) :=
  match s with
  | "" => None
  | String a s1 =>
      if (byte_of a =? 34)%N then Some ("", s1)
      else if (byte_of a =? 92)%N then
        match s1 with
        | "" => None
        | String b s2 =>
            match escape_value b with
            | Some x => before (String x "") (read_body s2)
            | None =>
                if (byte_of b =? 117)%N then
                  match s2 with
                  | String h1 (String h2 (String h3 (String h4 s6))) =>
                      match hex4 h1 h2 h3 h4 with
                      | Some c => if (55296 <=? c)%N && (c <=? 57343)%N then None else before (utf8 c) (read_body s6)
                      | None => None
                      end
                  | _ => None
                  end
                else None
            end
        end
      else if (byte_of a <? 32)%N then None
      else before (String a "") (read_body s1)
  end.
(** Exactly this *)
Fixpoint read_this (x s : string) : option string :=
  match x, s with
  | "", _ => Some s
  | String a x', String b s' => if ascii_dec a b then read_this x' s' else None
  | String _ _, "" => None
  end.
Definition is_digit (a : ascii) : bool := (48 <=? byte_of a)%N && (byte_of a <=? 57)%N.
Fixpoint read_digits (acc : N) (s : string) : N * string :=
  match s with
  | String a s' => if is_digit a then read_digits (10 * acc + (byte_of a - 48)) s' else (acc, s)
  | "" => (acc, "")
  end.
Definition read_number (s : string) : option (N * string) :=
  match s with
  | String a _ => if is_digit a then Some (read_digits 0 s) else None
  | "" => None
  end.
Definition read_any (s : string) : option (any * string) :=
  match s with
  | "" => None
  | String a s1 =>
      if (byte_of a =? 34)%N then match read_body s1 with Some (x, r) => Some (AStr x, r) | None => None end
      else if (byte_of a =? 110)%N then match read_this "null" s with Some r => Some (ANil, r) | None => None end
      else if (byte_of a =? 116)%N then match read_this "true" s with Some r => Some (ABool true, r) | None => None end
      else if (byte_of a =? 102)%N then match read_this "false" s with Some r => Some (ABool false, r) | None => None end
      else if (byte_of a =? 45)%N then match read_number s1 with Some (n, r) => Some (AInt (- Z.of_N n), r) | None => None end
      else match read_number s with Some (n, r) => Some (AInt (Z.of_N n), r) | None => None end
  end.
(** ["k":] and a value *)
Definition read_field {A} (read : string -> option (A * string)) (k s : string) : option (A * string) :=
  r ← read_this (String quote (k ++ String quote ":")) s; read r.
Definition read_data (s : string) : option (data * string) :=
  s ← read_this "{" s; '(t, s) ← read_field read_any "Tenant" s;
  s ← read_this "," s; '(n, s) ← read_field read_any "Namespace" s;
  s ← read_this "," s; '(sc, s) ← read_field read_any "Scope" s;
  s ← read_this "," s; '(p, s) ← read_field read_any "Principal" s;
  s ← read_this "," s; '(r, s) ← read_field read_any "Role" s;
  s ← read_this "," s; '(m, s) ← read_field read_any "ManageDescendants" s;
  s ← read_this "}" s; Some (Data t n sc p r m, s).
(** What follows an object of an array; every object takes a character at least. *)
Fixpoint read_rest (steps : nat) (s : string) : option (list data) :=
  match read_this "]" s with
  | Some r => if decide (r = "") then Some [] else None
  | None =>
      match steps with
      | O => None
      | S n => s ← read_this "," s; '(d, s) ← read_data s; l ← read_rest n s; Some (d :: l)
      end
  end.
Definition read_rows (s : string) : option (list data) :=
  if decide (s = "[]") then Some [] else s ← read_this "[" s; '(d, s') ← read_data s; l ← read_rest (String.length s) s'; Some (d :: l).
(** An object with these keys, in this order, and numbers *)
Fixpoint read_counts (first : bool) (ks : list string) (s : string) : option (list N) :=
  match ks with
  | [] => r ← read_this "}" s; if decide (r = "") then Some [] else None
  | k :: ks' => s ← read_this (if first then "{" else ",") s; '(n, s) ← read_field read_number k s; l ← read_counts false ks' s; Some (n :: l)
  end.
Definition counted : list string := ["tenants"; "principals"; "namespaces"; "scopes"; "roles"; "attribute_groups"; "attributes"].
(** No byte of the text is a control character. *)
Fixpoint on_one_line (s : string) : Prop :=
  match s with "" => True | String a s' => (32 <= byte_of a)%N /\ on_one_line s' end.
