(** Model of what a manager prints: role_manager.go:145-151 AsString and 187-191 String, v1/role_manager.go:779-783 String, over
    encoding/json (Go 1.22, go.mod:3) as far as it is used: objects and arrays without spaces, null, booleans, integers, and
    strings, in which quotes, backslashes, control characters and <, >, & are escaped and bytes that are not UTF-8 replaced.
    Simplification: values of other types in a row (numbers with a fraction, structs, ...) are not modelled ([any] in Base). *)
From Verif Require Export RootModel RegModel V1RegModel.
Local Open Scope string_scope.

Definition byte_of (a : ascii) : N := N_of_ascii a.
Definition hexdigit (n : N) : ascii := ascii_of_N (if (n <? 10)%N then 48 + n else 87 + n).
(** A quote and a backslash *)
Definition quote : ascii := ascii_of_N 34.
Definition backslash : ascii := ascii_of_N 92.
Definition escaped (c : ascii) : string := String backslash (String c "").

(** encoding/json appendString, bytes below 128 (with escapeHTML) *)
Definition print_ascii (a : ascii) : string :=
  let n := byte_of a in
  if (n =? 34)%N || (n =? 92)%N then escaped a
  else if (n =? 8)%N then escaped "b"
  else if (n =? 12)%N then escaped "f"
  else if (n =? 10)%N then escaped "n"
  else if (n =? 13)%N then escaped "r"
  else if (n =? 9)%N then escaped "t"
  else if (n <? 32)%N || (n =? 60)%N || (n =? 62)%N || (n =? 38)%N
  then escaped "u" ++ "00" ++ String (hexdigit (n / 16)) (String (hexdigit (n mod 16)) "")
  else String a "".
Definition in_range (lo hi : N) (a : ascii) : bool := (lo <=? byte_of a)%N && (byte_of a <=? hi)%N.
Definition cont (a : ascii) : bool := in_range 128 191 a.
(** unicode/utf8 DecodeRuneInString: the sequences accepted *)
Definition two_bytes (a b : ascii) : bool := in_range 194 223 a && cont b.
Definition three_bytes (a b c : ascii) : bool :=
  ((in_range 224 224 a && in_range 160 191 b) || (in_range 225 236 a && cont b) || (in_range 237 237 a && in_range 128 159 b) || (in_range 238 239 a && cont b)) && cont c.
Definition four_bytes (a b c d : ascii) : bool :=
  ((in_range 240 240 a && in_range 144 191 b) || (in_range 241 243 a && cont b) || (in_range 244 244 a && in_range 128 143 b)) && cont c && cont d.
(** The line separators U+2028 and U+2029, E2 80 A8 and E2 80 A9 *)
Definition line_sep (a b c : ascii) : bool := in_range 226 226 a && in_range 128 128 b && in_range 168 169 c.
Definition bad_byte : string := escaped "u" ++ "fffd".
Fixpoint print_body (s : string) : string :=
  match s with
  | "" => ""
  | String a s1 =>
      if (byte_of a <? 128)%N then print_ascii a ++ print_body s1
      else
        match s1 with
        | "" => bad_byte
        | String b s2 =>
            if two_bytes a b then String a (String b (print_body s2))
            else
              match s2 with
              | "" => bad_byte ++ print_body s1
              | String c s3 =>
                  if three_bytes a b c then
                    if line_sep a b c then escaped "u" ++ "202" ++ String (hexdigit (byte_of c - 160)) (print_body s3)
                    else String a (String b (String c (print_body s3)))
                  else
                    match s3 with
                    | "" => bad_byte ++ print_body s1
                    | String d s4 =>
                        if four_bytes a b c d then String a (String b (String c (String d (print_body s4))))
                        else bad_byte ++ print_body s1
                    end
              end
        end
  end.
Definition print_string (s : string) : string := String quote (print_body s ++ String quote "").
(** A value of a field of type any *)
Definition print_any (v : any) : string :=
  match v with
  | ANil => "null"
  | AStr s => print_string s
  | ABool true => "true"
  | ABool false => "false"
  | AInt z => pretty z
  end.
Definition print_key (k : string) : string := String quote (k ++ String quote ":").
(** filters.go:7-14 Data: no tags, so the keys are the names of the fields *)
Definition print_data (d : data) : string :=
  "{" ++ print_key "Tenant" ++ print_any (tenant d) ++ "," ++ print_key "Namespace" ++ print_any (namespace d) ++ "," ++ print_key "Scope" ++ print_any (scope d)
  ++ "," ++ print_key "Principal" ++ print_any (principal d) ++ "," ++ print_key "Role" ++ print_any (role d) ++ "," ++ print_key "ManageDescendants" ++ print_any (manage d) ++ "}".
Fixpoint print_rest (l : list data) : string :=
  match l with
  | [] => "]"
  | d :: l' => "," ++ print_data d ++ print_rest l'
  end.
Definition print_rows (l : list data) : string :=
  match l with
  | [] => "[]"
  | d :: l' => "[" ++ print_data d ++ print_rest l'
  end.
(** role_manager.go:145-151 AsString; json.Marshal does not fail on such rows. *)
Definition as_string (o : oracle) (st : state) : string := print_rows (trie_data o (m_trie st)).

(** role_manager.go:153-161, 187-191; v1/role_manager.go:745-753, 779-783: the seven numbers in the order of the fields *)
Definition print_counts (a b c d e f g : nat) : string :=
  "{" ++ print_key "tenants" ++ pretty (N.of_nat a) ++ "," ++ print_key "principals" ++ pretty (N.of_nat b) ++ "," ++ print_key "namespaces" ++ pretty (N.of_nat c)
  ++ "," ++ print_key "scopes" ++ pretty (N.of_nat d) ++ "," ++ print_key "roles" ++ pretty (N.of_nat e) ++ "," ++ print_key "attribute_groups" ++ pretty (N.of_nat f)
  ++ "," ++ print_key "attributes" ++ pretty (N.of_nat g) ++ "}".
Definition root_string (st : state) : string :=
  let s := summary_of st in print_counts (n_tenants s) (n_principals s) (n_namespaces s) (n_scopes s) (n_roles s) (n_groups s) (n_attributes s).
Definition v1_string (st : ustate) : string :=
  let s := usummary_of st in print_counts (un_tenants s) (un_principals s) (un_namespaces s) (un_scopes_total s) (un_roles_total s) (un_groups s) (un_attributes s).
