(** Model of utils.MatchResource (utils/str.go:33-88). *)
From Verif Require Export Base.

(** strings.IndexByte (Go standard library), used at utils/str.go:54. *)
Fixpoint index_byte (c : ascii) (l : list ascii) : option nat :=
  match l with
  | [] => None
  | x :: l' => if decide (x = c) then Some 0 else S <$> index_byte c l'
  end.

(** The two inner loops utils/str.go:70-73 and 75-77: advance an index until the next '/' or
    the end; here the distance to that position in the remaining bytes. *)
Fixpoint seg_len (l : list ascii) : nat :=
  match l with
  | [] => 0
  | x :: l' => if decide (x = ch_slash) then 0 else S (seg_len l')
  end.

(** What one iteration of the loop at utils/str.go:37 does: go on with new indices, or return. *)
Inductive mstep : Type :=
| MNext (vi pi : nat)
| MDone (r : res bool).

(** utils/str.go:37-87, one test of the loop condition plus one loop body.
    [v], [p] are the bytes of [value], [pattern]; [vi], [pi] are vIndex, pIndex. *)
Definition mr_step (v p : list ascii) (vi pi : nat) : mstep :=
  match p !! pi with
  | None =>                                   (* pIndex >= pLen: line 87 *)
      MDone (Ok (bool_decide (vi = length v) && bool_decide (pi = length p)))
  | Some pc =>
      if decide (pc = ch_star) then           (* line 38 *)
        if decide (pi = length p - 1) then MDone (Ok true)  (* lines 40-42 *)
        else match p !! (pi + 1) with         (* line 45 *)
             | None => MDone Panic             (* index out of range; excluded by line 40 *)
             | Some next =>
                 if decide (next = ch_star) then MNext vi (pi + 1)      (* lines 48-51 *)
                 else if decide (vi <= length v) then
                   match index_byte next (drop vi v) with              (* line 54 *)
                   | None => MDone (Ok false)                           (* lines 57-59 *)
                   | Some k => MNext (vi + k) pi                       (* line 62: pIndex unchanged *)
                   end
                 else MDone Panic              (* slice bounds out of range at line 54 *)
             end
      else match v !! vi with
           | None => MDone (Ok false)          (* vIndex >= vLen: lines 63, 81-83 *)
           | Some vc =>
               if decide (pc = vc \/ pc = ch_colon) then               (* line 63 *)
                 if decide (pc = ch_colon) then                        (* line 68 *)
                   MNext (vi + 1 + seg_len (drop (vi + 1) v))          (* lines 75-77 *)
                         (pi + 1 + seg_len (drop (pi + 1) p))          (* lines 70-73, 79 *)
                 else MNext (vi + 1) (pi + 1)                          (* lines 65-66 *)
               else MDone (Ok false)                                    (* lines 81-83 *)
           end
  end.

(** [n] iterations of the loop; [None] means it has not returned yet. *)
Fixpoint mr_run (n : nat) (v p : list ascii) (vi pi : nat) : option (res bool) :=
  match n with
  | 0 => None
  | S n' => match mr_step v p vi pi with
            | MDone r => Some r
            | MNext vi' pi' => mr_run n' v p vi' pi'
            end
  end.

(** The call itself.  [Hang] is answered when the loop has not returned after
    |value| + |pattern| + 1 iterations; [match_bytes_hang] in MatchProofs.v proves that it
    then never returns. *)
Definition match_bytes (v p : list ascii) : res bool :=
  match mr_run (length v + length p + 1) v p 0 0 with
  | Some r => r
  | None => Hang
  end.

Definition match_resource (value pattern : string) : res bool :=
  match_bytes (bytes value) (bytes pattern).
