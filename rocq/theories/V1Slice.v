(** Model of the pooled slices in v1 GetAllowedRoles (v1/role_manager.go:442-518, v1/util.go,
    utils/pool.go:7-25): which memory the returned slice points to.

    One call is atomic here.  Inside a call the arrays it took are used by nobody else, so the
    only thing that can go wrong is what later calls do to the array of an already returned
    slice; with several goroutines these later calls may come before the caller has read it. *)
From Verif Require Export V1Model.

(** Backing arrays (the length of the list is the capacity) and the arrays in the pool. *)
Record slstate : Type := SL { sl_arrays : list (list string); sl_pool : list nat }.
Definition sl_init : slstate := SL [] [].
(** v1/util.go:8: capacity of a new slice *)
Definition sl_cap : nat := 100.
(** utils/pool.go:19-21 Get: sync.Pool returns any free slice ([Some i]: the i-th), or a new one
    (it may always drop what it holds). *)
Definition sl_get (st : slstate) (pick : option nat) : slstate * nat :=
  let fresh := (SL (sl_arrays st ++ [replicate sl_cap ""]) (sl_pool st), length (sl_arrays st)) in
  match pick with
  | Some i => match sl_pool st !! i with
              | Some l => (SL (sl_arrays st) (delete i (sl_pool st)), l)
              | None => fresh
              end
  | None => fresh
  end.
Definition overwrite (arr w : list string) : list string := w ++ drop (length w) arr.
(** append in a loop: writes into the array while it fits, then continues in a new array
    (simplification: the new array has exactly the final length as capacity). *)
Definition sl_append (st : slstate) (l : nat) (w : list string) : slstate * nat :=
  let arr := default [] (sl_arrays st !! l) in
  if Nat.leb (length w) (length arr) then (SL (<[l := overwrite arr w]> (sl_arrays st)) (sl_pool st), l)
  else (SL (<[l := take (length arr) w]> (sl_arrays st) ++ [w]) (sl_pool st), length (sl_arrays st)).
(** slices.Compact in place on the first [k] elements; the rest of them is cleared (Go 1.22). *)
Definition sl_compact (st : slstate) (l k : nat) : slstate * nat :=
  let arr := default [] (sl_arrays st !! l) in
  let w := compact_adjacent (take k arr) in
  (SL (<[l := w ++ replicate (k - length w) "" ++ drop k arr]> (sl_arrays st)) (sl_pool st), length w).
(** utils/pool.go:23-25 Put *)
Definition sl_put (st : slstate) (l : nat) : slstate := SL (sl_arrays st) (l :: sl_pool st).

(** What a call appends to its four string slices, and whether it returns the last one. *)
Record slwork : Type := SLWork {
  sw_ns_scopes : list string;
  sw_ns_roles : list string;
  sw_scopes : list string;
  sw_allowed : list string;
  sw_returns : bool
}.
(** v1/role_manager.go:461-517, as in [get_allowed_roles] *)
Definition slice_work (o : oracle) (st : ustate) (rows : list trow) (ns scope : string) : res slwork :=
  match rows with
  | [] => Panic
  | first :: _ =>
      match u_tenant st (tp_tenant first) with
      | None => Panic
      | Some c =>
          let md := ut_namespaces c !! ns in
          if (negb (bool_decide (scope = "")) && negb (bool_decide (scope ∈ ut_scopes c)))
             || (negb (bool_decide (ns = "")) && negb (bool_decide (is_Some md))) then Ok (SLWork [] [] [] [] false)
          else
            let! m := match md with
                      | None => Ok (UNamespace "" ∅ ∅)
                      | Some l => match u_nss st !! l with None => Panic | Some n => Ok n end
                      end in
            let ns_scopes := ordered (sub o 0) (elements (un_scopes m)) in
            let ns_roles := ordered (sub o 1) (elements (un_roles m)) in
            let scopes := tp_scope <$> filter (fun a => tp_scope a <> "") rows in
            let tenant_rows := filter (fun a => tp_ns a = "" /\ tp_scope a = "") rows in
            let both_rows := filter (fun a => tp_ns a <> "" /\ tp_scope a <> "") rows in
            let base := match ns_roles with [] => tp_role <$> tenant_rows | _ => ns_roles end in
            if (negb (contains scopes scope) && bool_decide (tenant_rows = []))
               || (bool_decide (ns_scopes <> []) && negb (contains ns_scopes scope))
            then Ok (SLWork ns_scopes ns_roles scopes base false)
            else
              let allowed :=
                if negb (bool_decide (ns = "")) && negb (bool_decide (scope = "")) then
                  base ++ (tp_role <$> filter (fun a => tp_ns a = ns /\ tp_scope a = scope) both_rows)
                else base in
              Ok (SLWork ns_scopes ns_roles scopes allowed (forallb (fun r => bool_decide (r ∈ ut_roles c)) allowed))
      end
  end.
(** A call: take four slices, fill them, compact the last, put all back; the result is a slice
    (array and length) or nil. *)
Definition sl_call (st : slstate) (picks : option nat * option nat * option nat * option nat) (w : slwork)
    : slstate * option (nat * nat) :=
  let '(p1, p2, p3, p4) := picks in
  let '(st, l1) := sl_get st p1 in
  let '(st, l2) := sl_get st p2 in
  let '(st, l3) := sl_get st p3 in
  let '(st, l4) := sl_get st p4 in
  let '(st, l1) := sl_append st l1 (sw_ns_scopes w) in
  let '(st, l2) := sl_append st l2 (sw_ns_roles w) in
  let '(st, l3) := sl_append st l3 (sw_scopes w) in
  let '(st, l4) := sl_append st l4 (sw_allowed w) in
  let '(st, r) := if sw_returns w then let '(st, k) := sl_compact st l4 (length (sw_allowed w)) in (st, Some (l4, k))
                  else (st, None) in
  (sl_put (sl_put (sl_put (sl_put st l1) l2) l3) l4, r).
(** What the holder of a returned slice sees. *)
Definition sl_read (st : slstate) (r : option (nat * nat)) : option (list string) :=
  match r with
  | None => None
  | Some (l, k) => Some (take k (default [] (sl_arrays st !! l)))
  end.

(** Histories of calls. *)
Definition slcmd : Type := (option nat * option nat * option nat * option nat) * slwork.
Fixpoint sl_run (st : slstate) (cs : list slcmd) : slstate * list (option (nat * nat)) :=
  match cs with
  | [] => (st, [])
  | (p, w) :: cs' => let '(st1, r) := sl_call st p w in
                     let '(st2, rs) := sl_run st1 cs' in (st2, r :: rs)
  end.
Definition sl_reachable (st : slstate) : Prop := exists cs, st = (sl_run sl_init cs).1.

(** The arrays a call takes. *)
Definition taken (st : slstate) (picks : option nat * option nat * option nat * option nat) (l : nat) : Prop :=
  let '(p1, p2, p3, p4) := picks in
  let '(st1, l1) := sl_get st p1 in
  let '(st2, l2) := sl_get st1 p2 in
  let '(st3, l3) := sl_get st2 p3 in
  let '(st4, l4) := sl_get st3 p4 in
  l = l1 \/ l = l2 \/ l = l3 \/ l = l4.
(** No call of the history takes the array [l]. *)
Fixpoint never_taken (st : slstate) (cs : list slcmd) (l : nat) : Prop :=
  match cs with
  | [] => True
  | (p, w) :: cs' => ~ taken st p l /\ never_taken (sl_call st p w).1 cs' l
  end.
