(** Model of several goroutines calling v1 Authorize at the same time, while nobody changes the manager
    (v1/role_manager.go:442-518 GetAllowedRoles and its callers 664-730, v1/util.go, utils/pool.go:7-25).

    What is kept: every Get and Put of the pool of string slices, every write into a backing array and every read of the
    slice GetAllowedRoles returned, interleaved in any way.  What a call computes from slices that it alone holds is taken
    from [slice_work] (C50_same_work); that it alone holds them is proved (C119_exclusive).  principalRoleSlice is left out:
    its slices are not used after Put.  Left out as well: a string that is half overwritten when it is read. *)
From Verif Require Export V1Slice.

(** ** Programs *)
Inductive xcode : Type :=
| XRet (r : res bool)
| XGet (k : nat -> xcode)                                (* utils/pool.go:19-21; the array *)
| XPut (l : nat) (k : xcode)                             (* utils/pool.go:23-25 *)
| XApp (l n : nat) (w : string) (k : nat -> xcode)       (* append to the first [n] elements; the array after it *)
| XSet (l j : nat) (w : string) (k : xcode)              (* s[j] = w *)
| XElem (l j : nat) (k : string -> xcode).               (* s[j] *)

(** append in a loop *)
Fixpoint x_fill (l n : nat) (ws : list string) (k : nat -> xcode) : xcode :=
  match ws with
  | [] => k l
  | w :: ws' => XApp l n w (fun l' => x_fill l' (S n) ws' k)
  end.
Fixpoint x_store (l j : nat) (ws : list string) (k : xcode) : xcode :=
  match ws with
  | [] => k
  | w :: ws' => XSet l j w (x_store l (S j) ws' k)
  end.
(** Reading [n] elements, from the [j]-th on *)
Fixpoint x_load (l j n : nat) (k : list string -> xcode) : xcode :=
  match n with
  | O => k []
  | S n' => XElem l j (fun v => x_load l (S j) n' (fun vs => k (v :: vs)))
  end.
(** Ranging over a slice (array and length), or over nil *)
Definition x_slice (s : option (nat * nat)) (k : list string -> xcode) : xcode :=
  match s with
  | None => k []
  | Some (l, n) => x_load l 0 n k
  end.
Definition x_res {A : Type} (r : res A) (k : A -> xcode) : xcode :=
  match r with
  | Ok a => k a
  | Panic => XRet Panic
  | Hang => XRet Hang
  end.

(** v1/role_manager.go:442-518 GetAllowedRoles; slices.Compact writes the elements kept and clears the rest (517).  Its
    writes are made in order (simplification: elements that stay where they are are written too). *)
Definition x_allowed (w : slwork) (k : option (nat * nat) -> xcode) : xcode :=
  XGet (fun l1 => XGet (fun l2 => XGet (fun l3 => XGet (fun l4 =>                      (* 447-450 *)
  x_fill l1 0 (sw_ns_scopes w) (fun l1 =>                                              (* 469-472 *)
  x_fill l2 0 (sw_ns_roles w) (fun l2 =>                                               (* 473-476 *)
  x_fill l3 0 (sw_scopes w) (fun l3 =>                                                 (* 479-481 *)
  x_fill l4 0 (sw_allowed w) (fun l4 =>                                                (* 488-510 *)
  let back r := XPut l1 (XPut l2 (XPut l3 (XPut l4 (k r)))) in                         (* 453-457 *)
  if sw_returns w then
    let c := compact_adjacent (sw_allowed w) in
    x_store l4 0 (c ++ replicate (length (sw_allowed w) - length c) "") (back (Some (l4, length c)))   (* 517 *)
  else back None)))))))).

(** v1/role_manager.go:732-743 getAllowedRoleIDs: the returned slice is read once for every role of the tenant. *)
Fixpoint x_pick_ids (rs : list string) (s : option (nat * nat)) (k : list string -> xcode) : xcode :=
  match rs with
  | [] => k []
  | r :: rs' => x_slice s (fun vs => x_pick_ids rs' s (fun ids => k (filter (fun v => v = r) vs ++ ids)))
  end.
(** v1/role_manager.go:689-730 authorizeComplex, as [authorize_complex] *)
Definition x_complex (o : oracle) (st : ustate) (q : uopts) (p : string) : xcode :=
  let ns := to_string (uo_namespace q) in
  let scope := to_string (uo_scope q) in
  let t := to_string (uo_tenant q) in
  match u_tenant st t with
  | None => XRet (Ok false)
  | Some c =>
      x_res (get_principal_roles (sub o 0) st t p) (fun prs =>
      match prs with
      | [] => XRet (Ok false)
      | _ =>
          if (negb (bool_decide (ns = "")) && negb (bool_decide (is_Some (ut_namespaces c !! ns))))
             || (negb (bool_decide (scope = "")) && negb (bool_decide (scope ∈ ut_scopes c))) then XRet (Ok false)
          else
            x_res (slice_work (sub o 1) st prs ns scope) (fun w => x_allowed w (fun s =>
            x_pick_ids (ordered (sub o 2) (elements (ut_roles c))) s (fun ids =>
            XRet (any_has (sub o 3) 1 (u_heap st) (to_string (uo_group q)) (to_string (uo_activity q)) ids
              (ordered (sub (sub o 3) 0) (map_to_list (registered_roles st (tp_role <$> prs))).*2)))))
      end)
  end.
(** v1/role_manager.go:669-672, as [collect_allowed]: what is returned is copied at once (append). *)
Fixpoint x_collect (o : oracle) (i : nat) (st : ustate) (p : string) (ts : list string) (k : list string -> xcode) : xcode :=
  match ts with
  | [] => k []
  | t :: ts' =>
      x_res (get_principal_roles (sub (sub o i) 0) st t p) (fun prs =>
      match prs with
      | [] => x_collect o (S i) st p ts' k
      | _ => x_res (slice_work (sub (sub o i) 1) st prs "" "") (fun w => x_allowed w (fun s =>
             x_slice s (fun vs => x_collect o (S i) st p ts' (fun rest => k (vs ++ rest)))))
      end)
  end.
(** v1/role_manager.go:664-687 authorizeForActivity, as [authorize_for_activity] *)
Definition x_activity (o : oracle) (st : ustate) (p act : string) : xcode :=
  x_res (get_tenants_for_principal (sub o 0) st p) (fun ts =>
  x_collect (sub o 1) 0 st p ts (fun ids =>
  let ids := compact_adjacent ids in
  XRet (any_has (sub o 2) 1 (u_heap st) "" act ids (ordered (sub (sub o 2) 0) (map_to_list (registered_roles st ids)).*2)))).
(** v1/role_manager.go:518-569 Authorize; the combinations that do not call GetAllowedRoles use no slice of the pool. *)
Definition x_authorize (o : oracle) (st : ustate) (p : string) (q : uopts) : xcode :=
  if bool_decide (p ∈ u_principals st) then
    match is_nil (uo_tenant q), is_nil (uo_namespace q), is_nil (uo_scope q), is_nil (uo_group q), is_nil (uo_activity q) with
    | true, true, true, true, false => x_activity o st p (to_string (uo_activity q))
    | false, _, _, true, true | true, false, _, true, true | true, true, false, true, true => XRet (u_authorize o st p q)
    | _, _, _, _, _ => x_complex o st q p
    end
  else XRet (Ok false).

(** ** Steps *)
Record xmachine : Type := XM { x_mem : slstate; x_codes : list xcode }.
(** Who took which array (from the pool, or a new one), gave it back, read in it *)
Inductive xevent : Type := XTake (i l : nat) | XBack (i l : nat) | XLook (i l : nat).
(** append of one element: in place, or in a new array of any sufficient capacity.  Only arrays that are there are appended to (V1PoolProofs). *)
Definition x_append (m : slstate) (l n extra : nat) (w : string) : slstate * nat :=
  let arr := default [] (sl_arrays m !! l) in
  if Nat.ltb n (length arr) then (SL (<[l := <[n := w]> arr]> (sl_arrays m)) (sl_pool m), l)
  else (SL (sl_arrays m ++ [take n arr ++ w :: replicate extra ""]) (sl_pool m), length (sl_arrays m)).
Definition x_set (m : slstate) (l j : nat) (w : string) : slstate :=
  SL (alter (fun arr => <[j := w]> arr) l (sl_arrays m)) (sl_pool m).
(** One step of a program; [pick]: which slice Get returns, how large a new array is *)
Definition xcode_step (i : nat) (m : slstate) (pick : option nat) (c : xcode) : option (slstate * xcode * list xevent) :=
  match c with
  | XRet _ => None
  | XGet k => let '(m', l) := sl_get m pick in Some (m', k l, [XTake i l])
  | XPut l k => Some (sl_put m l, k, [XBack i l])
  | XApp l n w k => let '(m', l') := x_append m l n (default 0 pick) w in
                    Some (m', k l', if Nat.eqb l' l then [] else [XTake i l'])
  | XSet l j w k => Some (x_set m l j w, k, [])
  | XElem l j k => arr ← sl_arrays m !! l; v ← arr !! j; Some (m, k v, [XLook i l])
  end.
Definition xstep (M : xmachine) (x : nat * option nat) : option (xmachine * list xevent) :=
  c ← x_codes M !! x.1;
  '(m, c', es) ← xcode_step x.1 (x_mem M) x.2 c;
  Some (XM m (<[x.1 := c']> (x_codes M)), es).
(** A schedule: who moves, step by step *)
Fixpoint xrun (M : xmachine) (xs : list (nat * option nat)) : option (xmachine * list xevent) :=
  match xs with
  | [] => Some (M, [])
  | x :: xs' => '(M1, es1) ← xstep M x; '(M2, es2) ← xrun M1 xs'; Some (M2, es1 ++ es2)
  end.
(** A call of Authorize: the map orders it meets, the principal, the options *)
Definition xcall : Type := oracle * string * uopts.
Definition xstart (st : ustate) (cs : list xcall) : xmachine :=
  XM sl_init ((fun c : xcall => x_authorize c.1.1 st c.1.2 c.2) <$> cs).
