(** Properties of concurrent calls: AddData (trie Insert) and registration. *)
From Verif Require Import CTrieEx CRegEx CTrieSpec CRegSpec.

(** ** C77: rows added concurrently are all found afterwards *)
(** The property: when all goroutines have returned, every row added is there (or one with the same keys). *)
Definition added_found : Prop := forall (h : list (cnode data)) (ds : list data) (h' : list (cnode data)) (d : data),
  ctrie_reachable data_keys h -> inserted data_keys h ds h' -> d ∈ ds ->
  exists d', d' ∈ ds /\ row_path data_keys d' = row_path data_keys d /\ row_at h' (row_path data_keys d) d'.
(** It is false: two rows of a new tenant, and one is lost for good. *)
Theorem C77_all_found_refuted : ~ added_found.
Proof. exact added_found_false. Qed.
Print Assumptions C77_all_found_refuted.
Theorem C77_lost_row : exists h', inserted data_keys ctrie_new [d_alice; d_bob] h' /\
  row_at h' (row_path data_keys d_bob) d_bob /\ forall p, ~ row_at h' p d_alice.
Proof. exact c77_lost. Qed.
Print Assumptions C77_lost_row.
(** It holds when any two rows of the batch part ways at a node the trie had before. *)
Theorem C77_all_found_partial (T : Type) (keys_of : T -> list any) (h : list (cnode T)) (ds : list T) (h' : list (cnode T)) (d : T) :
  ctrie_reachable keys_of h -> part_ways keys_of h ds -> inserted keys_of h ds h' -> d ∈ ds ->
  exists d', d' ∈ ds /\ row_path keys_of d' = row_path keys_of d /\ row_at h' (row_path keys_of d) d'.
Proof. exact (all_found keys_of h ds h' d). Qed.
Print Assumptions C77_all_found_partial.
(** And only then: any other batch of rows with different keys has an interleaving that loses one. *)
Theorem C77_exact (T : Type) (keys_of : T -> list any) (h : list (cnode T)) (ds : list T) :
  ctrie_reachable keys_of h -> NoDup (row_path keys_of <$> ds) ->
  (forall h', inserted keys_of h ds h' -> forall d, d ∈ ds -> row_at h' (row_path keys_of d) d) <-> part_ways keys_of h ds.
Proof. exact (exact_batch keys_of h ds). Qed.
Print Assumptions C77_exact.
Example C77_apart_case : part_ways data_keys h_alice [d_bob; d_dave; d_carol] /\ NoDup (row_path data_keys <$> [d_bob; d_dave; d_carol]).
Proof. exact c77_apart. Qed.
Example C77_apart_run : inserted data_keys h_alice [d_bob; d_dave; d_carol] (heap_after h_alice [d_bob; d_dave; d_carol] w77_mix).
Proof. exact c77_mixed. Qed.
Example C77_apart_new : part_ways data_keys ctrie_new [d_alice; d_carol].
Proof. exact c77_apart_empty. Qed.

(** Nothing else appears, at any moment of any interleaving. *)
Theorem C77_only_added (T : Type) (keys_of : T -> list any) (h : list (cnode T)) (ds : list T) (sched : list nat)
    (h' : list (cnode T)) (ths : list (cthread T)) (p : list any) (d : T) :
  ctrie_reachable keys_of h -> crun (h, cinsert keys_of <$> ds) sched = Some (h', ths) -> row_at h' p d ->
  row_at h p d \/ d ∈ ds /\ row_path keys_of d = p.
Proof. exact (only_inserted keys_of h ds sched h' ths p d). Qed.
Print Assumptions C77_only_added.
(** Rows that were there before are never lost, unless the batch has a row with the same keys. *)
Theorem C77_old_stay (T : Type) (keys_of : T -> list any) (h : list (cnode T)) (ds : list T) (sched : list nat)
    (h' : list (cnode T)) (ths : list (cthread T)) (p : list any) (d : T) :
  ctrie_reachable keys_of h -> crun (h, cinsert keys_of <$> ds) sched = Some (h', ths) -> row_at h p d ->
  (forall d', d' ∈ ds -> row_path keys_of d' <> p) -> row_at h' p d.
Proof. exact (old_stay keys_of h ds sched h' ths p d). Qed.
Print Assumptions C77_old_stay.
Example C77_old_stay_case : row_at h_alice (row_path data_keys d_alice) d_alice
  /\ row_at (heap_after h_alice [d_bob; d_dave; d_carol] w77_mix) (row_path data_keys d_alice) d_alice
  /\ row_at (heap_after h_alice [d_bob; d_dave; d_carol] w77_mix) (row_path data_keys d_dave) d_dave.
Proof. exact c77_old. Qed.

(** Inserting one row at a time gives the rows the sequential trie gives (C07). *)
Theorem C77_sequential (T : Type) (keys_of : T -> list any) (log : list T) (h : list (cnode T)) (p : list any) (d : T) :
  one_by_one keys_of log h -> row_at h p d <-> d ∈ survivors keys_of log /\ row_path keys_of d = p.
Proof. exact (obo_rows keys_of log h p d). Qed.
Print Assumptions C77_sequential.
Example C77_sequential_case : one_by_one data_keys [d_alice] h_alice.
Proof. exact h_alice_one. Qed.

(** ** C80: Insert does not block, and a search never meets a row that is only half written *)
(** However the others are scheduled, a goroutine makes at most two steps per key and two more. *)
Theorem C80_wait_free (T : Type) (keys_of : T -> list any) (h : list (cnode T)) (ds : list T) (sched : list nat) (st' : cstate T) (i : nat) (d : T) :
  crun (h, cinsert keys_of <$> ds) sched = Some st' -> ds !! i = Some d ->
  length (filter (fun j => j = i) sched) <= 2 * length (keys_of d) + 2.
Proof. exact (wait_free keys_of h ds sched st' i d). Qed.
Print Assumptions C80_wait_free.
(** Whatever has happened so far, the remaining goroutines can return. *)
Theorem C80_can_finish (T : Type) (keys_of : T -> list any) (h : list (cnode T)) (ds : list T) (sched : list nat) (st : cstate T) :
  ctrie_reachable keys_of h -> crun (h, cinsert keys_of <$> ds) sched = Some st ->
  exists sched' h', crun st sched' = Some (h', CDone <$> ds).
Proof. exact (can_finish keys_of h ds sched st). Qed.
Print Assumptions C80_can_finish.
(** A goroutine that has not returned can always move. *)
Theorem C80_moves (T : Type) (keys_of : T -> list any) (h : list (cnode T)) (ds : list T) (sched : list nat) (st : cstate T) (i : nat) (t : cthread T) :
  ctrie_reachable keys_of h -> crun (h, cinsert keys_of <$> ds) sched = Some st -> st.2 !! i = Some t -> (forall d, t <> CDone d) ->
  exists st', cstep st i = Some st'.
Proof. exact (can_move keys_of h ds sched st i t). Qed.
Print Assumptions C80_moves.
(** Between batches no node is half written ... *)
Theorem C80_quiet (T : Type) (keys_of : T -> list any) (h : list (cnode T)) : ctrie_reachable keys_of h -> ~ half_written h.
Proof. exact (never_half keys_of h). Qed.
Print Assumptions C80_quiet.
(** ... but while Insert runs a node may be marked as an end without its row; the search callback then gets nil. *)
Theorem C80_never_half_refuted : ~ (forall (h : list (cnode data)) (ds : list data) (sched : list nat) (h' : list (cnode data)) (ths : list (cthread data)),
  ctrie_reachable data_keys h -> crun (h, cinsert data_keys <$> ds) sched = Some (h', ths) -> ~ half_written h').
Proof. exact never_half_false. Qed.
Print Assumptions C80_never_half_refuted.
(** Exactly at the place of a row whose Insert has one statement left. *)
Theorem C80_half_running (T : Type) (keys_of : T -> list any) (h : list (cnode T)) (ds : list T) (sched : list nat)
    (h' : list (cnode T)) (ths : list (cthread T)) (p : list any) (m : nat) (c : cnode T) :
  ctrie_reachable keys_of h -> crun (h, cinsert keys_of <$> ds) sched = Some (h', ths) ->
  leads h' 0 p m -> h' !! m = Some c -> cn_end c = true -> cn_data c = None ->
  exists i d, ds !! i = Some d /\ ths !! i = Some (CEnd d m) /\ row_path keys_of d = p.
Proof. exact (half_running keys_of h ds sched h' ths p m c). Qed.
Print Assumptions C80_half_running.

(** ** C79: concurrent registration: everybody who offers an object under an id is given the registered one *)
Theorem C79_agreed_refuted : ~ (forall (reg0 : gmap string ptr) (xs rs : list ptr) (reg' : gmap string ptr),
  keyed ptr_id reg0 -> registered ptr_id reg0 xs rs reg' -> agreed ptr_id xs rs reg').
Proof. exact c79_refuted. Qed.
Print Assumptions C79_agreed_refuted.
(** It holds in every interleaving exactly when nobody offers a second object under an id that is new. *)
Theorem C79_exact (V : Type) (deq : EqDecision V) (id_of : V -> string) (reg0 : gmap string V) (xs : list V) : keyed id_of reg0 ->
  (forall rs reg', registered id_of reg0 xs rs reg' -> agreed id_of xs rs reg') <-> no_rivals id_of reg0 xs.
Proof. exact (agreed_exact id_of reg0 xs). Qed.
Print Assumptions C79_exact.
(** Two rivals can both be given their own object back; one of the two is not registered. *)
Theorem C79_hole (V : Type) (id_of : V -> string) (reg0 : gmap string V) (xs : list V) (i j : nat) (x y : V) :
  xs !! i = Some x -> xs !! j = Some y -> id_of x = id_of y -> reg0 !! id_of x = None -> x <> y ->
  exists rs reg', registered id_of reg0 xs rs reg' /\ rs !! i = Some x /\ rs !! j = Some y /\ reg' !! id_of x = Some y.
Proof. exact (rival_split id_of reg0 xs i j x y). Qed.
Print Assumptions C79_hole.
(** Whatever the interleaving: registered objects stay, new entries were offered under their id, every call returns the
    old object or one that was offered, and exactly the ids offered are added. *)
Theorem C79_old_stay (V : Type) (id_of : V -> string) (reg0 : gmap string V) (xs rs : list V) (reg' : gmap string V) (id : string) (y : V) :
  keyed id_of reg0 -> registered id_of reg0 xs rs reg' -> reg0 !! id = Some y -> reg' !! id = Some y.
Proof. exact (reg_old id_of reg0 xs rs reg' id y). Qed.
Print Assumptions C79_old_stay.
Theorem C79_entries (V : Type) (id_of : V -> string) (reg0 : gmap string V) (xs rs : list V) (reg' : gmap string V) (id : string) (y : V) :
  keyed id_of reg0 -> registered id_of reg0 xs rs reg' -> reg' !! id = Some y ->
  reg0 !! id = Some y \/ reg0 !! id = None /\ y ∈ xs /\ id_of y = id.
Proof. exact (reg_result id_of reg0 xs rs reg' id y). Qed.
Print Assumptions C79_entries.
Theorem C79_returns (V : Type) (id_of : V -> string) (reg0 : gmap string V) (xs rs : list V) (reg' : gmap string V) (i : nat) (x r : V) :
  keyed id_of reg0 -> registered id_of reg0 xs rs reg' -> xs !! i = Some x -> rs !! i = Some r ->
  id_of r = id_of x /\ (reg0 !! id_of x = Some r \/ reg0 !! id_of x = None /\ r ∈ xs).
Proof. exact (reg_returns id_of reg0 xs rs reg' i x r). Qed.
Print Assumptions C79_returns.
Theorem C79_ids (V : Type) (id_of : V -> string) (reg0 : gmap string V) (xs rs : list V) (reg' : gmap string V) :
  keyed id_of reg0 -> registered id_of reg0 xs rs reg' -> dom reg' = dom reg0 ∪ list_to_set (id_of <$> xs).
Proof. exact (reg_dom id_of reg0 xs rs reg'). Qed.
Print Assumptions C79_ids.
(** The result is again a registry of this kind, so this goes on batch after batch. *)
Theorem C79_keyed (V : Type) (id_of : V -> string) (reg0 : gmap string V) (xs rs : list V) (reg' : gmap string V) :
  keyed id_of reg0 -> registered id_of reg0 xs rs reg' -> keyed id_of reg'.
Proof. exact (reg_keyed id_of reg0 xs rs reg'). Qed.
Print Assumptions C79_keyed.
(** All calls can return. *)
Theorem C79_can_return (V : Type) (id_of : V -> string) (reg0 : gmap string V) (xs : list V) : exists rs reg', registered id_of reg0 xs rs reg'.
Proof. exact (can_register id_of reg0 xs). Qed.
Print Assumptions C79_can_return.
(** A call that runs alone is the sequential one (C25). *)
Theorem C79_alone (V : Type) (id_of : V -> string) (reg0 : gmap string V) (x : V) (rs : list V) (reg' : gmap string V) :
  registered id_of reg0 [x] rs reg' ->
  match reg0 !! id_of x with
  | Some y => rs = [y] /\ reg' = reg0
  | None => rs = [x] /\ reg' = <[id_of x := x]> reg0
  end.
Proof. exact (alone id_of reg0 x rs reg'). Qed.
Print Assumptions C79_alone.
Example C79_case : keyed ptr_id w79_reg /\ no_rivals ptr_id w79_reg w79_objs
  /\ exists rs reg', registered ptr_id w79_reg w79_objs rs reg' /\ rs = [("admin", 7); ("editor", 2); ("admin", 7); ("editor", 2); ("viewer", 4)].
Proof. exact c79_ex. Qed.
