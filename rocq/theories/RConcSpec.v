(** What a user expects of calls of Authorize made at the same time. *)
From Verif Require Export RDecSpec RConcModel.

(** [st'] and [pcs] can be met when the calls have been started together in the state [st]. *)
Definition kmet (st : state) (calls : list ask) (st' : state) (pcs : list kpc) : Prop :=
  exists sched, krun calls (kstart st calls) sched = Some (st', pcs).
(** What a call does when it is made alone in [st]; a call returns, panics or never returns. *)
Definition alone_does (st : state) (p : string) (q : opts) (r : res bool) : Prop :=
  exists o, rbind (authorize o st p q) (fun x => Ok x.2) = r.
(** The calls made one after the other, with their answers *)
Inductive one_after_other : state -> list (string * opts) -> list bool -> state -> Prop :=
| none_left st : one_after_other st [] [] st
| one_more o st p q st1 b cs bs st2 :
    authorize o st p q = Ok (st1, b) -> one_after_other st1 cs bs st2 -> one_after_other st ((p, q) :: cs) (b :: bs) st2.
(** All calls have returned. *)
Definition answers (pcs : list kpc) (bs : list bool) : Prop := pcs = (fun b => KDone (Ok b)) <$> bs.
(** The elements of [l] at the places [js] *)
Definition at_places {A} (l : list A) (js : list nat) : list A := omap (fun j => l !! j) js.
Definition asked (c : ask) : string * opts := (a_principal c, a_request c).
(** In this order the calls, made one after the other, can give these answers. *)
Definition fits_order (st : state) (calls : list ask) (bs : list bool) (js : list nat) : Prop :=
  exists st2, one_after_other st (asked <$> at_places calls js) (at_places bs js) st2.
(** Finished or not *)
Definition finished (pc : kpc) : Prop := exists r, pc = KDone r.
Definition steps_of (i : nat) (sched : list nat) : nat := length (filter (fun j => j = i) sched).
(** The rows of a principal *)
Definition rows_count (st : state) (p : string) : nat :=
  length (search id_oracle st (row_filter ANil ANil ANil (AStr p)) filter_tenants_by_principal).
