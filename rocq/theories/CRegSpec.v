(** What a user expects of concurrent registration. *)
From Verif Require Export CRegModel.

Section spec.
  Context {V : Type}.
  Variable id_of : V -> string.

  (** The objects [xs] are offered, each by a goroutine of its own; the calls return [rs] and leave [reg']. *)
  Definition registered (reg : gmap string V) (xs rs : list V) (reg' : gmap string V) : Prop :=
    length rs = length xs /\ exists sched, rgrun id_of (reg, RGet <$> xs) sched = Some (reg', zip_with RDone xs rs).
  (** Everybody was given the object that is registered now. *)
  Definition agreed (xs rs : list V) (reg' : gmap string V) : Prop :=
    forall i x r, xs !! i = Some x -> rs !! i = Some r -> reg' !! id_of x = Some r.
  (** Objects registered so far sit under their own id. *)
  Definition keyed (reg0 : gmap string V) : Prop := forall id y, reg0 !! id = Some y -> id_of y = id.
  (** Nobody offers a second object under an id that is new. *)
  Definition no_rivals (reg0 : gmap string V) (xs : list V) : Prop :=
    forall x y, x ∈ xs -> y ∈ xs -> id_of x = id_of y -> reg0 !! id_of x = None -> x = y.
End spec.
