(** What a user expects of a root decision that runs while rows are added. *)
From Verif Require Export RootSpec RDecModel.

(** What the searches meet if nobody adds anything: the rows stored, in some order *)
Fixpoint at_addr (o : oracle) (a : list nat) : oracle := match a with [] => o | k :: a' => at_addr (sub o k) a' end.
Definition undisturbed (o : oracle) (st : state) : found := fun a cb => trie_search (at_addr o a) (m_trie st) cb.

(** Time: address [a] comes before address [b]. *)
Fixpoint sooner (a b : list nat) : Prop :=
  match a, b with
  | i :: a', j :: b' => i < j \/ i = j /\ sooner a' b'
  | _, _ => False
  end.
(** The rows [new] are added one after the other while the call runs; [n] of them have been added at moment [n].  The search at [a]
    lasts from [from a] to [to a]; it returns, once each, the matching rows that are there when it begins and maybe some that are added meanwhile;
    it is over before a later one begins. *)
Definition beside (st : state) (new : list data) (w : found) : Prop :=
  exists from to : list nat -> nat,
    (forall a, from a <= to a) /\ (forall a b, sooner a b -> to a <= from b)
    /\ forall a cb, NoDup (w a cb)
         /\ (forall d, stored (with_rows st (take (from a) new)) d -> cb d = true -> d ∈ w a cb)
         /\ (forall d, d ∈ w a cb -> stored (with_rows st (take (to a) new)) d /\ cb d = true).
(** No row is lost on the way (C08: a row may replace another one). *)
Definition keeps_rows (st : state) (new : list data) : Prop :=
  forall n m d, n <= m -> stored (with_rows st (take n new)) d -> stored (with_rows st (take m new)) d.
(** [b] is a possible verdict in the state [st]. *)
Definition may_answer (st : state) (p : string) (q : opts) (b : bool) : Prop :=
  exists o st', authorize o st p q = Ok (st', b).
(** The answer is one that could have been given at some moment between the beginning and the end of the call. *)
Definition of_some_moment (st : state) (new : list data) (p : string) (q : opts) (b : bool) : Prop :=
  exists n, n <= length new /\ may_answer (with_rows st (take n new)) p q b.
(** The tenants whose rows or ManageDescendants could make the principal's request count there *)
Definition reaches (st : state) (p t : string) : Prop := own st p t \/ exists t0, manages st p t0 /\ below st t0 t.
(** The tenants of [p] do not depend on the order in which [p]'s rows are met: they are remembered already, or nothing remembered is out of
    date (C19, C51) and the rows of [p] in one tenant agree on ManageDescendants (C18). *)
Definition settled (st : state) (new : list data) (p : string) : Prop :=
  m_cache st !! p <> None \/ hierarchy_fresh st /\ tenants_coherent st /\ flags_agree (with_rows st new) p.
