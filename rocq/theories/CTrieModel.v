(** Model of concurrent Insert calls on one trie (trie/trie.go:23-33, 60-80), as made by AddData from several
    goroutines.  Nodes are shared through pointers, so they live in a heap; every access to a node's child map and
    every write of its fields is one atomic step, in any interleaving.  Reordering allowed by Go's memory model
    beyond interleavings is left out. *)
From Verif Require Export Base.

Section ctrie.
  Context {T : Type}.
  (** trie/trie.go:46: the key extractor *)
  Variable keys_of : T -> list any.

  (** trie/trie.go:13-17 Node; children are heap locations, the xsync map is an association list *)
  Record cnode : Type := CNode {
    cn_end : bool;
    cn_data : option T;
    cn_child : list (any * nat)
  }.
  (** trie/trie.go:19-21 NewNode *)
  Definition new_cnode : cnode := CNode false None [].
  (** xsync Map.Get and Map.Set *)
  Fixpoint kid (k : any) (c : list (any * nat)) : option nat :=
    match c with
    | [] => None
    | (k', m) :: c' => if decide (k' = k) then Some m else kid k c'
    end.
  Definition set_kid (k : any) (m : nat) (c : list (any * nat)) : list (any * nat) :=
    (k, m) :: filter (fun x => x.1 <> k) c.

  (** Where a goroutine is within Insert(d). *)
  Inductive cthread : Type :=
  | CWalk (d : T) (ks : list any) (n : nat)              (* 70: about to treat the next key at node n *)
  | CMiss (d : T) (k : any) (ks : list any) (n : nat)    (* 30: Get found nothing, about to Set *)
  | CEnd (d : T) (n : nat)                               (* 79: isEnd written, data not yet *)
  | CDone (d : T).
  Definition cstate : Type := list cnode * list cthread.
  (** The root is location 0. *)
  Definition ctrie_new : list cnode := [new_cnode].
  Definition cinsert (d : T) : cthread := CWalk d (keys_of d) 0.

  (** One step of a goroutine; [None]: it has returned. *)
  Definition cthread_step (h : list cnode) (t : cthread) : option (list cnode * cthread) :=
    match t with
    | CWalk d [] n =>                                                                  (* 78 *)
        c ← h !! n; Some (<[n := CNode true (cn_data c) (cn_child c)]> h, CEnd d n)
    | CWalk d (k :: ks) n =>
        if is_nil k then Some (h, CWalk d ks n)                                        (* 71-73 *)
        else c ← h !! n;
             Some (h, match kid k (cn_child c) with                                    (* 27 *)
                      | Some m => CWalk d ks m
                      | None => CMiss d k ks n
                      end)
    | CMiss d k ks n =>                                                                (* 30-31 *)
        c ← h !! n;
        Some (<[n := CNode (cn_end c) (cn_data c) (set_kid k (length h) (cn_child c))]> h ++ [new_cnode],
              CWalk d ks (length h))
    | CEnd d n =>                                                                      (* 79 *)
        c ← h !! n; Some (<[n := CNode (cn_end c) (Some d) (cn_child c)]> h, CDone d)
    | CDone _ => None
    end.
  Definition cstep (st : cstate) (i : nat) : option cstate :=
    t ← st.2 !! i; '(h', t') ← cthread_step st.1 t; Some (h', <[i := t']> st.2).
  (** A schedule: which goroutine moves next. *)
  Fixpoint crun (st : cstate) (sched : list nat) : option cstate :=
    match sched with
    | [] => Some st
    | i :: sched' => st' ← cstep st i; crun st' sched'
    end.
End ctrie.
Arguments cnode : clear implicits.
Arguments cthread : clear implicits.
Arguments cstate : clear implicits.
