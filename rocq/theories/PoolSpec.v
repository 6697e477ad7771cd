(** What a user expects of concurrent decisions, stated without the machine's steps. *)
From Verif Require Export PoolModel.

(** What a job should look at: the scoped set, else the global one. *)
Definition own_set (j : job) (x : string) : Prop :=
  x ∈ j_scoped j \/ j_scoped j = ∅ /\ j_uses_global j = true /\ x ∈ j_global j.
(** The right answer to a list of jobs. *)
Definition granted (js : list job) : Prop := exists j x, j ∈ js /\ own_set j x /\ j_match j x = true.
(** Goroutine [i] has answered [b]. *)
Definition answered (M : machine) (i : nat) (b : bool) : Prop :=
  exists t, mc_threads M !! i = Some t /\ th_answer t = Some b.
(** Nobody takes the map goroutine [i] is reading out of the pool before [i] has finished. *)
Definition undisturbed (i : nat) (es : list event) : Prop :=
  forall es1 m es2 k es3, es = es1 ++ EReturn i m :: es2 ++ EGet k m :: es3 -> EEnd i ∈ es2.
(** The maps goroutine [i] has taken and not yet put back. *)
Definition has_taken (M : machine) (i m : nat) : Prop :=
  exists t, mc_threads M !! i = Some t /\
    match th_phase t with
    | PGotG g => m = g
    | PGot g s | PClear g s | PFill g s _ _ | PPut g s _ => m = s \/ g = Some m
    | PPutG g _ => m = g
    | PStart | PRead _ _ => False
    end.
