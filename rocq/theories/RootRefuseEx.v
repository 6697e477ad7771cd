(** A program for the refusals of C113: roles in a circle. *)
From Verif Require V1CallsEx.
From Verif Require Import RoleCor NameProofs TenProofs RootCor3 NameEx RootCallsFresh RootCallsEx RootCallsRet RootRetEx RootRefuse NameSpec RootRetSpec.

(** A request that finds a match, one that searches on, one about a group for which the role keeps nothing, one for a tenant that "ann" has nothing in, and one by someone else *)
Definition w113e : list op := w113c ++ [ONewTenant "branch"; OAddTenant 1; OAddPrincipal "eve"; OTenantAddPrincipal 1 "eve" false ["clerk"]].
Definition w113_asked : list (string * opts) :=
  [("ann", q_lab "/x GET"); ("ann", q_lab "/y GET"); ("ann", Opts (AStr "hq") (AStr "lab") ANil (AStr "form") (AStr "/y GET"));
   ("ann", Opts (AStr "hq") ANil ANil (AStr "page") (AStr "/y GET")); ("eve", q_lab "/y GET"); ("eve", Opts (AStr "branch") ANil ANil (AStr "page") (AStr "/y GET"))].
Definition answer (x : res (state * bool)) : string := match x with Ok (_, true) => "yes" | Ok (_, false) => "no" | Panic => "panics" | Hang => "hangs" end.
Definition sort_of_eve (s : string) : sort := if bool_decide (s = "eve") then APrincipal else sort_of_hq s.
Ltac names_eve := exists sort_of_eve; repeat (apply Forall_cons; split; [cbn [names_kept]|]); try apply Forall_nil; try exact I; repeat (split || apply Forall_cons || apply Forall_nil); vm_compute; reflexivity.
Lemma c113_circle_ex : run id_oracle 0 init_state w113e = Ok (ops_state w113e, ops_outs w113e) /\ groups_made (log_of w113e (ops_outs w113e))
  /\ rows_textual (log_of w113e (ops_outs w113e)) /\ keeps_names_apart w113e /\ links_registered (log_of w113e (ops_outs w113e))
  /\ Forall (fun p => ~ manages_circle (log_of w113e (ops_outs w113e)) p /\ asked_last (log_of w113e (ops_outs w113e)) p /\ flags_alike (log_of w113e (ops_outs w113e)) p) ["ann"; "eve"]
  /\ Forall (fun pq => request_textual pq.2) w113_asked
  /\ map (fun pq => answer (authorize rev_oracle (ops_state w113e) pq.1 pq.2)) w113_asked = ["yes"; "hangs"; "no"; "no"; "hangs"; "no"].
Proof.
  assert (R : run id_oracle 0 init_state w113e = Ok (ops_state w113e, ops_outs w113e)) by (apply run_runs; computed).
  assert (G : groups_made (log_of w113e (ops_outs w113e))) by (apply groups_checked; computed).
  assert (K : keeps_names_apart w113e) by (unfold w113e, w113c, w113d, w111_start; cbn [app]; names_eve).
  pose proof (tells_all _ _ _ _ R G) as T.
  assert (RW : forall d, row_made (log_of w113e (ops_outs w113e)) d -> stored (ops_state w113e) d) by (intros d; destruct K as (s & K); exact (rows_all s _ _ _ _ d R K G)).
  split; [exact R|]. split; [exact G|]. split; [apply rows_checked; computed|]. split; [exact K|]. split; [apply (links_checked _ _ T); computed|]. split; [|split; [|computed]].
  - apply Forall_cons. split; [|apply Forall_cons; split; [|apply Forall_nil; exact I]].
    + split; [apply (no_circle (fun n => n)); computed|]. split; [apply last_checked; computed|].
      apply (flags_checked _ (trie_data id_oracle (m_trie (ops_state w113e)))); [exact RW|computed].
    + split; [apply (no_circle (fun n => n)); computed|]. split; [apply last_checked; computed|].
      apply (flags_checked _ (trie_data id_oracle (m_trie (ops_state w113e)))); [exact RW|computed].
  - apply (V1CallsEx.forall_by (fun pq => request_check pq.2)); [intros pq; apply request_checked|computed].
Qed.
