(** The documented set-up of package v1 grants what it announces. *)
From Verif Require Import V1CallsDec.
From Verif Require Export V1DocSpec.

Lemma ever_mono {E} (P Q : list E -> E -> Prop) h : (forall h e, P h e -> Q h e) -> ever P h -> ever Q h.
Proof. intros H. induction h as [|e h IH]; [intros []|]. cbn [ever]. intros [X|X]; [left; exact (H _ _ X)|right; exact (IH X)]. Qed.
Lemma row_ever h row : ever (fun h e => assigns (row_made h) h e.1 row) h -> row_made h row.
Proof. induction h as [|e h IH]; [intros []|]. cbn [ever row_made]. intros [X|X]; [right; exact X|left; exact (IH X)]. Qed.
Lemma first_ever {E A} (says : list E -> E -> A -> Prop) h a : first_of says h a -> ever (fun h e => says h e a) h.
Proof. induction h as [|e h IH]; [intros []|]. cbn [first_of ever]. intros [X|[_ X]]; [right; exact (IH X)|left; exact X]. Qed.
Lemma given_row h t id p r : given_role h t id p r -> has_row h p r id "" "".
Proof.
  intros (_ & _ & H). exists true. apply row_ever. revert H. apply ever_mono. intros h' e (N & rs & E & Hr & Hin). rewrite E. cbn [assigns].
  exists id, r, "". split; [exact N|]. split; [exact Hr|]. split; [exact Hin|]. split; [left; reflexivity|reflexivity].
Qed.
Lemma permission_given h l r grp a : given_permission h l r grp a -> given h l grp a.
Proof.
  apply ever_mono. intros h' e (N & attrs & E & Ha). exists attrs. split; [|exact Ha]. right. exists r. split; [exact E|exact N].
Qed.
Lemma role_at_kept h l r grp a : given_permission h l r grp a -> role_at h r l.
Proof. induction h as [|e h IH]; [intros []|]. intros [(N & _)|X]; [left; exact N|left; exact (IH X)]. Qed.
(** Whatever was accepted for a group made the role keep that group somewhere. *)
Lemma given_not_unstored h l grp a : given h l grp a -> ~ forall w, ~ store_of h l grp w.
Proof.
  induction h as [|e h IH]; [intros []|]. intros [(attrs & Ha & _)|H] N.
  - apply (N Own). right. split; [intros w Hw; exact (N w (or_introl Hw))|]. left. split; [reflexivity|]. exists attrs. exact Ha.
  - apply (IH H). intros w Hw. exact (N w (or_introl Hw)).
Qed.
Lemma given_stored h st l grp a : tells h st -> given h l grp a -> exists w, store_of h l grp w.
Proof.
  intros T H. destruct (f_perms (u_heap st) l grp) as [gl|] eqn:E.
  - apply (told_store h st T). pose proof (perms_valid _ _ _ _ (uwf_heap _ (tl_wf _ _ T)) E) as L. apply lookup_lt_is_Some in L as [g Hg].
    exists g. apply owns_points. exists gl. split; assumption.
  - exfalso. apply (given_not_unstored h l grp a H). apply (no_store h _ l grp (tl_groups _ _ T)). exact E.
Qed.
Lemma given_attr h st l grp a : tells h st -> given h l grp a -> role_attr h l grp a.
Proof.
  intros T H. destruct (given_stored h st l grp a T H) as [[|gl] Hw]; [left; split; assumption|].
  right. exists gl. split; [exact Hw|]. right. exists l, grp. split; assumption.
Qed.
Section doc.
  Context (o : oracle) (ops : list uop) (st : ustate) (outs : list uout) (R : urun o 0 u_init ops = Ok (st, outs)) (P : Forall plain_names ops).
  Context (G : groups_made (log_of ops outs)) (o' : oracle) (p : string) (b : bool).
  Let h := log_of ops outs.
  Lemma doc_activity t l id r grp a act ns sc : given_role h t id p r -> given_permission h l r grp a -> covers a act -> place_known h t (to_string ns) (to_string sc) ->
    u_authorize o' st p (UOpts (AStr id) ns sc (AStr grp) (AStr act)) = Ok b -> b = true.
  Proof.
    intros Hr Hp Hc Hk A. apply (decided_by_calls o ops st outs o' _ _ b R P G A). split; [exact (proj1 (proj2 Hr))|].
    assert (X : allowed_in h p id (to_string ns) (to_string sc) grp act).
    { exists t. split; [exact (proj1 Hr)|]. split; [exact Hk|]. exists r, "", "". split; [exact (given_row h t id p r Hr)|].
      pose proof (permission_given _ _ _ _ _ Hp) as Hg. pose proof (tells_all _ _ _ _ R P G) as T.
      exists l. split; [exact (role_at_kept _ _ _ _ _ Hp)|]. split; [exact (given_stored _ _ _ _ _ T Hg)|]. left. exists a. split; [exact (given_attr _ _ _ _ _ T Hg)|exact Hc]. }
    cbn [uo_tenant uo_namespace uo_scope uo_group uo_activity asked]. destruct (asked ns), (asked sc); exact X.
  Qed.
  Lemma doc_namespace t id n : called h (UAddPrincipal p) -> given_namespace h t id p n ->
    u_authorize o' st p (UOpts (AStr id) (AStr n) ANil ANil ANil) = Ok b -> b = true.
  Proof.
    intros Hc Hn A. apply (decided_by_calls o ops st outs o' _ _ b R P G A). split; [exact Hc|]. exists "", "", true. apply row_ever. revert Hn. apply ever_mono.
    intros h' e (N & E & l & Hl). rewrite E. exists id, l, "". split; [exact N|]. split; [exact Hl|]. split; [reflexivity|]. right. split; [reflexivity|left; reflexivity].
  Qed.
  Lemma doc_scope t id r s : called h (UAddPrincipal p) -> given_scope h t id p r s ->
    u_authorize o' st p (UOpts (AStr id) ANil (AStr s) ANil ANil) = Ok b -> b = true.
  Proof.
    intros Hc Hs A. apply (decided_by_calls o ops st outs o' _ _ b R P G A). split; [exact Hc|]. exists "", "", true. apply row_ever. revert Hs. apply ever_mono.
    intros h' e (Hr & N & ss & E & Hin & Hsc). rewrite E. destruct (given_row _ _ _ _ _ Hr) as [m Hm]. exists id, s, (TRow p r id "" "" m).
    split; [exact N|]. split; [exact Hin|]. split; [exact Hsc|]. split; [exact Hm|]. split; [reflexivity|]. split; [reflexivity|]. left. reflexivity.
  Qed.
  Lemma all_reached (Q : string -> Prop) ss s : s ∈ ss -> Forall Q ss -> reached Q ss s.
  Proof.
    intros Hin F. apply elem_of_list_split in Hin as (l1 & l2 & ->). apply Forall_app in F as [F1 F2]. exists l1, l2. split; [reflexivity|]. split; [exact F1|].
    exact (Forall_inv F2).
  Qed.
  Lemma doc_place t id n s : called h (UAddPrincipal p) -> scope_placed h t id n s ->
    u_authorize o' st p (UOpts (AStr id) (AStr n) (AStr s) ANil ANil) = Ok b -> b = true.
  Proof.
    intros Hc Hs A. apply (decided_by_calls o ops st outs o' _ _ b R P G A). split; [exact Hc|]. exists "", "", true. apply row_ever. revert Hs. apply ever_mono.
    intros h' e (N & ss & E & Hin & Ha & l & Hl). rewrite E. exists id, l, s. split; [exact N|]. split; [exact Hl|]. split; [exact (all_reached _ ss s Hin Ha)|reflexivity].
  Qed.
End doc.
