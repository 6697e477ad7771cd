(** Concrete cases for root decisions beside new rows. *)
From Verif Require Import RootEx RDecProofs.

(** The search for the principal's tenants returns what it likes of [l0], all later ones see all of [l1]. *)
Definition seen (l0 l1 : list data) : found := fun a cb => filter (fun d => cb d = true) (if decide (a = [0; 0]) then l0 else l1).
Lemma nothing_sooner (a : list nat) : ~ sooner a [0; 0].
Proof. destruct a as [|i [|j a]]; cbn; [tauto|intros [H|[_ []]]; lia|]. destruct a; cbn; intros [H|[_ [H|[_ []]]]]; lia. Qed.
Lemma seen_beside (st : state) (new l0 l1 : list data) : NoDup l0 -> NoDup l1 ->
  (forall d, stored st d -> d ∈ l0) -> (forall d, d ∈ l0 -> stored (with_rows st new) d) -> (forall d, d ∈ l1 <-> stored (with_rows st new) d) ->
  beside st new (seen l0 l1).
Proof.
  intros N0 N1 Hlo Hhi H1. exists (fun a => if decide (a = [0; 0]) then 0 else length new), (fun _ => length new).
  split; [intros a; destruct (decide (a = [0; 0])); cbn beta; lia|]. split.
  - intros a b Hab. cbn beta. destruct (decide (b = [0; 0])) as [->|]; [destruct (nothing_sooner a Hab)|lia].
  - intros a cb. unfold seen. rewrite (take_ge new (length new)) by lia. destruct (decide (a = [0; 0])); (split; [apply NoDup_filter; assumption|]); (split; intros d).
    + intros Hs Hc. apply elem_of_list_filter. split; [exact Hc|exact (Hlo d Hs)].
    + intros [Hc Hd]%elem_of_list_filter. split; [exact (Hhi d Hd)|exact Hc].
    + intros Hs Hc. rewrite (take_ge new (length new)) in Hs by lia. apply elem_of_list_filter. split; [exact Hc|apply H1; exact Hs].
    + intros [Hc Hd]%elem_of_list_filter. split; [apply H1; exact Hd|exact Hc].
Qed.
Lemma keeps_rows_steps (st : state) (new : list data) :
  (forall n d, n < length new -> stored (with_rows st (take n new)) d -> stored (with_rows st (take (S n) new)) d) -> keeps_rows st new.
Proof.
  intros H n m d Hnm Hs. induction Hnm as [|m Hnm IH]; [exact Hs|]. destruct (decide (m < length new)) as [Hm|Hm].
  - exact (H m d Hm IH).
  - rewrite take_ge by lia. rewrite take_ge in IH by lia. exact IH.
Qed.
Definition rows_of (st : state) : list data := trie_data id_oracle (m_trie st).
Lemma within_forall (l l' : list data) : Forall (fun d => d ∈ l') l -> forall d, d ∈ l -> d ∈ l'.
Proof. rewrite Forall_forall. intros H d Hd. exact (H d Hd). Qed.
Lemma seq_own (st : state) (p u : string) (q : opts) (b : bool) : state_wf st -> hierarchy_sound st -> m_cache st !! p = None -> p ∈ m_principals st -> valid_request st q ->
  own st p u -> grants st p (set_o_tenant q (AStr u)) (shape_of q) -> may_answer st p q b -> b = true.
Proof.
  intros W Hs Hc Hp Hq Hu Hg (o & st' & H).
  apply authorize_ok in H as [(_ & Hp' & _)|(_ & U & (o' & HU) & Hb)]; [destruct (Hp' Hp)|].
  destruct (implicit_bounds o' st p st' U W Hs Hc HU) as [B _]. apply Hb. split_and!; [exact Hp| |exact Hq|].
  - intros E. specialize (B u Hu). rewrite E in B. apply elem_of_empty in B. exact B.
  - right. exists u. split; [exact (B u Hu)|exact Hg].
Qed.

(** ** The answer may lie outside if the flags disagree *)
Definition w94_ops : list op :=
  [ONewTenant "acme"; OAddTenant 0; ONewTenant "branch"; OAddTenant 1; ONewTenant "other"; OAddTenant 2; OTenantAddDescendant 0 [1];
   OAddNamespace "hr"; OAddPrincipal "ann"; ONewRole "clerk"; OAddRole 0;
   OTenantAddNamespaces 1 ["hr"]; OTenantAddPrincipal 0 "ann" true ["clerk"]].
Definition w94_hr : data := Data (AStr "branch") (AStr "hr") ANil ANil ANil ANil.
Definition w94_r0 : data := Data (AStr "acme") ANil ANil (AStr "ann") (AStr "clerk") (ABool true).
Definition w94_r1 : data := Data (AStr "other") (AStr "hr") ANil (AStr "ann") ANil (ABool false).
Definition w94_r2 : data := Data (AStr "acme") ANil ANil (AStr "ann") (AStr "clerk") (ABool false).
Definition w94_new : list data := [w94_r1; w94_r2].
Definition w94_met : list data := [w94_r2; w94_r0; w94_hr].
Definition w94_all : list data := [w94_hr; w94_r0; w94_r2; w94_r1].
Definition w94_q : opts := Opts (AStr "acme") (AStr "hr") ANil ANil ANil.
Lemma w94_reachable : reachable (ops_state w94_ops).
Proof. reach_ops w94_ops. Qed.
Lemma w94_rows0 : rows_of (ops_state w94_ops) = [w94_r0; w94_hr] \/ rows_of (ops_state w94_ops) = [w94_hr; w94_r0].
Proof. first [left; vm_compute; reflexivity|right; vm_compute; reflexivity]. Qed.
Lemma w94_keeps : keeps_rows (ops_state w94_ops) w94_new.
Proof.
  apply keeps_rows_steps. intros n d Hn. change (stored ?s d) with (d ∈ rows_of s).
  destruct n as [|[|n]]; [| |cbn in Hn; lia]; apply within_forall; apply (bool_decide_unpack _); vm_compute; exact I.
Qed.
Lemma w94_beside : beside (ops_state w94_ops) w94_new (seen w94_met w94_all).
Proof.
  apply seen_beside.
  - apply (bool_decide_unpack _). vm_compute. exact I.
  - apply (bool_decide_unpack _). vm_compute. exact I.
  - intros d. change (stored ?s d) with (d ∈ rows_of s). apply within_forall; apply (bool_decide_unpack _); vm_compute; exact I.
  - intros d. change (stored ?s d) with (d ∈ rows_of s). apply within_forall; apply (bool_decide_unpack _); vm_compute; exact I.
  - intros d. change (stored ?s d) with (d ∈ rows_of s). split; apply within_forall; apply (bool_decide_unpack _); vm_compute; exact I.
Qed.
Lemma w94_verdict : answer (w_root_authorize id_oracle (seen w94_met w94_all) (ops_state w94_ops) "ann" w94_q) = Some false.
Proof. vm_compute. reflexivity. Qed.
Lemma w94_fresh : hierarchy_fresh (ops_state w94_ops) /\ tenants_coherent (ops_state w94_ops).
Proof.
  split.
  - intros t ds d H. exfalso. revert H. change (m_hierarchy (ops_state w94_ops)) with (∅ : gmap string (list any)).
    rewrite lookup_empty. discriminate.
  - apply coherent_registered. intros l c k d Hl Hk.
    assert (E : s_tenants (ops_state w94_ops) = [Tenant "acme" {["branch" := 1]} None true; Tenant "branch" ∅ None true; Tenant "other" ∅ None true])
      by (vm_compute; reflexivity).
    rewrite E in Hl. clear E. destruct l as [|[|[|l]]]; cbn in Hl; [| | |discriminate]; injection Hl as <-; cbn in Hk.
    + apply lookup_singleton_Some in Hk as [<- <-]. vm_compute. reflexivity.
    + rewrite lookup_empty in Hk. discriminate.
    + rewrite lookup_empty in Hk. discriminate.
Qed.
Lemma w94_flags : flags_agree (ops_state w94_ops) "ann".
Proof.
  intros d d' H H' P P' _ M. eapply stored_list in H; [|vm_compute; reflexivity]. eapply stored_list in H'; [|vm_compute; reflexivity].
  rewrite !elem_of_cons, elem_of_nil in H, H'.
  destruct H as [->|[->|[]]], H' as [->|[->|[]]]; first [reflexivity|discriminate P|discriminate P'].
Qed.
Lemma w94_below : below (ops_state w94_ops) "acme" "branch".
Proof.
  exists 0, 1. split; [vm_compute; reflexivity|]. split.
  - apply tc_once. apply tenant_edge_desc. eexists _, "branch". split; vm_compute; reflexivity.
  - eexists. split; vm_compute; reflexivity.
Qed.
Lemma stored_rows (st : state) (d : data) : bool_decide (d ∈ rows_of st) = true -> stored st d.
Proof. intros H. apply bool_decide_eq_true in H. exact H. Qed.
Lemma w94_valid : valid_request (ops_state w94_ops) w94_q.
Proof.
  split_and!.
  - right. eexists "acme", 0. split; vm_compute; reflexivity.
  - right. exists "hr". split; [reflexivity|]. apply (bool_decide_unpack _). vm_compute. exact I.
  - left. reflexivity.
Qed.
Lemma w94_principal : "ann" ∈ m_principals (ops_state w94_ops).
Proof. apply (bool_decide_unpack _). vm_compute. exact I. Qed.
Lemma no_activity_asked : ~ asks_activity w94_q.
Proof. intros [H _]. exact (H eq_refl). Qed.
Lemma w94_before (b : bool) : may_answer (ops_state w94_ops) "ann" w94_q b -> b = true.
Proof.
  intros M. destruct (reachable_hierarchy _ w94_reachable) as [W Hs]. destruct w94_fresh as [Hf Hco].
  assert (Hc : m_cache (ops_state w94_ops) !! "ann" = None) by (vm_compute; reflexivity).
  destruct (seq_exact _ "ann" w94_q b W Hs Hf Hco w94_flags Hc M) as (U & _ & HU).
  apply (HU {["branch"]}).
  - intros t Ht. apply elem_of_singleton in Ht. subst t. right. exists "acme". split; [|exact w94_below].
    exists w94_r0. split; [apply stored_rows; vm_compute; reflexivity|]. split_and!; reflexivity.
  - split_and!; [exact w94_principal| |exact w94_valid|].
    + intros E. assert (Hx : "branch" ∈ ({["branch"]} : gset string)) by (apply elem_of_singleton; reflexivity). rewrite E in Hx. apply elem_of_empty in Hx. exact Hx.
    + right. exists "branch". split; [apply elem_of_singleton; reflexivity|]. right. split; [exact no_activity_asked|].
      exists w94_hr. split; [apply stored_rows; vm_compute; reflexivity|]. split_and!; [reflexivity|discriminate|reflexivity|discriminate|left; reflexivity].
Qed.
Lemma w94_later (n : nat) (b : bool) : stored (with_rows (ops_state w94_ops) (take n w94_new)) w94_r1 ->
  may_answer (with_rows (ops_state w94_ops) (take n w94_new)) "ann" w94_q b -> b = true.
Proof.
  intros Hr. destruct (reachable_hierarchy _ w94_reachable) as [W Hs].
  apply (seq_own _ "ann" "other"); [exact (wf_rows _ _ W)|exact (sound_rows _ _ Hs)| | | | |].
  - rewrite cache_rows. vm_compute. reflexivity.
  - rewrite principals_rows. exact w94_principal.
  - apply valid_request_rows. exact w94_valid.
  - exists w94_r1. split; [exact Hr|split; reflexivity].
  - right. split; [exact no_activity_asked|]. exists w94_r1. split; [exact Hr|]. split_and!; [reflexivity|discriminate|reflexivity|discriminate|right; reflexivity].
Qed.
Lemma w94_never : ~ of_some_moment (ops_state w94_ops) w94_new "ann" w94_q false.
Proof.
  intros (n & Hn & M). destruct n as [|n].
  - apply w94_before in M. discriminate.
  - apply w94_later in M; [discriminate|]. apply (w94_keeps 1 (S n)); [lia|]. apply stored_rows. vm_compute. reflexivity.
Qed.
Lemma answer_ok (x : res (state * bool)) (b : bool) : answer x = Some b -> exists st', x = Ok (st', b).
Proof. destruct x as [[st' b']| |]; cbn; [intros [= ->]; exists st'; reflexivity|discriminate..]. Qed.
Lemma c94_refuted : exists st new w o p q st' b, reachable st /\ keeps_rows st new /\ beside st new w /\ m_cache st !! p = None
  /\ hierarchy_fresh st /\ tenants_coherent st /\ w_root_authorize o w st p q = Ok (st', b) /\ ~ of_some_moment st new p q b.
Proof.
  destruct (answer_ok _ _ w94_verdict) as [st' E].
  exists (ops_state w94_ops), w94_new, (seen w94_met w94_all), id_oracle, "ann", w94_q, st', false.
  split; [exact w94_reachable|]. split; [exact w94_keeps|]. split; [exact w94_beside|]. split; [vm_compute; reflexivity|].
  split; [exact (proj1 w94_fresh)|]. split; [exact (proj2 w94_fresh)|]. split; [exact E|exact w94_never].
Qed.

(** ** Answers from before and from after *)
Ltac seen_all := intros d; change (stored ?s d) with (d ∈ rows_of s); try split; apply within_forall; apply (bool_decide_unpack _); vm_compute; exact I.
Ltac seen_rows := apply seen_beside; [apply (bool_decide_unpack _); vm_compute; exact I|apply (bool_decide_unpack _); vm_compute; exact I|seen_all..].
Definition w94_new2 : list data := [w94_r1].
Lemma w94_keeps2 : keeps_rows (ops_state w94_ops) w94_new2.
Proof. apply keeps_rows_steps. intros n d Hn. destruct n as [|n]; [|cbn in Hn; lia]. revert d. seen_all. Qed.
Lemma w94_settled : settled (ops_state w94_ops) w94_new2 "ann".
Proof.
  right. split; [exact (proj1 w94_fresh)|]. split; [exact (proj2 w94_fresh)|].
  intros d d' H H' P P' E M. eapply stored_list in H; [|vm_compute; reflexivity]. eapply stored_list in H'; [|vm_compute; reflexivity].
  rewrite !elem_of_cons, elem_of_nil in H, H'.
  destruct H as [->|[->|[->|[]]]], H' as [->|[->|[->|[]]]]; first [reflexivity|discriminate P|discriminate P'|discriminate M|discriminate E].
Qed.
Definition w94b_ops : list op := [ONewTenant "acme"; OAddTenant 0; OAddNamespace "hr"; OAddPrincipal "bob"].
Definition w94b_row : data := Data (AStr "acme") (AStr "hr") ANil (AStr "bob") ANil ANil.
Definition w94b_q : opts := Opts (AStr "acme") (AStr "hr") ANil ANil ANil.
Lemma w94b_reachable : reachable (ops_state w94b_ops).
Proof. reach_ops w94b_ops. Qed.
Lemma w94b_keeps : keeps_rows (ops_state w94b_ops) [w94b_row].
Proof. apply keeps_rows_steps. intros n d Hn. destruct n as [|n]; [|cbn in Hn; lia]. revert d. seen_all. Qed.
Lemma w94b_settled : settled (ops_state w94b_ops) [w94b_row] "bob".
Proof.
  right. split_and!.
  - intros t ds d H. exfalso. revert H. change (m_hierarchy (ops_state w94b_ops)) with (∅ : gmap string (list any)).
    rewrite lookup_empty. discriminate.
  - apply coherent_registered. intros l c k d Hl Hk. assert (E : s_tenants (ops_state w94b_ops) = [Tenant "acme" ∅ None true]) by (vm_compute; reflexivity).
    rewrite E in Hl. clear E. destruct l as [|l]; cbn in Hl; [|discriminate]. injection Hl as <-. cbn in Hk. rewrite lookup_empty in Hk. discriminate.
  - intros d d' H H' P P' E M. eapply stored_list in H; [|vm_compute; reflexivity]. rewrite !elem_of_cons, elem_of_nil in H.
    destruct H as [->|[]]. discriminate M.
Qed.
(** A tenant reached through ManageDescendants counts beside the new row; bob's request is denied before and granted after the row for bob is added, and
    beside its addition it may be either. *)
Lemma c94_ex :
  let st := ops_state w94_ops in let w := seen [w94_hr; w94_r0] [w94_r1; w94_r0; w94_hr] in
  let st2 := ops_state w94b_ops in
  (reachable st /\ keeps_rows st w94_new2 /\ beside st w94_new2 w /\ settled st w94_new2 "ann"
   /\ answer (w_root_authorize rev_oracle w st "ann" w94_q) = Some true)
  /\ (reachable st2 /\ keeps_rows st2 [w94b_row] /\ beside st2 [w94b_row] (seen [] [w94b_row]) /\ beside st2 [w94b_row] (seen [w94b_row] [w94b_row])
   /\ settled st2 [w94b_row] "bob"
   /\ answer (authorize id_oracle st2 "bob" w94b_q) = Some false
   /\ answer (w_root_authorize id_oracle (seen [] [w94b_row]) st2 "bob" w94b_q) = Some false
   /\ answer (w_root_authorize id_oracle (seen [w94b_row] [w94b_row]) st2 "bob" w94b_q) = Some true
   /\ answer (authorize id_oracle (with_rows st2 [w94b_row]) "bob" w94b_q) = Some true).
Proof.
  cbn zeta. split.
  - split; [exact w94_reachable|]. split; [exact w94_keeps2|]. split; [seen_rows|]. split; [exact w94_settled|]. vm_compute. reflexivity.
  - split; [exact w94b_reachable|]. split; [exact w94b_keeps|]. split; [seen_rows|]. split; [seen_rows|]. split; [exact w94b_settled|].
    split_and!; vm_compute; reflexivity.
Qed.
(** After the call that missed it bob's row counts for nothing. *)
Lemma c94_locked_ex :
  let st := ops_state w94b_ops in let w := seen [] [w94b_row] in
  "bob" ∈ m_principals st /\ m_cache st !! "bob" = None
  /\ w [0; 0] (filter_tenants_by_principal (row_filter ANil ANil ANil (AStr "bob"))) = []
  /\ answer (authorize id_oracle (with_rows (final (w_root_authorize id_oracle w st "bob" w94b_q)) [w94b_row]) "bob" w94b_q) = Some false
  /\ answer (authorize id_oracle (with_rows st [w94b_row]) "bob" w94b_q) = Some true.
Proof. cbn zeta. split; [apply (bool_decide_unpack _); vm_compute; exact I|]. split_and!; vm_compute; reflexivity. Qed.
Lemma c94_cached_ex :
  let st := final (authorize id_oracle (ops_state w94_ops) "ann" w94_q) in
  m_cache st !! "ann" <> None /\ keeps_rows st w94_new2 /\ beside st w94_new2 (seen [w94_hr; w94_r0] [w94_r1; w94_r0; w94_hr])
  /\ answer (w_root_authorize rev_oracle (seen [w94_hr; w94_r0] [w94_r1; w94_r0; w94_hr]) st "ann" w94_q) = Some true.
Proof.
  cbn zeta. split; [vm_compute; discriminate|]. split.
  { apply keeps_rows_steps. intros n d Hn. destruct n as [|n]; [|cbn in Hn; lia]. revert d. seen_all. }
  split; [seen_rows|]. vm_compute. reflexivity.
Qed.
