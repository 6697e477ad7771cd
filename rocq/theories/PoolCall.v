(** Concurrent decisions and the sequential specification of package v2. *)
From Verif Require Export PoolMore PoolCallSpec V2Ex.
From Verif Require RoleHas.

Lemma granted_right st c js : jobs_of st c js -> granted js <-> right_answer st c.
Proof.
  intros [H1 H2]. unfold granted, own_set. split.
  - intros (j & x & Hj & Hx & Hm). destruct (H1 j Hj) as (t & cont & n & Ht & Hc & Hn & Hjob).
    destruct c as [now q|now q roles]; simpl in *.
    + destruct Hjob as (_ & Hs & Hg & Hmt). exists t, cont, n, x. split; [done|]. split; [done|]. split; [done|].
      split; [|by apply Hmt]. unfold effective. destruct Hx as [Hx|(He & _ & Hx)]; [left; by apply Hs|].
      right. split; [by apply Hg|]. intros p' Hp'%Hs. rewrite He in Hp'. by apply not_elem_of_empty in Hp'.
    + destruct Hjob as (Hu & Hs & _ & Hmt). exists t, cont, n, x. split; [done|]. split; [done|]. split; [done|].
      split; [|by apply Hmt]. destruct Hx as [Hx|(_ & ? & _)]; [by apply Hs|congruence].
  - destruct c as [now q|now q roles]; simpl; intros (t & cont & n & x & Ht & Hc & Hn & Hx & Hm);
      destruct (H2 t cont n Ht Hc Hn) as (j & Hj & Hjob); simpl in Hjob; exists j, x; (split; [done|]).
    + destruct Hjob as (Hu & Hs & Hg & Hmt). split; [|by apply Hmt]. destruct Hx as [Hx|[Hx Hno]]; [left; by apply Hs|].
      right. split; [|split; [done|by apply Hg]]. apply set_eq. intros p. split; [|by intros ?%not_elem_of_empty].
      intros Hp%Hs. by destruct (Hno p).
    + destruct Hjob as (Hu & Hs & _ & Hmt). split; [|by apply Hmt]. left. by apply Hs.
Qed.

Lemma forall2_lookup {A B} (R : A -> B -> Prop) l k i y :
  Forall2 R l k -> k !! i = Some y -> exists x, l !! i = Some x /\ R x y.
Proof. intros H Hi. eapply Forall2_lookup_r in H; [|exact Hi]. destruct H as (x & ? & ?). by exists x. Qed.
Lemma c41_calls st cs ths xs M es i c b :
  Forall2 (jobs_of st) cs ths -> mrun (start ths) xs = Some (M, es) -> cs !! i = Some c ->
  undisturbed i es -> answered M i b -> (b = true <-> right_answer st c).
Proof.
  intros Hj H Hi Hu Ha. destruct (Forall2_lookup_l _ _ _ _ _ Hj Hi) as (js & Hjs & Hjo).
  rewrite <- (granted_right st c js Hjo). by eapply c41_undisturbed.
Qed.
Lemma c41_calls_apart st cs ths xs M es i c b :
  Forall2 (jobs_of st) cs ths -> mrun (start ths) xs = Some (M, es) -> cs !! i = Some c ->
  (forall es1 m es2 k m' es3, es = es1 ++ EReturn i m :: es2 ++ EGet k m' :: es3 -> k <> i -> EEnd i ∈ es2) ->
  answered M i b -> (b = true <-> right_answer st c).
Proof.
  intros Hj H Hi Hu Ha. destruct (Forall2_lookup_l _ _ _ _ _ Hj Hi) as (js & Hjs & Hjo).
  rewrite <- (granted_right st c js Hjo). by eapply c41_no_overlap.
Qed.
Lemma c41_call_alone st c js xs M es b :
  jobs_of st c js -> mrun (start [js]) xs = Some (M, es) -> answered M 0 b -> (b = true <-> right_answer st c).
Proof. intros Hj H Ha. rewrite <- (granted_right st c js Hj). by eapply c41_alone. Qed.

(** ** Every call has jobs: those the traversal computes *)
Definition auth_job (st : vstate) (now : Z) (q : request) (t : nat) (n : string) : job :=
  let sets := match traverse_all (perm_row st n (q_scope q)) st now (q_principal q) id_oracle t (w_dag st) (∅, ∅) with
              | Ok (_, a) => a | _ => (∅, ∅) end in
  Job true sets.1 sets.2
    (fun p => negb (bool_decide (q_resource q = "") && bool_decide (q_action q = "")) &&
              match match_resource (request_string q) p with Ok b => b | _ => false end).
Definition can_job (st : vstate) (now : Z) (q : request) (roles : list string) (t : nat) (n : string) : job :=
  let set := match traverse_all (role_row st n) st now (q_principal q) id_oracle t (w_dag st) ∅ with
             | Ok (_, a) => a | _ => ∅ end in
  Job false set ∅ (fun x => bool_decide (x ∈ roles)).
Definition call_job (st : vstate) (c : call) (t : nat) (n : string) : job :=
  match c with CallAuthorize now q => auth_job st now q t n | CallCan now q roles => can_job st now q roles t n end.
Definition call_jobs (st : vstate) (c : call) : list job :=
  match find_target_tenants id_oracle st (call_request c) with
  | Ok (Some ts) =>
      omap (fun t => cont ← w_tenants st !! t; n ← target_namespace cont (call_request c); Some (call_job st c t n)) ts
  | _ => []
  end.
Lemma call_job_ok st c t n :
  v2_wf st -> distinct_ids st -> ~ broken st -> (exists cont, tenant_at st t cont) -> job_for st c t n (call_job st c t n).
Proof.
  intros Hwf Hdi Hb Ht. destruct c as [now q|now q roles]; simpl.
  - split; [done|].
    destruct (traverse_all_returns (perm_row st n (q_scope q)) st now (q_principal q) (extends st vr_perms) id_oracle t (w_dag st) (∅, ∅))
      as (d' & [sc gl] & Htr & Hd'); [|by apply wf_sound_rows|by apply wf_kids_ok|exact Ht|apply extends_refl|].
    { intros d0 acc pr Hd0. apply perm_row_returns; [by apply wf_dag|done]. }
    rewrite Htr. simpl.
    destruct (traverse_all_exact (perm_row st n (q_scope q)) st now (q_principal q) (extends st vr_perms) perm_has
      (perm_gives st n (q_scope q)) (perm_row_exact st n (q_scope q)) id_oracle t (w_dag st) (∅, ∅) d' (sc, gl)
      Hdi (wf_kids_ok st Hwf) Ht (extends_refl _ _) Htr) as [_ Hx].
    split; [|split].
    + intros p. rewrite <-(perm_gives_spec st n (q_scope q) now (q_principal q) t true p).
      specialize (Hx (true, p)). unfold perm_has in Hx. simpl in Hx. rewrite Hx. set_solver.
    + intros p. rewrite <-(perm_gives_spec st n (q_scope q) now (q_principal q) t false p).
      specialize (Hx (false, p)). unfold perm_has in Hx. simpl in Hx. rewrite Hx. set_solver.
    + intros p. rewrite andb_true_iff, negb_true_iff, andb_false_iff, !bool_decide_eq_false. unfold matches_perm.
      apply and_iff_compat_l. change (res_act (q_resource q) (q_action q)) with (request_string q).
      rewrite <- RoleHas.match_resource_true. destruct (match_resource (request_string q) p) as [[]| |]; split; congruence.
  - split; [done|].
    destruct (traverse_all_returns (role_row st n) st now (q_principal q) (extends st name_of) id_oracle t (w_dag st) ∅)
      as (d' & s & Htr & Hd'); [|by apply wf_sound_rows|by apply wf_kids_ok|exact Ht|apply extends_refl|].
    { intros d0 acc pr Hd0. apply role_row_returns; [by apply wf_dag|done]. }
    rewrite Htr. simpl.
    destruct (traverse_all_exact (role_row st n) st now (q_principal q) (extends st name_of) (fun s x => x ∈ s)
      (role_gives st n) (role_row_exact st n) id_oracle t (w_dag st) ∅ d' s
      Hdi (wf_kids_ok st Hwf) Ht (extends_refl _ _) Htr) as [_ Hx].
    split; [|split; [done|]].
    + intros x. rewrite <-(role_gives_spec st n now (q_principal q) t x), Hx. set_solver.
    + intros x. by rewrite bool_decide_eq_true.
Qed.
Lemma call_jobs_ok st c : v2_wf st -> distinct_ids st -> ~ broken st -> jobs_of st c (call_jobs st c).
Proof.
  intros Hwf Hdi Hb. unfold call_jobs.
  destruct (find_target_returns id_oracle st (call_request c) Hwf Hb) as [ts Hts]. rewrite Hts.
  pose proof (find_target_exact _ _ _ _ Hts) as Hx. split.
  - intros j Hj. destruct ts as [ts|]; [|by apply elem_of_nil in Hj].
    apply elem_of_list_omap in Hj as (t & Ht & Hj). apply bind_Some in Hj as (cont & Hc & Hj).
    apply bind_Some in Hj as (n & Hn & [= <-]). exists t, cont, n. split; [apply Hx; by exists ts|].
    split; [done|]. split; [by apply target_namespace_exact|]. apply call_job_ok; [done..|by exists cont].
  - intros t cont n (l & -> & Ht)%Hx Hc Hn%target_namespace_exact. exists (call_job st c t n). split.
    + apply elem_of_list_omap. exists t. split; [done|]. unfold tenant_at in Hc. rewrite Hc. simpl. by rewrite Hn.
    + apply call_job_ok; [done..|by exists cont].
Qed.
Lemma c41_jobs_exist st cs : vreachable st -> distinct_ids st -> ~ broken st -> exists ths, Forall2 (jobs_of st) cs ths.
Proof.
  intros Hr Hdi Hb. exists (call_jobs st <$> cs). apply Forall2_fmap_r, Forall_Forall2_diag, Forall_forall.
  intros c _. apply call_jobs_ok; [by apply vreachable_wf|done..].
Qed.
(** A wrong grant needs a permission (role) that another call's principal holds. *)
Lemma c41_mixed st cs ths xs M es i now q :
  Forall2 (jobs_of st) cs ths -> mrun (start ths) xs = Some (M, es) -> cs !! i = Some (CallAuthorize now q) ->
  answered M i true ->
  exists k c x, cs !! k = Some c /\ matches_perm q x /\
    exists t n, match c with
    | CallAuthorize now' q' => scoped_perm st now' (q_principal q') t n (q_scope q') x \/
                               global_perm st now' (q_principal q') t n (q_scope q') x
    | CallCan now' q' _ => holds_role st now' (q_principal q') t n x
    end.
Proof.
  intros Hj H Hi Ha. destruct (Forall2_lookup_l _ _ _ _ _ Hj Hi) as (js & Hjs & [Hjo _]).
  destruct (c41_sources _ _ _ _ _ _ H Hjs Ha) as (j & x & Hjin & Hm & k & js' & j' & Hk & Hj' & Hin).
  destruct (forall2_lookup _ _ _ _ _ Hj Hk) as (c & Hc & [Hjo' _]).
  destruct (Hjo _ Hjin) as (t & cont & n & _ & _ & _ & (_ & _ & _ & Hmt)).
  destruct (Hjo' _ Hj') as (t' & cont' & n' & _ & _ & _ & Hjob).
  exists k, c, x. split; [done|]. split; [by apply Hmt|]. exists t', n'. destruct c as [now' q'|now' q' roles]; simpl in Hjob.
  - destruct Hjob as (_ & Hs & Hg & _). destruct Hin as [?|?]; [left; by apply Hs|right; by apply Hg].
  - destruct Hjob as (_ & Hs & Hg & _). destruct Hin as [?|Hin]; [by apply Hs|]. rewrite Hg in Hin. by apply not_elem_of_empty in Hin.
Qed.
