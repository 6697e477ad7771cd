(** Concurrent decisions: what every goroutine reads and answers. *)
From Verif Require Export PoolProofs.

Definition ret_inv (es : list event) (M : machine) (i : nat) (j : job) (ret : option nat) : Prop :=
  match ret with
  | None => forall x, ~ own_set j x
  | Some m => exists es1 es2, es = es1 ++ EReturn i m :: es2 /\ EEnd i ∉ es2 /\
      ((forall k, EGet k m ∉ es2) ->
       (exists xs, mc_heap M !! m = Some xs /\ forall x, x ∈ xs <-> own_set j x) /\
       forall k, k <> i -> ~ has_taken M k m)
  end.
Definition fits (j : job) (g : option nat) : Prop := j_uses_global j = true <-> exists m, g = Some m.
Definition filled (M : machine) (m : nat) (todo target : gset string) : Prop :=
  exists xs, mc_heap M !! m = Some xs /\ forall x, x ∈ target <-> x ∈ xs \/ x ∈ todo.
Definition phase_inv (es : list event) (M : machine) (i : nat) (j : job) (ph : phase) : Prop :=
  match ph with
  | PStart => True
  | PGotG g => j_uses_global j = true
  | PGot g s => fits j g
  | PClear g s => fits j g /\ filled M s (j_scoped j) (j_scoped j)
  | PFill g s ts tg => fits j g /\ filled M s ts (j_scoped j) /\
      (forall m, g = Some m -> filled M m tg (j_global j))
  | PPut _ _ ret | PPutG _ ret => ret_inv es M i j ret
  | PRead ret visited => ret_inv es M i j ret /\ forall x, x ∈ visited -> j_match j x = false
  end.
Definition thread_inv (es : list event) (M : machine) (i : nat) (js0 : list job) (t : thread) : Prop :=
  exists finished, js0 = finished ++ th_jobs t /\
    (undisturbed i es -> forall j x, j ∈ finished -> own_set j x -> j_match j x = false) /\
    match th_answer t with
    | Some true => undisturbed i es -> granted js0
    | Some false => th_jobs t = []
    | None => match th_jobs t with [] => True | j :: _ => phase_inv es M i j (th_phase t) end
    end.

Lemma undisturbed_prefix i es es' : undisturbed i (es ++ es') -> undisturbed i es.
Proof. intros H es1 m es2 k es3 ->. eapply (H es1 m es2 k (es3 ++ es')). by rewrite <- !app_assoc, !app_comm_cons, <- !app_assoc. Qed.
Lemma undisturbed_calm i es1 m es2 :
  undisturbed i (es1 ++ EReturn i m :: es2) -> EEnd i ∉ es2 -> forall k, EGet k m ∉ es2.
Proof.
  intros H Hend k (a & b & ->)%elem_of_list_split. apply Hend. apply elem_of_app. left. by eapply (H es1 m a k b).
Qed.

(** Moves of others. *)
Lemma ret_inv_other es es' M M' i j ret :
  (forall m xs, (forall k, k <> i -> ~ has_taken M k m) -> mc_heap M !! m = Some xs -> mc_heap M' !! m = Some xs) ->
  (forall k m, k <> i -> has_taken M' k m -> has_taken M k m \/ exists k', EGet k' m ∈ es') ->
  EEnd i ∉ es' -> ret_inv es M i j ret -> ret_inv (es ++ es') M' i j ret.
Proof.
  intros Hheap Htaken Hend. destruct ret as [m|]; [|done].
  intros (es1 & es2 & -> & Hn & H). exists es1, (es2 ++ es'). split; [by rewrite <- app_assoc, app_comm_cons|].
  split; [rewrite elem_of_app; tauto|]. intros Hcalm.
  destruct H as [(xs & Hxs & Hx) Hno]. { intros k Hk. apply (Hcalm k). apply elem_of_app. by left. }
  split.
  - exists xs. split; [|done]. by apply Hheap.
  - intros k Hk Hm. destruct (Htaken k m Hk Hm) as [Hm'|[k' Hk']]; [by apply (Hno k)|].
    apply (Hcalm k'). apply elem_of_app. by right.
Qed.
Lemma filled_other M M' m todo target :
  (forall xs, mc_heap M !! m = Some xs -> mc_heap M' !! m = Some xs) -> filled M m todo target -> filled M' m todo target.
Proof. intros H (xs & Hxs & Hx). exists xs. split; [by apply H|done]. Qed.
Lemma phase_inv_other es es' M M' i j t :
  mc_threads M !! i = Some t ->
  (forall m xs, (forall k, k <> i -> ~ has_taken M k m) -> mc_heap M !! m = Some xs -> mc_heap M' !! m = Some xs) ->
  (forall k m, k <> i -> has_taken M' k m -> has_taken M k m \/ exists k', EGet k' m ∈ es') ->
  EEnd i ∉ es' -> owner_inv M ->
  phase_inv es M i j (th_phase t) -> phase_inv (es ++ es') M' i j (th_phase t).
Proof.
  intros Ht Hheap Htaken Hend Hown.
  assert (forall m xs, m ∈ held t -> mc_heap M !! m = Some xs -> mc_heap M' !! m = Some xs) as Hheld.
  { intros m xs Hm. apply Hheap. intros k Hk Hkm. apply Hk.
    apply (owner_exclusive M k i m Hown Hkm). apply has_taken_held. by exists t. }
  unfold held in Hheld. destruct (th_phase t) as [|g|g s|g s|g s ts tg|g s ret|g ret|ret visited]; simpl in *; try done.
  - intros [Hf Hs]. split; [done|]. eapply filled_other; [|exact Hs]. intros xs. apply Hheld. left.
  - intros (Hf & Hs & Hg). split; [done|]. split.
    + eapply filled_other; [|exact Hs]. intros xs. apply Hheld. left.
    + intros m ->. eapply filled_other; [|by apply Hg]. intros xs. apply Hheld. right. left.
  - by eapply ret_inv_other.
  - by eapply ret_inv_other.
  - intros [H1 H2]. split; [|done]. by eapply ret_inv_other.
Qed.
Lemma thread_inv_other es es' M M' i js0 t :
  mc_threads M !! i = Some t ->
  (forall m xs, (forall k, k <> i -> ~ has_taken M k m) -> mc_heap M !! m = Some xs -> mc_heap M' !! m = Some xs) ->
  (forall k m, k <> i -> has_taken M' k m -> has_taken M k m \/ exists k', EGet k' m ∈ es') ->
  EEnd i ∉ es' -> owner_inv M ->
  thread_inv es M i js0 t -> thread_inv (es ++ es') M' i js0 t.
Proof.
  intros Ht Hheap Htaken Hend Hown (fin & -> & Hfin & H). exists fin. split; [done|].
  split; [intros Hu; apply Hfin; by eapply undisturbed_prefix|].
  destruct (th_answer t) as [[]|]; [intros Hu; apply H; by eapply undisturbed_prefix|done|].
  destruct (th_jobs t) as [|j js]; [done|]. by eapply phase_inv_other.
Qed.

(** The goroutine's own moves. *)
Lemma returned_inv es M i j g s ret :
  fits j g ->
  filled M s ∅ (j_scoped j) -> (forall m, g = Some m -> filled M m ∅ (j_global j)) ->
  (forall k m, k <> i -> m = s \/ g = Some m -> ~ has_taken M k m) ->
  returned (mc_heap M) g s = Some ret ->
  ret_inv (es ++ match ret with Some m => [EReturn i m] | None => [] end) M i j ret.
Proof.
  intros Hfit (xs & Hxs & Hs) Hg Hno H. unfold returned in H. rewrite Hxs in H. simpl in H.
  assert (forall m xm, ret = Some m -> mc_heap M !! m = Some xm -> (m = s \/ g = Some m) -> (forall x, x ∈ xm <-> own_set j x) ->
    ret_inv (es ++ match ret with Some m => [EReturn i m] | None => [] end) M i j ret) as Hret.
  { intros m xm -> Hm Hms Hx. exists es, []. split; [done|]. split; [by intros ?%elem_of_nil|]. intros _. split; [by exists xm|].
    intros k Hk. by apply Hno. }
  case_bool_decide as E.
  - subst xs. assert (j_scoped j = ∅) as Es by set_solver.
    destruct g as [m|].
    + destruct (Hg m eq_refl) as (xg & Hxg & Hgx). rewrite Hxg in H. simpl in H.
      assert (j_uses_global j = true) as Hu by (apply Hfit; by exists m).
      case_bool_decide as E; injection H as <-.
      * subst xg. simpl. intros x [Hx|(_ & _ & Hx)]; set_solver.
      * eapply Hret; [done|done|by right|]. intros x. unfold own_set. rewrite (Hgx x). set_solver.
    + injection H as <-. simpl. intros x [Hx|(_ & Hu & _)]; [set_solver|]. apply Hfit in Hu as [? ?]. done.
  - injection H as <-. eapply Hret; [done|done|by left|]. intros x. unfold own_set. rewrite (Hs x).
    assert (j_scoped j <> ∅). { intros Ej. apply E. set_solver. } set_solver.
Qed.

Lemma lookup_upd heap m f heap' x : upd_map heap m f = Some heap' -> heap !! m = Some x -> heap' !! m = Some (f x).
Proof.
  intros (y & Hy & ->)%upd_map_inv Hx. rewrite Hy in Hx. injection Hx as ->. apply list_lookup_insert. by eapply lookup_lt_Some.
Qed.
Lemma lookup_upd_ne heap m f heap' k : upd_map heap m f = Some heap' -> k <> m -> heap' !! k = heap !! k.
Proof. intros (y & Hy & ->)%upd_map_inv Hk. by rewrite list_lookup_insert_ne. Qed.

Lemma mstep_own_inv (ths : list (list job)) es M i c M1 t' es' js0 t :
  owner_inv M -> mc_threads M !! i = Some t -> ths !! i = Some js0 ->
  thread_step i M t c = Some (M1, t', es') ->
  thread_inv es M i js0 t -> thread_inv (es ++ es') (set_thread M1 i t') i js0 t'.
Proof.
  intros Hown Ht Hjs H (fin & -> & Hfin & Hinv).
  assert (undisturbed i (es ++ es') -> forall j x, j ∈ fin -> own_set j x -> j_match j x = false) as Hfin'.
  { intros Hu. apply Hfin. by eapply undisturbed_prefix. }
  assert (forall m, m ∈ held t -> has_taken M i m) as Hmine. { intros m Hm. apply has_taken_held. by exists t. }
  assert (forall k m, k <> i -> m ∈ held t -> ~ has_taken M k m) as Hnot.
  { intros k m Hk Hm Hkm. apply Hk. apply (owner_exclusive M k i m Hown Hkm). by apply Hmine. }
  pose proof (thread_step_owned _ _ _ _ _ _ _ H) as (Hths & _).
  assert (mc_threads (set_thread M1 i t') = <[i := t']> (mc_threads M)) as Hths'. { simpl. by rewrite Hths. }
  assert (forall k m, k <> i -> has_taken (set_thread M1 i t') k m -> has_taken M k m) as Hothers.
  { intros k m Hk (tk & Htk & Hm). exists tk. split; [|done]. rewrite Hths', list_lookup_insert_ne in Htk; done. }
  destruct M as [heap ps pg thr]. 
  step_cases H; rewrite ?Hans, ?Hjobs, ?Hph in *; simpl in *.
  - exists fin. simpl. done.
  - destruct (j_uses_global j) eqn:Hu.
    + apply bind_Some in H as ([[m pg'] heap'] & Hg & [= <- <- <-]). exists fin. simpl. done.
    + apply bind_Some in H as ([[m ps'] heap'] & Hg & [= <- <- <-]). exists fin. simpl. split; [done|]. split; [done|].
      unfold fits. rewrite Hu. split; [done|]. by intros [? ?].
  - apply bind_Some in H as ([[m ps'] heap'] & Hg & [= <- <- <-]). exists fin. simpl. split; [done|]. split; [done|].
    unfold fits. rewrite Hinv. split; [intros _; by exists g|done].
  - destruct c; try done. apply bind_Some in H as (heap' & Hg & [= <- <- <-]). exists fin. simpl. split; [done|]. split; [done|].
    split; [done|]. exists ∅. simpl. split; [|set_solver].
    apply upd_map_inv in Hg as (x & Hx & ->). apply list_lookup_insert. by eapply lookup_lt_Some.
  - destruct c; try done. apply bind_Some in H as (heap' & Hg & [= <- <- <-]). exists fin. simpl. split; [done|]. split; [done|].
    destruct Hinv as [Hfit (xs & Hxs & Hs)]. split; [done|]. destruct g as [g|].
    + assert (s <> g) as Hne. { apply (owner_pair _ i t g s Hown Ht). unfold held. by rewrite Hph. }
      split.
      * exists xs. simpl in *. split; [|done]. by rewrite (lookup_upd_ne _ _ _ _ _ Hg).
      * intros m [= <-]. exists ∅. simpl. split; [|set_solver].
        apply upd_map_inv in Hg as (x & Hx & ->). apply list_lookup_insert. by eapply lookup_lt_Some.
    + injection Hg as <-. split; [by exists xs|done].
  - destruct Hinv as (Hfit & (xs & Hxs & Hs) & Hg). simpl in Hxs. destruct c; try done.
    + case_bool_decide as Hx; [|done]. apply bind_Some in H as (heap' & Hh & [= <- <- <-]). exists fin. simpl. split; [done|]. split; [done|].
      split; [done|]. split.
      * eexists. simpl. split; [by eapply lookup_upd|]. intros y. rewrite (Hs y). destruct (decide (y = x)); set_solver.
      * intros m ->. assert (s <> m) as Hne. { apply (owner_pair _ i t m s Hown Ht). unfold held. by rewrite Hph. }
        destruct (Hg m eq_refl) as (xg & Hxg & Hgx). exists xg. simpl in *. split; [|done].
        by rewrite (lookup_upd_ne _ _ _ _ _ Hh).
    + destruct g as [g|]; [|done]. case_bool_decide as Hx; [|done]. apply bind_Some in H as (heap' & Hh & [= <- <- <-]).
      exists fin. simpl. split; [done|]. split; [done|]. split; [done|].
      assert (s <> g) as Hne. { apply (owner_pair _ i t g s Hown Ht). unfold held. by rewrite Hph. }
      split.
      * exists xs. simpl. split; [|done]. by rewrite (lookup_upd_ne _ _ _ _ _ Hh).
      * intros m [= <-]. destruct (Hg g eq_refl) as (xg & Hxg & Hgx). eexists. simpl. split; [by eapply lookup_upd|].
        intros y. rewrite (Hgx y). destruct (decide (y = x)); set_solver.
    + case_bool_decide as Hx; [|done]. destruct Hx as [-> ->]. apply bind_Some in H as (ret & Hret & [= <- <- <-]).
      exists fin. simpl. split; [done|]. split; [done|].
      eapply (returned_inv es _ i j g s ret); [done|by exists xs|done| |exact Hret].
      intros k m Hk Hm Hkm. apply (Hnot k m Hk); [|by apply Hothers]. unfold held. rewrite Hph.
      destruct Hm as [->| ->]; [left|right; left].
  - assert (forall ret', ret' = ret -> ret_inv (es ++ []) (set_thread (Machine heap (s :: ps) pg thr) i t') i j ret) as Hr.
    { intros _ _. eapply ret_inv_other; [| | |exact Hinv]; simpl; [done| |by intros ?%elem_of_nil].
      intros k m Hk Hm. left. destruct c; try done. injection H as <- <- <-. by eapply Hothers. }
    destruct c; try done. injection H as <- <- <-. exists fin. split; [done|]. split; [done|].
    destruct g as [g|]; simpl; [by eapply Hr|]. split; [by eapply Hr|set_solver].
  - destruct c; try done. injection H as <- <- <-. exists fin. split; [done|]. split; [done|]. simpl.
    split; [|set_solver]. eapply ret_inv_other; [| | |exact Hinv]; simpl; [done| |by intros ?%elem_of_nil].
    intros k m Hk Hm. left. by eapply Hothers.
  - destruct Hinv as [Hret Hvis].
    assert (undisturbed i es -> exists xs, heap !! m = Some xs /\ forall x, x ∈ xs <-> own_set j x) as Hread.
    { intros Hu. destruct Hret as (es1 & es2 & -> & Hend & Hc). apply Hc. by eapply undisturbed_calm. }
    apply bind_Some in H as (xs & Hxs & H). destruct c; try done.
    + case_bool_decide as Hx; [|done]. destruct Hx as [Hx Hnx]. destruct (j_match j x) eqn:Hm; injection H as <- <- <-.
      * exists fin. simpl. split; [done|]. split; [done|]. intros Hu.
        destruct Hread as (xs' & Hxs' & Hr); [by eapply undisturbed_prefix|]. simplify_eq.
        exists j, x. split; [apply elem_of_app; right; left|]. split; [by apply Hr|done].
      * exists fin. simpl. split; [done|]. split; [done|]. split.
        { refine (ret_inv_other es [] (Machine heap ps pg thr) (set_thread (Machine heap ps pg thr) i
            (Thread (j :: js) (PRead (Some m) ({[x]} ∪ visited)) None)) i j (Some m) _ _ _ Hret); simpl; [done| |by intros ?%elem_of_nil].
          intros k m' Hk Hm'. left. by eapply Hothers. }
        intros y [->%elem_of_singleton|Hy]%elem_of_union; [done|by apply Hvis].
    + case_bool_decide as Hx; [|done]. injection H as <- <- <-. exists (fin ++ [j]). simpl.
      split; [by rewrite <- app_assoc|]. split; [|by destruct js].
      intros Hu j' x [Hj'| ->%elem_of_list_singleton]%elem_of_app Hown'; [by eapply Hfin'|].
      destruct Hread as (xs' & Hxs' & Hr); [by eapply undisturbed_prefix|]. simplify_eq.
      apply Hvis, Hx. by apply Hr.
  - destruct Hinv as [Hret Hvis]. destruct c; try done. injection H as <- <- <-. exists (fin ++ [j]). simpl.
    split; [by rewrite <- app_assoc|]. split; [|by destruct js].
    intros Hu j' x [Hj'| ->%elem_of_list_singleton]%elem_of_app Hown'; [by eapply Hfin'|]. by destruct (Hret x).
Qed.

Definition all_inv (ths : list (list job)) (es : list event) (M : machine) : Prop :=
  forall i js0, ths !! i = Some js0 -> exists t, mc_threads M !! i = Some t /\ thread_inv es M i js0 t.
Lemma mstep_all ths es M x M' es' :
  owner_inv M -> all_inv ths es M -> mstep M x = Some (M', es') -> all_inv ths (es ++ es') M'.
Proof.
  intros Hown Hall H i js0 Hjs. destruct (Hall _ _ Hjs) as (t & Ht & Hinv). destruct x as [k c|k|k]; simpl in H.
  - apply bind_Some in H as (tk & Htk & H). apply bind_Some in H as ([[M1 t'] es1] & Hs & [= <- <-]).
    pose proof (thread_step_owned _ _ _ _ _ _ _ Hs) as (Hths & _).
    destruct (decide (i = k)) as [->|Hne].
    + exists t'. split; [simpl; rewrite Hths; apply list_lookup_insert; by eapply lookup_lt_Some|].
      simplify_eq. by eapply mstep_own_inv.
    + exists t. split; [simpl; by rewrite Hths, list_lookup_insert_ne|].
      destruct (thread_step_frame _ _ _ _ _ _ _ Hs) as (Hf1 & Hf2 & Hf3).
      eapply thread_inv_other; [exact Ht| | | |done|exact Hinv].
      * intros m xs Hm Hxs. simpl. apply Hf1; [|done]. intros Hh. apply (Hm k); [done|]. apply has_taken_held. by exists tk.
      * intros k' m Hk' (tk' & Htk' & Hm)%has_taken_held. simpl in Htk'. rewrite Hths in Htk'.
        destruct (decide (k' = k)) as [->|Hkk].
        -- rewrite list_lookup_insert in Htk' by by eapply lookup_lt_Some. injection Htk' as <-.
           destruct (Hf2 _ Hm) as [Hm'|Hm']; [left|right; by exists k]. apply has_taken_held. by exists tk.
        -- rewrite list_lookup_insert_ne in Htk' by done. left. apply has_taken_held. by exists tk'.
      * intros He. by apply Hne, Hf3.
  - apply bind_Some in H as (m & Hm & [= <- <-]). exists t. split; [done|].
    eapply thread_inv_other; [exact Ht|done| |by intros ?%elem_of_nil|done|exact Hinv]. intros k' m' _ Hm'. left. exact Hm'.
  - apply bind_Some in H as (m & Hm & [= <- <-]). exists t. split; [done|].
    eapply thread_inv_other; [exact Ht|done| |by intros ?%elem_of_nil|done|exact Hinv]. intros k' m' _ Hm'. left. exact Hm'.
Qed.
Lemma traced_all ths es M : traced ths es M -> all_inv ths es M.
Proof.
  induction 1 as [|es M x M' es' Htr IH H].
  - intros i js Hi. exists (Thread js PStart None). split; [simpl; by rewrite list_lookup_fmap, Hi|].
    exists []. split; [done|]. split; [by intros _ j x ?%elem_of_nil|]. simpl. by destruct js.
  - eapply mstep_all; [by eapply traced_owner|done|done].
Qed.

(** ** The properties *)
Lemma c41_exclusive ths xs M es i k m :
  mrun (start ths) xs = Some (M, es) -> has_taken M i m -> has_taken M k m -> i = k.
Proof. intros H%mrun_start%traced_owner. by apply owner_exclusive. Qed.
Lemma c41_not_free ths xs M es i m :
  mrun (start ths) xs = Some (M, es) -> has_taken M i m -> m ∉ mc_scoped M /\ m ∉ mc_global M.
Proof. intros H%mrun_start%traced_owner. by apply owner_not_free. Qed.
Lemma c41_undisturbed ths xs M es i js b :
  mrun (start ths) xs = Some (M, es) -> ths !! i = Some js -> undisturbed i es -> answered M i b ->
  (b = true <-> granted js).
Proof.
  intros H%mrun_start%traced_all Hi Hu (t & Ht & Hb). destruct (H _ _ Hi) as (t' & Ht' & fin & -> & Hfin & Ha).
  simplify_eq. rewrite Hb in Ha. destruct b; [by split; [intros _; apply Ha|]|].
  rewrite Ha, app_nil_r. split; [done|]. intros (j & x & Hj & Ho & Hm). by rewrite (Hfin Hu j x Hj Ho) in Hm.
Qed.
