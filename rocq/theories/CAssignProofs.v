(** Proofs about concurrent AddPrincipalRole and RemovePrincipalRole calls. *)
From Verif Require Import V2Trav CAssignModel CAssignSpec.

Lemma arun_app prs st s1 s2 : arun prs st (s1 ++ s2) = st' ← arun prs st s1; arun prs st' s2.
Proof.
  revert st. induction s1 as [|i s1 IH]; intros st; simpl; [done|].
  destruct (astep prs st i); simpl; [apply IH|done].
Qed.
Lemma arun_snoc_inv prs st s i st' :
  arun prs st (s ++ [i]) = Some st' -> exists st1, arun prs st s = Some st1 /\ astep prs st1 i = Some st'.
Proof.
  rewrite arun_app. destruct (arun prs st s) as [st1|]; simpl; [|discriminate].
  destruct (astep prs st1 i) eqn:E; simpl; [|discriminate]. intros [= <-]. by exists st1.
Qed.

Lemma arun_step prs us lk ts i s t us' lk' t' :
  ts !! i = Some t -> athread_step prs i (AState us lk ts) t = Some (us', lk', t') ->
  arun prs (AState us lk ts) (i :: s) = arun prs (AState us' lk' (<[i := t']> ts)) s.
Proof. intros Ht Hs. cbn [arun]. unfold astep. cbn [as_threads]. rewrite Ht. cbn [mbind option_bind]. by rewrite Hs. Qed.

(** ** AddPrincipalRole calls only *)
Definition rows_of (lss : list (list nat)) (done : list nat) : list (option nat) :=
  concat ((fun i => Some <$> default [] (lss !! i)) <$> done).
Lemma rows_of_snoc lss done i : rows_of lss (done ++ [i]) = rows_of lss done ++ (Some <$> default [] (lss !! i)).
Proof. unfold rows_of. rewrite fmap_app, concat_app. simpl. by rewrite app_nil_r. Qed.

(** Every goroutine but the one inside has not begun or is through; the slice holds the rows of those through, in
    the order of the lock, and the rows the one inside has added. *)
Definition idle (lss : list (list nat)) (ts : list athread) (done : list nat) (i : nat) : Prop :=
  forall ls, lss !! i = Some ls -> ts !! i = Some (if bool_decide (i ∈ done) then ADone else AWait ls).
Definition inside (us : list (option nat)) (t : athread) (ls : list nat) (base : list (option nat)) : Prop :=
  exists pre, us = base ++ (Some <$> pre) /\
    ((exists rest, t = AIn rest /\ ls = pre ++ rest) \/
     exists l rest, t = AHave l rest us /\ ls = pre ++ l :: rest).
Record adding (lss : list (list nat)) (old : list (option nat)) (st : astate) (done : list nat) : Prop := {
  ad_len : length (as_threads st) = length lss;
  ad_nodup : NoDup done;
  ad_bound : forall i, i ∈ done -> i < length lss;
  ad_idle : forall i, as_lock st <> Some i -> idle lss (as_threads st) done i;
  ad_list : match as_lock st with
            | None => as_list st = old ++ rows_of lss done
            | Some i => i ∉ done /\ exists ls t, lss !! i = Some ls /\ as_threads st !! i = Some t /\
                          inside (as_list st) t ls (old ++ rows_of lss done)
            end
}.
Lemma adding_start lss old : adding lss old (AState old None (AWait <$> lss)) [].
Proof.
  constructor; simpl.
  - apply fmap_length.
  - constructor.
  - intros i H. by apply elem_of_nil in H.
  - intros i _ ls Hls. rewrite list_lookup_fmap, Hls.
    rewrite bool_decide_false by apply not_elem_of_nil. done.
  - unfold rows_of. simpl. by rewrite app_nil_r.
Qed.
Lemma adding_step lss old prs st done i st' :
  adding lss old st done -> astep prs st i = Some st' -> exists done', adding lss old st' done'.
Proof.
  intros [Hlen Hnd Hb Hid Hl]. destruct st as [us lk ts]. unfold astep. simpl in *.
  destruct (ts !! i) as [t|] eqn:Ht; simpl; [|discriminate].
  assert (Hi : i < length ts) by (eapply lookup_lt_Some; exact Ht).
  destruct (lookup_lt_is_Some_2 lss i) as [ls Hls]; [lia|].
  destruct (decide (lk = Some i)) as [->|Hlk].
  - destruct Hl as [Hnin (ls' & t' & Hls' & Ht' & pre & Hus & Hin)].
    rewrite Hls in Hls'. injection Hls' as <-. rewrite Ht in Ht'. injection Ht' as <-.
    destruct Hin as [(rest & -> & Hrest)|(l & rest & -> & Hrest)].
    + destruct rest as [|l rest]; simpl; intros [= <-].
      * exists (done ++ [i]). constructor; simpl.
        -- by rewrite insert_length.
        -- apply NoDup_app. split; [done|]. split; [|apply NoDup_singleton].
           intros x Hx ->%elem_of_list_singleton. done.
        -- intros x [Hx| ->%elem_of_list_singleton]%elem_of_app; [by apply Hb|lia].
        -- intros x _ lsx Hx. destruct (decide (x = i)) as [->|Hne].
           ++ rewrite list_lookup_insert by lia. rewrite bool_decide_true; [done|].
              apply elem_of_app. right. by apply elem_of_list_singleton.
           ++ rewrite list_lookup_insert_ne by done.
              rewrite (Hid x ltac:(congruence) lsx Hx). f_equal.
              rewrite (bool_decide_ext (x ∈ done) (x ∈ done ++ [i])); [done|].
              rewrite elem_of_app, elem_of_list_singleton. tauto.
        -- rewrite rows_of_snoc, Hls. simpl. rewrite Hrest, app_nil_r, app_assoc. exact Hus.
      * exists done. constructor; simpl; try done.
        -- by rewrite insert_length.
        -- intros x Hx lsx Hlx. rewrite list_lookup_insert_ne by congruence. by apply Hid.
        -- split; [done|]. exists ls, (AHave l rest us). split; [done|].
           split; [by apply list_lookup_insert|]. exists pre. split; [done|]. right. by exists l, rest.
    + simpl. intros [= <-]. exists done. constructor; simpl; try done.
      * by rewrite insert_length.
      * intros x Hx lsx Hlx. rewrite list_lookup_insert_ne by congruence. by apply Hid.
      * split; [done|]. exists ls, (AIn rest). split; [done|].
        split; [by apply list_lookup_insert|]. exists (pre ++ [l]). split.
        -- rewrite Hus, fmap_app, <-!app_assoc. done.
        -- left. exists rest. split; [done|]. by rewrite Hrest, <-app_assoc.
  - pose proof (Hid i Hlk ls Hls) as Hti. rewrite Ht in Hti. injection Hti as ->.
    case_bool_decide as Hd; simpl; [discriminate|].
    destruct lk as [j|]; simpl; [discriminate|]. intros [= <-].
    exists done. constructor; simpl; try done.
    + by rewrite insert_length.
    + intros x Hx lsx Hlx. rewrite list_lookup_insert_ne by congruence. by apply Hid.
    + split; [done|]. exists ls, (AIn ls). split; [done|]. split; [by apply list_lookup_insert|].
      exists []. split; [by rewrite app_nil_r|]. left. by exists ls.
Qed.
Lemma adding_run lss old prs sched st done st' :
  adding lss old st done -> arun prs st sched = Some st' -> exists done', adding lss old st' done'.
Proof.
  revert st done. induction sched as [|i sched IH]; intros st done W; simpl.
  - intros [= <-]. by exists done.
  - destruct (astep prs st i) as [st1|] eqn:E; simpl; [|discriminate]. intros H.
    destruct (adding_step _ _ _ _ _ _ _ W E) as [d1 W1]. exact (IH _ _ W1 H).
Qed.
Lemma adding_ended lss old st done :
  adding lss old st done -> Forall ended (as_threads st) ->
  as_lock st = None /\ done ≡ₚ seq 0 (length lss) /\ as_list st = old ++ rows_of lss done /\
  as_threads st = replicate (length lss) ADone.
Proof.
  intros [Hlen Hnd Hb Hid Hl] He. destruct st as [us lk ts]. simpl in *.
  rewrite Forall_lookup in He.
  assert (Hlk : lk = None).
  { destruct lk as [i|]; [|done]. exfalso. destruct Hl as [_ (ls & t & _ & Ht & pre & _ & Hin)].
    specialize (He _ _ Ht). destruct Hin as [(? & -> & _)|(? & ? & -> & _)];
      destruct He as [He|[[e He]|He]]; discriminate. }
  subst lk. split; [done|].
  assert (Hall : forall i, i < length lss -> i ∈ done /\ ts !! i = Some ADone).
  { intros i Hi. destruct (lookup_lt_is_Some_2 lss i Hi) as [ls Hls].
    pose proof (Hid i ltac:(discriminate) ls Hls) as Ht. case_bool_decide as Hd; [done|].
    specialize (He _ _ Ht). destruct He as [He|[[e He]|He]]; discriminate. }
  split; [|split; [done|]].
  - apply NoDup_Permutation; [done|apply NoDup_seq|]. intros x. rewrite elem_of_seq. split.
    + intros Hx. specialize (Hb _ Hx). lia.
    + intros [_ Hx]. by apply Hall.
  - apply list_eq. intros i. destruct (decide (i < length lss)) as [Hi|Hi].
    + rewrite lookup_replicate_2 by done. by apply Hall.
    + rewrite !lookup_ge_None_2; [done|rewrite replicate_length; lia|lia].
Qed.

(** One call, undisturbed. *)
Lemma add_rows prs ts i us (ls : list nat) :
  i < length ts ->
  arun prs (AState us (Some i) (<[i := AIn ls]> ts)) (replicate (2 * length ls) i) =
  Some (AState (us ++ (Some <$> ls)) (Some i) (<[i := AIn []]> ts)).
Proof.
  intros Hi. revert us. induction ls as [|l ls IH]; intros us.
  - simpl. by rewrite app_nil_r.
  - replace (2 * length (l :: ls)) with (S (S (2 * length ls))) by (simpl; lia).
    cbn [replicate].
    rewrite (arun_step _ _ _ _ i _ (AIn (l :: ls)) _ _ _ (list_lookup_insert _ _ _ Hi) eq_refl), list_insert_insert.
    rewrite (arun_step _ _ _ _ i _ (AHave l ls us) _ _ _ (list_lookup_insert _ _ _ Hi) eq_refl), list_insert_insert.
    specialize (IH (us ++ [Some l])). rewrite <-app_assoc in IH. exact IH.
Qed.
Lemma add_call prs ts i us (ls : list nat) :
  ts !! i = Some (AWait ls) ->
  arun prs (AState us None ts) (replicate (S (2 * length ls + 1)) i) =
  Some (AState (us ++ (Some <$> ls)) None (<[i := ADone]> ts)).
Proof.
  intros Ht. assert (Hi : i < length ts) by (eapply lookup_lt_Some; exact Ht).
  cbn [replicate]. rewrite (arun_step prs us None ts i _ (AWait ls) us (Some i) (AIn ls) Ht eq_refl).
  rewrite replicate_add, arun_app, add_rows by done. cbn [mbind option_bind replicate].
  rewrite (arun_step _ _ _ _ i _ (AIn []) _ _ _ (list_lookup_insert _ _ _ Hi) eq_refl), list_insert_insert. done.
Qed.
Definition call_steps (lss : list (list nat)) (i : nat) : nat := S (2 * length (default [] (lss !! i)) + 1).
Lemma add_calls prs lss order us ts :
  NoDup order -> (forall i, i ∈ order -> exists ls, lss !! i = Some ls /\ ts !! i = Some (AWait ls)) ->
  exists ts', arun prs (AState us None ts)
      (concat (zip_with (fun i k => replicate k i) order (call_steps lss <$> order))) =
    Some (AState (us ++ rows_of lss order) None ts') /\
    length ts' = length ts /\
    forall i, ts' !! i = if bool_decide (i ∈ order) then Some ADone else ts !! i.
Proof.
  revert us ts. induction order as [|i order IH]; intros us ts Hnd Hw.
  - exists ts. unfold rows_of. simpl. rewrite app_nil_r. split; [done|]. split; [done|].
    done.
  - apply NoDup_cons in Hnd as [Hni Hnd]. destruct (Hw i) as (ls & Hls & Ht); [left|].
    assert (Hi : i < length ts) by (eapply lookup_lt_Some; exact Ht).
    destruct (IH (us ++ (Some <$> ls)) (<[i := ADone]> ts) Hnd) as (ts' & Hr & Hl & Hts).
    { intros x Hx. destruct (Hw x) as (lsx & ? & ?); [by right|]. exists lsx. split; [done|].
      rewrite list_lookup_insert_ne; [done|]. intros ->. done. }
    exists ts'. split; [|split; [by rewrite Hl, insert_length|]].
    + assert (Hk : call_steps lss i = S (2 * length ls + 1)) by (unfold call_steps; by rewrite Hls).
      assert (Hrows : rows_of lss (i :: order) = (Some <$> ls) ++ rows_of lss order) by (unfold rows_of; simpl; by rewrite Hls).
      rewrite fmap_cons. cbn [zip_with concat]. rewrite arun_app, Hk, (add_call prs ts i us ls Ht), Hrows, app_assoc.
      exact Hr.
    + intros x. rewrite Hts. destruct (decide (x = i)) as [->|Hne].
      * rewrite bool_decide_false by done. rewrite list_lookup_insert by done.
        rewrite bool_decide_true; [done|left].
      * rewrite list_lookup_insert_ne by done.
        rewrite (bool_decide_ext (x ∈ order) (x ∈ i :: order)); [done|]. rewrite elem_of_cons. tauto.
Qed.
Lemma adds_in_turn prs old lss : as_if_in_turn prs old (AWait <$> lss).
Proof.
  intros sched st' [Hrun He].
  destruct (adding_run _ _ _ _ _ _ _ (adding_start lss old) Hrun) as [done W].
  destruct (adding_ended _ _ _ _ W He) as (Hlk & Hperm & Hus & Hts).
  destruct (add_calls prs lss done old (AWait <$> lss)) as (ts' & Hr & Hl & Hts').
  - exact (ad_nodup _ _ _ _ W).
  - intros i Hi. destruct (lookup_lt_is_Some_2 lss i (ad_bound _ _ _ _ W i Hi)) as [ls Hls].
    exists ls. split; [done|]. by rewrite list_lookup_fmap, Hls.
  - eexists. split; [exists done, (call_steps lss <$> done); split; [by rewrite fmap_length|reflexivity]|].
    assert (ts' = as_threads st') as ->.
    { rewrite Hts. apply list_eq. intros i. rewrite Hts'. destruct (decide (i < length lss)) as [Hi|Hi].
      - rewrite lookup_replicate_2 by done. rewrite bool_decide_true; [done|].
        rewrite Hperm. apply elem_of_seq. lia.
      - rewrite bool_decide_false by (intros Hx%(ad_bound _ _ _ _ W); lia).
        rewrite !lookup_ge_None_2; [done|rewrite replicate_length; lia|rewrite fmap_length; lia]. }
    split; [|exact He]. rewrite Hr. destruct st' as [us lk ts]. simpl in *. by subst.
Qed.
Lemma adds_list prs old lss sched st' :
  finishes prs old (AWait <$> lss) sched st' ->
  as_threads st' = replicate (length lss) ADone /\
  exists lss', lss' ≡ₚ lss /\ as_list st' = old ++ (Some <$> concat lss').
Proof.
  intros [Hrun He]. destruct (adding_run _ _ _ _ _ _ _ (adding_start lss old) Hrun) as [done W].
  destruct (adding_ended _ _ _ _ W He) as (_ & Hperm & Hus & Hts). split; [done|].
  exists ((fun i => default [] (lss !! i)) <$> done). split.
  - transitivity ((fun i => default [] (lss !! i)) <$> seq 0 (length lss)); [by apply fmap_Permutation|]. clear.
    enough (E : (fun i => default [] (lss !! i)) <$> seq 0 (length lss) = lss) by (rewrite E; reflexivity).
    apply list_eq. intros i. rewrite list_lookup_fmap.
    destruct (decide (i < length lss)) as [Hi|Hi].
    + rewrite lookup_seq_lt by done. simpl. destruct (lookup_lt_is_Some_2 lss i Hi) as [ls ->]. done.
    + rewrite lookup_seq_ge by lia. simpl. by rewrite lookup_ge_None_2 by lia.
  - rewrite Hus. f_equal. unfold rows_of. clear. induction done as [|i done IH]; [done|].
    cbn [fmap list_fmap concat]. rewrite fmap_app. f_equal. exact IH.
Qed.
(** ** No deadlock, with any mixture of calls *)
Definition holds_lock (t : athread) : Prop := (exists ls, t = AIn ls) \/ exists l ls snap, t = AHave l ls snap.
Record lock_inv (st : astate) : Prop := {
  lk_in : forall i t, as_threads st !! i = Some t -> holds_lock t -> as_lock st = Some i;
  lk_held : forall i, as_lock st = Some i -> exists t, as_threads st !! i = Some t /\ holds_lock t
}.
Lemma lock_start old ts : Forall starting ts -> lock_inv (AState old None ts).
Proof.
  intros Hs. constructor; simpl; [|discriminate]. intros i t Ht Hh.
  rewrite Forall_lookup in Hs. specialize (Hs _ _ Ht).
  destruct Hs as [[? ->]|[? ->]]; destruct Hh as [[? H]|(? & ? & ? & H)]; discriminate.
Qed.
Lemma lock_step prs st i st' : lock_inv st -> astep prs st i = Some st' -> lock_inv st'.
Proof.
  intros [Hin Hheld]. destruct st as [us lk ts]. unfold astep. simpl in *.
  destruct (ts !! i) as [t|] eqn:Ht; simpl; [|discriminate].
  assert (Hi : i < length ts) by (eapply lookup_lt_Some; exact Ht).
  pose proof (Hin i t Ht) as Hit.
  (* the thread moves from [t] to [t'], both outside or both inside *)
  assert (Hsame : forall us' t', (holds_lock t <-> holds_lock t') -> lock_inv (AState us' lk (<[i:=t']> ts))).
  { intros us' t' Hiff. constructor; simpl.
    - intros x tx Hx Hh. destruct (decide (x = i)) as [->|Hne].
      + rewrite list_lookup_insert in Hx by done. injection Hx as <-. apply Hit. by apply Hiff.
      + rewrite list_lookup_insert_ne in Hx by done. by apply (Hin x tx).
    - intros x Hx. destruct (Hheld x Hx) as (tx & Htx & Hh). destruct (decide (x = i)) as [->|Hne].
      + exists t'. rewrite list_lookup_insert by done. split; [done|]. apply Hiff. congruence.
      + exists tx. by rewrite list_lookup_insert_ne. }
  assert (Hout : forall ls, ~ holds_lock (AWait ls)) by (intros ls [[? H]|(? & ? & ? & H)]; discriminate).
  destruct t as [ls|ls|l ls snap| |tg|tg n|new|e|]; simpl; try discriminate.
  - destruct lk as [j|]; simpl; [discriminate|]. intros [= <-]. constructor; simpl.
    + intros x tx Hx Hh. destruct (decide (x = i)) as [->|Hne]; [done|].
      rewrite list_lookup_insert_ne in Hx by done. pose proof (Hin x tx Hx Hh). discriminate.
    + intros x [= <-]. exists (AIn ls). rewrite list_lookup_insert by done. split; [done|]. left. by eexists.
  - assert (Hlk : lk = Some i) by (apply Hit; left; by eexists). destruct ls as [|l ls]; simpl; intros [= <-].
    + constructor; simpl; [|discriminate]. intros x tx Hx Hh. destruct (decide (x = i)) as [->|Hne].
      * rewrite list_lookup_insert in Hx by done. injection Hx as <-.
        destruct Hh as [[? H]|(? & ? & ? & H)]; discriminate.
      * rewrite list_lookup_insert_ne in Hx by done. pose proof (Hin x tx Hx Hh). congruence.
    + apply Hsame. split; intros _; [right; by eexists _, _, _|left; by eexists].
  - intros [= <-]. apply Hsame. split; intros _; [left; by eexists|right; by eexists _, _, _].
  - intros [= <-]. apply Hsame. split; intros [[? H]|(? & ? & ? & H)]; discriminate.
  - intros [= <-]. apply Hsame.
    destruct (remove_into prs tg n us) as [[new|]| |]; split; intros [[? H]|(? & ? & ? & H)]; discriminate.
  - intros [= <-]. apply Hsame. split; intros [[? H]|(? & ? & ? & H)]; discriminate.
Qed.
Lemma lock_run prs sched st st' : lock_inv st -> arun prs st sched = Some st' -> lock_inv st'.
Proof.
  revert st. induction sched as [|i sched IH]; intros st W; simpl; [by intros [= <-]|].
  destruct (astep prs st i) as [st1|] eqn:E; simpl; [|discriminate]. apply IH. by eapply lock_step.
Qed.
Lemma forall_or {A} (P : A -> Prop) (Q : nat -> Prop) (l : list A) :
  (forall i x, l !! i = Some x -> P x \/ Q i) -> Forall P l \/ exists i, Q i.
Proof.
  revert Q. induction l as [|x l IH]; intros Q H; [by left; constructor|].
  destruct (H 0 x eq_refl) as [Hp|Hq]; [|right; by exists 0].
  destruct (IH (fun i => Q (S i))) as [Hl|[i Hi]].
  - intros i y Hy. exact (H (S i) y Hy).
  - left. by constructor.
  - right. by exists (S i).
Qed.
Lemma no_deadlock prs old ts sched st' :
  Forall starting ts -> arun prs (AState old None ts) sched = Some st' ->
  Forall ended (as_threads st') \/ exists i st2, astep prs st' i = Some st2.
Proof.
  intros Hs Hr. pose proof (lock_run _ _ _ _ (lock_start old ts Hs) Hr) as [Hin Hheld]. clear Hr Hs.
  destruct st' as [us lk ts']. simpl in *.
  assert (Hgo : forall i t, ts' !! i = Some t ->
            ended t \/ (exists ls, t = AWait ls /\ lk <> None) \/ exists st2, astep prs (AState us lk ts') i = Some st2).
  { intros i t Ht. unfold astep. simpl. rewrite Ht. cbn [mbind option_bind].
    destruct t as [ls|[|l ls]|l ls snap| |tg|tg n|new|e|]; simpl; try (right; right; by eexists).
    - destruct lk; simpl; [right; left; eexists; split; [reflexivity|discriminate]|right; right; by eexists].
    - left. by left.
    - left. right. left. by eexists.
    - left. by right; right. }
  destruct lk as [i|].
  - right. destruct (Hheld i eq_refl) as (t & Ht & Hh).
    destruct (Hgo i t Ht) as [He|[(ls & -> & _)|Hx]]; [| |by exists i].
    + exfalso. destruct Hh as [[? ->]|(? & ? & ? & ->)]; destruct He as [He|[[e He]|He]]; discriminate.
    + exfalso. destruct Hh as [[? H]|(? & ? & ? & H)]; discriminate.
  - destruct (forall_or ended (fun i => exists st2, astep prs (AState us None ts') i = Some st2) ts') as [H|H].
    + intros i t Ht. destruct (Hgo i t Ht) as [He|[(ls & _ & H)|H]]; [by left|done|by right].
    + by left.
    + by right.
Qed.
