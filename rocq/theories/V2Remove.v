(** RemovePrincipalRole, the index, and when v2 decisions panic. *)
From Verif Require Export V2Inv V2RemSpec.
From Verif Require Import RoleHas.

Lemma field_matches_spec w x : field_matches w x = true <-> w = "" \/ x = w.
Proof. unfold field_matches. by rewrite orb_true_iff, !bool_decide_eq_true. Qed.
Lemma pr_matches_spec tg pr : pr_matches tg pr = true <-> meets tg pr.
Proof. unfold pr_matches, meets. rewrite !andb_true_iff, !field_matches_spec. naive_solver. Qed.
Lemma blank_spec tg : blank tg = true -> forall pr, meets tg pr.
Proof. unfold blank, meets. rewrite !andb_true_iff, !bool_decide_eq_true. naive_solver. Qed.
Global Instance meets_dec tg pr : Decision (meets tg pr).
Proof.
  destruct (pr_matches tg pr) eqn:E; [left|right]; rewrite <-pr_matches_spec; [done|by rewrite E].
Defined.
Global Instance obj_meets_dec st tg l : Decision (obj_meets st tg l).
Proof.
  unfold obj_meets. destruct (w_prs st !! l) as [pr|].
  - destruct (decide (meets tg pr)); [left; by exists pr|right; naive_solver].
  - right. naive_solver.
Defined.
Lemma ptr_matches_spec st tg l pr :
  w_prs st !! l = Some pr -> ptr_matches (w_prs st) tg (Some l) = Ok (bool_decide (obj_meets st tg l)).
Proof.
  intros Hpr. unfold ptr_matches. destruct (blank tg) eqn:Hb.
  - rewrite bool_decide_true; [done|]. exists pr. split; [done|]. by apply blank_spec.
  - rewrite Hpr. f_equal. destruct (pr_matches tg pr) eqn:E; symmetry.
    + apply bool_decide_true. exists pr. by rewrite <-pr_matches_spec.
    + apply bool_decide_false. intros (pr' & ? & ?%pr_matches_spec). congruence.
Qed.
Definition blanked (st : vstate) (tg : prole) (ls : list nat) : list (option nat) :=
  (fun l => if bool_decide (obj_meets st tg l) then None else Some l) <$> ls.
Lemma remove_loop_exact st tg ls :
  (forall l, l ∈ ls -> exists pr, w_prs st !! l = Some pr) ->
  exists ks, remains st tg ls ks /\
    remove_loop (w_prs st) tg (Some <$> ls) = Ok (blanked st tg ls, length ks).
Proof.
  induction ls as [|l ls IH]; intros Hls.
  - exists []. split; [constructor|done].
  - destruct IH as (ks & Hks & IH). { intros l' Hl'. apply Hls. by right. }
    destruct (Hls l) as [pr Hpr]; [left|].
    cbn [remove_loop fmap list_fmap]. rewrite (ptr_matches_spec st tg l pr Hpr). simpl.
    change (list_fmap nat (option nat) Some ls) with (Some <$> ls). rewrite IH. simpl.
    unfold blanked. simpl. case_bool_decide as Hm.
    + exists ks. split; [by constructor|done].
    + exists (l :: ks). split; [by constructor|done].
Qed.
Lemma remains_length st tg ls ks : remains st tg ls ks -> length ks <= length ls.
Proof. induction 1; simpl; lia. Qed.
Lemma remains_all st tg ls ks :
  remains st tg ls ks -> length ks = length ls <-> forall l, l ∈ ls -> ~ obj_meets st tg l.
Proof.
  induction 1 as [|l ls ks Hm H IH|l ls ks Hm H IH]; simpl.
  - split; [by intros _ l ?%elem_of_nil|done].
  - pose proof (remains_length _ _ _ _ H). split; [lia|]. intros Hn. exfalso. apply (Hn l); [left|done].
  - split.
    + intros [= Hl] l' [->|Hin]%elem_of_cons; [done|]. by apply IH.
    + intros Hn. f_equal. apply IH. intros l' Hl'. apply Hn. by right.
Qed.
Lemma remains_none st tg ls : (forall l, l ∈ ls -> obj_meets st tg l) -> remains st tg ls [].
Proof.
  induction ls as [|l ls IH]; intros H; [constructor|]. constructor; [apply H; left|].
  apply IH. intros l' Hl'. apply H. by right.
Qed.
Lemma remains_det st tg ls ks ks' : remains st tg ls ks -> remains st tg ls ks' -> ks = ks'.
Proof.
  intros H. revert ks'. induction H; inversion 1; simplify_eq; try done; f_equal; auto.
Qed.
Lemma take_blanked st tg ls ks :
  remains st tg ls ks -> go_last st tg ls -> take (length ks) (blanked st tg ls) = Some <$> ks.
Proof.
  induction 1 as [|l ls ks Hm H IH|l ls ks Hm H IH]; intros Hg; simpl.
  - done.
  - assert (ks = []) as ->; [|done]. eapply remains_det; [exact H|]. apply remains_none.
    intros l' [i Hi]%elem_of_list_lookup. by apply (Hg 0 (S i) l l'); [lia|..].
  - rewrite bool_decide_false by done. f_equal. apply IH. intros i j a b Hij Ha Hb.
    by apply (Hg (S i) (S j)); [lia|..].
Qed.
Lemma take_blanked_hole st tg ls ks :
  remains st tg ls ks -> go_last st tg ls \/ None ∈ take (length ks) (blanked st tg ls).
Proof.
  induction 1 as [|l ls ks Hm H IH|l ls ks Hm H IH]; simpl.
  - left. intros i j l m _ Hi. by rewrite lookup_nil in Hi.
  - rewrite bool_decide_true by done. destruct ks as [|k ks]; [|right; simpl; left].
    left. intros i j a b Hij Ha Hb _.
    assert (forall x, x ∈ ls -> obj_meets st tg x) as Hall.
    { clear -H. remember [] as ks. induction H; subst; [by intros ? ?%elem_of_nil| |done].
      intros x [->|Hx]%elem_of_cons; auto. }
    destruct j as [|j]; [lia|]. apply Hall. simpl in Hb. by eapply elem_of_list_lookup_2.
  - rewrite bool_decide_false by done. destruct IH as [Hg|Hn]; [left|right; by right].
    intros i j a b Hij Ha Hb Hma.
    destruct i as [|i]; [simpl in Ha; naive_solver|]. destruct j as [|j]; [lia|].
    by apply (Hg i j a b); [lia|..].
Qed.

(** ** The index *)
Lemma index_keep_spec st tg l pr :
  w_prs st !! l = Some pr -> index_keep (w_prs st) tg l = negb (bool_decide (obj_meets st tg l)).
Proof.
  intros Hpr. unfold index_keep. rewrite Hpr. f_equal. destruct (pr_matches tg pr) eqn:E; symmetry.
  - apply bool_decide_true. exists pr. by rewrite <-pr_matches_spec.
  - apply bool_decide_false. intros (pr' & ? & ?%pr_matches_spec). congruence.
Qed.
Lemma indexed_remove st tg st' user t :
  w_index st' = omap (index_tenants (w_prs st) tg) (w_index st) ->
  indexed st' user t = filter (fun l => Is_true (index_keep (w_prs st) tg l)) (indexed st user t).
Proof.
  intros Hix. unfold indexed. rewrite Hix, lookup_omap.
  destruct (w_index st !! user) as [ts|] eqn:Hts; simpl.
  - unfold index_tenants. case_bool_decide as He; simpl.
    + rewrite lookup_empty. simpl.
      assert (omap (index_bucket (w_prs st) tg) ts !! t = None) as Hn by (by rewrite He, lookup_empty).
      rewrite lookup_omap in Hn. destruct (ts !! t) as [b|]; simpl in *; [|done].
      unfold index_bucket in Hn. by destruct (filter _ b).
    + rewrite lookup_omap. destruct (ts !! t) as [b|]; simpl; [|done].
      unfold index_bucket. by destruct (filter _ b) eqn:E.
  - rewrite !lookup_empty. done.
Qed.
Lemma filter_remains st tg ls :
  (forall l, l ∈ ls -> exists pr, w_prs st !! l = Some pr) ->
  remains st tg ls (filter (fun l => Is_true (index_keep (w_prs st) tg l)) ls).
Proof.
  induction ls as [|l ls IH]; intros Hls; [constructor|].
  destruct (Hls l) as [pr Hpr]; [left|]. rewrite filter_cons.
  rewrite (decide_ext _ (~ obj_meets st tg l)).
  2:{ rewrite (index_keep_spec st tg l pr Hpr). destruct (decide (obj_meets st tg l));
      [rewrite bool_decide_true by done|rewrite bool_decide_false by done]; simpl; tauto. }
  assert (remains st tg ls (filter (fun l => Is_true (index_keep (w_prs st) tg l)) ls)).
  { apply IH. intros l' Hl'. apply Hls. by right. }
  destruct (decide (obj_meets st tg l)) as [Hm|Hm].
  - rewrite decide_False by tauto. by constructor.
  - rewrite decide_True by done. by constructor.
Qed.
Lemma given_sound st user t ls ks l :
  given st user t ls ks -> l ∈ ks -> exists pr, w_prs st !! l = Some pr.
Proof.
  induction 1; [by intros ?%elem_of_nil|done|]. intros [->|?]%elem_of_cons; eauto.
Qed.
Lemma given_remains st tg user t ls ks gs hs :
  remains st tg ls ks -> given st user t ls gs -> remains st tg gs hs -> given st user t ks hs.
Proof.
  intros H. revert gs hs. induction H as [|l ls ks Hm H IH|l ls ks Hm H IH]; intros gs hs Hg Hr;
    inversion Hg; simplify_eq.
  - inversion Hr. constructor.
  - by eapply IH.
  - inversion Hr; simplify_eq; [|done]. by eapply IH.
  - eapply given_other; eauto.
  - inversion Hr; simplify_eq; [done|]. eapply given_this; eauto.
Qed.
Lemma given_app st user t ls ls' ks ks' :
  given st user t ls ks -> given st user t ls' ks' -> given st user t (ls ++ ls') (ks ++ ks').
Proof.
  intros H1 H2. induction H1; simpl; [done| |]; [eapply given_other|eapply given_this]; eauto.
Qed.
Lemma given_mono st st' user t ls ks :
  (forall l pr, w_prs st !! l = Some pr -> exists pr', w_prs st' !! l = Some pr' /\
     pr_principal pr' = pr_principal pr /\ pr_tenant pr' = pr_tenant pr) ->
  given st user t ls ks -> given st' user t ls ks.
Proof.
  intros Hm. induction 1 as [|l ls ks pr Hpr Hn H IH|l ls ks pr Hpr H1 H2 H IH]; [constructor| |];
    destruct (Hm l pr Hpr) as (pr' & Hpr' & E1 & E2).
  - eapply given_other; [done| |done]. rewrite E1, E2. done.
  - eapply given_this; [done| | |done]; congruence.
Qed.
Lemma given_det st user t ls ks ks' : given st user t ls ks -> given st user t ls ks' -> ks = ks'.
Proof.
  intros H. revert ks'.
  induction H as [|l ls ks pr Hpr Hn H IH|l ls ks pr Hpr H1 H2 H IH]; intros ks' H'.
  - by inversion H'.
  - inversion H' as [|? ? ? pr' Hpr' Hn' Hr|? ? ? pr' Hpr' H1' H2' Hr]; subst; [by apply IH|].
    exfalso. apply Hn. assert (pr' = pr) as -> by congruence. done.
  - inversion H' as [|? ? ? pr' Hpr' Hn' Hr|? ? ? pr' Hpr' H1' H2' Hr]; subst.
    + exfalso. apply Hn'. assert (pr' = pr) as -> by congruence. done.
    + f_equal. by apply IH.
Qed.
Lemma indexed_add st pr l st' user t :
  w_index st' = index_add (w_index st) pr l ->
  indexed st' user t = indexed st user t ++
    (if decide (pr_principal pr = user /\ pr_tenant pr = t) then [l] else []).
Proof.
  intros Hix. unfold indexed. rewrite Hix. unfold index_add.
  destruct (decide (pr_principal pr = user)) as [<-|Hu].
  - rewrite lookup_insert. simpl. destruct (decide (pr_tenant pr = t)) as [<-|Ht].
    + rewrite lookup_insert. simpl. by rewrite decide_True.
    + rewrite lookup_insert_ne by done. rewrite decide_False by naive_solver. by rewrite app_nil_r.
  - rewrite lookup_insert_ne by done. rewrite decide_False by naive_solver. by rewrite app_nil_r.
Qed.
Lemma add_principal_role_agrees st ls st' :
  v2_add_principal_role st ls = Ok st' -> index_agrees st -> index_agrees st'.
Proof.
  revert st. induction ls as [|l ls IH]; intros st; simpl; [by intros [= <-]|].
  destruct (w_prs st !! l) as [pr|] eqn:Hpr; [|done]. intros H (ks & Hh & Hg).
  eapply IH; [exact H|]. exists (ks ++ [l]). split.
  - unfold list_is in *. rewrite fmap_app. simpl. by rewrite Hh.
  - intros user t. erewrite (indexed_add st pr l) by done.
    apply given_app.
    + eapply given_mono; [|apply Hg]. simpl. eauto.
    + case_decide as Hd.
      * destruct Hd. eapply given_this; [done|done|done|constructor].
      * eapply given_other; [done|done|constructor].
Qed.
Lemma add_principal_role_broken st ls st' :
  v2_add_principal_role st ls = Ok st' -> broken st -> broken st'.
Proof.
  intros H Hb. apply v2_add_principal_role_inv in H as (_ & _ & _ & _ & _ & _ & H & _).
  unfold broken. rewrite H. apply elem_of_app. by left.
Qed.

(** ** RemovePrincipalRole *)
Lemma list_is_iff st : (exists ls, list_is st ls) <-> ~ broken st.
Proof.
  unfold list_is, broken. split.
  - intros [ls ->] (l & ? & _)%elem_of_list_fmap. done.
  - generalize (w_assign st). induction l as [|[x|] l IH]; intros Hn.
    + by exists [].
    + destruct IH as [ls ->]; [intros ?; apply Hn; by right|]. by exists (x :: ls).
    + destruct Hn. left.
Qed.
Lemma list_is_inj st ls ls' : list_is st ls -> list_is st ls' -> ls = ls'.
Proof. unfold list_is. intros -> H. by apply (inj (fmap Some)) in H. Qed.
Lemma list_is_prs st ls l : v2_wf st -> list_is st ls -> l ∈ ls -> exists pr, w_prs st !! l = Some pr.
Proof.
  intros Hwf Hh Hl. apply (wf_prs st Hwf). rewrite Hh. apply elem_of_list_fmap. by exists l.
Qed.
Lemma remove_exact st tg ls ks :
  v2_wf st -> list_is st ls -> remains st tg ls ks ->
  exists st' e, v2_remove_principal_role st tg = Ok (st', e) /\
    ((forall l, l ∈ ls -> ~ obj_meets st tg l) /\ e = Some err_no_match /\ st' = st \/
     (exists l, l ∈ ls /\ obj_meets st tg l) /\ e = None /\
     w_assign st' = take (length ks) (blanked st tg ls) /\
     w_index st' = omap (index_tenants (w_prs st) tg) (w_index st)).
Proof.
  intros Hwf Hh Hr. unfold v2_remove_principal_role.
  destruct (remove_loop_exact st tg ls (fun l => list_is_prs st ls l Hwf Hh)) as (ks' & Hr' & Hl).
  assert (ks' = ks) as -> by (by eapply remains_det). rewrite Hh, Hl. cbn [rbind]. cbn [fst snd].
  rewrite fmap_length. case_bool_decide as Hc.
  - eexists _, _. split; [done|]. left. split; [by apply (remains_all st tg ls ks)|done].
  - eexists _, _. split; [done|]. right. split; [|done].
    destruct (decide (Exists (obj_meets st tg) ls)) as [He|He].
    + apply Exists_exists in He as (l & ? & ?). by exists l.
    + exfalso. apply Hc. apply (remains_all st tg ls ks Hr). intros l Hl1 Hl2. apply He. apply Exists_exists. eauto.
Qed.
Lemma remains_total st tg ls : exists ks, remains st tg ls ks.
Proof.
  induction ls as [|l ls [ks IH]]; [exists []; constructor|].
  destruct (decide (obj_meets st tg l)); eexists; by constructor.
Qed.
Lemma remove_returns st tg :
  v2_wf st -> ~ broken st -> exists st' e, v2_remove_principal_role st tg = Ok (st', e).
Proof.
  intros Hwf [ls Hh]%list_is_iff. destruct (remains_total st tg ls) as [ks Hks].
  destruct (remove_exact st tg ls ks Hwf Hh Hks) as (st' & e & H & _). eauto.
Qed.
Lemma remove_error st tg st' e :
  v2_wf st -> ~ broken st -> v2_remove_principal_role st tg = Ok (st', e) ->
  (e <> None <-> forall pr, assigned st pr -> ~ meets tg pr) /\ (e <> None -> st' = st).
Proof.
  intros Hwf [ls Hh]%list_is_iff H. destruct (remains_total st tg ls) as [ks Hks].
  destruct (remove_exact st tg ls ks Hwf Hh Hks) as (st1 & e1 & H1 & Hcase).
  rewrite H in H1. injection H1 as <- <-.
  destruct Hcase as [(Hno & -> & ->)|((l & Hl & Hm) & -> & _ & _)].
  - split; [|done]. split; [|done]. intros _ pr (l & Hl & Hpr) Hm.
    rewrite Hh in Hl. apply elem_of_list_fmap in Hl as (l' & [= <-] & Hl').
    apply (Hno l Hl'). by exists pr.
  - split; [|done]. split; [done|]. intros Hno. exfalso. destruct Hm as (pr & Hpr & Hm).
    apply (Hno pr); [|done]. exists l. split; [|done]. rewrite Hh. apply elem_of_list_fmap. by exists l.
Qed.
Lemma remove_success st tg st' ls ks :
  v2_wf st -> list_is st ls -> remains st tg ls ks -> v2_remove_principal_role st tg = Ok (st', None) ->
  (go_last st tg ls -> list_is st' ks) /\ (~ go_last st tg ls -> broken st').
Proof.
  intros Hwf Hh Hr H. destruct (remove_exact st tg ls ks Hwf Hh Hr) as (st1 & e1 & H1 & Hcase).
  rewrite H in H1. injection H1 as <- <-. destruct Hcase as [(_ & ? & _)|(_ & _ & Ha & _)]; [done|].
  unfold list_is, broken. rewrite Ha. split; [by apply take_blanked|].
  intros Hn. by destruct (take_blanked_hole st tg ls ks Hr).
Qed.
Lemma go_last_dec st tg ls : go_last st tg ls \/ ~ go_last st tg ls.
Proof.
  destruct (remains_total st tg ls) as [ks Hks].
  destruct (take_blanked_hole st tg ls ks Hks) as [?|Hn]; [by left|right]. intros Hg.
  rewrite (take_blanked st tg ls ks Hks Hg) in Hn. by apply elem_of_list_fmap in Hn as (? & ? & _).
Qed.
Lemma remove_length st tg st' ls ks :
  v2_wf st -> list_is st ls -> remains st tg ls ks -> v2_remove_principal_role st tg = Ok (st', None) ->
  length (w_assign st') = length ks.
Proof.
  intros Hwf Hh Hr H. destruct (remove_exact st tg ls ks Hwf Hh Hr) as (st1 & e1 & H1 & Hcase).
  rewrite H in H1. injection H1 as <- <-. destruct Hcase as [(_ & ? & _)|(_ & _ & Ha & _)]; [done|].
  rewrite Ha, take_length. unfold blanked. rewrite fmap_length.
  pose proof (remains_length _ _ _ _ Hr). lia.
Qed.
Lemma remove_index st tg st' user t :
  v2_remove_principal_role st tg = Ok (st', None) ->
  (forall l, l ∈ indexed st user t -> exists pr, w_prs st !! l = Some pr) ->
  remains st tg (indexed st user t) (indexed st' user t).
Proof.
  unfold v2_remove_principal_role. intros ([u j] & _ & H)%rbind_inv Hls. simpl in H.
  case_bool_decide; [done|]. injection H as <-.
  match goal with |- remains _ _ _ (indexed ?s _ _) => rewrite (indexed_remove st tg s user t) end.
  - by apply filter_remains.
  - reflexivity.
Qed.

(** A blank target empties everything, even a list with holes. *)
Lemma remove_blank_loop prs tg ps : blank tg = true ->
  remove_loop prs tg ps = Ok (replicate (length ps) None, 0).
Proof.
  intros Hb. induction ps as [|p ps IH]; simpl; [done|]. unfold ptr_matches. rewrite Hb. simpl. by rewrite IH.
Qed.
Lemma remove_loop_broken prs tg ps : blank tg = false -> None ∈ ps -> remove_loop prs tg ps = Panic.
Proof.
  intros Hb. induction ps as [|p ps IH]; [by intros ?%elem_of_nil|].
  intros [<-|Hin]%elem_of_cons; simpl; unfold ptr_matches; rewrite Hb; [done|].
  destruct p as [l|]; [|done]. destruct (prs !! l); [|done]. simpl. by rewrite IH.
Qed.
Lemma remove_broken st tg :
  broken st -> 
  if blank tg then exists st', v2_remove_principal_role st tg = Ok (st', None) /\ list_is st' []
                 /\ w_index st' = omap (index_tenants (w_prs st) tg) (w_index st)
  else v2_remove_principal_role st tg = Panic.
Proof.
  intros Hb. unfold v2_remove_principal_role. destruct (blank tg) eqn:Ht.
  - rewrite remove_blank_loop by done. cbn [rbind fst snd]. rewrite bool_decide_false.
    2:{ unfold broken in Hb. destruct (w_assign st); [by apply elem_of_nil in Hb|done]. }
    eexists. split; [done|]. split; [|done]. unfold list_is. simpl. done.
  - by rewrite remove_loop_broken.
Qed.

(** ** The index agrees with the list unless the list has holes. *)
Definition index_sound (st : vstate) : Prop :=
  forall user t l, l ∈ indexed st user t -> exists pr, w_prs st !! l = Some pr.
Lemma agrees_sound st : index_agrees st -> index_sound st.
Proof. intros (ls & _ & Hg) user t l Hl. by eapply given_sound. Qed.
Lemma remove_agrees st tg st' e :
  v2_wf st -> v2_remove_principal_role st tg = Ok (st', e) ->
  index_sound st -> broken st \/ index_agrees st -> broken st' \/ index_agrees st'.
Proof.
  intros Hwf H Hs Hcase.
  pose proof (v2_remove_inv _ _ _ _ H) as (_ & _ & Hprs & _).
  destruct Hcase as [Hb|(ls & Hh & Hg)].
  - pose proof (remove_broken st tg Hb) as Hr. destruct (blank tg) eqn:Hbl; [|congruence].
    destruct Hr as (st1 & H1 & H2 & H3). rewrite H in H1. injection H1 as <- ->. right.
    exists []. split; [done|]. intros user t.
    pose proof (remove_index st tg st' user t H (Hs user t)) as Hrm.
    assert (indexed st' user t = []) as ->; [|constructor].
    eapply remains_det; [exact Hrm|]. apply remains_none. intros l Hl.
    destruct (Hs user t l Hl) as [pr Hpr]. exists pr. split; [done|]. by apply blank_spec.
  - destruct (remains_total st tg ls) as [ks Hks]. destruct e as [e|].
    + assert (st' = st) as ->; [|right; by exists ls].
      eapply remove_error; [done|apply list_is_iff; by exists ls|exact H|done].
    + destruct (remove_success st tg st' ls ks Hwf Hh Hks H) as [H1 H2].
      destruct (go_last_dec st tg ls) as [Hgl|Hgl]; [|left; by apply H2]. right. exists ks. split.
      * by apply H1.
      * intros user t. apply (given_mono st); [intros l pr Hl; rewrite Hprs; by exists pr|].
        eapply given_remains; [done|apply Hg|]. apply remove_index; [exact H|apply Hs].
Qed.

Lemma index_kept st st' :
  w_assign st' = w_assign st -> w_index st' = w_index st ->
  (forall l pr, w_prs st !! l = Some pr -> exists pr', w_prs st' !! l = Some pr' /\
     pr_principal pr' = pr_principal pr /\ pr_tenant pr' = pr_tenant pr) ->
  index_sound st /\ (broken st \/ index_agrees st) -> index_sound st' /\ (broken st' \/ index_agrees st').
Proof.
  intros Ha Hi Hm [Hs Hc]. split.
  - intros user t l Hl. unfold indexed in Hl. rewrite Hi in Hl.
    destruct (Hs user t l Hl) as [pr Hpr]. destruct (Hm l pr Hpr) as (pr' & ? & _). by exists pr'.
  - destruct Hc as [Hb|(ls & Hh & Hg)]; [left|right].
    + unfold broken. by rewrite Ha.
    + exists ls. split; [unfold list_is; by rewrite Ha|]. intros user t.
      unfold indexed. rewrite Hi. eapply given_mono; [exact Hm|apply Hg].
Qed.
Lemma index_add_sound st ls st' :
  v2_add_principal_role st ls = Ok st' -> index_sound st -> index_sound st'.
Proof.
  revert st. induction ls as [|l ls IH]; intros st; simpl; [by intros [= <-]|].
  destruct (w_prs st !! l) as [pr|] eqn:Hpr; [|done]. intros H Hs.
  eapply IH; [exact H|]. intros user t k Hk. simpl.
  erewrite (indexed_add st pr l) in Hk by reflexivity.
  apply elem_of_app in Hk as [Hk|Hk]; [by eapply Hs|]. case_decide; [|by apply elem_of_nil in Hk].
  apply elem_of_list_singleton in Hk as ->. by exists pr.
Qed.
Lemma prs_insert (prs : list prole) l pr0 pr1 k pr :
  prs !! l = Some pr0 -> pr_principal pr1 = pr_principal pr0 -> pr_tenant pr1 = pr_tenant pr0 ->
  prs !! k = Some pr ->
  exists pr', <[l := pr1]> prs !! k = Some pr' /\
     pr_principal pr' = pr_principal pr /\ pr_tenant pr' = pr_tenant pr.
Proof.
  intros H0 H1 H2 Hk. destruct (decide (k = l)) as [->|Hne].
  - exists pr1. rewrite list_lookup_insert by by eapply lookup_lt_Some. assert (pr = pr0) as -> by congruence. done.
  - exists pr. by rewrite list_lookup_insert_ne.
Qed.
Lemma vstep_index o st x st' out :
  v2_wf st -> vstep o st x = Ok (st', out) ->
  index_sound st /\ (broken st \/ index_agrees st) -> index_sound st' /\ (broken st' \/ index_agrees st').
Proof.
  intros Hwf. destruct x; simpl.
  1,2,13: intros [= <- <-]; by apply index_kept; eauto.
  - intros [= <- <-]. apply index_kept; [done|done|]. intros l pr' Hl. exists pr'. split; [|done].
    by apply lookup_app_l_Some.
  - intros (st1 & (r' & Hr' & ->)%upd_role_inv & [= <- <-])%rbind_inv. apply index_kept; eauto.
  - intros (st1 & (r' & Hr' & ->)%upd_role_inv & [= <- <-])%rbind_inv. apply index_kept; eauto.
  - intros (d & Hda & [= <- <-])%rbind_inv. apply index_kept; eauto.
  - intros ([d e] & Hda & [= <- <-])%rbind_inv. apply index_kept; eauto.
  - intros (st1 & (c & Hc & ->)%upd_tenant_inv & [= <- <-])%rbind_inv. apply index_kept; eauto.
  - destruct (w_tenants st !! t) as [c|] eqn:Hc; [|done]. intros [= <- <-]. apply index_kept; eauto.
  - destruct (w_tenants st !! t) as [c|] eqn:Hc; [|done].
    intros (c' & Hc' & [= <- <-])%rbind_inv. apply index_kept; eauto.
  - intros (st1 & (c & Hc & ->)%upd_tenant_inv & [= <- <-])%rbind_inv. apply index_kept; eauto.
  - unfold v2_add_tenant. intros (st1 & H & [= <- <-])%rbind_inv.
    destruct (w_tenants st !! t) as [c|] eqn:Hc; [|done]. apply rbind_inv in H as (ps & _ & [= <-]).
    apply index_kept; eauto.
  - intros (st1 & H & [= <- <-])%rbind_inv [Hs Hc]. split; [by eapply index_add_sound|].
    destruct Hc; [left; by eapply add_principal_role_broken|right; by eapply add_principal_role_agrees].
  - intros ([st1 e] & H & [= <- <-])%rbind_inv [Hs Hc]. simpl. split; [|by eapply remove_agrees].
    pose proof (v2_remove_inv _ _ _ _ H) as (_ & _ & Hprs & _).
    intros user t l Hl. rewrite Hprs. destruct e as [e|].
    + unfold v2_remove_principal_role in H. apply rbind_inv in H as (uj & _ & H).
      case_bool_decide; [|done]. injection H as <- _. by eapply Hs.
    + assert (l ∈ indexed st user t) as Hl'; [|by eapply Hs].
      pose proof (remove_index st target st1 user t H (Hs user t)) as Hr.
      clear -Hr Hl. induction Hr; [done|right; auto|].
      apply elem_of_cons in Hl as [->|?]; [left|right; auto].
  - intros ([st1 e'] & (pr' & Hpr & -> & _)%upd_pr_inv & [= <- <-])%rbind_inv.
    apply index_kept; [done|done|]. intros k prk. apply (prs_insert _ _ _ _ _ _ Hpr);
      unfold set_expiry; by case_bool_decide.
  - intros ([st1 e'] & (pr' & Hpr & -> & _)%upd_pr_inv & [= <- <-])%rbind_inv.
    apply index_kept; [done|done|]. intros k prk. apply (prs_insert _ _ _ _ _ _ Hpr); by destruct a as [[?|]|?|].
  - intros ([st1 e'] & (pr' & Hpr & -> & _)%upd_pr_inv & [= <- <-])%rbind_inv.
    apply index_kept; [done|done|]. intros k prk. by apply (prs_insert _ _ _ _ _ _ Hpr).
  - intros ([st1 b] & H & [= <- <-])%rbind_inv. simpl.
    apply v2_authorize_sound in H as [(d' & -> & Hd') _]; [|done]. apply index_kept; eauto.
  - intros ([st1 b] & H & [= <- <-])%rbind_inv. simpl.
    apply v2_can_sound in H as [(d' & -> & Hd') _]; [|done]. apply index_kept; eauto.
Qed.
Lemma vreachable_index st : vreachable st -> index_sound st /\ (broken st \/ index_agrees st).
Proof.
  apply (vreachable_inv (fun st => index_sound st /\ (broken st \/ index_agrees st))).
  - assert (forall user t, indexed v2_init user t = []) as H0.
    { intros user t. unfold indexed. simpl. by rewrite lookup_empty. }
    split.
    + intros user t l Hl. rewrite H0 in Hl. by apply elem_of_nil in Hl.
    + right. exists []. split; [done|]. intros user t. rewrite H0. constructor.
  - intros o st0 x st' out HP Hwf H. by eapply vstep_index.
Qed.

(** ** A hole in the list makes decisions panic *)
Section panic.
  Variable st : vstate.
  Hypothesis Hwf : v2_wf st.
  Hypothesis Hb : broken st.
  Lemma rows_loop_panics {A} (row : dag -> A -> prole -> res (dag * A)) (good : dag -> Prop)
      now user tid d acc ps :
    (forall d acc pr, good d -> exists d' acc', row d acc pr = Ok (d', acc') /\ good d') ->
    (forall l, Some l ∈ ps -> exists pr, w_prs st !! l = Some pr) -> None ∈ ps -> good d ->
    rows_loop row st now user tid d acc ps = Panic.
  Proof.
    intros Hrow. revert d acc. induction ps as [|p ps IH]; intros d acc Hps Hn Hd.
    - by apply elem_of_nil in Hn.
    - destruct p as [l|]; [|done]. apply elem_of_cons in Hn as [?|Hn]; [done|]. simpl.
      destruct (Hps l) as [pr Hpr]; [left|]. rewrite Hpr.
      assert (forall l, Some l ∈ ps -> exists pr, w_prs st !! l = Some pr) as Hps'.
      { intros l' Hl'. apply Hps. by right. }
      destruct (_ && _ && _); [|by apply IH].
      destruct (Hrow d acc pr Hd) as (d' & acc' & -> & Hd'). simpl. by apply IH.
  Qed.
  Lemma traverse_all_panics {A} (row : dag -> A -> prole -> res (dag * A)) (good : dag -> Prop)
      now user o t c d acc :
    (forall d acc pr, good d -> exists d' acc', row d acc pr = Ok (d', acc') /\ good d') ->
    tenant_at st t c -> good d -> traverse_all row st now user o t d acc = Panic.
  Proof.
    intros Hrow Hc Hd. unfold traverse_all. cbn [traverse]. unfold tenant_at in Hc. rewrite Hc.
    rewrite bool_decide_false by set_solver.
    rewrite (rows_loop_panics row good now user _ _ _ _ Hrow (wf_prs st Hwf) Hb Hd). done.
  Qed.
  Lemma rpp_panics o now d user t c n scope :
    tenant_at st t c -> w_reg st !! vt_id c = Some t -> extends st vr_perms d ->
    resolve_principal_permissions o st now d user (vt_id c) n scope = Panic.
  Proof.
    intros Hc Hr Hd. unfold resolve_principal_permissions. rewrite Hr.
    rewrite (traverse_all_panics (perm_row st n scope) (extends st vr_perms) now user o t c d (∅, ∅)); [done| |done|done].
    intros d0 acc pr Hd0. apply perm_row_returns; [by apply wf_dag|done].
  Qed.
  Lemma rpr_panics o now d user t c n :
    tenant_at st t c -> w_reg st !! vt_id c = Some t -> extends st name_of d ->
    resolve_principal_roles o st now d user (vt_id c) n = Panic.
  Proof.
    intros Hc Hr Hd. unfold resolve_principal_roles. rewrite Hr.
    rewrite (traverse_all_panics (role_row st n) (extends st name_of) now user o t c d ∅); [done| |done|done].
    intros d0 acc pr Hd0. apply role_row_returns; [by apply wf_dag|done].
  Qed.
  Lemma principal_tenants_panics user acc ps :
    (forall l, Some l ∈ ps -> exists pr, w_prs st !! l = Some pr) -> None ∈ ps ->
    principal_tenants st user acc ps = Panic.
  Proof.
    revert acc. induction ps as [|p ps IH]; intros acc Hps Hn; [by apply elem_of_nil in Hn|].
    destruct p as [l|]; [|done]. apply elem_of_cons in Hn as [?|Hn]; [done|]. simpl.
    destruct (Hps l) as [pr Hpr]; [left|]. rewrite Hpr.
    assert (forall l, Some l ∈ ps -> exists pr, w_prs st !! l = Some pr) as Hps'.
    { intros l' Hl'. apply Hps. by right. }
    destruct (_ && _); [|by apply IH].
    destruct (w_reg st !! pr_tenant pr) as [t|] eqn:Ht; [|by apply IH].
    destruct (wf_reg st Hwf _ _ Ht) as (c & Hc & _). unfold tenant_at in Hc. rewrite Hc. by apply IH.
  Qed.
  (** The request gets as far as looking at assignments. *)
  Definition looks (q : request) : Prop :=
    nameless st q \/
    exists name t c n, names st q name /\ w_reg st !! name = Some t /\ tenant_at st t c /\ uses_namespace c q n.
  Lemma find_target_named o q :
    ~ nameless st q -> exists ts, find_target_tenants o st q = Ok ts /\
      match ts with
      | None => forall name, names st q name -> w_reg st !! name = None
      | Some l => exists name t, l = [t] /\ names st q name /\ w_reg st !! name = Some t
      end.
  Proof.
    unfold nameless, names, find_target_tenants. intros Hn.
    set (tn := if bool_decide (q_tenant q = "") then w_default st else q_tenant q).
    assert (tn <> "") as Htn. { unfold tn. case_bool_decide; naive_solver. }
    assert (forall name, (name <> "" /\ (q_tenant q = name \/ q_tenant q = "" /\ w_default st = name)) <-> tn = name) as Hiff.
    { intros name. unfold tn in *. case_bool_decide; naive_solver. }
    rewrite bool_decide_false by done. eexists. split; [done|].
    destruct (w_reg st !! tn) as [t|] eqn:Ht.
    - exists tn, t. split; [done|]. split; [by apply Hiff|done].
    - intros name Hname%Hiff. by subst.
  Qed.
  Lemma nameless_dec q : nameless st q \/ ~ nameless st q.
  Proof.
    unfold nameless. destruct (decide (q_tenant q = "")), (decide (w_default st = "")); tauto.
  Qed.
  Lemma find_target_panics o q : nameless st q -> find_target_tenants o st q = Panic.
  Proof.
    intros [H1 H2]. unfold find_target_tenants. rewrite (bool_decide_true (q_tenant q = "")) by done.
    rewrite bool_decide_true by done. unfold find_principal_tenants.
    by rewrite (principal_tenants_panics _ _ _ (wf_prs st Hwf) Hb).
  Qed.
  Lemma named_same q name t name' t' :
    names st q name -> w_reg st !! name = Some t -> names st q name' -> w_reg st !! name' = Some t' -> t = t'.
  Proof.
    unfold names. intros [Hn H] Hr [Hn' H'] Hr'. assert (name = name') as -> by naive_solver. congruence.
  Qed.
  Lemma v2_authorize_panics o now q : v2_authorize o st now q = Panic <-> looks q.
  Proof.
    unfold v2_authorize. split.
    - intros H. destruct (nameless_dec q) as [Hn|Hn]; [by left|right].
      destruct (find_target_named (sub o 0) q Hn) as ([l|] & Hf & Hts); rewrite Hf in H; simpl in H; [|done].
      destruct Hts as (name & t & -> & Hname & Hr). exists name, t.
      destruct (wf_reg st Hwf _ _ Hr) as (c & Hc & Hid). exists c. simpl in H.
      pose proof Hc as Hc'. unfold tenant_at in Hc'. rewrite Hc' in H.
      destruct (target_namespace c q) as [n|] eqn:Hns; [|done].
      exists n. split; [done|]. split; [done|]. split; [done|]. by apply target_namespace_exact.
    - intros [Hn|(name & t & c & n & Hname & Hr & Hc & Hu)]; [by rewrite find_target_panics|].
      destruct (nameless_dec q) as [Hn|Hn]; [by rewrite find_target_panics|].
      destruct (find_target_named (sub o 0) q Hn) as ([l|] & Hf & Hts); rewrite Hf; simpl.
      + destruct Hts as (name' & t' & -> & Hname' & Hr').
        assert (t' = t) as -> by (by apply (named_same q name' t' name t)). simpl.
        pose proof Hc as Hc'. unfold tenant_at in Hc'. rewrite Hc'.
        apply target_namespace_exact in Hu. rewrite Hu.
        destruct (wf_reg st Hwf _ _ Hr) as (c1 & Hc1 & Hid). assert (c1 = c) as -> by (unfold tenant_at in *; congruence).
        rewrite (rpp_panics _ now (w_dag st) _ t c); [done|done|by rewrite Hid|apply extends_refl].
      + specialize (Hts name Hname). congruence.
  Qed.
  Lemma v2_can_panics o now q roles : v2_can o st now q roles = Panic <-> looks q.
  Proof.
    unfold v2_can. split.
    - intros H. destruct (nameless_dec q) as [Hn|Hn]; [by left|right].
      destruct (find_target_named (sub o 0) q Hn) as ([l|] & Hf & Hts); rewrite Hf in H; simpl in H; [|done].
      destruct Hts as (name & t & -> & Hname & Hr). exists name, t.
      destruct (wf_reg st Hwf _ _ Hr) as (c & Hc & Hid). exists c. simpl in H.
      pose proof Hc as Hc'. unfold tenant_at in Hc'. rewrite Hc' in H.
      destruct (target_namespace c q) as [n|] eqn:Hns; [|done].
      exists n. split; [done|]. split; [done|]. split; [done|]. by apply target_namespace_exact.
    - intros [Hn|(name & t & c & n & Hname & Hr & Hc & Hu)]; [by rewrite find_target_panics|].
      destruct (nameless_dec q) as [Hn|Hn]; [by rewrite find_target_panics|].
      destruct (find_target_named (sub o 0) q Hn) as ([l|] & Hf & Hts); rewrite Hf; simpl.
      + destruct Hts as (name' & t' & -> & Hname' & Hr').
        assert (t' = t) as -> by (by apply (named_same q name' t' name t)). simpl.
        pose proof Hc as Hc'. unfold tenant_at in Hc'. rewrite Hc'.
        apply target_namespace_exact in Hu. rewrite Hu.
        destruct (wf_reg st Hwf _ _ Hr) as (c1 & Hc1 & Hid). assert (c1 = c) as -> by (unfold tenant_at in *; congruence).
        rewrite (rpr_panics _ now (w_dag st) _ t c); [done|done|by rewrite Hid|apply extends_refl].
      + specialize (Hts name Hname). congruence.
  Qed.
End panic.
