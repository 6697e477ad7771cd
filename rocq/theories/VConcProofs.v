(** Questions asked at the same time. *)
From Verif Require Export VConcSeq.
From Verif Require Import RoleModel RoleProofs V2Trav.

Lemma bfs_same contrib h d d' : d_roles d' = d_roles d -> d_edges d' = d_edges d -> forall fuel V R Q,
  bfs contrib fuel h d' V R Q = bfs contrib fuel h d V R Q.
Proof.
  intros Hr He. induction fuel as [|fuel IH]; intros V R Q; cbn [bfs]; [reflexivity|]. destruct Q as [|c Q]; [reflexivity|].
  destruct (bool_decide (c ∈ V)); [apply IH|]. rewrite Hr. destruct (d_roles d !! c) as [l|]; [|apply IH].
  destruct (h !! l) as [r|]; [|reflexivity]. rewrite He. apply IH.
Qed.
Definition contrib_k (b : bool) : vrole -> gset string := if b then vr_perms else name_of.
Lemma resolve_step_eq b st name : resolve_step b st name = let! r := resolve (contrib_k b) (w_roles st) (w_dag st) name in Ok (vw_dag st r.1, r.2).
Proof. by destruct b. Qed.
Definition reading (st : vstate) (b : bool) (r : string) : res (gset string) := let! x := resolve_step b st r in Ok x.2.

Section questions.
  Variable st : vstate.
  Variable P : bool -> string -> Prop.
  Hypothesis HP : forall r, P true r -> P false r -> remembered st r.

  (** The program only reads, and asks for roles allowed by [P]. *)
  Fixpoint asks_ok {A} (c : code A) : Prop :=
    match c with
    | KRet _ => True
    | KRead x k => asks_ok (k (get_var st x))
    | KUpd _ _ _ => False
    | KResolve b name k => P b name /\ forall v, asks_ok (k v)
    | KLock _ k | KUnlock _ k => asks_ok k
    end.
  (** What it returns *)
  Fixpoint val_of {A} (c : code A) : res A :=
    match c with
    | KRet r => r
    | KRead x k => val_of (k (get_var st x))
    | KUpd _ _ k => val_of k
    | KResolve b name k => let! v := reading st b name in val_of (k v)
    | KLock _ k | KUnlock _ k => val_of k
    end.
  Lemma asks_bind {A B} (c : code A) (f : A -> code B) : asks_ok c -> (forall a, asks_ok (f a)) -> asks_ok (kbind c f).
  Proof.
    intros Hc Hf. induction c as [[a| |]|x k IH|x g k IH|b name k IH|m k IH|m k IH]; cbn [kbind asks_ok] in *; auto.
    destruct Hc as [? Hc]. split; auto.
  Qed.
  (** The state while only questions are asked *)
  Definition asked_only (st' : vstate) : Prop :=
    exists d, st' = vw_dag st d /\ d_roles d = d_roles (w_dag st) /\ d_edges d = d_edges (w_dag st) /\
      forall r, d_resolved d !! r = d_resolved (w_dag st) !! r \/
        d_resolved (w_dag st) !! r = None /\ exists b s, P b r /\ reading st b r = Ok s /\ d_resolved d !! r = Some s.
  Lemma asked_start : asked_only st.
  Proof. exists (w_dag st). rewrite vw_dag_self. auto. Qed.
  Lemma asked_get st' x : asked_only st' -> get_var st' x = get_var st x.
  Proof. intros (d & -> & _). by destruct x. Qed.
  Lemma asked_resolve st' b r : asked_only st' -> P b r ->
    match resolve_step b st' r with
    | Ok (st2, s) => asked_only st2 /\ reading st b r = Ok s
    | Panic => reading st b r = Panic
    | Hang => reading st b r = Hang
    end.
  Proof.
    intros (d & -> & Hro & Hed & Hre) Hb. unfold reading. rewrite !resolve_step_eq. unfold resolve. cbn [w_roles w_dag vw_dag].
    destruct (Hre r) as [Hsame|(Hnone & b0 & s & Hb0 & Hs & Hnow)].
    - rewrite Hsame. destruct (d_resolved (w_dag st) !! r) as [s|] eqn:Hc; cbn [rbind fst snd].
      + split; [|reflexivity]. exists d. split; [reflexivity|]. auto.
      + rewrite Hed, (bfs_same _ _ (w_dag st) d Hro Hed).
        destruct (bfs (contrib_k b) (2 + edge_count (d_edges (w_dag st))) (w_roles st) (w_dag st) ∅ ∅ [r]) as [s| |] eqn:Hbf;
          cbn [rbind fst snd]; [|reflexivity|reflexivity].
        split; [|reflexivity]. exists (Dag (d_roles d) (d_edges (w_dag st)) (<[r := s]> (d_resolved d))).
        split; [reflexivity|]. split; [exact Hro|]. split; [reflexivity|]. intros r'. cbn [d_resolved].
        destruct (decide (r' = r)) as [->|Hn]; [|rewrite lookup_insert_ne by done; apply Hre].
        right. split; [exact Hc|]. exists b, s. split; [exact Hb|]. split; [|apply lookup_insert].
        unfold reading. rewrite resolve_step_eq. unfold resolve. rewrite Hc, Hbf. reflexivity.
    - rewrite Hnow. cbn [rbind fst snd]. split; [exists d; split; [reflexivity|]; auto|].
      assert (b0 = b) as ->.
      { destruct b0, b; try reflexivity; exfalso; destruct (HP r) as [? ?]; auto; congruence. }
      unfold reading in Hs. rewrite resolve_step_eq in Hs. unfold resolve in Hs. exact Hs.
  Qed.
  Lemma exec_val {A} (c : code A) : forall st', asked_only st' -> asks_ok c ->
    match exec st' c with
    | Ok (st2, a) => asked_only st2 /\ val_of c = Ok a
    | Panic => val_of c = Panic
    | Hang => val_of c = Hang
    end.
  Proof.
    induction c as [[a| |]|x k IH|x g k IH|b name k IH|m k IH|m k IH]; intros st' Hst Hc; cbn [exec val_of asks_ok rbind] in *; auto.
    - rewrite (asked_get _ _ Hst). apply IH; [exact Hst|exact Hc].
    - destruct Hc.
    - destruct Hc as [Hb Hc]. pose proof (asked_resolve _ _ _ Hst Hb) as Hr.
      destruct (resolve_step b st' name) as [[st2 s]| |]; cbn [rbind fst snd]; [|by rewrite Hr|by rewrite Hr].
      destruct Hr as [Hst2 ->]. cbn [rbind]. apply IH; auto.
    - by apply IH.
    - by apply IH.
  Qed.
  Lemma code_step_val {A} i s (c : code A) s' c' : asked_only (k_st s) -> asks_ok c -> code_step i s c = Some (s', c') ->
    asked_only (k_st s') /\ asks_ok c' /\ val_of c' = val_of c.
  Proof.
    intros Hst Hc. destruct s as [st' h]. cbn [k_st] in *.
    destruct c as [r|x k|x g k|b name k|m k|m k]; cbn [code_step asks_ok val_of] in *; try discriminate.
    - intros [= <- <-]. rewrite (asked_get _ _ Hst). auto.
    - destruct Hc.
    - destruct Hc as [Hb Hc]. pose proof (asked_resolve _ _ _ Hst Hb) as Hr.
      destruct (resolve_step b st' name) as [[st2 v]| |]; intros [= <- <-]; cbn [k_st].
      + destruct Hr as [Hst2 ->]. split; [exact Hst2|]. split; [apply Hc|reflexivity].
      + rewrite Hr. split; [exact Hst|]. split; [exact I|reflexivity].
      + rewrite Hr. split; [exact Hst|]. split; [exact I|reflexivity].
    - destruct (free h m); [|discriminate]. intros [= <- <-]. auto.
    - intros [= <- <-]. auto.
  Qed.
End questions.

(** ** Which roles a decision asks for *)
Section needs.
  Variable st : vstate.
  Variable now : Z.
  Variable user : string.
  Variable P : bool -> string -> Prop.
  Notation ok := (asks_ok st P).

  Lemma ok_expired l : ok (k_expired now l).
  Proof. unfold k_expired. cbn [asks_ok]. destruct (get_var st (GExpiry l)) as [e|]; cbn [asks_ok]; [|exact I].
    by destruct (get_var st (GExpiry l)). Qed.
  Section traverse.
    Context {A : Type}.
    Variable krow : A -> prole -> code A.
    Hypothesis Hrow : forall acc pr, assigned st pr -> pr_principal pr = user -> ok (krow acc pr).
    Lemma ok_rows tid ps : (forall p, p ∈ ps -> p ∈ w_assign st) -> forall acc, ok (k_rows st now krow user tid acc ps).
    Proof.
      induction ps as [|[l|] ps IH]; intros Hps acc; cbn [k_rows]; [exact I| |exact I].
      assert (IH' := IH (fun p H => Hps p (elem_of_list_further _ _ _ H))).
      destruct (w_prs st !! l) as [pr|] eqn:Hl; [|exact I].
      destruct (bool_decide (pr_principal pr = user) && bool_decide (pr_tenant pr = tid)) eqn:Hm; [|apply IH'].
      apply asks_bind; [apply ok_expired|]. intros e. destruct e; [apply IH'|]. apply asks_bind; [|intros; apply IH'].
      apply andb_true_iff in Hm as [Hm _]. apply bool_decide_eq_true in Hm. apply Hrow; [|exact Hm].
      exists l. split; [apply Hps; left|exact Hl].
    Qed.
    Section loops.
      Variable krec : oracle -> nat -> gset string -> A -> code (gset string * A).
      Hypothesis Hrec : forall o t V acc, ok (krec o t V acc).
      Lemma ok_kids o cs : forall i V acc, ok (k_kids krec o i cs V acc).
      Proof. induction cs as [|c cs IH]; intros i V acc; cbn [k_kids]; [exact I|]. apply asks_bind; [apply Hrec|]. intros; apply IH. Qed.
      Lemma ok_manage o t tid ps : forall i V acc, ok (k_manage st user krec o i t tid ps V acc).
      Proof.
        induction ps as [|[l|] ps IH]; intros i V acc; cbn [k_manage]; [exact I| |exact I].
        destruct (w_prs st !! l) as [pr|]; [|exact I]. destruct (_ && _); [|apply IH]. cbn [asks_ok].
        apply asks_bind; [apply ok_kids|]. intros; apply IH.
      Qed.
    End loops.
    Lemma ok_traverse fuel : forall o t V acc, ok (k_traverse st now krow user fuel o t V acc).
    Proof.
      induction fuel as [|fuel IH]; intros o t V acc; cbn [k_traverse]; [exact I|]. destruct (w_tenants st !! t) as [c|]; [|exact I].
      destruct (bool_decide (vt_id c ∈ V)); [exact I|]. cbn [asks_ok get_var]. apply asks_bind; [by apply ok_rows|].
      intros acc'. cbn [asks_ok get_var]. apply ok_manage. intros; apply IH.
    Qed.
    Lemma ok_traverse_all o t acc : ok (k_traverse_all st now krow user o t acc).
    Proof. apply asks_bind; [apply ok_traverse|]. intros; exact I. Qed.
  End traverse.
  Lemma ok_own_tenants ps : forall acc, ok (k_own_tenants st user acc ps).
  Proof.
    induction ps as [|[l|] ps IH]; intros acc; cbn [k_own_tenants]; [exact I| |exact I].
    destruct (w_prs st !! l) as [pr|]; [|exact I]. destruct (_ && _); [|apply IH]. cbn [asks_ok get_var].
    destruct (w_reg st !! pr_tenant pr) as [t|]; [|apply IH]. destruct (w_tenants st !! t); [|exact I]. cbn [asks_ok]. apply IH.
  Qed.
  Lemma ok_find_targets o q : q_principal q = user -> ok (k_find_targets st o q).
  Proof.
    intros Hq. unfold k_find_targets.
    assert (Hn : forall tn, ok (if bool_decide (tn = "") then kbind (k_find_own st o (q_principal q)) (fun ts => KRet (Ok (Some ts)))
      else KRead GReg (fun reg : gmap string nat => KRet (Ok (match reg !! tn with None => None | Some t => Some [t] end))))).
    { intros tn. destruct (bool_decide (tn = "")); [|exact I]. apply asks_bind; [|intros; exact I]. unfold k_find_own. cbn [asks_ok get_var].
      apply asks_bind; [|intros; exact I]. rewrite Hq. apply ok_own_tenants. }
    destruct (bool_decide (q_tenant q = "")) eqn:Hb; [|specialize (Hn (q_tenant q)); rewrite Hb in Hn; exact Hn]. cbn [asks_ok get_var].
    destruct (bool_decide (w_default st = "")) eqn:Hd; [exact (Hn "")|]. cbn [asks_ok get_var]. apply Hn.
  Qed.
  Lemma ok_namespace o t q : ok (k_namespace o t q).
  Proof.
    unfold k_namespace.
    assert (Hn : forall n, ok (KRead (GNames t) (fun names : gset string => if bool_decide (n ∈ names) then
          if bool_decide (q_scope q = "") then KRet (Ok (Some n))
          else KRead (GScopes t n) (fun ss : gset string => KRet (Ok (if bool_decide (q_scope q ∈ ss) then Some n else None)))
        else KRet (Ok None)))).
    { intros n. cbn [asks_ok get_var]. destruct (bool_decide (n ∈ _)); [|exact I]. by destruct (bool_decide (q_scope q = "")). }
    destruct (negb _); [apply Hn|]. cbn [asks_ok get_var]. destruct (negb _); [apply (Hn (vt_default (kten st t)))|]. cbn [asks_ok get_var].
    destruct (bool_decide (size (names_at (kten st t)) = 1)); [|exact I]. cbn [asks_ok get_var].
    destruct (ordered o (elements (names_at (kten st t)))) as [|n l]; apply Hn.
  Qed.
End needs.

Lemma ok_authorize st (P : bool -> string -> Prop) now o q :
  (forall pr, assigned st pr -> pr_principal pr = q_principal q -> P true (pr_role pr)) -> asks_ok st P (k_authorize st now o q).
Proof.
  intros HP. apply asks_bind; [by eapply ok_find_targets|]. intros [ts|]; [|exact I]. generalize (sub o 1) as o1. intros o1. generalize 0 as i. induction ts as [|t ts IH]; intros i; cbn [k_authorize_loop]; [exact I|].
  destruct (w_tenants st !! t) as [c|]; [|exact I]. apply asks_bind; [apply ok_namespace|]. intros [n|]; [|apply IH].
  apply asks_bind.
  - unfold k_permissions. cbn [asks_ok get_var]. destruct (w_reg st !! vt_id c) as [t'|]; [|exact I].
    apply asks_bind; [|intros; exact I]. apply ok_traverse_all. intros acc pr Ha Hp. unfold k_perm_row. destruct (_ || _); [|exact I].
    cbn [asks_ok]. split; [by apply HP|]. intros; exact I.
  - intros [ps|]; [|apply IH]. apply asks_bind; [exact I|]. intros []; [exact I|apply IH].
Qed.
Lemma ok_can st (P : bool -> string -> Prop) now o q roles :
  (forall pr, assigned st pr -> pr_principal pr = q_principal q -> P false (pr_role pr)) -> asks_ok st P (k_can st now o q roles).
Proof.
  intros HP. apply asks_bind; [by eapply ok_find_targets|]. intros [ts|]; [|exact I]. generalize (sub o 1) as o1. intros o1. generalize 0 as i. induction ts as [|t ts IH]; intros i; cbn [k_can_loop]; [exact I|].
  destruct (w_tenants st !! t) as [c|]; [|exact I]. apply asks_bind; [apply ok_namespace|]. intros [n|]; [|apply IH].
  apply asks_bind.
  - unfold k_roles. cbn [asks_ok get_var]. destruct (w_reg st !! vt_id c) as [t'|]; [|exact I].
    apply asks_bind; [|intros; exact I]. apply ok_traverse_all. intros acc pr Ha Hp. unfold k_role_row. destruct (_ && _); [|exact I].
    cbn [asks_ok]. split; [by apply HP|]. intros; exact I.
  - intros [rs|]; [|apply IH]. destruct (existsb _ _); [exact I|apply IH].
Qed.
Definition needed (st : vstate) (calls : list kcall) (b : bool) (r : string) : Prop := exists c, c ∈ calls /\ may_need st c b r.
Lemma ok_question st calls c : question c -> c ∈ calls -> asks_ok st (needed st calls) (code_of st c).
Proof.
  destruct c as [o now q|o now q roles|id| | | | | | | | | | | |]; intros Hq Hc; try destruct Hq; cbn [code_of].
  - apply asks_bind; [|intros; exact I]. apply ok_authorize. intros pr Ha Hp. exists (KAuthorize o now q). split; [exact Hc|]. exists pr. auto.
  - apply asks_bind; [|intros; exact I]. apply ok_can. intros pr Ha Hp. exists (KCan o now q roles). split; [exact Hc|]. exists pr. auto.
  - exact I.
  - unfold k_get_default. cbn [asks_ok get_var]. by destruct (bool_decide (w_default st = "")).
Qed.

(** ** The interleavings *)
Lemma trun_snoc s sched i : trun s (sched ++ [i]) = trun s sched ≫= (fun s' => tstep s' i).
Proof.
  revert s. induction sched as [|j sched IH]; intros s; cbn [app trun].
  - cbn [mbind option_bind]. destruct (tstep s i); reflexivity.
  - destruct (tstep s j); cbn; [apply IH|reflexivity].
Qed.
Lemma tmet_ind st calls (I : ksh * list (code kout) -> Prop) :
  I (tstart st calls) -> (forall s i s', tmet st calls s -> I s -> tstep s i = Some s' -> I s') -> forall s, tmet st calls s -> I s.
Proof.
  intros H0 Hs s [sched Hr]. revert s Hr. induction sched as [|i sched IH] using rev_ind; intros s Hr.
  - injection Hr as <-. exact H0.
  - rewrite trun_snoc in Hr. destruct (trun (tstart st calls) sched) as [s1|] eqn:H1; [|discriminate]. cbn in Hr.
    eapply Hs; [by exists sched|by apply IH|exact Hr].
Qed.
Lemma tstep_inv s i s' : tstep s i = Some s' -> exists c h' c', s.2 !! i = Some c /\ code_step i s.1 c = Some (h', c') /\ s' = (h', <[i := c']> s.2).
Proof.
  unfold tstep. destruct (s.2 !! i) as [c|] eqn:Hc; [|discriminate]. cbn.
  destruct (code_step i s.1 c) as [[h' c']|] eqn:Hs; [|discriminate]. cbn. intros [= <-]. by exists c, h', c'.
Qed.
Section asking.
  Variable st : vstate.
  Variable calls : list kcall.
  Hypothesis Hq : Forall question calls.
  Hypothesis Hu : unmixed st calls.
  Lemma unmixed_needed r : needed st calls true r -> needed st calls false r -> remembered st r.
  Proof. intros (c & Hc & Hn) (c' & Hc' & Hn'). by apply (Hu r c c'). Qed.
  Lemma asking_inv s : tmet st calls s -> asked_only st (needed st calls) (k_st s.1) /\ length s.2 = length calls /\
    forall i k c, s.2 !! i = Some k -> calls !! i = Some c -> asks_ok st (needed st calls) k /\ val_of st k = val_of st (code_of st c).
  Proof.
    revert s. apply tmet_ind.
    - split; [apply asked_start|]. split; [apply fmap_length|]. intros i k c Hk Hc. cbn in Hk. rewrite list_lookup_fmap, Hc in Hk.
      injection Hk as <-. split; [|reflexivity]. apply ok_question; [|by apply elem_of_list_lookup_2 in Hc].
      rewrite Forall_lookup in Hq. by eapply Hq.
    - intros s i s' _ (Ha & Hl & Hi) Hs. apply tstep_inv in Hs as (c & h' & c' & Hc & Hstep & ->). cbn [fst snd].
      assert (exists call, calls !! i = Some call) as [call Hcall].
      { apply lookup_lt_is_Some. rewrite <- Hl. by apply lookup_lt_Some in Hc. }
      destruct (Hi _ _ _ Hc Hcall) as [Hok Hv].
      destruct (code_step_val st _ unmixed_needed _ _ _ _ _ Ha Hok Hstep) as (Ha' & Hok' & Hv').
      split; [exact Ha'|]. split; [by rewrite insert_length|]. intros j k cj Hk Hcj. destruct (decide (j = i)) as [->|Hn].
      + rewrite list_lookup_insert in Hk by (by apply lookup_lt_Some in Hc). injection Hk as <-. replace cj with call by congruence.
        split; [exact Hok'|]. by rewrite Hv'.
      + rewrite list_lookup_insert_ne in Hk by done. by apply (Hi j).
  Qed.
  Lemma code_of_dag d c : code_of (vw_dag st d) c = code_of st c.
  Proof. reflexivity. Qed.
  Lemma answer_later st' c : asked_only st (needed st calls) st' -> c ∈ calls ->
    match seq_call st' c with
    | Ok (st2, a) => asked_only st (needed st calls) st2 /\ val_of st (code_of st c) = Ok a
    | Panic => val_of st (code_of st c) = Panic
    | Hang => val_of st (code_of st c) = Hang
    end.
  Proof.
    intros Ha Hc. pose proof Ha as (d & -> & _). rewrite <- exec_call, code_of_dag. apply exec_val; [apply unmixed_needed|exact Ha|].
    apply ok_question; [|exact Hc]. rewrite Forall_forall in Hq. by apply Hq.
  Qed.
  Lemma answers_alone s i c r : tmet st calls s -> calls !! i = Some c -> returned s i r -> r = answer_of st c.
  Proof.
    intros Hm Hc Hr. destruct (asking_inv s Hm) as (_ & _ & Hi). destruct (Hi _ _ _ Hr Hc) as [_ Hv]. cbn [val_of] in Hv. rewrite Hv.
    pose proof (answer_later st c (asked_start _ _) (elem_of_list_lookup_2 _ _ _ Hc)) as Hl. unfold answer_of.
    destruct (seq_call st c) as [[st2 a]| |]; [destruct Hl as [_ ->]|rewrite Hl|rewrite Hl]; reflexivity.
  Qed.
  (** Nothing changes but what is remembered of roles, and what was remembered stays. *)
  Lemma nothing_changes s : tmet st calls s -> exists d, k_st s.1 = vw_dag st d /\ d_roles d = d_roles (w_dag st) /\
    d_edges d = d_edges (w_dag st) /\ (forall r v, d_resolved (w_dag st) !! r = Some v -> d_resolved d !! r = Some v).
  Proof.
    intros Hm. destruct (asking_inv s Hm) as ((d & -> & Hr & He & Hre) & _). exists d. split; [reflexivity|]. split; [exact Hr|]. split; [exact He|].
    intros r v Hv. destruct (Hre r) as [H|[H _]]; congruence.
  Qed.
  Lemma in_any_order order : (forall i, i ∈ order -> exists c out, calls !! i = Some c /\ answer_of st c = Ok out) ->
    forall st', asked_only st (needed st calls) st' -> exists l, in_order calls st' order l /\
      forall i out, (i, out) ∈ l -> exists c, calls !! i = Some c /\ answer_of st c = Ok out.
  Proof.
    induction order as [|i order IH]; intros Ho st' Ha.
    - exists []. split; [constructor|]. intros i out H. by apply elem_of_nil in H.
    - destruct (Ho i) as (c & out & Hc & Hout); [left|].
      pose proof (answer_later st' c Ha (elem_of_list_lookup_2 _ _ _ Hc)) as Hl.
      assert (Hv : val_of st (code_of st c) = Ok out).
      { pose proof (answer_later st c (asked_start _ _) (elem_of_list_lookup_2 _ _ _ Hc)) as Hl0. unfold answer_of in Hout.
        destruct (seq_call st c) as [[st2 a]| |]; try discriminate. destruct Hl0 as [_ ->]. injection Hout as ->. reflexivity. }
      destruct (seq_call st' c) as [[st1 a]| |] eqn:Hs; [|congruence|congruence]. destruct Hl as [Ha1 Hl].
      assert (a = out) as -> by congruence.
      destruct (IH (fun j Hj => Ho j (elem_of_list_further _ _ _ Hj)) st1 Ha1) as (l & Hl1 & Hl2).
      exists ((i, out) :: l). split; [by econstructor|]. intros j o Hj. apply elem_of_cons in Hj as [[= -> ->]|Hj]; [by exists c|by apply Hl2].
  Qed.
  Lemma fits_all_orders s outs order : tmet st calls s -> (forall i out, outs !! i = Some out -> returned s i (Ok out)) ->
    length outs = length calls -> order ≡ₚ seq 0 (length calls) ->
    exists l, in_order calls st order l /\ forall i out, (i, out) ∈ l -> outs !! i = Some out.
  Proof.
    intros Hm Ho Hlen Hperm.
    assert (Hall : forall i, i ∈ order -> exists c out, calls !! i = Some c /\ outs !! i = Some out /\ answer_of st c = Ok out).
    { intros i Hi. rewrite Hperm in Hi. apply elem_of_seq in Hi as [_ Hi]. cbn in Hi.
      destruct (lookup_lt_is_Some_2 calls i Hi) as [c Hc]. rewrite <- Hlen in Hi. destruct (lookup_lt_is_Some_2 outs i Hi) as [out Hout].
      exists c, out. split; [exact Hc|]. split; [exact Hout|]. symmetry. by apply (answers_alone s i c); [| |apply Ho]. }
    destruct (in_any_order order) with (st' := st) as (l & Hl & Hl2); [|apply asked_start|].
    - intros i Hi. destruct (Hall i Hi) as (c & out & Hc & _ & Ha). by exists c, out.
    - exists l. split; [exact Hl|]. intros i out Hin. destruct (Hl2 i out Hin) as (c & Hc & Ha).
      assert (i ∈ order) as Hi.
      { clear -Hl Hin. induction Hl as [|st i' c st1 o order l' H1 H2 H3 IH]; [by apply elem_of_nil in Hin|].
        apply elem_of_cons in Hin as [[= -> ->]|Hin]; [left|right; auto]. }
      destruct (Hall i Hi) as (c' & out' & Hc' & Hout & Ha'). congruence.
  Qed.
  Lemma asking_fits : fits_some_order st calls.
  Proof.
    intros s outs Hm Ho Hlen. destruct (fits_all_orders s outs (seq 0 (length calls)) Hm Ho Hlen) as (l & Hl & Hl2); [reflexivity|].
    by exists (seq 0 (length calls)), l.
  Qed.
End asking.
