(** Which calls do race; which crash. *)
From Verif Require Export VConcSafe.
From Verif Require Import RoleModel RoleHas V2Auth V2Inv.

(** ** Calls that do not race *)
Lemma asking_no_race st calls s x i j : Forall question calls -> tmet st calls s -> ~ vrace s x i j.
Proof.
  intros Hq Hm Hr. destruct (race_collides _ _ _ _ _ _ Hm Hr) as (c & c' & Hc & _ & Hw & _).
  pose proof (Forall_lookup_1 _ _ _ _ Hq Hc) as Hqc. destruct c, x; cbn in Hw, Hqc; done.
Qed.
Lemma locked_no_race st calls s x i j : Forall takes_locks calls ->
  (forall o t cs, KAddTenant o t ∈ calls -> KAddChildren t cs ∉ calls) -> tmet st calls s -> ~ vrace s x i j.
Proof.
  intros Hl Hk Hm Hr. destruct (race_collides _ _ _ _ _ _ Hm Hr) as (c & c' & Hc & Hc' & Hw & Hr' & Hn).
  pose proof (Forall_lookup_1 _ _ _ _ Hl Hc) as H1. pose proof (Forall_lookup_1 _ _ _ _ Hl Hc') as H2.
  apply elem_of_list_lookup_2 in Hc, Hc'.
  destruct Hn as [Hn|Hn].
  - destruct c; cbn in H1; try done; destruct x; cbn in Hw, Hn; done.
  - destruct c'; cbn in H2; try done; destruct x; cbn in Hr', Hn; try done; try (by destruct Hr').
    destruct Hr' as [?|<-]; [done|]. destruct c; cbn in H1, Hw; try done. subst. by eapply Hk.
Qed.

(** ** Calls that do *)
Lemma met_after st calls sched s : trun (tstart st calls) sched = Some s -> tmet st calls s.
Proof. intros H. by exists sched. Qed.
Ltac race_now b := split; [discriminate|]; do 2 eexists; exists b; split; [reflexivity|]; split; [reflexivity|]; split; reflexivity.

Lemma race_reg st o now q roles o' t (can : bool) : q_tenant q <> "" -> is_Some (w_tenants st !! t) ->
  exists s, tmet st [if can then KCan o now q roles else KAuthorize o now q; KAddTenant o' t] s /\ vrace s GReg 1 0.
Proof.
  intros Hq [c Hc].
  assert (H2 : code_of st (KAddTenant o' t) = KLock LAuth (KUpd GReg (fun m : gmap string nat => <[vt_id c := t]> m)
                  (KRead (GKids t) (fun kids : gmap string nat => k_parents st t (ordered o' (map_to_list kids).*2))))).
  { cbn [code_of]. unfold k_add_tenant. by rewrite Hc. }
  destruct (trun (tstart st [if can then KCan o now q roles else KAuthorize o now q; KAddTenant o' t]) [1]) as [s|] eqn:Hs.
  - exists s. split; [by eapply met_after|]. unfold tstart in Hs. cbn [fmap list_fmap] in Hs. rewrite H2 in Hs. cbn in Hs. injection Hs as <-.
    split; [discriminate|]. do 2 eexists. exists false. split; [reflexivity|]. split; [reflexivity|]. split; [reflexivity|].
    destruct can; cbn [code_of]; unfold k_can, k_authorize, k_find_targets; rewrite !(bool_decide_eq_false_2 _ Hq); reflexivity.
  - exfalso. unfold tstart in Hs. cbn [fmap list_fmap] in Hs. rewrite H2 in Hs. discriminate.
Qed.
Lemma race_default st o now q roles id (can : bool) : q_tenant q = "" ->
  vrace (tstart st [if can then KCan o now q roles else KAuthorize o now q; KSetDefault id]) GDefault 1 0.
Proof.
  intros Hq. split; [discriminate|]. do 2 eexists. exists false. split; [reflexivity|]. split; [reflexivity|]. split; [reflexivity|].
  destruct can; cbn [code_of]; unfold k_can, k_authorize, k_find_targets; rewrite (bool_decide_eq_true_2 _ Hq); reflexivity.
Qed.
Lemma race_get_default st id : vrace (tstart st [KGetDefault; KSetDefault id]) GDefault 1 0.
Proof. race_now false. Qed.
Lemma race_status st t s1 s2 : is_Some (w_tenants st !! t) -> vrace (tstart st [KSetStatus t s1; KSetStatus t s2]) (GStatus t) 1 0.
Proof.
  intros [c Hc]. split; [discriminate|]. do 2 eexists. exists true. split; [reflexivity|]. split; [reflexivity|].
  split; cbn [code_of]; rewrite Hc; reflexivity.
Qed.
Lemma race_remove st target l ls : is_Some (w_prs st !! l) -> exists s, tmet st [KRemovePR target; KAddPR (l :: ls)] s /\ vrace s GAssign 1 0.
Proof.
  intros [pr Hpr].
  destruct (trun (tstart st [KRemovePR target; KAddPR (l :: ls)]) [1; 1]) as [s|] eqn:Hs.
  - exists s. split; [by eapply met_after|]. unfold tstart in Hs. cbn [fmap list_fmap code_of k_add_rows] in Hs. rewrite Hpr in Hs. cbn in Hs. injection Hs as <-.
    race_now false.
  - exfalso. unfold tstart in Hs. cbn [fmap list_fmap code_of k_add_rows] in Hs. rewrite Hpr in Hs. discriminate.
Qed.

(** ** Going on alone *)
Inductive goes {A : Type} : vstate -> code A -> vstate -> code A -> Prop :=
| goes_refl st c : goes st c st c
| goes_read st x k st' c' : goes st (k (get_var st x)) st' c' -> goes st (KRead x k) st' c'
| goes_upd st x f k st' c' : goes (put_var st x (f (get_var st x))) k st' c' -> goes st (KUpd x f k) st' c'
| goes_resolve st b name k st1 v st' c' : resolve_step b st name = Ok (st1, v) -> goes st1 (k v) st' c' -> goes st (KResolve b name k) st' c'.
Lemma goes_trans {A} st (c : code A) st1 c1 st2 c2 : goes st c st1 c1 -> goes st1 c1 st2 c2 -> goes st c st2 c2.
Proof. induction 1; intros; eauto using @goes. Qed.
Lemma goes_bind {A B} st (c : code A) st1 c1 (f : A -> code B) : goes st c st1 c1 -> goes st (kbind c f) st1 (kbind c1 f).
Proof. induction 1; cbn [kbind]; eauto using @goes. Qed.
Lemma goes_run (i : nat) st c st' c' : goes st c st' c' -> forall h ks, ks !! i = Some c ->
  exists sched, trun (KSh st h, ks) sched = Some (KSh st' h, <[i := c']> ks).
Proof.
  assert (Hi : forall (ks : list (code kout)) c, ks !! i = Some c -> forall c1, <[i := c1]> ks !! i = Some c1).
  { intros ks c0 Hk c1. apply list_lookup_insert. by apply lookup_lt_Some in Hk. }
  induction 1 as [st c|st x k st' c' _ IH|st x f k st' c' _ IH|st b name k st1 v st' c' Hr _ IH]; intros h ks Hk.
  - exists []. cbn. by rewrite list_insert_id.
  - destruct (IH h (<[i := k (get_var st x)]> ks)) as [sched Hs]; [by eapply Hi|]. exists (i :: sched).
    cbn [trun]. unfold tstep. cbn [fst snd]. rewrite Hk. cbn. rewrite list_insert_insert in Hs. exact Hs.
  - destruct (IH h (<[i := k]> ks)) as [sched Hs]; [by eapply Hi|]. exists (i :: sched).
    cbn [trun]. unfold tstep. cbn [fst snd]. rewrite Hk. cbn. rewrite list_insert_insert in Hs. exact Hs.
  - destruct (IH h (<[i := k v]> ks)) as [sched Hs]; [by eapply Hi|]. exists (i :: sched).
    cbn [trun]. unfold tstep. cbn [fst snd]. rewrite Hk. cbn [code_step mbind option_bind]. rewrite Hr. cbn. rewrite list_insert_insert in Hs. exact Hs.
Qed.
Fixpoint lockless {A} (c : code A) : Prop :=
  match c with
  | KRet _ => True
  | KRead _ k => forall v, lockless (k v)
  | KUpd _ _ k => lockless k
  | KResolve _ _ k => forall v, lockless (k v)
  | KLock _ _ | KUnlock _ _ => False
  end.
Lemma goes_alone {A} (c : code A) : lockless c -> forall st st' a, exec st c = Ok (st', a) -> goes st c st' (KRet (Ok a)).
Proof.
  induction c as [[a| |]|x k IH|x g k IH|b name k IH|m k IH|m k IH]; intros Hl st st' a' He; cbn [lockless exec] in *; try done.
  - injection He as <- <-. constructor.
  - constructor. by apply IH.
  - constructor. by apply IH.
  - apply rbind_inv in He as ([st1 v] & Hr & He). econstructor; [exact Hr|]. by apply IH.
Qed.
Lemma lockless_namespace o t q : lockless (k_namespace o t q).
Proof.
  unfold k_namespace.
  assert (Hn : forall n, lockless (KRead (GNames t) (fun names : gset string => if bool_decide (n ∈ names) then
        if bool_decide (q_scope q = "") then KRet (Ok (Some n))
        else KRead (GScopes t n) (fun ss : gset string => KRet (Ok (if bool_decide (q_scope q ∈ ss) then Some n else None)))
      else KRet (Ok None)))).
  { intros n v. destruct (bool_decide (n ∈ _)); [|done]. by destruct (bool_decide (q_scope q = "")). }
  destruct (negb _); [apply Hn|]. intros d. destruct (negb _); [intros d'; apply Hn|]. intros names.
  match goal with |- lockless (if ?b then _ else _) => destruct b end; [|done]. intros names'.
  match goal with |- lockless (match ?l with [] => _ | _ => _ end) => destruct l end; apply Hn.
Qed.
Lemma goes_target {A} st o q name t (f : option (list nat) -> code A) : names st q name -> w_reg st !! name = Some t ->
  goes st (kbind (k_find_targets st o q) f) st (f (Some [t])).
Proof.
  intros [Hne Hn] Ht. unfold k_find_targets.
  assert (Hb : goes st (kbind (if bool_decide (name = "") then kbind (k_find_own st o (q_principal q)) (fun ts => KRet (Ok (Some ts)))
      else KRead GReg (fun reg : gmap string nat => KRet (Ok (match reg !! name with None => None | Some t => Some [t] end)))) f) st (f (Some [t]))).
  { rewrite (bool_decide_eq_false_2 _ Hne). cbn [kbind]. constructor. cbn [get_var]. rewrite Ht. constructor. }
  destruct Hn as [Hn|[Hn Hd]].
  - rewrite (bool_decide_eq_false_2 (q_tenant q = "")) by congruence. cbn [kbind]. constructor. cbn [get_var]. rewrite Hn, Ht. constructor.
  - rewrite (bool_decide_eq_true_2 (q_tenant q = "")) by congruence. cbn [kbind]. constructor. cbn [get_var]. rewrite Hd.
    rewrite (bool_decide_eq_false_2 (name = "")) by congruence. cbn [kbind]. constructor. cbn [get_var]. rewrite Hd. exact Hb.
Qed.
Lemma goes_namespace {A} st o t c q n (f : option string -> code A) : tenant_at st t c -> uses_namespace c q n ->
  goes st (kbind (k_namespace o t q) f) st (f (Some n)).
Proof.
  intros Hc Hn. apply target_namespace_exact in Hn.
  assert (H : goes st (k_namespace o t q) st (KRet (Ok (Some n)))).
  { apply goes_alone; [apply lockless_namespace|]. pose proof (exec_namespace st o t c q (w_dag st) Hc) as H.
    rewrite vw_dag_self, Hn in H. exact H. }
  exact (goes_bind _ _ _ _ f H).
Qed.

(** ** A decision crashes when ClearExpiry comes in between *)
Definition about_to {A} (l : nat) (c : code A) : Prop :=
  exists k : option Z -> code A, c = KRead (GExpiry l) k /\ forall e, exists k2 : option Z -> code A, k (Some e) = KRead (GExpiry l) k2 /\ k2 None = KRet Panic.
Lemma about_expired now l : about_to l (k_expired now l).
Proof. eexists. split; [reflexivity|]. intros e. eexists. split; reflexivity. Qed.
Lemma about_bind {A B} l (c : code A) (f : A -> code B) : about_to l c -> about_to l (kbind c f).
Proof.
  intros (k & -> & Hk). eexists. split; [reflexivity|]. intros e. destruct (Hk e) as (k2 & He & H2). cbn. rewrite He. eexists. split; [reflexivity|].
  cbn. by rewrite H2.
Qed.
Section cleared.
  Variable st : vstate.
  Variable now : Z.
  Hypothesis Hw : world st st.
  Definition same_but_cache (st' : vstate) : Prop := exists d, st' = vw_dag st d.
  Lemma cache_prs st' : same_but_cache st' -> w_prs st' = w_prs st /\ w_assign st' = w_assign st.
  Proof. by intros [d ->]. Qed.
  Lemma cache_resolve st' b name : world st st' -> same_but_cache st' -> exists st2 v, resolve_step b st' name = Ok (st2, v) /\ world st st2 /\ same_but_cache st2.
  Proof.
    intros Hw' [d ->]. destruct (world_resolve st _ b name Hw') as (st2 & v & Hr & Hw2 & _). exists st2, v. split; [exact Hr|]. split; [exact Hw2|].
    unfold resolve_step in Hr. apply rbind_inv in Hr as (r & _ & [= <- _]). by exists r.1.
  Qed.
  Section rows.
    Context {A : Type}.
    Variable row : A -> prole -> code A.
    Variables user tid : string.
    Hypothesis Hrow : forall st' acc pr, world st st' -> same_but_cache st' ->
      exists st2 acc', goes st' (row acc pr) st2 (KRet (Ok acc')) /\ world st st2 /\ same_but_cache st2.
    Lemma rows_reach l pr ps2 ps1 : w_prs st !! l = Some pr -> pr_principal pr = user -> pr_tenant pr = tid ->
      (forall p, p ∈ ps1 -> exists l, p = Some l /\ is_Some (w_prs st !! l)) ->
      forall st' acc, world st st' -> same_but_cache st' -> exists st2 c, goes st' (k_rows st now row user tid acc (ps1 ++ Some l :: ps2)) st2 c /\
        about_to l c /\ same_but_cache st2.
    Proof.
      intros Hl Hu Ht. induction ps1 as [|p ps1 IH]; intros Hps st' acc Hw' Hs'; cbn [app k_rows].
      - rewrite Hl, Hu, Ht, !bool_decide_eq_true_2 by reflexivity. cbn [andb]. eexists st', _. split; [constructor|]. split; [apply about_bind, about_expired|exact Hs'].
      - destruct (Hps p) as (l' & -> & pr' & Hpr'); [left|]. rewrite Hpr'.
        assert (Hps' : forall p, p ∈ ps1 -> exists l, p = Some l /\ is_Some (w_prs st !! l)) by (intros p Hp; apply Hps; by right).
        specialize (IH Hps'). destruct (_ && _); [|by apply IH].
        assert (He : goes st' (k_expired now l') st' (KRet (Ok (is_expired now pr')))).
        { apply goes_alone; [intros [e|]; [intros [e'|]|]; exact I|]. destruct Hs' as [d ->]. by apply exec_expired. }
        pose proof (goes_bind _ _ _ _ (fun e : bool => if e then k_rows st now row user tid acc (ps1 ++ Some l :: ps2)
          else kbind (row acc pr') (fun acc' => k_rows st now row user tid acc' (ps1 ++ Some l :: ps2))) He) as He'. cbn [kbind] in He'.
        destruct (is_expired now pr').
        + destruct (IH st' acc Hw' Hs') as (st2 & c & Hg & H). exists st2, c. split; [|exact H]. by eapply goes_trans.
        + destruct (Hrow st' acc pr' Hw' Hs') as (st1 & acc1 & Hg1 & Hw1 & Hs1).
          destruct (IH st1 acc1 Hw1 Hs1) as (st2 & c & Hg & H). exists st2, c. split; [|exact H].
          eapply goes_trans; [exact He'|]. eapply goes_trans; [|exact Hg].
          pose proof (goes_bind _ _ _ _ (fun acc' => k_rows st now row user tid acc' (ps1 ++ Some l :: ps2)) Hg1) as H1. exact H1.
    Qed.
    Lemma traverse_reach o t c l pr acc : tenant_at st t c -> vt_id c = tid -> Some l ∈ w_assign st -> w_prs st !! l = Some pr ->
      pr_principal pr = user -> pr_tenant pr = tid ->
      exists st2 k, goes st (k_traverse_all st now row user o t acc) st2 k /\ about_to l k /\ same_but_cache st2.
    Proof.
      intros Hc Hid Hin Hl Hu Ht. apply elem_of_list_split in Hin as (ps1 & ps2 & Has).
      assert (Hf : fine st GAssign (w_assign st)) by apply Hw.
      destruct (rows_reach l pr ps2 ps1 Hl Hu Ht) with (st' := st) (acc := acc) as (st2 & k & Hg & Hk & Hs).
      - intros p Hp. apply Hf. rewrite Has. apply elem_of_app. by left.
      - exact Hw.
      - exists (w_dag st). by rewrite vw_dag_self.
      - eexists st2, _. split.
        + unfold k_traverse_all. cbn [k_traverse]. unfold tenant_at in Hc. rewrite Hc.
          rewrite (bool_decide_eq_false_2 (vt_id c ∈ ∅)) by set_solver. cbn [kbind]. constructor. cbn [get_var]. rewrite Hid, Has.
          apply goes_bind, goes_bind, Hg.
        + split; [apply about_bind, about_bind, Hk|exact Hs].
    Qed.
  End rows.
  Lemma perm_row_goes ns scope st' acc pr : world st st' -> same_but_cache st' ->
    exists st2 acc', goes st' (k_perm_row ns scope acc pr) st2 (KRet (Ok acc')) /\ world st st2 /\ same_but_cache st2.
  Proof.
    intros Hw' Hs'. unfold k_perm_row. destruct (_ || _).
    - destruct (cache_resolve st' true (pr_role pr) Hw' Hs') as (st2 & v & Hr & H). eexists st2, _. split; [|exact H]. econstructor; [exact Hr|]. constructor.
    - eexists st', _. split; [constructor|]. auto.
  Qed.
  Lemma role_row_goes ns st' acc pr : world st st' -> same_but_cache st' ->
    exists st2 acc', goes st' (k_role_row ns acc pr) st2 (KRet (Ok acc')) /\ world st st2 /\ same_but_cache st2.
  Proof.
    intros Hw' Hs'. unfold k_role_row. destruct (_ && _).
    - destruct (cache_resolve st' false (pr_role pr) Hw' Hs') as (st2 & v & Hr & H). eexists st2, _. split; [|exact H]. econstructor; [exact Hr|]. constructor.
    - eexists st', _. split; [constructor|]. auto.
  Qed.
  Variables (q : request) (roles : list string) (name n : string) (t l : nat) (c : vtenant) (pr : prole) (e : Z).
  Hypotheses (Hn : names st q name) (Ht : w_reg st !! name = Some t) (Hc : tenant_at st t c) (Hid : vt_id c = name) (Hns : uses_namespace c q n)
    (Hl : Some l ∈ w_assign st) (Hpr : w_prs st !! l = Some pr) (Hu : pr_principal pr = q_principal q) (Hpt : pr_tenant pr = name)
    (He : pr_expiry pr = Some e).
  Lemma authorize_reach o : exists st2 k, goes st (k_authorize st now o q) st2 k /\ about_to l k /\ same_but_cache st2.
  Proof.
    destruct (traverse_reach (k_perm_row n (q_scope q)) (q_principal q) name (perm_row_goes n (q_scope q)) (sub (sub (sub o 1) 0) 0) t c l pr (∅, ∅)
      Hc Hid Hl Hpr Hu Hpt) as (st2 & k & Hg & Hk & Hs).
    eexists st2, _. split.
    - unfold k_authorize. eapply goes_trans; [by apply (goes_target _ _ _ name t)|]. cbn [k_authorize_loop]. unfold tenant_at in Hc. rewrite Hc.
      eapply goes_trans; [by apply (goes_namespace _ _ _ c)|]. cbv beta iota. unfold k_permissions. cbn [kbind]. constructor. cbn [get_var].
      rewrite Hid, Ht. apply goes_bind, goes_bind, Hg.
    - split; [|exact Hs]. apply about_bind, about_bind, Hk.
  Qed.
  Lemma can_reach o : exists st2 k, goes st (k_can st now o q roles) st2 k /\ about_to l k /\ same_but_cache st2.
  Proof.
    destruct (traverse_reach (k_role_row n) (q_principal q) name (role_row_goes n) (sub (sub o 1) 0) t c l pr ∅
      Hc Hid Hl Hpr Hu Hpt) as (st2 & k & Hg & Hk & Hs).
    eexists st2, _. split.
    - unfold k_can. eapply goes_trans; [by apply (goes_target _ _ _ name t)|]. cbn [k_can_loop]. unfold tenant_at in Hc. rewrite Hc.
      eapply goes_trans; [by apply (goes_namespace _ _ _ c)|]. cbv beta iota. unfold k_roles. cbn [kbind]. constructor. cbn [get_var].
      rewrite Hid, Ht. apply goes_bind, goes_bind, Hg.
    - split; [|exact Hs]. apply about_bind, about_bind, Hk.
  Qed.
  Lemma cleared_crash o (can : bool) :
    exists s, tmet st [if can then KCan o now q roles else KAuthorize o now q; KClearExpiry l] s /\ returned s 0 Panic.
  Proof.
    assert (Hg : exists st2 k, goes st (code_of st (if can then KCan o now q roles else KAuthorize o now q)) st2 k /\ about_to l k /\ same_but_cache st2).
    { destruct can; cbn [code_of].
      - destruct (can_reach o) as (st2 & k & Hg & Hk & Hs). eexists st2, _. split; [apply goes_bind, Hg|]. split; [apply about_bind, Hk|exact Hs].
      - destruct (authorize_reach o) as (st2 & k & Hg & Hk & Hs). eexists st2, _. split; [apply goes_bind, Hg|]. split; [apply about_bind, Hk|exact Hs]. }
    destruct Hg as (st2 & k & Hg & (k1 & -> & Hk) & [d ->]). destruct (Hk e) as (k2 & Hk1 & Hk2).
    set (c0 := if can then KCan o now q roles else KAuthorize o now q) in *.
    destruct (goes_run 0 _ _ _ _ Hg [] [code_of st c0; code_of st (KClearExpiry l)] eq_refl) as [sched Hs].
    cbn [insert list_insert] in Hs.
    assert (Hcl : code_of st (KClearExpiry l) = KUpd (GExpiry l) (set_to (x := GExpiry l) None) (KRet (Ok TUnit))).
    { cbn [code_of]. unfold k_clear_expiry. by rewrite Hpr. }
    rewrite Hcl in Hs.
    assert (Hex : get_var (vw_dag st d) (GExpiry l) = Some e) by (cbn; rewrite Hpr; exact He).
    set (upd := KUpd (GExpiry l) (set_to (x := GExpiry l) None) (KRet (Ok TUnit))) in *.
    set (start := (KSh st [], [code_of st c0; upd])) in *.
    assert (H1 : trun start (sched ++ [0]) = Some (KSh (vw_dag st d) [], [KRead (GExpiry l) k2; upd])).
    { rewrite trun_snoc, Hs. cbn [mbind option_bind]. unfold tstep. cbn [fst snd lookup list_lookup mbind option_bind code_step].
      rewrite Hex, Hk1. reflexivity. }
    assert (H2 : trun start ((sched ++ [0]) ++ [1]) =
      Some (KSh (vw_prs (vw_dag st d) (alter (fun pr => with_expiry pr None) l (w_prs st))) [], [KRead (GExpiry l) k2; KRet (Ok TUnit)])).
    { rewrite trun_snoc, H1. reflexivity. }
    assert (Hno : get_var (vw_prs (vw_dag st d) (alter (fun pr => with_expiry pr None) l (w_prs st))) (GExpiry l) = None).
    { cbn. rewrite list_lookup_alter, Hpr. reflexivity. }
    eexists. split.
    - exists (((sched ++ [0]) ++ [1]) ++ [0]). unfold tstart. cbn [fmap list_fmap]. rewrite Hcl. fold start. rewrite trun_snoc, H2.
      cbn [mbind option_bind]. unfold tstep. cbn [fst snd lookup list_lookup mbind option_bind code_step]. rewrite Hno, Hk2. reflexivity.
    - reflexivity.
  Qed.
End cleared.

(** ** A decision under way races with what it comes to read *)
Lemma race_reach st c0 c1 (x : kvar) st2 k m y kr f rest : goes st (code_of st c0) st2 k -> next_touch k = Some (x, false) ->
  code_of st c1 = KLock m (KRead y kr) -> kr (get_var st2 y) = KUpd x f rest -> exists s, tmet st [c0; c1] s /\ vrace s x 1 0.
Proof.
  intros Hg Hk H1 Hr. destruct (goes_run 0 _ _ _ _ Hg [] [code_of st c0; code_of st c1] eq_refl) as [sched Hs]. cbn [insert list_insert] in Hs.
  set (start := (KSh st [], [code_of st c0; code_of st c1])) in *.
  assert (H2 : trun start (sched ++ [1]) = Some (KSh st2 [(m, 1)], [k; KRead y kr])).
  { rewrite trun_snoc, Hs. cbn [mbind option_bind]. unfold tstep. cbn [fst snd lookup list_lookup mbind option_bind]. rewrite H1. reflexivity. }
  exists (KSh st2 [(m, 1)], [k; KUpd x f rest]). split.
  - exists ((sched ++ [1]) ++ [1]). unfold tstart. cbn [fmap list_fmap]. fold start. rewrite trun_snoc, H2. cbn [mbind option_bind].
    unfold tstep. cbn [fst snd lookup list_lookup mbind option_bind code_step]. rewrite Hr. reflexivity.
  - split; [discriminate|]. exists (KUpd x f rest), k, false. split; [reflexivity|]. split; [reflexivity|]. split; [reflexivity|]. exact Hk.
Qed.
Section named.
  Variables (st : vstate) (now : Z) (q : request) (roles : list string) (name : string) (t : nat) (c : vtenant).
  Hypotheses (Hn : names st q name) (Ht : w_reg st !! name = Some t) (Hc : tenant_at st t c) (Hid : vt_id c = name).
  Lemma race_names o (can : bool) n b : q_namespace q <> "" -> vt_namespaces c !! n = None ->
    exists s, tmet st [if can then KCan o now q roles else KAuthorize o now q; KAddNamespace t n b] s /\ vrace s (GNames t) 1 0.
  Proof.
    intros Hq Hno. assert (Hg : exists k, goes st (code_of st (if can then KCan o now q roles else KAuthorize o now q)) st k /\ next_touch k = Some (GNames t, false)).
    { destruct can; cbn [code_of]; unfold k_can, k_authorize.
      - eexists. split; [apply goes_bind, (goes_target _ _ _ name t); done|]. cbn [k_can_loop]. unfold tenant_at in Hc. rewrite Hc.
        unfold k_namespace. rewrite (bool_decide_eq_false_2 _ Hq). reflexivity.
      - eexists. split; [apply goes_bind, (goes_target _ _ _ name t); done|]. cbn [k_authorize_loop]. unfold tenant_at in Hc. rewrite Hc.
        unfold k_namespace. rewrite (bool_decide_eq_false_2 _ Hq). reflexivity. }
    destruct Hg as (k & Hg & Hk). eapply (race_reach _ _ _ _ _ _ _ (GNames t)); [exact Hg|exact Hk| |].
    - cbn [code_of]. unfold k_add_namespace. unfold tenant_at in Hc. rewrite Hc. reflexivity.
    - cbn [get_var]. unfold kten. unfold tenant_at in Hc. rewrite Hc. cbn [default].
      rewrite bool_decide_eq_false_2; [reflexivity|]. unfold names_at. by apply not_elem_of_dom.
  Qed.
  Lemma race_assign o (can : bool) n l ls : uses_namespace c q n -> is_Some (w_prs st !! l) ->
    exists s, tmet st [if can then KCan o now q roles else KAuthorize o now q; KAddPR (l :: ls)] s /\ vrace s GAssign 1 0.
  Proof.
    intros Hns [pr Hpr].
    assert (Hg : exists k, goes st (code_of st (if can then KCan o now q roles else KAuthorize o now q)) st k /\ next_touch k = Some (GAssign, false)).
    { destruct can; cbn [code_of]; unfold k_can, k_authorize.
      - eexists. split.
        + eapply goes_trans; [apply goes_bind, (goes_target _ _ _ name t); done|]. cbn [k_can_loop]. pose proof Hc as Hc'. unfold tenant_at in Hc'. rewrite Hc'.
          eapply goes_trans; [apply goes_bind, (goes_namespace _ _ _ c _ n); done|]. unfold k_roles. cbn [kbind]. apply goes_read. cbn [get_var]. rewrite Hid, Ht. apply goes_refl.
        + unfold k_traverse_all. cbn [k_traverse]. unfold tenant_at in Hc. rewrite Hc. rewrite (bool_decide_eq_false_2 (vt_id c ∈ ∅)) by set_solver. reflexivity.
      - eexists. split.
        + eapply goes_trans; [apply goes_bind, (goes_target _ _ _ name t); done|]. cbn [k_authorize_loop]. pose proof Hc as Hc'. unfold tenant_at in Hc'. rewrite Hc'.
          eapply goes_trans; [apply goes_bind, (goes_namespace _ _ _ c _ n); done|]. unfold k_permissions. cbn [kbind]. apply goes_read. cbn [get_var]. rewrite Hid, Ht. apply goes_refl.
        + unfold k_traverse_all. cbn [k_traverse]. unfold tenant_at in Hc. rewrite Hc. rewrite (bool_decide_eq_false_2 (vt_id c ∈ ∅)) by set_solver. reflexivity. }
    destruct Hg as (k & Hg & Hk). eapply (race_reach _ _ _ _ _ _ _ GAssign); [exact Hg|exact Hk| |].
    - cbn [code_of k_add_rows]. rewrite Hpr. reflexivity.
    - reflexivity.
  Qed.
End named.
Lemma named_id st name t c : vreachable st -> w_reg st !! name = Some t -> tenant_at st t c -> vt_id c = name.
Proof. intros Hr Ht Hc. destruct (wf_reg st (vreachable_wf st Hr) name t Ht) as (c' & Hc' & <-). unfold tenant_at in *. congruence. Qed.
Lemma cleared_hole st o now q roles name n t l c pr e (can : bool) : vreachable st -> ~ broken st -> names st q name -> w_reg st !! name = Some t ->
  tenant_at st t c -> uses_namespace c q n -> Some l ∈ w_assign st -> w_prs st !! l = Some pr -> pr_principal pr = q_principal q -> pr_tenant pr = name ->
  pr_expiry pr = Some e -> exists s, tmet st [if can then KCan o now q roles else KAuthorize o now q; KClearExpiry l] s /\ returned s 0 Panic.
Proof.
  intros Hr Hb Hn Ht Hc Hns Hl Hpr Hu Hpt He.
  apply (cleared_crash st now (world_start st Hr Hb) q roles name n t l c pr e Hn Ht Hc (named_id st name t c Hr Ht Hc) Hns Hl Hpr Hu Hpt He).
Qed.
Lemma names_hole st o now q roles name t c n b (can : bool) : names st q name -> w_reg st !! name = Some t -> tenant_at st t c ->
  q_namespace q <> "" -> vt_namespaces c !! n = None ->
  exists s, tmet st [if can then KCan o now q roles else KAuthorize o now q; KAddNamespace t n b] s /\ vrace s (GNames t) 1 0.
Proof. intros. by eapply race_names. Qed.
Lemma assign_hole st o now q roles name t c n l ls (can : bool) : vreachable st -> names st q name -> w_reg st !! name = Some t -> tenant_at st t c ->
  uses_namespace c q n -> is_Some (w_prs st !! l) ->
  exists s, tmet st [if can then KCan o now q roles else KAuthorize o now q; KAddPR (l :: ls)] s /\ vrace s GAssign 1 0.
Proof. intros Hr Hn Ht Hc Hns Hl. by apply (race_assign st now q roles name t c Hn Ht Hc (named_id st name t c Hr Ht Hc) o can n l ls). Qed.
Lemma no_crash_cases st calls s i c r : vreachable st -> ~ broken st -> Forall (handed st) calls -> Forall no_nil calls -> tmet st calls s ->
  calls !! i = Some c -> returned s i r -> r <> Panic /\ (r = Hang -> exists o now q, c = KAuthorize o now q).
Proof.
  intros Hr Hb Hh Hn Hm Hc Hret. pose proof (no_crash st calls s i c r Hr Hb Hh Hn Hm Hc Hret) as H.
  destruct c; cbn [comes_to] in H; try (destruct H as (out0 & -> & _); split; [discriminate|intros; discriminate]). split; [exact H|]. intros _. do 3 eexists. reflexivity.
Qed.
