(** Calls that ask and assign on one v1 manager at the same time: crashes, answers, rows added. *)
From Verif Require Import RoleProofs.
From Verif Require Export V1RowsRun.

(** ** Every goroutine *)
(** Where a goroutine that may add rows with [P] can stand *)
Definition running (P : string -> Prop) (v0 : gset string) (c : jcode jout) : Prop :=
  match c with
  | JNext m s k => forall v, only P (k v)
  | JBegin h k | JEnd h k => P h /\ h ∉ v0 /\ only P k
  | _ => only P c
  end.
Lemma only_running P v0 c : only P c -> running P v0 c.
Proof. destruct c; cbn [only running]; intros H; first [exact H|destruct H]. Qed.
Lemma running_step P v0 v w pick c v' w' c' : v0 ⊆ v -> jcode_step v w pick c = Some (inr (v', w', c')) -> running P v0 c -> running P v0 c'.
Proof.
  intros Hv H R. destruct c as [r|k|m s k|h k|h k|h k]; cbn [jcode_step running] in *.
  - discriminate H.
  - injection H as <- <- <-. destruct (bool_decide (v = ∅)); [apply only_running, R|intros u; apply R].
  - destruct w; [discriminate H|]. destruct pick as [h|]; [destruct (_ && _)|destruct (bool_decide (m ⊆ s))]; try discriminate H; injection H as <- <- <-; [exact R|]. apply only_running, R.
  - destruct (w && _); [discriminate H|]. injection H as <- <- <-. destruct R as [R1 R2]. destruct (decide (h ∈ v)) as [E|E]; [rewrite bool_decide_eq_true_2 by exact E; apply only_running, R2|rewrite bool_decide_eq_false_2 by exact E]. split; [exact R1|]. split; [|exact R2]. intros N. apply E, Hv, N.
  - destruct w; [discriminate H|]. injection H as <- <- <-. exact R.
  - injection H as <- <- <-. apply only_running, R.
Qed.
Lemma met_running st cs M i c : j_met st cs M -> j_codes M !! i = Some c -> u_rows st ⊆ j_rows M /\ exists d, cs !! i = Some d /\ running (may_add st d) (u_rows st) c.
Proof.
  intros HM Hc. refine (thread_pres (fun v i c => u_rows st ⊆ v /\ exists d, cs !! i = Some d /\ running (may_add st d) (u_rows st) c) st cs M i c _ _ _ HM Hc).
  - intros v v' j x Hv [H1 H2]. split; [|exact H2]. set_solver.
  - intros v w pick j x v' w' x' Hs [H1 (d & Hd & R)]. pose proof (rows_grow _ _ _ _ _ _ _ Hs) as G. split; [set_solver|]. exists d. split; [exact Hd|]. exact (running_step _ _ _ _ _ _ _ _ _ H1 Hs R).
  - intros j d Hd. split; [reflexivity|]. exists d. split; [exact Hd|]. apply only_running, call_only.
Qed.
(** Rows that were not there come from a call that is about their principal. *)
Lemma met_rows st cs M h : j_met st cs M -> h ∈ j_rows M -> h ∈ u_rows st \/ exists d, d ∈ cs /\ may_add st d h.
Proof.
  intros HM. assert (H : j_met st cs M /\ forall h, h ∈ j_rows M -> h ∈ u_rows st \/ exists d, d ∈ cs /\ may_add st d h); [|intros Hh; exact (proj2 H h Hh)].
  destruct HM as [xs HR]. revert M HR. induction xs as [|x xs IH] using rev_ind; intros M HR.
  - injection HR as <-. split; [exists []; reflexivity|]. intros h' Hh. left. exact Hh.
  - assert (E : exists M1, jrun (jstart st cs) xs = Some M1 /\ jstep M1 x = Some M).
    { clear IH. revert HR. generalize (jstart st cs) as M0. induction xs as [|y xs IH]; intros M0 HR; cbn [app jrun] in *.
      - exists M0. split; [reflexivity|]. destruct (jstep M0 x) as [M1|]; [|discriminate HR]. exact HR.
      - destruct (jstep M0 y) as [M1|]; [|discriminate HR]. exact (IH M1 HR). }
    destruct E as (M1 & E1 & E2). destruct (IH M1 E1) as [HM1 HI]. split; [exists (xs ++ [x]); exact HR|]. apply jstep_inv in E2 as (_ & c & Hc & [[_ ->]|(v & w & c' & E & ->)]); [exact HI|]. cbn [j_rows]. intros h' Hh.
    destruct (met_running st cs M1 x.1 c HM1 Hc) as (_ & d & Hd & R). destruct c as [r|k|m s k|h0 k|h0 k|h0 k]; cbn [jcode_step] in E.
    + discriminate E.
    + injection E as <- <- <-. exact (HI h' Hh).
    + destruct (j_writing M1); [discriminate E|]. destruct x.2 as [h0|]; [destruct (_ && _)|destruct (bool_decide (m ⊆ s))]; try discriminate E; injection E as <- <- <-; exact (HI h' Hh).
    + destruct (_ && _); [discriminate E|]. injection E as <- <- <-. exact (HI h' Hh).
    + destruct (j_writing M1); [discriminate E|]. injection E as <- <- <-. exact (HI h' Hh).
    + injection E as <- <- <-. apply elem_of_union in Hh as [Hh|Hh]; [|exact (HI h' Hh)]. apply elem_of_singleton in Hh as ->. right. exists d. split; [exact (elem_of_list_lookup_2 _ _ _ Hd)|]. exact (proj1 R).
Qed.

(** ** Crashes *)
Definition at_end (c : jcode jout) : Prop := match c with JEnd _ _ => True | _ => False end.
(** The flag is set exactly while one goroutine writes. *)
Definition flag_ok (M : jmachine) : Prop :=
  (j_writing M = true -> exists i c, j_codes M !! i = Some c /\ at_end c)
  /\ (forall i c, j_codes M !! i = Some c -> at_end c -> j_writing M = true /\ forall j d, j_codes M !! j = Some d -> at_end d -> j = i)
  /\ (j_dead M = true -> exists i j c d, i <> j /\ j_codes M !! i = Some c /\ at_end c /\ j_codes M !! j = Some d /\ forall r, d <> JRet r).
Lemma only_no_end P c : only P c -> ~ at_end c.
Proof. destruct c; cbn [only at_end]; intros H N; first [exact N|exact H]. Qed.
Lemma running_back P v0 v w pick c v' w' c' : running P v0 c -> jcode_step v w pick c = Some (inr (v', w', c')) ->
  (w' = w /\ ~ at_end c /\ ~ at_end c') \/ (w = false /\ w' = true /\ ~ at_end c /\ at_end c') \/ (w' = false /\ at_end c /\ ~ at_end c').
Proof.
  intros R H. destruct c as [r|k|m s k|h k|h k|h k]; cbn [jcode_step running] in *.
  - discriminate H.
  - injection H as <- <- <-. left. split; [reflexivity|]. split; [intros []|]. destruct (bool_decide (v = ∅)); [exact (only_no_end _ _ (R _))|intros []].
  - destruct w; [discriminate H|]. left. destruct pick as [h|]; [destruct (_ && _)|destruct (bool_decide (m ⊆ s))]; try discriminate H; injection H as <- <- <-; (split; [reflexivity|]); (split; [intros []|]); [intros []|exact (only_no_end _ _ (R _))].
  - destruct (w && _); [discriminate H|]. injection H as <- <- <-. left. split; [reflexivity|]. split; [intros []|]. destruct (bool_decide (h ∈ v)); [exact (only_no_end _ _ (proj2 R))|intros []].
  - destruct w; [discriminate H|]. injection H as <- <- <-. right. left. split; [reflexivity|]. split; [reflexivity|]. split; [intros []|exact I].
  - injection H as <- <- <-. right. right. split; [reflexivity|]. split; [exact I|]. exact (only_no_end _ _ (proj2 (proj2 R))).
Qed.
Lemma step_fatal v w pick c : jcode_step v w pick c = Some (inl tt) -> w = true /\ ~ at_end c /\ forall r, c <> JRet r.
Proof.
  intros E. destruct w.
  - split; [reflexivity|]. destruct c as [r|k|m s k|h k|h k|h k]; cbn [jcode_step] in E; try discriminate E; (split; [intros []|discriminate]).
  - exfalso. destruct c as [r|k|m s k|h k|h k|h k]; cbn [jcode_step andb] in E; try discriminate E. destruct pick as [h|]; [destruct (_ && _)|destruct (bool_decide (m ⊆ s))]; discriminate E.
Qed.
Lemma flag_step M x M' : (forall i c, j_codes M !! i = Some c -> exists P v0, running P v0 c) -> flag_ok M -> jstep M x = Some M' -> flag_ok M'.
Proof.
  intros HR (F1 & F2 & F3) H. apply jstep_inv in H as (Hdead & c & Hc & [[E ->]|(v & w & c' & E & ->)]).
  - split; [exact F1|]. split; [exact F2|]. intros _. assert (W : j_writing M = true /\ ~ at_end c /\ forall r, c <> JRet r).
    { destruct (step_fatal _ _ _ _ E) as [W N]. split; [exact W|exact N]. }
    destruct W as (W & N & NR). destruct (F1 W) as (i & d & Hd & Ed). exists i, x.1, d, c. split; [|split; [exact Hd|split; [exact Ed|split; [exact Hc|exact NR]]]]. intros ->. rewrite Hc in Hd. injection Hd as <-. exact (N Ed).
  - destruct (HR x.1 c Hc) as (P & v0 & R). assert (L : x.1 < length (j_codes M)) by (apply lookup_lt_is_Some; rewrite Hc; eauto).
    assert (LK : forall j d, <[x.1 := c']> (j_codes M) !! j = Some d -> (j = x.1 /\ d = c') \/ (j <> x.1 /\ j_codes M !! j = Some d)).
    { intros j d Hj. destruct (decide (j = x.1)) as [->|N]; [rewrite list_lookup_insert in Hj by exact L; injection Hj as <-; left; split; reflexivity|]. rewrite list_lookup_insert_ne in Hj by (intros N'; apply N; symmetry; exact N'). right. split; [exact N|exact Hj]. }
    unfold flag_ok. cbn [j_writing j_codes j_dead]. split; [|split; [|discriminate]].
    + intros ->. destruct (running_back _ _ _ _ _ _ _ _ _ R E) as [(W & N & N')|[(W & _ & N & Ec)|(W & _)]].
      * symmetry in W. destruct (F1 W) as (i & d & Hd & Ed). exists i, d. split; [|exact Ed]. rewrite list_lookup_insert_ne; [exact Hd|]. intros <-. rewrite Hc in Hd. injection Hd as <-. exact (N Ed).
      * exists x.1, c'. split; [apply list_lookup_insert; exact L|exact Ec].
      * discriminate W.
    + intros i d Hi Ed. apply LK in Hi as [[-> ->]|[Ni Hi]].
      * destruct (running_back _ _ _ _ _ _ _ _ _ R E) as [(W & N & N')|[(W & W' & N & Ec)|(W & _ & N)]]; [destruct (N' Ed)| |destruct (N Ed)]. split; [exact W'|]. intros j d' Hj Ed'. apply LK in Hj as [[-> _]|[Nj Hj]]; [reflexivity|]. destruct (F2 j d' Hj Ed') as [W2 _]. rewrite W in W2. discriminate W2.
      * destruct (F2 i d Hi Ed) as [W2 U]. destruct (running_back _ _ _ _ _ _ _ _ _ R E) as [(W & N & N')|[(W & W' & N & Ec)|(W & Ec & N)]].
        -- split; [rewrite W; exact W2|]. intros j d' Hj Ed'. apply LK in Hj as [[-> ->]|[Nj Hj]]; [destruct (N' Ed')|exact (U j d' Hj Ed')].
        -- rewrite W in W2. discriminate W2.
        -- destruct Ni. symmetry. exact (U x.1 c Hc Ec).
Qed.
Lemma met_step st cs M x M' : j_met st cs M -> jstep M x = Some M' -> j_met st cs M'.
Proof.
  intros [xs HR] HS. exists (xs ++ [x]). revert HR. generalize (jstart st cs) as M0. induction xs as [|y xs IH]; intros M0 HR; cbn [app jrun] in *.
  - injection HR as ->. rewrite HS. reflexivity.
  - destruct (jstep M0 y) as [M1|]; [|discriminate HR]. exact (IH M1 HR).
Qed.
Lemma met_flag st cs M : j_met st cs M -> flag_ok M.
Proof.
  intros HM. apply (met_pres (fun M => j_met st cs M /\ flag_ok M) st cs M); [| |exact HM].
  - split; [exists []; reflexivity|]. split; [discriminate|]. split; [|discriminate]. intros i c Hi Ec. exfalso. cbn [jstart j_codes] in Hi. rewrite list_lookup_fmap in Hi. destruct (cs !! i) as [d|]; [|discriminate Hi]. injection Hi as <-. exact (only_no_end _ _ (call_only st d) Ec).
  - intros M1 x M2 [H1 H2] HS. split; [exact (met_step _ _ _ _ _ H1 HS)|]. apply (flag_step M1 x M2); [|exact H2|exact HS]. intros i c Hc. destruct (met_running st cs M1 i c H1 Hc) as (_ & d & _ & R). exists (may_add st d), (u_rows st). exact R.
Qed.
(** The call looks at the assignments or adds to them. *)
Definition silent (st : ustate) (c : jcall) : Prop := exists r, j_code st c = JRet r.
Lemma ret_stays st cs M i c r : j_met st cs M -> cs !! i = Some c -> j_code st c = JRet r -> j_codes M !! i = Some (JRet r).
Proof.
  intros HM Hc E. apply (met_pres (fun M => j_codes M !! i = Some (JRet r)) st cs M); [| |exact HM].
  - cbn [jstart j_codes]. rewrite list_lookup_fmap, Hc. cbn [fmap option_fmap option_map]. rewrite E. reflexivity.
  - intros M1 x M2 H HS. apply jstep_inv in HS as (_ & d & Hd & [[_ ->]|(v & w & c' & E' & ->)]); [exact H|]. cbn [j_codes]. rewrite list_lookup_insert_ne; [exact H|]. intros <-. rewrite H in Hd. injection Hd as <-. discriminate E'.
Qed.
Lemma crash_who st cs M : j_met st cs M -> j_dead M = true ->
  exists i j ci cj h, i <> j /\ cs !! i = Some ci /\ cs !! j = Some cj /\ may_add st ci h /\ h ∉ u_rows st /\ ~ silent st cj.
Proof.
  intros HM HD. destruct (met_flag st cs M HM) as (_ & _ & F3). destruct (F3 HD) as (i & j & c & d & N & Hc & Ec & Hd & NR). destruct c as [r|k|m s k|h k|h k|h k]; try (destruct Ec).
  destruct (met_running st cs M i _ HM Hc) as (_ & ci & Hi & R). destruct (met_running st cs M j _ HM Hd) as (_ & cj & Hj & _). exists i, j, ci, cj, h. split; [exact N|]. split; [exact Hi|]. split; [exact Hj|]. split; [exact (proj1 R)|]. split; [exact (proj1 (proj2 R))|].
  intros [r Er]. rewrite (ret_stays st cs M j cj r HM Hj Er) in Hd. injection Hd as <-. exact (NR r eq_refl).
Qed.

(** ** Nothing is added *)
Fixpoint quiet {A} (v : gset string) (c : jcode A) : Prop :=
  match c with
  | JRet _ => True
  | JScan k => quiet v (k v)
  | JNext m s k => m = v /\ s ⊆ v /\ quiet v (k v)
  | JPut h k => h ∈ v /\ quiet v k
  | JBegin _ _ | JEnd _ _ => False
  end.
Lemma only_quiet {A} v (c : jcode A) : only (fun _ => False) c -> quiet v c.
Proof. induction c as [r|k IH|m s k IH|h k IH|h k IH|h k IH]; cbn [only quiet]; intros H; [exact I|exact (IH v (H v))|destruct H|destruct (proj1 H)|destruct H..]. Qed.
Lemma exec_grows {A} (c : jcode A) : forall v w a, jexec v c = Ok (w, a) -> v ⊆ w.
Proof.
  induction c as [r|k IH|m s k IH|h k IH|h k IH|h k IH]; intros v w a H; cbn [jexec] in H; try (apply IH in H; set_solver). destruct r as [x| |]; [|discriminate H..]. injection H as <- <-. reflexivity.
Qed.
Lemma exec_quiet {A} P (c : jcode A) : forall v a, only P c -> jexec v c = Ok (v, a) -> quiet v c.
Proof.
  induction c as [r|k IH|m s k IH|h k IH|h k IH|h k IH]; intros v a Ho H; cbn [jexec only quiet] in *; [exact I|exact (IH v v a (Ho v) H)|destruct Ho| |destruct Ho..].
  assert (Hh : h ∈ v) by (pose proof (exec_grows _ _ _ _ H); set_solver). split; [exact Hh|]. apply (IH v a (proj2 Ho)). rewrite <-H. f_equal. set_solver.
Qed.
Lemma quiet_step v pick c r : quiet v c -> jcode_step v false pick c = Some r -> exists c', r = inr (v, false, c') /\ quiet v c' /\ jexec v c' = jexec v c.
Proof.
  intros Q H. destruct c as [x|k|m s k|h k|h k|h k]; cbn [jcode_step quiet] in *.
  - discriminate H.
  - injection H as <-. destruct (decide (v = ∅)) as [->|N].
    + rewrite bool_decide_eq_true_2 by reflexivity. exists (k ∅). split; [reflexivity|]. split; [exact Q|reflexivity].
    + rewrite bool_decide_eq_false_2 by exact N. exists (JNext v ∅ k). split; [reflexivity|]. split; [split; [reflexivity|split; [set_solver|exact Q]]|reflexivity].
  - destruct Q as (-> & Hs & Q). destruct pick as [h|].
    + destruct (decide (h ∈ v)) as [Hh|Hh]; [rewrite bool_decide_eq_true_2 in H by exact Hh|rewrite bool_decide_eq_false_2 in H by exact Hh; discriminate H]. destruct (negb _); [|discriminate H]. injection H as <-. eexists. split; [reflexivity|]. split; [split; [reflexivity|split; [set_solver|exact Q]]|reflexivity].
    + destruct (decide (v ⊆ s)) as [Hv|Hv]; [rewrite bool_decide_eq_true_2 in H by exact Hv|rewrite bool_decide_eq_false_2 in H by exact Hv; discriminate H]. injection H as <-. assert (s = v) as -> by set_solver. exists (k v). split; [reflexivity|]. split; [exact Q|reflexivity].
  - destruct Q as [Hh Q]. injection H as <-. rewrite bool_decide_eq_true_2 by exact Hh. exists k. split; [reflexivity|]. split; [exact Q|]. cbn [jexec]. f_equal. set_solver.
  - destruct Q.
  - destruct Q.
Qed.
Lemma idle_quiet st c : j_idle st c -> quiet (u_rows st) (j_code st c).
Proof.
  intros [H|[out H]]; [apply only_quiet, only_asks, H|]. rewrite <-exec_seq in H. destruct (jexec (u_rows st) (j_code st c)) as [[w a]| |] eqn:E; [|discriminate H..]. cbn [rbind fst snd] in H.
  assert (Hw : w = u_rows st) by (apply (f_equal (fun x => match x with Ok y => u_rows y.1 | _ => ∅ end)) in H; exact H). subst w. exact (exec_quiet _ _ _ _ (call_only st c) E).
Qed.
Lemma idle_inv st cs M : Forall (j_idle st) cs -> j_met st cs M -> j_rows M = u_rows st /\ j_writing M = false /\ j_dead M = false /\
  forall i c, j_codes M !! i = Some c -> exists d, cs !! i = Some d /\ quiet (u_rows st) c /\ jexec (u_rows st) c = jexec (u_rows st) (j_code st d).
Proof.
  intros HI HM. apply (met_pres (fun M => j_rows M = u_rows st /\ j_writing M = false /\ j_dead M = false /\
    forall i c, j_codes M !! i = Some c -> exists d, cs !! i = Some d /\ quiet (u_rows st) c /\ jexec (u_rows st) c = jexec (u_rows st) (j_code st d)) st cs M); [| |exact HM].
  - split; [reflexivity|]. split; [reflexivity|]. split; [reflexivity|]. intros i c Hc. cbn [jstart j_codes] in Hc. rewrite list_lookup_fmap in Hc. destruct (cs !! i) as [d|] eqn:E; [|discriminate Hc]. injection Hc as <-. exists d. split; [reflexivity|]. split; [|reflexivity]. apply idle_quiet. rewrite Forall_forall in HI. exact (HI d (elem_of_list_lookup_2 _ _ _ E)).
  - intros M1 x M2 (E1 & E2 & E3 & H) HS. apply jstep_inv in HS as (_ & c & Hc & HS). rewrite E1, E2 in HS. destruct (H _ _ Hc) as (d & Hd & Q & EX). destruct HS as [[E _]|(v & w & c' & E & ->)].
    + destruct (quiet_step _ _ _ _ Q E) as (c' & N & _). discriminate N.
    + destruct (quiet_step _ _ _ _ Q E) as (c1 & N & Q1 & EX1). injection N as -> -> ->. cbn [j_rows j_writing j_dead j_codes]. split; [reflexivity|]. split; [reflexivity|]. split; [reflexivity|]. intros i c2 Hi. destruct (decide (i = x.1)) as [->|Ni].
      * rewrite list_lookup_insert in Hi by (apply lookup_lt_is_Some; rewrite Hc; eauto). injection Hi as <-. exists d. split; [exact Hd|]. split; [exact Q1|]. rewrite EX1. exact EX.
      * rewrite list_lookup_insert_ne in Hi by (intros N'; apply Ni; symmetry; exact N'). exact (H i c2 Hi).
Qed.
Lemma exec_answer st d r v : jexec v (JRet r) = jexec (u_rows st) (j_code st d) -> r = j_answer st d.
Proof.
  intros H. unfold j_answer. rewrite <-exec_seq, <-H. cbn [jexec]. destruct r as [a| |]; reflexivity.
Qed.
Lemma idle_right st cs M : Forall (j_idle st) cs -> j_met st cs M -> j_dead M = false /\ j_rows M = u_rows st /\ forall i c r, cs !! i = Some c -> j_returned M i r -> r = j_answer st c.
Proof.
  intros HI HM. destruct (idle_inv st cs M HI HM) as (E1 & E2 & E3 & H). split; [exact E3|]. split; [exact E1|]. intros i c r Hc Hr. destruct (H i _ Hr) as (d & Hd & _ & EX). rewrite Hc in Hd. injection Hd as <-. exact (exec_answer st c r _ EX).
Qed.

(** ** Alone *)
Definition lone_ok (v0 : res (gset string * jout)) (M : jmachine) : Prop :=
  j_dead M = false /\ exists c, j_codes M = [c] /\ jexec (j_rows M) c = v0 /\ (j_writing M = true -> at_end c) /\
    match c with JNext m s _ => m = j_rows M /\ s ⊆ j_rows M | _ => True end /\ exists P u, running P u c.
Lemma only_next P (c : jcode jout) v : only P c -> match c with JNext m s _ => m = v /\ s ⊆ v | _ => True end.
Proof. destruct c; cbn [only]; intros H; first [exact I|destruct H]. Qed.
Lemma lone_step v0 M x M' : u_rows v0 ⊆ j_rows M -> forall e, (forall c, j_codes M = [c] -> exists P, running P (u_rows v0) c) -> lone_ok e M -> jstep M x = Some M' -> lone_ok e M'.
Proof.
  intros Hv e HR (Hd & c & Ec & EX & HW & HN & _) HS. destruct (HR c Ec) as [P R]. apply jstep_inv in HS as (_ & c1 & Hc & HS). rewrite Ec in Hc. destruct x as [[|i] pick]; cbn [fst snd lookup list_lookup] in *; [|destruct i; discriminate Hc]. injection Hc as <-.
  destruct HS as [[E _]|(v & w & c' & E & ->)].
  - destruct (step_fatal _ _ _ _ E) as (W & N & _). destruct (N (HW W)).
  - pose proof (running_step _ _ _ _ _ _ _ _ _ Hv E R) as R'. split; [reflexivity|]. exists c'. cbn [j_codes j_rows j_writing]. rewrite Ec. split; [reflexivity|].
    assert (HX : jexec v c' = jexec (j_rows M) c /\ (w = true -> at_end c') /\ match c' with JNext m s _ => m = v /\ s ⊆ v | _ => True end).
    { destruct c as [r|k|m s k|h k|h k|h k]; cbn [jcode_step running] in *.
      - discriminate E.
      - injection E as <- <- <-. assert (W : j_writing M = true -> False) by exact HW. destruct (decide (j_rows M = ∅)) as [Z|Z].
        + rewrite bool_decide_eq_true_2 by exact Z. rewrite Z. split; [reflexivity|]. split; [intros N; destruct (W N)|]. exact (only_next P _ _ (R ∅)).
        + rewrite bool_decide_eq_false_2 by exact Z. split; [reflexivity|]. split; [intros N; destruct (W N)|]. split; [reflexivity|set_solver].
      - destruct (j_writing M); [discriminate E|]. destruct HN as [-> Hs]. destruct pick as [h|].
        + destruct (decide (h ∈ j_rows M)) as [Hh|Hh]; [rewrite bool_decide_eq_true_2 in E by exact Hh|rewrite bool_decide_eq_false_2 in E by exact Hh; discriminate E]. destruct (negb _); [|discriminate E]. injection E as <- <- <-. split; [reflexivity|]. split; [discriminate|]. split; [reflexivity|set_solver].
        + destruct (decide (j_rows M ⊆ s)) as [Hv'|Hv']; [rewrite bool_decide_eq_true_2 in E by exact Hv'|rewrite bool_decide_eq_false_2 in E by exact Hv'; discriminate E]. injection E as <- <- <-. assert (s = j_rows M) as -> by set_solver. split; [reflexivity|]. split; [discriminate|]. exact (only_next P _ _ (R _)).
      - destruct (_ && _); [discriminate E|]. injection E as <- <- <-. assert (W : j_writing M = true -> False) by exact HW. destruct (decide (h ∈ j_rows M)) as [Hh|Hh].
        + rewrite bool_decide_eq_true_2 by exact Hh. split; [cbn [jexec]; f_equal; set_solver|]. split; [intros N; destruct (W N)|]. exact (only_next P _ _ (proj2 R)).
        + rewrite bool_decide_eq_false_2 by exact Hh. split; [reflexivity|]. split; [intros N; destruct (W N)|exact I].
      - destruct (j_writing M); [discriminate E|]. injection E as <- <- <-. split; [reflexivity|]. split; [intros _; exact I|exact I].
      - injection E as <- <- <-. split; [reflexivity|]. split; [discriminate|]. exact (only_next P _ _ (proj2 (proj2 R))). }
    destruct HX as (H1 & H2 & H3). split; [rewrite H1; exact EX|]. split; [exact H2|]. split; [exact H3|]. exists P, (u_rows v0). exact R'.
Qed.
Lemma lone_inv st c M : j_met st [c] M -> lone_ok (jexec (u_rows st) (j_code st c)) M.
Proof.
  intros HM. apply (met_pres (fun M => j_met st [c] M /\ lone_ok (jexec (u_rows st) (j_code st c)) M) st [c] M); [| |exact HM].
  - split; [exists []; reflexivity|]. split; [reflexivity|]. exists (j_code st c). split; [reflexivity|]. split; [reflexivity|]. split; [discriminate|]. split; [exact (only_next _ _ _ (call_only st c))|]. exists (may_add st c), (u_rows st). apply only_running, call_only.
  - intros M1 x M2 [H1 H2] HS. split; [exact (met_step _ _ _ _ _ H1 HS)|]. apply (lone_step st M1 x M2); [|intros c1 E1|exact H2|exact HS].
    + destruct H2 as (_ & c1 & E1 & _). assert (Hc : j_codes M1 !! 0 = Some c1) by (rewrite E1; reflexivity). exact (proj1 (met_running _ _ _ _ _ H1 Hc)).
    + assert (Hc : j_codes M1 !! 0 = Some c1) by (rewrite E1; reflexivity). destruct (met_running _ _ _ _ _ H1 Hc) as (_ & d & _ & R). exists (may_add st d). exact R.
Qed.
Lemma lone_right st c M : j_met st [c] M -> j_dead M = false /\ forall r, j_returned M 0 r -> (let! a := r in Ok (uw_rows st (j_rows M), a)) = j_seq st c.
Proof.
  intros HM. destruct (lone_inv st c M HM) as (Hd & c1 & Ec & EX & _). split; [exact Hd|]. intros r Hr. unfold j_returned in Hr. rewrite Ec in Hr. injection Hr as ->. rewrite <-exec_seq, <-EX. cbn [jexec]. destruct r as [a| |]; reflexivity.
Qed.

(** ** Nobody waits *)
Lemma met_next st cs M i m s k : j_met st cs M -> j_codes M !! i = Some (JNext m s k) -> m ⊆ j_rows M.
Proof.
  intros HM Hc. refine (proj1 (thread_pres (fun v i c => match c with JNext m _ _ => m ⊆ v | _ => True end /\ exists P u, u ⊆ v /\ running P u c) st cs M i _ _ _ _ HM Hc)).
  - intros v v' j c Hv [H (P & u & Hu & R)]. split; [destruct c; first [exact I|set_solver]|]. exists P, u. split; [set_solver|exact R].
  - intros v w pick j c v' w' c' E [H (P & u & Hu & R)]. pose proof (running_step _ _ _ _ _ _ _ _ _ Hu E R) as R'. pose proof (rows_grow _ _ _ _ _ _ _ E) as G. split; [|exists P, u; split; [set_solver|exact R']].
    destruct c as [r|k1|m1 s1 k1|h k1|h k1|h k1]; cbn [jcode_step running] in *.
    + discriminate E.
    + injection E as <- <- <-. destruct (bool_decide (v = ∅)); [pose proof (only_next P _ v (R ∅)) as X; destruct (k1 ∅); first [exact I|destruct X as [-> _]; reflexivity]|reflexivity].
    + destruct w; [discriminate E|]. destruct pick as [h|]; [destruct (_ && _)|destruct (bool_decide (m1 ⊆ s1))]; try discriminate E; injection E as <- <- <-; [exact H|]. pose proof (only_next P _ v (R s1)) as X. destruct (k1 s1); first [exact I|destruct X as [-> _]; reflexivity].
    + destruct (_ && _); [discriminate E|]. injection E as <- <- <-. destruct (bool_decide (h ∈ v)); [|exact I]. pose proof (only_next P _ v (proj2 R)) as X. destruct k1; first [exact I|destruct X as [-> _]; reflexivity].
    + destruct w; [discriminate E|]. injection E as <- <- <-. exact I.
    + injection E as <- <- <-. pose proof (only_next P _ v (proj2 (proj2 R))) as X. destruct k1; first [exact I|destruct X as [-> _]; set_solver].
  - intros j d Hd. split; [pose proof (only_next _ _ (u_rows st) (call_only st d)) as X; destruct (j_code st d); first [exact I|destruct X as [-> _]; reflexivity]|]. exists (may_add st d), (u_rows st). split; [reflexivity|apply only_running, call_only].
Qed.
Lemma can_go st cs M i c : j_met st cs M -> j_dead M = false -> j_codes M !! i = Some c -> (forall r, c <> JRet r) -> exists pick, is_Some (jstep M (i, pick)).
Proof.
  intros HM Hd Hc NR. assert (H : exists pick r, jcode_step (j_rows M) (j_writing M) pick c = Some r).
  { destruct c as [r|k|m s k|h k|h k|h k]; cbn [jcode_step].
    - destruct (NR r eq_refl).
    - exists None. eexists. reflexivity.
    - destruct (j_writing M); [exists None; eexists; reflexivity|]. destruct (decide (m ⊆ s)) as [E|E]; [exists None; rewrite bool_decide_eq_true_2 by exact E; eexists; reflexivity|].
      destruct (set_choose_or_empty (m ∖ s)) as [[h Hh]|N]; [|destruct E; set_solver]. pose proof (met_next st cs M i m s k HM Hc) as Hm. exists (Some h). rewrite bool_decide_eq_true_2 by set_solver. rewrite (bool_decide_eq_false_2 (h ∈ s)) by set_solver. eexists. reflexivity.
    - exists None. destruct (_ && _); eexists; reflexivity.
    - exists None. destruct (j_writing M); eexists; reflexivity.
    - exists None. eexists. reflexivity. }
  destruct H as (pick & r & E). exists pick. unfold jstep. rewrite Hd. cbn [fst snd]. rewrite Hc. cbn [mbind option_bind]. rewrite E. cbn [mbind option_bind]. destruct r as [[]|[[v w] c']]; eexists; reflexivity.
Qed.
