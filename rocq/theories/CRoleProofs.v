(** Proofs about concurrent changes of one role. *)
From Verif Require Import CRoleModel CRoleSpec.

Lemma qrun_app calls st s1 s2 : qrun calls st (s1 ++ s2) = st' ← qrun calls st s1; qrun calls st' s2.
Proof.
  revert st. induction s1 as [|i s1 IH]; intros st; simpl; [done|]. destruct (qstep calls st i); simpl; [apply IH|done].
Qed.
Lemma qstep_inv calls s pcs i st' : qstep calls (s, pcs) i = Some st' ->
  exists c pc s' pc', calls !! i = Some c /\ pcs !! i = Some pc /\ qthread_step s c pc = Some (s', pc') /\
    st' = (s', <[i := pc']> pcs).
Proof.
  unfold qstep. cbn [fst snd]. destruct (calls !! i) as [c|]; [|discriminate]. cbn. destruct (pcs !! i) as [pc|]; [|discriminate].
  cbn. destruct (qthread_step s c pc) as [[s' pc']|] eqn:E; [|discriminate]. cbn. intros [= <-]. by exists c, pc, s', pc'.
Qed.
Lemma qrun_ind (P : rsh * list qpc -> Prop) calls :
  (forall s pcs i st', P (s, pcs) -> qstep calls (s, pcs) i = Some st' -> P st') ->
  forall sched st st', P st -> qrun calls st sched = Some st' -> P st'.
Proof.
  intros H sched. induction sched as [|i sched IH]; intros st st' HP; simpl; [by intros [= <-]|].
  destruct (qstep calls st i) as [st1|] eqn:E; simpl; [|discriminate]. intros Hr. destruct st as [s pcs].
  eapply IH; [|exact Hr]. by eapply H.
Qed.

(** ** Groups the role has already *)
Section old.
  Context (s0 : rsh) (calls : list rcall) (g : string) (l0 : nat) (x0 : gset string).
  Context (Hg : r_groups s0 !! g = Some l0) (Hx : r_heap s0 !! l0 = Some x0).
  Record oldg (st : rsh * list qpc) : Prop := {
    og_group : r_groups st.1 !! g = Some l0;
    og_heap : exists x, r_heap st.1 !! l0 = Some x /\ x0 ⊆ x /\
      forall i ps pc, calls !! i = Some (RAdd g ps) -> st.2 !! i = Some pc ->
        match pc with
        | QFill l rest => l = l0 /\ forall p, p ∈ ps -> p ∈ x \/ p ∈ rest
        | QDone true => forall p, p ∈ ps -> p ∈ x
        | _ => True
        end;
    og_put : forall i l, calls !! i = Some (RShare g l) -> st.2 !! i <> Some QPut
  }.
  Lemma oldg_step s pcs i st' : oldg (s, pcs) -> qstep calls (s, pcs) i = Some st' -> oldg st'.
  Proof.
    intros [O1 (x & O2 & O3 & O4) O5] Hst. apply qstep_inv in Hst as (c & pc & s' & pc' & Hc & Hpc & Hs & ->). cbn [fst snd] in *.
    assert (Hi : i < length pcs) by (eapply lookup_lt_Some; exact Hpc). destruct s as [k gs h]. cbn [r_groups r_heap] in *.
    (* it is enough to look at what the step changes *)
    assert (Hfr : forall x', r_groups s' !! g = Some l0 -> r_heap s' !! l0 = Some x' -> x ⊆ x' ->
      (forall ps, c = RAdd g ps -> match pc' with
        | QFill l rest => l = l0 /\ forall p, p ∈ ps -> p ∈ x' \/ p ∈ rest
        | QDone true => forall p, p ∈ ps -> p ∈ x'
        | _ => True end) -> (forall l, c = RShare g l -> pc' <> QPut) -> oldg (s', <[i := pc']> pcs)).
    { intros x' E1 E2 Hsub Hown Hput. constructor; cbn [fst snd]; [done| |].
      - exists x'. split; [done|]. split; [set_solver|]. intros j ps pj Hj. destruct (decide (j = i)) as [->|Hne].
        + rewrite list_lookup_insert by done. intros [= <-]. apply Hown. congruence.
        + rewrite list_lookup_insert_ne by done. intros Hpj. specialize (O4 j ps pj Hj Hpj).
          destruct pj as [| |l rest| |[|]]; try done.
          * destruct O4 as [-> O4]. split; [done|]. intros p Hp. destruct (O4 p Hp); [left; set_solver|by right].
          * intros p Hp. specialize (O4 p Hp). set_solver.
      - intros j l Hj. destruct (decide (j = i)) as [->|Hne].
        + rewrite list_lookup_insert by done. intros [= E]. by apply (Hput l); [congruence|].
        + rewrite list_lookup_insert_ne by done. by apply (O5 j l). }
    destruct c as [g' ps|g' l|b]; destruct pc as [| |l1 rest| |ok]; cbn in Hs; try discriminate.
    - injection Hs as <- <-. apply (Hfr x); try done. intros. by destruct k.
    - destruct (gs !! g') as [l|] eqn:E; injection Hs as <- <-.
      + apply (Hfr x); try done. intros ps' [= -> ->]. split; [congruence|]. by right.
      + apply (Hfr x); cbn; try done; [by apply lookup_app_l_Some|]. intros ps' [= -> ->]. congruence.
    - destruct rest as [|p rest].
      + injection Hs as <- <-. apply (Hfr x); cbn; try done.
        * destruct (decide (g' = g)) as [->|Hne]; [|by rewrite lookup_insert_ne]. rewrite lookup_insert.
          destruct (O4 i ps _ Hc Hpc) as [-> _]. done.
        * intros ps' [= -> ->] p Hp. destruct (O4 i ps' _ Hc Hpc) as [_ H]. destruct (H p Hp) as [?|?%elem_of_nil]; done.
      + destruct (h !! l1) as [y|] eqn:E; cbn in Hs; [|discriminate]. injection Hs as <- <-.
        destruct (decide (l1 = l0)) as [->|Hne].
        * rewrite O2 in E. injection E as <-. apply (Hfr ({[p]} ∪ x)); cbn; try done.
          -- apply list_lookup_insert. by eapply lookup_lt_Some.
          -- set_solver.
          -- intros ps' [= -> ->]. split; [done|]. intros q Hq. destruct (O4 i ps' _ Hc Hpc) as [_ H].
             destruct (H q Hq) as [?|[->|?]%elem_of_cons]; [left; set_solver|left; set_solver|by right].
        * apply (Hfr x); cbn; try done; [by rewrite list_lookup_insert_ne|]. intros ps' [= -> ->].
          destruct (O4 i ps' _ Hc Hpc) as [-> _]. done.
    - injection Hs as <- <-. apply (Hfr x); try done. intros l' _. by destruct k.
    - injection Hs as <- <-. apply (Hfr x); try done. intros l' [= -> ->]. rewrite O1. done.
    - injection Hs as <- <-. apply (Hfr x); cbn; try done. destruct (decide (g' = g)) as [->|Hne]; [|by rewrite lookup_insert_ne].
      exfalso. by apply (O5 i l Hc).
    - injection Hs as <- <-. apply (Hfr x); done.
  Qed.
  Lemma oldg_start : oldg (qstart s0 calls).
  Proof.
    constructor; cbn; [done| |].
    - exists x0. split; [done|]. split; [done|]. intros i ps pc _ [-> _]%lookup_replicate. done.
    - intros i l _ [[=] _]%lookup_replicate.
  Qed.
  Lemma old_kept st : qmet s0 calls st -> oldg st.
  Proof. intros [sched Hr]. eapply (qrun_ind oldg); [|apply oldg_start|exact Hr]. intros. by eapply oldg_step. Qed.
End old.
Lemma old_group_kept s calls s' pcs g l : role_ok s calls -> r_groups s !! g = Some l -> qmet s calls (s', pcs) ->
  r_groups s' !! g = Some l /\ (forall p, holds s g p -> holds s' g p) /\
  forall i ps p, calls !! i = Some (RAdd g ps) -> pcs !! i = Some (QDone true) -> p ∈ ps -> holds s' g p.
Proof.
  intros [Hok _] Hg Hm. destruct (Hok g l Hg) as [x0 Hx]. destruct (old_kept s calls g l x0 Hg Hx _ Hm) as [O1 (x & O2 & O3 & O4) _].
  cbn [fst snd] in *. split; [done|]. split.
  - intros p (l' & y & Hl' & Hy & Hp). exists l, x. split; [done|]. split; [done|]. apply O3. congruence.
  - intros i ps p Hi Hpc Hp. exists l, x. split; [done|]. split; [done|]. exact (O4 i ps _ Hi Hpc p Hp).
Qed.

(** ** Groups the role does not have yet *)
Section fresh.
  Context (s0 : rsh) (calls : list rcall) (g : string) (Hg : r_groups s0 !! g = None) (Hadds : adds_only calls).
  Record newg (st : rsh * list qpc) : Prop := {
    ng_group : forall l, r_groups st.1 !! g = Some l -> exists x j ps, r_heap st.1 !! l = Some x /\
      calls !! j = Some (RAdd g ps) /\ forall p, p ∈ ps -> p ∈ x;
    ng_fill : forall i ps l rest, calls !! i = Some (RAdd g ps) -> st.2 !! i = Some (QFill l rest) ->
      exists x, r_heap st.1 !! l = Some x /\ forall p, p ∈ ps -> p ∈ x \/ p ∈ rest;
    ng_done : forall i ps, calls !! i = Some (RAdd g ps) -> st.2 !! i = Some (QDone true) -> is_Some (r_groups st.1 !! g)
  }.
  Lemma newg_step s pcs i st' : newg (s, pcs) -> qstep calls (s, pcs) i = Some st' -> newg st'.
  Proof.
    intros [N1 N2 N3] Hst. apply qstep_inv in Hst as (c & pc & s' & pc' & Hc & Hpc & Hs & ->). cbn [fst snd] in *.
    assert (Hi : i < length pcs) by (eapply lookup_lt_Some; exact Hpc). destruct s as [k gs h]. cbn [r_groups r_heap] in *.
    destruct (Hadds c) as (g' & ps & ->); [by eapply elem_of_list_lookup_2|].
    (* groups only grow *)
    assert (Hmono : forall l x, h !! l = Some x -> exists x', r_heap s' !! l = Some x' /\ x ⊆ x').
    { intros l x Hl. destruct pc as [| |l1 [|p rest]| |ok]; cbn in Hs; try discriminate.
      - injection Hs as <- <-. by exists x.
      - destruct (gs !! g'); injection Hs as <- <-; exists x; [done|]. split; [|done]. cbn. by apply lookup_app_l_Some.
      - injection Hs as <- <-. by exists x.
      - destruct (h !! l1) as [y|] eqn:E; cbn in Hs; [|discriminate]. injection Hs as <- <-. cbn.
        destruct (decide (l1 = l)) as [->|Hne].
        + rewrite Hl in E. injection E as <-. exists ({[p]} ∪ x). split; [|set_solver]. apply list_lookup_insert.
          by eapply lookup_lt_Some.
        + exists x. by rewrite list_lookup_insert_ne. }
    assert (Hfr : (forall l, r_groups s' !! g = Some l -> gs !! g = Some l \/ exists x j ps, r_heap s' !! l = Some x /\
        calls !! j = Some (RAdd g ps) /\ forall p, p ∈ ps -> p ∈ x) ->
      (is_Some (gs !! g) -> is_Some (r_groups s' !! g)) ->
      (forall l rest, g' = g -> pc' = QFill l rest -> exists x, r_heap s' !! l = Some x /\ forall p, p ∈ ps -> p ∈ x \/ p ∈ rest) ->
      (g' = g -> pc' = QDone true -> is_Some (r_groups s' !! g)) -> newg (s', <[i := pc']> pcs)).
    { intros F1 F2 F3 F4. constructor; cbn [fst snd].
      - intros l Hl. destruct (F1 l Hl) as [Hold|Hnew]; [|exact Hnew]. destruct (N1 l Hold) as (x & j & qs & Hx & Hj & Hsub).
        destruct (Hmono l x Hx) as (x' & Hx' & Hin). exists x', j, qs. split; [done|]. split; [done|]. intros p Hp. apply Hin. by apply Hsub.
      - intros j qs l rest Hj. destruct (decide (j = i)) as [->|Hne].
        + rewrite list_lookup_insert by done. intros [= E]. rewrite Hc in Hj. injection Hj as -> ->. by apply F3.
        + rewrite list_lookup_insert_ne by done. intros Hq. destruct (N2 j qs l rest Hj Hq) as (x & Hx & Hsub).
          destruct (Hmono l x Hx) as (x' & Hx' & Hin). exists x'. split; [done|]. intros p Hp.
          destruct (Hsub p Hp); [left; by apply Hin|by right].
      - intros j qs Hj. destruct (decide (j = i)) as [->|Hne].
        + rewrite list_lookup_insert by done. intros [= E]. rewrite Hc in Hj. injection Hj as -> ->. by apply F4.
        + rewrite list_lookup_insert_ne by done. intros Hq. apply F2. exact (N3 j qs Hj Hq). }
    destruct pc as [| |l1 [|p rest]| |ok]; cbn in Hs; try discriminate.
    - injection Hs as <- <-. apply Hfr; cbn; [by left|done| |]; by destruct k.
    - destruct (gs !! g') as [l|] eqn:E; injection Hs as <- <-; apply Hfr; cbn; try done; try (by left).
      + intros l' rest -> [= <- <-]. destruct (N1 l E) as (x & _ & _ & Hx & _ & _). exists x. split; [done|]. by right.
      + intros l' rest -> [= <- <-]. exists ∅. split; [|by right]. rewrite lookup_app_r by done. by rewrite Nat.sub_diag.
    - injection Hs as <- <-. apply Hfr; cbn; try done.
      + intros l. destruct (decide (g' = g)) as [->|Hne]; [|rewrite lookup_insert_ne by done; by left].
        rewrite lookup_insert. intros [= <-]. right. destruct (N2 i ps l1 [] Hc Hpc) as (x & Hx & Hsub). exists x, i, ps.
        split; [done|]. split; [done|]. intros p Hp. destruct (Hsub p Hp) as [?|?%elem_of_nil]; done.
      + intros Hsome. destruct (decide (g' = g)) as [->|Hne]; [rewrite lookup_insert; by eexists|by rewrite lookup_insert_ne].
      + intros -> _. rewrite lookup_insert. by eexists.
    - destruct (h !! l1) as [y|] eqn:E; cbn in Hs; [|discriminate]. injection Hs as <- <-. apply Hfr; cbn; try done; [by left|].
      intros l' rest' -> [= <- <-]. exists ({[p]} ∪ y). split; [apply list_lookup_insert; by eapply lookup_lt_Some|].
      destruct (N2 i ps l1 (p :: rest) Hc Hpc) as (x & Hx & Hsub). rewrite E in Hx. injection Hx as <-. intros q Hq.
      destruct (Hsub q Hq) as [?|[->|?]%elem_of_cons]; [left; set_solver|left; set_solver|by right].
  Qed.
  Lemma newg_met st : qmet s0 calls st -> newg st.
  Proof.
    intros [sched Hr]. eapply (qrun_ind newg); [|split|exact Hr]; cbn.
    - intros. by eapply newg_step.
    - intros l. rewrite Hg. discriminate.
    - intros i ps l rest _ [[=] _]%lookup_replicate.
    - intros i ps _ [[=] _]%lookup_replicate.
  Qed.
End fresh.
Lemma no_rivals_kept s calls : role_ok s calls -> adds_only calls -> no_rival_groups s calls -> all_kept s calls.
Proof.
  intros Hok Hadds Hno s' pcs Hm _ i g ps p Hi Hpc Hp. destruct (r_groups s !! g) as [l|] eqn:Eg.
  - destruct (old_group_kept s calls s' pcs g l Hok Eg Hm) as (_ & _ & H). exact (H i ps p Hi Hpc Hp).
  - destruct (newg_met s calls g Eg Hadds _ Hm) as [N1 N2 N3]. cbn [fst snd] in *. destruct (N3 i ps Hi Hpc) as [l Hl].
    destruct (N1 l Hl) as (x & j & qs & Hx & Hj & Hsub). exists l, x. split; [done|]. split; [done|]. apply Hsub.
    destruct (decide (j = i)) as [->|Hne]; [congruence|]. by apply (Hno i j g ps qs).
Qed.

(** ** Two calls for a new group: the last one to store its group wins *)
Section rivals.
  Context (s0 : rsh) (calls : list rcall) (Hadds : adds_only calls) (j : nat) (g : string) (ps : list string).
  Context (Hj : calls !! j = Some (RAdd g ps)).
  (** Goroutine [j] has its own new group, which nobody else knows. *)
  Definition private (l : nat) (st : rsh * list qpc) : Prop :=
    st.2 !! j = Some (QFill l ps) /\ r_heap st.1 !! l = Some ∅ /\ (forall h, r_groups st.1 !! h <> Some l) /\
    forall i rest, i <> j -> st.2 !! i <> Some (QFill l rest).
  (** Every pointer leads somewhere. *)
  Definition sound (st : rsh * list qpc) : Prop :=
    (length st.2 = length calls /\ r_lock st.1 = false /\ forall i, st.2 !! i <> Some (QDone false) /\ st.2 !! i <> Some QPut) /\
    (forall h l, r_groups st.1 !! h = Some l -> is_Some (r_heap st.1 !! l)) /\
    forall i l rest, st.2 !! i = Some (QFill l rest) -> is_Some (r_heap st.1 !! l).
  Lemma sound_step s pcs i st' : sound (s, pcs) -> qstep calls (s, pcs) i = Some st' -> sound st'.
  Proof.
    intros (S1 & S2 & S3) Hst. apply qstep_inv in Hst as (c & pc & s' & pc' & Hc & Hpc & Hs & ->). unfold sound. cbn [fst snd] in *.
    assert (Hi : i < length pcs) by (eapply lookup_lt_Some; exact Hpc). destruct s as [k gs h]. cbn [r_groups r_heap] in *.
    destruct (Hadds c) as (g' & qs & ->); [by eapply elem_of_list_lookup_2|]. destruct S1 as (S1 & Sk & Sd). cbn in Sk. subst k.
    split.
    { split; [by rewrite insert_length|].
      assert (r_lock s' = false /\ pc' <> QDone false /\ pc' <> QPut) as (Hk' & Hd' & Hp').
      { destruct pc as [| |l1 [|p rest]| |ok]; cbn in Hs; try discriminate; try (by injection Hs as <- <-).
        - destruct (gs !! g'); by injection Hs as <- <-.
        - destruct (h !! l1); cbn in Hs; [|discriminate]. by injection Hs as <- <-. }
      split; [done|]. intros i0. destruct (decide (i0 = i)) as [->|Hne].
      - rewrite list_lookup_insert by done. split; congruence.
      - rewrite list_lookup_insert_ne by done. apply Sd. }
    assert (Hfr : (forall l, is_Some (h !! l) -> is_Some (r_heap s' !! l)) ->
      (forall h' l, r_groups s' !! h' = Some l -> is_Some (h !! l)) -> (forall l rest, pc' = QFill l rest -> is_Some (r_heap s' !! l)) ->
      (forall h l, r_groups s' !! h = Some l -> is_Some (r_heap s' !! l)) /\
      (forall i0 l rest, <[i := pc']> pcs !! i0 = Some (QFill l rest) -> is_Some (r_heap s' !! l))).
    { intros F1 F2 F3. split; [intros h' l Hl; apply F1; by eapply F2|]. intros i0 l rest. destruct (decide (i0 = i)) as [->|Hne].
      - rewrite list_lookup_insert by done. intros [= E]. by eapply F3.
      - rewrite list_lookup_insert_ne by done. intros Hq. apply F1. by eapply S3. }
    destruct pc as [| |l1 [|p rest]| |ok]; cbn in Hs; try discriminate.
    - injection Hs as <- <-. apply Hfr; cbn; try done.
    - destruct (gs !! g') as [l|] eqn:E; injection Hs as <- <-; apply Hfr; cbn; try done.
      + intros l' rest [= <- <-]. by eapply S2.
      + intros l [x Hx]. exists x. by apply lookup_app_l_Some.
      + intros l' rest [= <- <-]. exists ∅. rewrite lookup_app_r by done. by rewrite Nat.sub_diag.
    - injection Hs as <- <-. apply Hfr; cbn; try done. intros h' l [[-> ->]|[_ ?]]%lookup_insert_Some; [by eapply S3|by eapply S2].
    - destruct (h !! l1) as [y|] eqn:E; cbn in Hs; [|discriminate]. injection Hs as <- <-. apply Hfr; cbn; try done.
      + intros l Hl. apply lookup_lt_is_Some. rewrite insert_length. by apply lookup_lt_is_Some.
      + intros l rest' [= <- <-]. apply lookup_lt_is_Some. rewrite insert_length. by eapply lookup_lt_Some.
  Qed.
  Lemma private_step l s pcs i st' : sound (s, pcs) -> private l (s, pcs) -> i <> j -> qstep calls (s, pcs) i = Some st' ->
    private l st'.
  Proof.
    intros (S1 & S2 & S3) (P1 & P2 & P3 & P4) Hij Hst. apply qstep_inv in Hst as (c & pc & s' & pc' & Hc & Hpc & Hs & ->).
    unfold private. cbn [fst snd] in *. assert (Hi : i < length pcs) by (eapply lookup_lt_Some; exact Hpc).
    destruct s as [k gs h]. cbn [r_groups r_heap] in *. destruct (Hadds c) as (g' & qs & ->); [by eapply elem_of_list_lookup_2|].
    split; [by rewrite list_lookup_insert_ne|].
    assert (Hfr : r_heap s' !! l = Some ∅ -> (forall h', r_groups s' !! h' <> Some l) -> (forall rest, pc' <> QFill l rest) ->
      r_heap s' !! l = Some ∅ /\ (forall h', r_groups s' !! h' <> Some l) /\
      forall i0 rest, i0 <> j -> <[i := pc']> pcs !! i0 <> Some (QFill l rest)).
    { intros F1 F2 F3. split; [done|]. split; [done|]. intros i0 rest H0. destruct (decide (i0 = i)) as [->|Hne].
      - rewrite list_lookup_insert by done. intros [= E]. by eapply F3.
      - rewrite list_lookup_insert_ne by done. by apply P4. }
    destruct pc as [| |l1 [|p rest]| |ok]; cbn in Hs; try discriminate.
    - injection Hs as <- <-. apply Hfr; cbn; try done. by destruct k.
    - destruct (gs !! g') as [l'|] eqn:E; injection Hs as <- <-; apply Hfr; cbn; try done.
      + intros rest [= -> <-]. by eapply P3.
      + by apply lookup_app_l_Some.
      + intros rest [= <- <-]. apply lookup_lt_Some in P2. lia.
    - injection Hs as <- <-. apply Hfr; cbn; try done. intros h' [[-> ->]|[_ ?]]%lookup_insert_Some; [by eapply P4|by eapply P3].
    - destruct (h !! l1) as [y|] eqn:E; cbn in Hs; [|discriminate]. injection Hs as <- <-.
      assert (l1 <> l) by (intros ->; by eapply P4). apply Hfr; cbn; try done; [by rewrite list_lookup_insert_ne|].
      intros rest' [= <- _]. done.
  Qed.
  (** The steps left to goroutine [i] *)
  Definition left (n : nat) (pc : qpc) : nat :=
    match pc with QStart => n + 3 | QGet => n + 2 | QFill _ rest => length rest + 1 | _ => 0 end.
  Lemma can_step i pc c s pcs : sound (s, pcs) -> calls !! i = Some c -> pcs !! i = Some pc -> pc <> QDone true ->
    exists s' pc', qthread_step s c pc = Some (s', pc') /\
      forall g' qs, c = RAdd g' qs -> left (length qs) pc' < left (length qs) pc.
  Proof.
    intros (S1 & S2 & S3) Hc Hpc Hnd. destruct S1 as (_ & Sk & Sd). cbn [fst snd] in *.
    destruct (Hadds c) as (g' & qs & ->); [by eapply elem_of_list_lookup_2|]. destruct s as [k gs h]. cbn in *. subst k.
    destruct pc as [| |l [|p rest]| |[|]]; cbn.
    - eexists _, _. split; [reflexivity|]. intros ? ? [= -> ->]. cbn. lia.
    - destruct (gs !! g'); (eexists _, _; split; [reflexivity|]); intros ? ? [= -> ->]; cbn; lia.
    - eexists _, _. split; [reflexivity|]. intros ? ? [= -> ->]. cbn. lia.
    - destruct (S3 i l _ Hpc) as [x Hx]. rewrite Hx. cbn. eexists _, _. split; [reflexivity|]. intros ? ? [= -> ->]. cbn. lia.
    - exfalso. by apply (proj2 (Sd i)).
    - done.
    - exfalso. by apply (proj1 (Sd i)).
  Qed.
  Lemma qrun_step s pcs i c pc s' pc' sched : calls !! i = Some c -> pcs !! i = Some pc -> qthread_step s c pc = Some (s', pc') ->
    qrun calls (s, pcs) (i :: sched) = qrun calls (s', <[i := pc']> pcs) sched.
  Proof. intros Hc Hpc Hs. cbn [qrun]. unfold qstep. cbn [fst snd]. rewrite Hc. cbn. rewrite Hpc. cbn. rewrite Hs. done. Qed.
  (** Any other goroutine can go on to its end while [j] waits. *)
  Lemma finish_one l i : i <> j -> i < length calls -> forall st, sound st -> private l st ->
    exists sched st', qrun calls st sched = Some st' /\ sound st' /\ private l st' /\ st'.2 !! i = Some (QDone true) /\
      forall k, st.2 !! k = Some (QDone true) -> st'.2 !! k = Some (QDone true).
  Proof.
    intros Hij Hi. destruct (lookup_lt_is_Some_2 _ _ Hi) as [c Hc]. destruct (Hadds c) as (g' & qs & ->); [by eapply elem_of_list_lookup_2|].
    assert (H : forall n st pc, st.2 !! i = Some pc -> left (length qs) pc < n -> sound st -> private l st ->
      exists sched st', qrun calls st sched = Some st' /\ sound st' /\ private l st' /\ st'.2 !! i = Some (QDone true) /\
      forall k, st.2 !! k = Some (QDone true) -> st'.2 !! k = Some (QDone true)).
    { induction n as [|n IH]; [lia|]. intros [s pcs] pc Hpc Hlt Hso Hpr. cbn [fst snd] in *.
      assert (pc = QDone true \/ pc <> QDone true) as [->|Hnd] by (destruct pc as [| | | |[|]]; by (left + right)).
      { exists [], (s, pcs). auto. }
      destruct (can_step i pc _ s pcs Hso Hc Hpc Hnd) as (s' & pc' & Hs & Hm). specialize (Hm g' qs eq_refl).
      assert (Hst : qstep calls (s, pcs) i = Some (s', <[i := pc']> pcs)).
      { unfold qstep. cbn [fst snd]. rewrite Hc. cbn. rewrite Hpc. cbn. rewrite Hs. done. }
      assert (Hil : i < length pcs) by (eapply lookup_lt_Some; exact Hpc).
      destruct (IH (s', <[i := pc']> pcs) pc') as (sched & st' & Hr & Hso' & Hpr' & Hd & Hk).
      - cbn. by rewrite list_lookup_insert.
      - lia.
      - by eapply sound_step.
      - by eapply private_step.
      - exists (i :: sched), st'. split; [by erewrite qrun_step|]. split; [done|]. split; [done|]. split; [done|]. intros k Hkd.
        apply Hk. cbn. destruct (decide (k = i)) as [->|Hne]; [congruence|]. by rewrite list_lookup_insert_ne. }
    intros st Hso Hpr. destruct (lookup_lt_is_Some_2 st.2 i) as [pc Hpc]; [destruct Hso as ((-> & _) & _); done|].
    exact (H (S (left (length qs) pc)) st pc Hpc (Nat.lt_succ_diag_r _) Hso Hpr).
  Qed.
  Lemma finish_all l n : n <= length calls -> forall st, sound st -> private l st ->
    exists sched st', qrun calls st sched = Some st' /\ sound st' /\ private l st' /\
      forall i, i < n -> i <> j -> st'.2 !! i = Some (QDone true).
  Proof.
    induction n as [|n IH]; intros Hn st Hso Hpr.
    - exists [], st. split; [done|]. split; [done|]. split; [done|]. lia.
    - destruct (IH ltac:(lia) st Hso Hpr) as (sched & st1 & Hr & Hso1 & Hpr1 & Hd).
      destruct (decide (n = j)) as [->|Hne].
      { exists sched, st1. split; [done|]. split; [done|]. split; [done|]. intros i Hi Hij. apply Hd; lia. }
      destruct (finish_one l n Hne ltac:(lia) st1 Hso1 Hpr1) as (sched' & st2 & Hr2 & Hso2 & Hpr2 & Hd2 & Hk).
      exists (sched ++ sched'), st2. rewrite qrun_app, Hr. cbn. split; [done|]. split; [done|]. split; [done|]. intros i Hi Hij.
      destruct (decide (i = n)) as [->|]; [done|]. apply Hk, Hd; lia.
  Qed.
  (** Filling the group alone *)
  Lemma fill_alone l : forall rest s pcs x, r_heap s !! l = Some x -> pcs !! j = Some (QFill l rest) ->
    exists sched s' pcs', qrun calls (s, pcs) sched = Some (s', pcs') /\ pcs' = <[j := QDone true]> pcs /\
      r_groups s' !! g = Some l /\ r_heap s' !! l = Some (list_to_set rest ∪ x).
  Proof.
    induction rest as [|p rest IH]; intros [k gs h] pcs x Hx Hpc; cbn in Hx.
    - exists [j], (RSh k (<[g := l]> gs) h), (<[j := QDone true]> pcs). split; [erewrite qrun_step; [|done..]; done|].
      split; [done|]. cbn. split; [apply lookup_insert|]. rewrite Hx. f_equal. set_solver.
    - assert (Hl : l < length h) by (eapply lookup_lt_Some; exact Hx). assert (Hjl : j < length pcs) by (eapply lookup_lt_Some; exact Hpc).
      destruct (IH (RSh k gs (<[l := {[p]} ∪ x]> h)) (<[j := QFill l rest]> pcs) ({[p]} ∪ x)) as (sched & s' & pcs' & Hr & -> & Hg' & Hx').
      + cbn. by apply list_lookup_insert.
      + by apply list_lookup_insert.
      + exists (j :: sched), s', (<[j := QDone true]> pcs). rewrite list_insert_insert in Hr. split.
        { erewrite qrun_step; [exact Hr|exact Hj|exact Hpc|]. cbn. rewrite Hx. done. }
        split; [done|]. split; [done|]. rewrite Hx'. f_equal. cbn. set_solver.
  Qed.
  Lemma last_wins : role_ok s0 calls -> r_lock s0 = false -> r_groups s0 !! g = None ->
    exists s pcs, qmet s0 calls (s, pcs) /\ (forall i, i < length calls -> pcs !! i = Some (QDone true)) /\
      forall p, holds s g p <-> p ∈ ps.
  Proof.
    intros [Hok _] Hlock Hg. destruct s0 as [k gs h] eqn:E0. cbn in Hok, Hlock, Hg. subst k.
    assert (Hjl : j < length calls) by (eapply lookup_lt_Some; exact Hj).
    set (pcs0 := replicate (length calls) QStart). set (l := length h).
    set (s1 := RSh false gs (h ++ [∅])). set (pcs1 := <[j := QFill l ps]> pcs0).
    assert (Hl0 : length pcs0 = length calls) by apply replicate_length.
    assert (Hp0 : pcs0 !! j = Some QStart) by (by apply lookup_replicate_2).
    assert (R1 : qrun calls (qstart (RSh false gs h) calls) [j; j] = Some (s1, pcs1)).
    { unfold qstart. fold pcs0. erewrite qrun_step; [|exact Hj|exact Hp0|reflexivity]. cbn [r_lock].
      erewrite qrun_step; [|exact Hj|apply list_lookup_insert; lia|cbn; rewrite Hg; reflexivity]. cbn [qrun].
      rewrite list_insert_insert. done. }
    assert (Hpcs1 : forall i, i <> j -> pcs1 !! i = pcs0 !! i) by (intros; by apply list_lookup_insert_ne).
    assert (Hso : sound (s1, pcs1)).
    { split.
      - cbn. split; [unfold pcs1; by rewrite insert_length|]. split; [done|]. intros i. destruct (decide (i = j)) as [->|Hne].
        + unfold pcs1. rewrite list_lookup_insert by lia. by split.
        + rewrite Hpcs1 by done. split; intros [[=] _]%lookup_replicate.
      - cbn. split.
        + intros h' l' Hl'. destruct (Hok h' l' Hl') as [x Hx]. exists x. by apply lookup_app_l_Some.
        + intros i l' rest. destruct (decide (i = j)) as [->|Hne].
          * unfold pcs1. rewrite list_lookup_insert by lia. intros [= <- <-]. exists ∅. rewrite lookup_app_r by done.
            unfold l. by rewrite Nat.sub_diag.
          * rewrite Hpcs1 by done. intros [[=] _]%lookup_replicate. }
    assert (Hpr : private l (s1, pcs1)).
    { split; [apply list_lookup_insert; lia|]. cbn. split; [|split].
      - rewrite lookup_app_r by done. unfold l. by rewrite Nat.sub_diag.
      - intros h' Hl'. destruct (Hok h' l Hl') as [x Hx]. apply lookup_lt_Some in Hx. unfold l in Hx. lia.
      - intros i rest Hne. rewrite Hpcs1 by done. intros [[=] _]%lookup_replicate. }
    destruct (finish_all l (length calls) ltac:(lia) _ Hso Hpr) as (sched & [s2 pcs2] & R2 & Hso2 & Hpr2 & Hd).
    destruct Hpr2 as (P1 & P2 & _). cbn [fst snd] in *.
    destruct (fill_alone l ps s2 pcs2 ∅ P2 P1) as (sched3 & s3 & pcs3 & R3 & -> & Hg3 & Hx3).
    exists s3, (<[j := QDone true]> pcs2). split; [|split].
    - exists ([j; j] ++ sched ++ sched3). rewrite qrun_app, R1. cbn. rewrite qrun_app, R2. cbn. exact R3.
    - intros i Hi. destruct (decide (i = j)) as [->|Hne].
      + apply list_lookup_insert. by eapply lookup_lt_Some.
      + rewrite list_lookup_insert_ne by done. by apply Hd.
    - intros p. unfold holds. rewrite Hg3. split.
      + intros (l' & x & [= <-] & Hx & Hp). rewrite Hx3 in Hx. injection Hx as <-. set_solver.
      + intros Hp. exists l, (list_to_set ps ∪ ∅). split; [done|]. split; [done|]. set_solver.
  Qed.
End rivals.
Lemma kept_no_rivals s calls : role_ok s calls -> adds_only calls -> r_lock s = false -> all_kept s calls -> no_rival_groups s calls.
Proof.
  intros Hok Hadds Hlock Hk i j g ps ps' _ Hi Hj Hg p Hp.
  destruct (last_wins s calls Hadds j g ps' Hj Hok Hlock Hg) as (s' & pcs & Hm & Hd & Hh).
  assert (Hil : i < length calls) by (eapply lookup_lt_Some; exact Hi). apply Hh.
  refine (Hk s' pcs Hm _ i g ps p Hi (Hd i Hil) Hp). apply Forall_lookup. intros n pc Hn. exists true.
  destruct (decide (n < length calls)) as [Hl|Hl]; [specialize (Hd n Hl); congruence|]. exfalso.
  (* no goroutine beyond the calls *)
  destruct Hm as [sched Hr].
  assert (Hlen : length (s', pcs).2 = length calls).
  { refine (qrun_ind (fun st => length st.2 = length calls) calls _ sched (qstart s calls) _ (replicate_length _ _) Hr). intros s1 pcs1 m st' HL Hst.
    apply qstep_inv in Hst as (? & ? & ? & ? & _ & _ & _ & ->). cbn in *. by rewrite insert_length. }
  apply lookup_lt_Some in Hn. cbn in Hlen. lia.
Qed.
Lemma kept_exact s calls : role_ok s calls -> adds_only calls -> r_lock s = false ->
  all_kept s calls <-> no_rival_groups s calls.
Proof. intros Hok Ha Hl. split; [by apply kept_no_rivals|by apply no_rivals_kept]. Qed.

(** ** Lock *)
Lemma frozen_step calls s pcs i st' : no_unlock calls -> r_lock s = true -> quiet pcs -> qstep calls (s, pcs) i = Some st' ->
  st'.1 = s /\ quiet st'.2.
Proof.
  intros Hno Hk Hq Hst. apply qstep_inv in Hst as (c & pc & s' & pc' & Hc & Hpc & Hs & ->). cbn.
  destruct s as [k gs h]. cbn in Hk. subst k. destruct (Forall_lookup_1 _ _ _ _ Hq Hpc) as [->|[ok ->]].
  2:{ by destruct c. }
  assert (s' = RSh true gs h /\ exists ok, pc' = QDone ok) as [-> [ok ->]].
  { destruct c as [g ps|g l|[|]]; cbn in Hs; try (injection Hs as <- <-; split; [done|by eexists]).
    exfalso. apply Hno. by eapply elem_of_list_lookup_2. }
  split; [done|]. apply Forall_insert; [done|]. right. by eexists.
Qed.
Lemma frozen_run calls later s pcs st' : no_unlock calls -> r_lock s = true -> quiet pcs ->
  qrun calls (s, pcs) later = Some st' -> st'.1 = s.
Proof.
  intros Hno Hk Hq Hr.
  assert (st'.1 = s /\ quiet st'.2) as [? _]; [|done].
  refine (qrun_ind (fun st => st.1 = s /\ quiet st.2) calls _ later (s, pcs) st' (conj eq_refl Hq) Hr). cbn. intros s1 pcs1 i st1 [-> Hq1] Hst.
  by eapply frozen_step.
Qed.
Lemma locked_stays calls sched s pcs : no_unlock calls -> forall i, calls !! i = Some (RLock true) ->
  forall s0, qrun calls (qstart s0 calls) sched = Some (s, pcs) -> pcs !! i = Some (QDone true) -> r_lock s = true.
Proof.
  intros Hno i Hi s0 Hr.
  assert (H : (s, pcs).2 !! i = Some (QDone true) -> r_lock (s, pcs).1 = true); [|exact H].
  refine (qrun_ind (fun st => st.2 !! i = Some (QDone true) -> r_lock st.1 = true) calls _ sched (qstart s0 calls) _ _ Hr).
  - cbn. intros s1 pcs1 m st' IH Hst. apply qstep_inv in Hst as (c & pc & s' & pc' & Hc & Hpc & Hs & ->). cbn.
    assert (Hl : m < length pcs1) by (eapply lookup_lt_Some; exact Hpc).
    assert (Hmono : r_lock s1 = true -> r_lock s' = true).
    { destruct s1 as [k gs h]. cbn. intros ->. destruct c as [g ps|g l|[|]]; destruct pc as [| |l1 [|p rest]| |ok]; cbn in Hs; try discriminate;
        try (by injection Hs as <- <-).
      - destruct (gs !! g); by injection Hs as <- <-.
      - destruct (h !! l1); cbn in Hs; [|discriminate]. by injection Hs as <- <-.
      - exfalso. apply Hno. by eapply elem_of_list_lookup_2. }
    destruct (decide (i = m)) as [->|Hne].
    + intros _. rewrite Hi in Hc. injection Hc as <-. destruct s1 as [k gs h]. destruct pc; cbn in Hs; try discriminate.
      by injection Hs as <- <-.
    + rewrite list_lookup_insert_ne by done. intros H. by apply Hmono, IH.
  - cbn. intros [[=] _]%lookup_replicate.
Qed.
(** A Lock that returns while nothing is under way freezes the role. *)
Lemma quiet_lock_freezes s calls now later s1 pcs1 s2 pcs2 i : no_unlock calls ->
  qrun calls (qstart s calls) now = Some (s1, pcs1) -> calls !! i = Some (RLock true) -> pcs1 !! i = Some (QDone true) ->
  quiet pcs1 -> qrun calls (s1, pcs1) later = Some (s2, pcs2) -> s2 = s1.
Proof.
  intros Hno Hr Hi Hd Hq Hr2. pose proof (frozen_run calls later s1 pcs1 (s2, pcs2) Hno) as H. cbn in H. apply H; [|done|done].
  by eapply (locked_stays calls now s1 pcs1 Hno i Hi s).
Qed.
(** A Lock during AddPermission does not stop it. *)
Lemma lock_hole s g p : role_ok s [RAdd g [p]; RLock true] -> r_lock s = false -> ~ holds s g p ->
  let calls := [RAdd g [p]; RLock true] in
  exists now later s1 pcs1 s2 pcs2, qrun calls (qstart s calls) now = Some (s1, pcs1) /\ pcs1 !! 1 = Some (QDone true) /\
    r_lock s1 = true /\ ~ holds s1 g p /\ qrun calls (s1, pcs1) later = Some (s2, pcs2) /\
    pcs2 = [QDone true; QDone true] /\ r_lock s2 = true /\ holds s2 g p.
Proof.
  intros [Hok _] Hk Hnot calls. destruct s as [k gs h]. cbn in Hk, Hok. subst k.
  exists [0; 1]. destruct (gs !! g) as [l|] eqn:Eg.
  - destruct (Hok g l Eg) as [x Hx]. assert (l < length h) by (eapply lookup_lt_Some; exact Hx).
    exists [0; 0; 0], (RSh true gs h), [QGet; QDone true], (RSh true (<[g := l]> gs) (<[l := {[p]} ∪ x]> h)), [QDone true; QDone true].
    split; [done|]. split; [done|]. split; [done|]. split; [exact Hnot|]. split; [cbn; rewrite Eg; cbn; rewrite Hx; done|].
    split; [done|]. split; [done|]. exists l, ({[p]} ∪ x). cbn. split; [apply lookup_insert|]. split; [by apply list_lookup_insert|set_solver].
  - exists [0; 0; 0], (RSh true gs h), [QGet; QDone true], (RSh true (<[g := length h]> gs) (h ++ [{[p]} ∪ ∅])), [QDone true; QDone true].
    split; [done|]. split; [done|]. split; [done|]. split; [exact Hnot|]. split.
    { cbn. rewrite Eg. cbn. rewrite lookup_app_r by done. rewrite Nat.sub_diag. cbn. rewrite insert_app_r_alt by done.
      rewrite Nat.sub_diag. done. }
    split; [done|]. split; [done|]. exists (length h), ({[p]} ∪ ∅). cbn. split; [apply lookup_insert|].
    split; [rewrite lookup_app_r by done; by rewrite Nat.sub_diag|set_solver].
Qed.

(** ** Nothing else appears *)
Section noextra.
  Context (s0 : rsh) (calls : list rcall) (Hadds : adds_only calls).
  Definition allowed (g p : string) : Prop := holds s0 g p \/ exists ps, RAdd g ps ∈ calls /\ p ∈ ps.
  Definition owns (st : rsh * list qpc) (l : nat) (g : string) : Prop :=
    r_groups st.1 !! g = Some l \/ exists i ps rest, calls !! i = Some (RAdd g ps) /\ st.2 !! i = Some (QFill l rest).
  Record clean (st : rsh * list qpc) : Prop := {
    cl_one : forall l g g', owns st l g -> owns st l g' -> g = g';
    cl_in : forall l g, owns st l g -> exists x, r_heap st.1 !! l = Some x /\ forall p, p ∈ x -> allowed g p;
    cl_rest : forall i g ps l rest p, calls !! i = Some (RAdd g ps) -> st.2 !! i = Some (QFill l rest) -> p ∈ rest -> p ∈ ps
  }.
  Lemma clean_step s pcs i st' : clean (s, pcs) -> qstep calls (s, pcs) i = Some st' -> clean st'.
  Proof.
    intros [C1 C2 C3] Hst. apply qstep_inv in Hst as (c & pc & s' & pc' & Hc & Hpc & Hs & ->). cbn [fst snd] in *.
    assert (Hi : i < length pcs) by (eapply lookup_lt_Some; exact Hpc). destruct s as [k gs h]. cbn [r_groups r_heap] in *.
    destruct (Hadds c) as (g' & qs & ->); [by eapply elem_of_list_lookup_2|].
    assert (Hrest : (forall l rest p, pc' = QFill l rest -> p ∈ rest -> p ∈ qs) ->
      forall i0 g ps l rest p, calls !! i0 = Some (RAdd g ps) -> <[i := pc']> pcs !! i0 = Some (QFill l rest) -> p ∈ rest -> p ∈ ps).
    { intros F i0 g ps l rest p H0. destruct (decide (i0 = i)) as [->|Hne].
      - rewrite list_lookup_insert by done. intros [= E]. rewrite Hc in H0. injection H0 as <- <-. by eapply F.
      - rewrite list_lookup_insert_ne by done. by eapply C3. }
    (* who owns what afterwards *)
    assert (Hown : forall l g, owns (s', <[i := pc']> pcs) l g ->
      r_groups s' !! g = Some l \/ owns (RSh k gs h, pcs) l g \/ (g = g' /\ exists rest, pc' = QFill l rest)).
    { intros l g [Hl|(i0 & ps & rest & H0 & Hq)]; [by left|]. cbn [snd] in Hq. right. destruct (decide (i0 = i)) as [->|Hne].
      - rewrite list_lookup_insert in Hq by done. injection Hq as E. right. rewrite Hc in H0. injection H0 as -> _. by eauto.
      - rewrite list_lookup_insert_ne in Hq by done. left. right. by exists i0, ps, rest. }
    assert (Hsame : (forall l g, owns (s', <[i := pc']> pcs) l g -> owns (RSh k gs h, pcs) l g) -> r_heap s' = h ->
      (forall l g g0, owns (s', <[i := pc']> pcs) l g -> owns (s', <[i := pc']> pcs) l g0 -> g = g0) /\
      (forall l g, owns (s', <[i := pc']> pcs) l g -> exists x, r_heap s' !! l = Some x /\ forall p, p ∈ x -> allowed g p)).
    { intros F E. split; [intros l g g0 H1 H2; eapply C1; by apply F|]. intros l g H1. rewrite E. apply C2. by apply F. }
    assert (Hini : forall l rest, pc = QFill l rest -> owns (RSh k gs h, pcs) l g').
    { intros l rest ->. right. by exists i, qs, rest. }
    destruct pc as [| |l1 [|p rest]| |ok]; cbn in Hs; try discriminate.
    - injection Hs as <- <-. destruct Hsame as [A B]; [|done|constructor; [exact A|exact B|apply Hrest; by destruct k]].
      intros l g Ho. destruct (Hown l g Ho) as [?|[?|(-> & rest & E)]]; [by left|done|by destruct k].
    - destruct (gs !! g') as [l2|] eqn:E2; injection Hs as <- <-.
      + destruct Hsame as [A B]; [|done|constructor; [exact A|exact B|apply Hrest; by intros ? ? ? [= _ <-]]].
        intros l g Ho. destruct (Hown l g Ho) as [?|[?|(-> & rest & [= -> _])]]; [by left|done|by left].
      + assert (Hnew : forall g, ~ owns (RSh k gs h, pcs) (length h) g).
        { intros g Ho. destruct (C2 _ _ Ho) as (x & Hx & _). cbn in Hx. apply lookup_lt_Some in Hx. lia. }
        assert (Hcase : forall l g, owns (RSh k gs (h ++ [∅]), <[i := QFill (length h) qs]> pcs) l g ->
          owns (RSh k gs h, pcs) l g \/ (g = g' /\ l = length h)).
        { intros l g Ho. destruct (Hown l g Ho) as [?|[?|(-> & rest & [= <- _])]]; [by left; left|by left|by right]. }
        constructor.
        * intros l g g0 [H1|[-> ->]]%Hcase [H2|[-> E]]%Hcase; [by eapply C1|subst; by apply Hnew in H1|by apply Hnew in H2|done].
        * intros l g [H1|[-> ->]]%Hcase; cbn.
          -- destruct (C2 _ _ H1) as (x & Hx & Hp). exists x. split; [by apply lookup_app_l_Some|done].
          -- exists ∅. split; [rewrite lookup_app_r by done; by rewrite Nat.sub_diag|set_solver].
        * apply Hrest. by intros ? ? ? [= _ <-].
    - injection Hs as <- <-. destruct Hsame as [A B]; [|done|constructor; [exact A|exact B|apply Hrest; by intros ? ? ? [=]]].
      intros l g Ho. destruct (Hown l g Ho) as [Hl|[?|(-> & rest & [=])]]; [|done].
      cbn in Hl. apply lookup_insert_Some in Hl as [[<- <-]|[_ Hl]]; [by eapply Hini|by left].
    - destruct (h !! l1) as [y|] eqn:E; cbn in Hs; [|discriminate]. injection Hs as <- <-.
      assert (Hcase : forall l g, owns (RSh k gs (<[l1 := {[p]} ∪ y]> h), <[i := QFill l1 rest]> pcs) l g -> owns (RSh k gs h, pcs) l g).
      { intros l g Ho. destruct (Hown l g Ho) as [?|[?|(-> & rest' & [= <- _])]]; [by left|done|by eapply Hini]. }
      constructor.
      + intros l g g0 H1%Hcase H2%Hcase. by eapply C1.
      + intros l g H1%Hcase. cbn. destruct (C2 _ _ H1) as (x & Hx & Hp). cbn in Hx. destruct (decide (l1 = l)) as [->|Hne].
        * rewrite E in Hx. injection Hx as <-. exists ({[p]} ∪ y). split; [apply list_lookup_insert; by eapply lookup_lt_Some|].
          intros q [->%elem_of_singleton|Hq]%elem_of_union; [|by apply Hp]. right. exists qs.
          rewrite (C1 l g g' H1 (Hini _ _ eq_refl)). split; [by eapply elem_of_list_lookup_2|].
          eapply C3; [exact Hc|exact Hpc|]. by apply elem_of_cons; left.
        * exists x. by rewrite list_lookup_insert_ne.
      + apply Hrest. intros l rest' q [= <- <-] Hq. eapply C3; [exact Hc|exact Hpc|]. by apply elem_of_cons; right.
  Qed.
  Lemma no_extra s pcs g p : role_ok s0 calls -> one_name s0 -> qmet s0 calls (s, pcs) -> holds s g p -> allowed g p.
  Proof.
    intros [Hok _] Hone [sched Hr] (l & x & Hl & Hx & Hp).
    assert (Hcl : clean (s, pcs)).
    { refine (qrun_ind clean calls _ sched (qstart s0 calls) _ _ Hr); [intros; by eapply clean_step|].
      assert (Hno : forall i l rest, replicate (length calls) QStart !! i <> Some (QFill l rest)) by (intros ? ? ? [[=] _]%lookup_replicate).
      constructor; cbn.
      - intros l1 g1 g2 [H1|(i & ps & rest & _ & H1)] [H2|(i2 & ps2 & rest2 & _ & H2)]; cbn in *;
          [by eapply Hone|by apply Hno in H2|by apply Hno in H1|by apply Hno in H1].
      - intros l1 g1 [H1|(i & ps & rest & _ & H1)]; cbn in *; [|by apply Hno in H1]. destruct (Hok g1 l1 H1) as [y Hy].
        exists y. split; [done|]. intros q Hq. left. by exists l1, y.
      - intros i g1 ps l1 rest q _ H1. by apply Hno in H1. }
    destruct Hcl as [_ C2 _]. destruct (C2 l g (or_introl Hl)) as (y & Hy & Ha). cbn in Hy. apply Ha. congruence.
  Qed.
End noextra.
