(** No call crashes while others run, unless one of them makes a pointer nil. *)
From Verif Require Export VConcRace.
From Verif Require Import RoleModel RoleHas V2Auth V2Inv.

Lemma size_of_list (l : list string) : size (list_to_set l : gset string) <= length l.
Proof.
  induction l as [|x l IH]; [by rewrite list_to_set_nil, size_empty|]. rewrite list_to_set_cons, size_union_alt, size_singleton. cbn [length].
  apply le_n_S. etransitivity; [|exact IH]. apply subseteq_size. set_solver.
Qed.
Section safe.
  Variable fr : vstate.
  (** What holds of the values of the variables *)
  Definition fine (x : kvar) : val x -> Prop :=
    match x return val x -> Prop with
    | GAssign => fun us : list (option nat) => forall p, p ∈ us -> exists l, p = Some l /\ is_Some (w_prs fr !! l)
    | GReg => fun m : gmap string nat => forall k t, m !! k = Some t -> is_Some (w_tenants fr !! t)
    | GKids _ => fun m : gmap string nat => forall k t, m !! k = Some t -> is_Some (w_tenants fr !! t)
    | _ => fun _ => True
    end.
  Definition known (S : nat -> Prop) (x : kvar) : val x -> Prop :=
    match x return val x -> Prop with GExpiry l => fun e : option Z => S l -> is_Some e | _ => fun _ => True end.
  Definition learn (S : nat -> Prop) (x : kvar) : val x -> nat -> Prop :=
    match x return val x -> nat -> Prop with GExpiry l => fun (e : option Z) l' => S l' \/ l' = l /\ is_Some e | _ => fun _ => S end.
  Definition set_only (x : kvar) : val x -> Prop :=
    match x return val x -> Prop with GExpiry _ => fun e : option Z => is_Some e | _ => fun _ => True end.
  (** [S]: the assignments known to have an expiry *)
  Fixpoint safe {A} (Q : res A -> Prop) (S : nat -> Prop) (c : code A) : Prop :=
    match c with
    | KRet r => Q r
    | KRead x k => forall v, fine x v -> known S x v -> safe Q (learn S x v) (k v)
    | KUpd x f k => (forall v, fine x v -> fine x (f v) /\ set_only x (f v)) /\ safe Q S k
    | KResolve _ _ k => forall v, safe Q S (k v)
    | KLock _ k | KUnlock _ k => safe Q S k
    end.
  Lemma known_weaken (S S' : nat -> Prop) x v : (forall l, S l -> S' l) -> known S' x v -> known S x v.
  Proof. intros HS. destruct x; cbn; auto. Qed.
  Lemma learn_mono (S S' : nat -> Prop) x v : (forall l, S l -> S' l) -> forall l, learn S x v l -> learn S' x v l.
  Proof. intros HS. destruct x; cbn; auto. intros l' [?|?]; auto. Qed.
  Lemma learn_keeps (S : nat -> Prop) x v l : S l -> learn S x v l.
  Proof. destruct x; cbn; auto. Qed.
  Lemma safe_mono {A} (Q Q' : res A -> Prop) c : (forall r, Q r -> Q' r) -> forall S S' : nat -> Prop, (forall l, S l -> S' l) -> safe Q S c -> safe Q' S' c.
  Proof.
    intros HQ. induction c as [r|x k IH|x g k IH|b name k IH|m k IH|m k IH]; intros S S' HS Hc; cbn [safe] in *.
    - auto.
    - intros v Hf Hk. apply (IH v (learn S x v)); [by apply learn_mono|]. apply Hc; [exact Hf|]. by eapply known_weaken.
    - destruct Hc as [? Hc]. split; [assumption|]. by eapply IH.
    - intros v. eapply IH; [exact HS|]. apply Hc.
    - by eapply IH.
    - by eapply IH.
  Qed.
  Lemma safe_bind {A B} (Q : res A -> Prop) (Q' : res B -> Prop) (c : code A) (f : A -> code B) :
    (Q Panic -> Q' Panic) -> (Q Hang -> Q' Hang) -> forall S : nat -> Prop, safe Q S c ->
    (forall (S' : nat -> Prop) a, (forall l, S l -> S' l) -> Q (Ok a) -> safe Q' S' (f a)) -> safe Q' S (kbind c f).
  Proof.
    intros HP HH. induction c as [[a| |]|x k IH|x g k IH|b name k IH|m k IH|m k IH]; intros S Hc Hf; cbn [safe kbind] in *.
    - apply Hf; auto.
    - auto.
    - auto.
    - intros v Hv Hk. apply IH; [by apply Hc|]. intros S' a HS. apply Hf. intros l Hl. apply HS. by apply learn_keeps.
    - destruct Hc as [? Hc]. split; [assumption|]. by apply IH.
    - intros v. apply IH; [apply Hc|]. exact Hf.
    - by apply IH.
    - by apply IH.
  Qed.
  Definition gives {A} (P : A -> Prop) (r : res A) : Prop := exists a, r = Ok a /\ P a.
  Lemma safe_gives {A B} (P : A -> Prop) (Q' : res B -> Prop) (c : code A) (f : A -> code B) (S : nat -> Prop) :
    safe (gives P) S c -> (forall (S' : nat -> Prop) a, (forall l, S l -> S' l) -> P a -> safe Q' S' (f a)) -> safe Q' S (kbind c f).
  Proof.
    intros Hc Hf. eapply safe_bind; [| |exact Hc|].
    - by intros (? & ? & _).
    - by intros (? & ? & _).
    - intros S' a HS (? & [= <-] & HP). by apply Hf.
  Qed.
  Notation anything := (fun _ => True).
  Lemma ret {A} (P : A -> Prop) S a : P a -> safe (gives P) S (KRet (Ok a)).
  Proof. intros H. exists a. auto. Qed.

  Section decision.
    Variable now : Z.
    Lemma safe_expired S l : safe (gives anything) S (k_expired now l).
    Proof.
      unfold k_expired. intros v _ Hk. destruct v as [e|]; [|by apply ret]. intros v _ Hk'. destruct v as [t|]; [by apply ret|].
      cbn [learn known] in Hk'. destruct Hk' as [? ?]; [|discriminate]. right. split; [reflexivity|]. by exists e.
    Qed.
    Section traverse.
      Context {A : Type}.
      Variable row : A -> prole -> code A.
      Variable user : string.
      Hypothesis Hrow : forall S acc pr, safe (gives anything) S (row acc pr).
      Lemma safe_rows tid ps : fine GAssign ps -> forall S acc, safe (gives anything) S (k_rows fr now row user tid acc ps).
      Proof.
        induction ps as [|p ps IH]; intros Hf S acc; cbn [k_rows]; [by apply ret|].
        destruct (Hf p) as (l & -> & pr & Hpr); [left|]. rewrite Hpr.
        assert (Hf' : fine GAssign ps) by (intros p Hp; apply Hf; by right).
        destruct (_ && _); [|by apply IH]. eapply safe_gives; [apply safe_expired|]. intros S' [] _ _; [by apply IH|].
        eapply safe_gives; [apply Hrow|]. intros; by apply IH.
      Qed.
      Definition ids : gset string := list_to_set (vt_id <$> w_tenants fr).
      Definition grown (V : gset string) (s : gset string * A) : Prop := V ⊆ s.1 /\ s.1 ⊆ ids.
      Section loops.
        Variable rec : oracle -> nat -> gset string -> A -> code (gset string * A).
        Variable V0 : gset string.
        Hypothesis Hrec : forall S o t V acc, is_Some (w_tenants fr !! t) -> V0 ⊆ V -> V ⊆ ids -> safe (gives (grown V)) S (rec o t V acc).
        Lemma safe_kids cs : (forall t, t ∈ cs -> is_Some (w_tenants fr !! t)) -> forall S o i V acc, V0 ⊆ V -> V ⊆ ids ->
          safe (gives (grown V)) S (k_kids rec o i cs V acc).
        Proof.
          induction cs as [|c cs IH]; intros Hcs S o i V acc H0 HV; cbn [k_kids]; [by apply ret|].
          eapply safe_gives; [apply Hrec; [apply Hcs; left|done|done]|]. intros S' s _ [Hs1 Hs2].
          eapply safe_mono; [|by intros l Hl; exact Hl|apply IH; [intros t Ht; apply Hcs; by right| |done]].
          - intros r (s' & -> & ? & ?). exists s'. split; [done|]. split; [|done]. by etransitivity.
          - by etransitivity.
        Qed.
        Lemma safe_manage t tid ps : fine GAssign ps -> forall S o i V acc, V0 ⊆ V -> V ⊆ ids ->
          safe (gives (grown V)) S (k_manage fr user rec o i t tid ps V acc).
        Proof.
          induction ps as [|p ps IH]; intros Hf S o i V acc H0 HV; cbn [k_manage]; [by apply ret|].
          destruct (Hf p) as (l & -> & pr & Hpr); [left|]. rewrite Hpr.
          assert (Hf' : fine GAssign ps) by (intros p Hp; apply Hf; by right).
          destruct (_ && _); [|by apply IH]. intros v Hv _. eapply safe_gives.
          - apply safe_kids; [|done|done]. intros c Hc. apply elem_of_ordered in Hc.
            apply elem_of_list_fmap in Hc as ([k c'] & -> & Hc). apply elem_of_map_to_list in Hc. by eapply Hv.
          - intros S' s _ [Hs1 Hs2]. eapply safe_mono; [|by intros l' Hl; exact Hl|apply IH; [done| |done]].
            + intros r (s' & -> & ? & ?). exists s'. split; [done|]. split; [|done]. by etransitivity.
            + by etransitivity.
        Qed.
      End loops.
      Lemma safe_traverse fuel : forall S o t V acc, is_Some (w_tenants fr !! t) -> V ⊆ ids -> size (ids ∖ V) < fuel ->
        safe (gives (grown V)) S (k_traverse fr now row user fuel o t V acc).
      Proof.
        induction fuel as [|fuel IH]; intros S o t V acc [c Hc] HV Hsz; [lia|]. cbn [k_traverse]. rewrite Hc.
        destruct (bool_decide (vt_id c ∈ V)) eqn:Hin; [by apply ret|]. apply bool_decide_eq_false in Hin.
        assert (Hid : vt_id c ∈ ids).
        { apply elem_of_list_to_set. apply elem_of_list_fmap. exists c. split; [done|]. by eapply elem_of_list_lookup_2. }
        intros us Hus _. eapply safe_gives; [by apply safe_rows|]. intros S' acc' _ _. intros us' Hus' _.
        eapply safe_mono; [|by intros l Hl; exact Hl|apply (safe_manage _ ({[vt_id c]} ∪ V)); [|done|done|]].
        - intros r (s & -> & H1 & H2). exists s. split; [done|]. split; [|done]. set_solver.
        - intros S2 o2 t2 V2 acc2 Ht2 HV2 HV2'. apply IH; [done|done|].
          apply Nat.lt_le_trans with (size (ids ∖ V)); [|lia]. apply subset_size. set_solver.
        - set_solver.
      Qed.
      Lemma safe_traverse_all S o t acc : is_Some (w_tenants fr !! t) -> safe (gives anything) S (k_traverse_all fr now row user o t acc).
      Proof.
        intros Ht. eapply safe_gives; [apply safe_traverse; [done|set_solver|]|intros; by apply ret].
        apply le_n_S. transitivity (size ids); [apply subseteq_size; set_solver|].
        unfold ids. etransitivity; [apply size_of_list|]. by rewrite fmap_length.
      Qed.
    End traverse.
    Lemma safe_permissions S o user tid n scope : safe (gives anything) S (k_permissions fr now o user tid n scope).
    Proof.
      intros reg Hreg _; change (val GReg) with (gmap string nat) in reg. destruct (reg !! tid) as [t|] eqn:Ht; [|by apply ret].
      eapply safe_gives; [|intros; by apply ret]. apply safe_traverse_all; [|by eapply Hreg].
      intros S' acc pr. unfold k_perm_row. destruct (_ || _); [intros v|]; by apply ret.
    Qed.
    Lemma safe_roles S o user tid n : safe (gives anything) S (k_roles fr now o user tid n).
    Proof.
      intros reg Hreg _; change (val GReg) with (gmap string nat) in reg. destruct (reg !! tid) as [t|] eqn:Ht; [|by apply ret].
      eapply safe_gives; [|intros; by apply ret]. apply safe_traverse_all; [|by eapply Hreg].
      intros S' acc pr. unfold k_role_row. destruct (_ && _); [intros v|]; by apply ret.
    Qed.
    Definition all_there (ts : list nat) : Prop := forall t, t ∈ ts -> is_Some (w_tenants fr !! t).
    Lemma safe_own user ps : fine GAssign ps -> forall S acc, fine GReg acc -> safe (gives (fine GReg)) S (k_own_tenants fr user acc ps).
    Proof.
      induction ps as [|p ps IH]; intros Hf S acc Hacc; cbn [k_own_tenants]; [by apply ret|].
      destruct (Hf p) as (l & -> & pr & Hpr); [left|]. rewrite Hpr.
      assert (Hf' : fine GAssign ps) by (intros p Hp; apply Hf; by right).
      destruct (_ && _); [|by apply IH]. intros reg Hreg _; change (val GReg) with (gmap string nat) in reg. destruct (reg !! pr_tenant pr) as [t|] eqn:Ht; [|by apply IH].
      destruct (Hreg _ _ Ht) as [c Hc]. rewrite Hc. intros s _ _. apply IH; [done|].
      match goal with |- fine GReg (if ?b then _ else _) => destruct b end; [|done].
      intros k t' Hk. apply lookup_insert_Some in Hk as [[_ <-]|[_ Hk]]; [by exists c|by eapply Hacc].
    Qed.
    Definition targets_there (ts : option (list nat)) : Prop := match ts with None => True | Some ts => all_there ts end.
    Lemma safe_find_targets S o q : safe (gives targets_there) S (k_find_targets fr o q).
    Proof.
      unfold k_find_targets.
      assert (Hn : forall S (tn : string), safe (gives targets_there) S (if bool_decide (tn = "") then kbind (k_find_own fr o (q_principal q)) (fun ts => KRet (Ok (Some ts)))
        else KRead GReg (fun reg : gmap string nat => KRet (Ok (match reg !! tn with None => None | Some t => Some [t] end))))).
      { clear S. intros S tn. destruct (bool_decide (tn = "")).
        - apply (safe_gives all_there); [|intros S' ts _ Hts; by apply ret]. intros us0 _ _ us Hus _.
          eapply safe_gives; [by apply safe_own|]. intros S' m _ Hm. apply ret. intros t Ht. apply elem_of_ordered in Ht.
          apply elem_of_list_fmap in Ht as ([k t'] & -> & Ht). apply elem_of_map_to_list in Ht. by eapply Hm.
        - intros reg Hreg _; change (val GReg) with (gmap string nat) in reg. apply ret. destruct (reg !! tn) as [t|] eqn:Ht; [|done]. intros t' Ht'.
          apply elem_of_list_singleton in Ht' as ->. by eapply Hreg. }
      pose proof (Hn S (q_tenant q)) as Hq. destruct (bool_decide (q_tenant q = "")); [|exact Hq]. intros d _ _.
      match goal with |- safe _ _ (if ?b then _ else _) => destruct b end; [exact (Hn _ "")|]. intros tn _ _. apply Hn.
    Qed.
    Lemma safe_namespace S o t q : safe (gives anything) S (k_namespace o t q).
    Proof.
      unfold k_namespace.
      assert (Hn : forall S n, safe (gives anything) S (KRead (GNames t) (fun names : gset string => if bool_decide (n ∈ names) then
            if bool_decide (q_scope q = "") then KRet (Ok (Some n))
            else KRead (GScopes t n) (fun ss : gset string => KRet (Ok (if bool_decide (q_scope q ∈ ss) then Some n else None)))
          else KRet (Ok None)))).
      { intros S' n v _ _. destruct (bool_decide (n ∈ _)); [|by apply ret]. destruct (bool_decide (q_scope q = "")); [by apply ret|].
        intros ss _ _. by apply ret. }
      destruct (negb _); [apply Hn|]. intros d _ _. destruct (negb _); [intros d' _ _; apply Hn|]. intros names _ _.
      match goal with |- safe _ _ (if ?b then _ else _) => destruct b end; [|by apply ret]. intros names' _ _.
      match goal with |- safe _ _ (match ?l with [] => _ | _ => _ end) => destruct l end; apply Hn.
    Qed.
    Lemma safe_authorize S o q : safe (fun r => r <> Panic) S (k_authorize fr now o q).
    Proof.
      eapply safe_gives; [apply safe_find_targets|]. intros S1 [ts|] _ Hts; [|discriminate].
      generalize (sub o 1) as o1. intros o1. clear S. rename S1 into S. revert S. generalize 0 as i. cbn [targets_there] in Hts.
      induction ts as [|t ts IH]; intros i S; cbn [k_authorize_loop]; [discriminate|].
      destruct (Hts t) as [c Hc]; [left|]. rewrite Hc.
      assert (Hts' : all_there ts) by (intros t' Ht'; apply Hts; by right). specialize (IH Hts').
      eapply safe_gives; [apply safe_namespace|]. intros S1 [n|] _ _; [|apply IH].
      eapply safe_gives; [apply safe_permissions|]. intros S2 [ps|] _ _; [|apply IH].
      apply (safe_bind (fun r => r <> Panic)); [done|done| |].
      - cbn [safe]. unfold perms_match. destruct (_ && _); [done|]. apply any_match_panic.
      - intros S3 [] _ _; [discriminate|apply IH].
    Qed.
    Lemma safe_can S o q roles : safe (gives anything) S (k_can fr now o q roles).
    Proof.
      eapply safe_gives; [apply safe_find_targets|]. intros S1 [ts|] _ Hts; [|by apply ret].
      generalize (sub o 1) as o1. intros o1. clear S. rename S1 into S. revert S. generalize 0 as i. cbn [targets_there] in Hts.
      induction ts as [|t ts IH]; intros i S; cbn [k_can_loop]; [by apply ret|].
      destruct (Hts t) as [c Hc]; [left|]. rewrite Hc.
      assert (Hts' : all_there ts) by (intros t' Ht'; apply Hts; by right). specialize (IH Hts').
      eapply safe_gives; [apply safe_namespace|]. intros S1 [n|] _ _; [|apply IH].
      eapply safe_gives; [apply safe_roles|]. intros S2 [rs|] _ _; [|apply IH].
      destruct (existsb _ _); [by apply ret|apply IH].
    Qed.
  End decision.

  (** What the call may come to: an Authorize may also run for ever (in the matcher). *)
  Definition comes_to (c : kcall) (r : res kout) : Prop :=
    match c with KAuthorize _ _ _ => r <> Panic | _ => gives anything r end.
  Lemma code_safe c S : handed fr c -> no_nil c -> safe (comes_to c) S (code_of fr c).
  Proof.
    destruct c as [o now q|o now q roles|id| |id|o t|ls|target|t n b|t n ss|t cs|t s|now l e|now l a|l]; cbn [handed no_nil code_of comes_to]; intros Hh Hn;
      try (destruct Hn).
    - apply (safe_bind (fun r => r <> Panic)); [done|done|apply safe_authorize|]. intros; discriminate.
    - eapply safe_gives; [apply safe_can|]. intros; by apply ret.
    - intros v _ _. by apply ret.
    - intros v _ _. match goal with |- safe _ _ (if ?b then _ else _) => destruct b end; [by apply ret|]. intros v' _ _ v2 _ _. by apply ret.
    - split; [done|]. by apply ret.
    - destruct Hh as [c Hc]. unfold k_add_tenant. rewrite Hc. cbn [safe]. split.
      + intros v Hv. split; [|done]. intros k t' Hk. apply lookup_insert_Some in Hk as [[_ <-]|[_ Hk]]; [by exists c|by eapply Hv].
      + intros kids Hk _; change (val (GKids t)) with (gmap string nat) in kids. cbn [learn].
        assert (Hcs : forall d, d ∈ ordered o (map_to_list (kids : gmap string nat)).*2 -> is_Some (w_tenants fr !! d)).
        { intros d Hd. apply elem_of_ordered in Hd. apply elem_of_list_fmap in Hd as ([k d'] & -> & Hd). apply elem_of_map_to_list in Hd. by eapply Hk. }
        revert Hcs. generalize (ordered o (map_to_list (kids : gmap string nat)).*2) as cs. induction cs as [|d cs IH]; intros Hcs; cbn [k_parents]; [by apply ret|].
        destruct (Hcs d) as [cd Hd]; [left|]. rewrite Hd. split; [done|]. apply IH. intros d' Hd'. apply Hcs. by right.
    - cbn [safe]. revert S. induction ls as [|l ls IH]; intros S; cbn [k_add_rows]; [by apply ret|].
      destruct (Hh l) as [pr Hpr]; [left|]. rewrite Hpr. intros us Hus _. cbn [safe learn]. split.
      + intros v0 _. split; [|done]. intros p Hp. unfold set_to in Hp. apply elem_of_app in Hp as [Hp|Hp]; [by apply Hus|].
        apply elem_of_list_singleton in Hp as ->. exists l. split; [done|]. by exists pr.
      + split; [done|]. apply IH. intros l' Hl'. apply Hh. by right.
    - destruct Hh as [c Hc]. unfold k_add_namespace. rewrite Hc. intros names _ _; change (val (GNames t)) with (gset string) in names. cbn [learn].
      assert (Hb : safe (gives anything) S ((if b then KUpd (GDefNs t) (set_to (x := GDefNs t) n) else id) (KUnlock (LTenant t) (KRet (Ok TUnit))))).
      { destruct b; cbn [id safe]; [split; [done|]|]; by apply ret. }
      destruct (bool_decide _); [exact Hb|]. split; [done|exact Hb].
    - destruct Hh as [c Hc]. unfold k_add_scopes. rewrite Hc. intros names _ _; change (val (GNames t)) with (gset string) in names. cbn [learn]. destruct (bool_decide _); [|by apply ret].
      induction ss as [|s ss IH]; cbn [k_scopes safe]; (split; [done|]); [by apply ret|exact IH].
    - destruct Hh as [[c Hc] Hcs]. unfold k_add_children. rewrite Hc. cbn [safe].
      induction cs as [|d cs IH]; cbn [k_children]; [by apply ret|]. destruct (Hcs d) as [cd Hd]; [left|]. rewrite Hd. split.
      + intros v Hv. split; [|done]. intros k t' Hk. apply lookup_insert_Some in Hk as [[_ <-]|[_ Hk]]; [by exists cd|by eapply Hv].
      + apply IH. intros d' Hd'. apply Hcs. by right.
    - destruct Hh as [c Hc]. rewrite Hc. split; [done|]. by apply ret.
    - destruct Hh as [pr Hpr]. unfold k_set_expiry. rewrite Hpr. destruct (bool_decide _); [by apply ret|]. split; [|by apply ret].
      intros v _. split; [done|]. by exists e.
    - destruct Hh as [pr Hpr]. unfold k_set_duration. rewrite Hpr. destruct a as [[d|]|d|]; try (by apply ret); (split; [|by apply ret]);
        intros v _; (split; [done|]); eexists; reflexivity.
  Qed.

  (** ** The invariant *)
  Definition world (st : vstate) : Prop :=
    dag_wf (w_roles st) (w_dag st) /\ fine GAssign (w_assign st) /\ fine GReg (w_reg st) /\
    (forall t c, w_tenants st !! t = Some c -> fine (GKids t) (vt_children c)).
  Lemma world_get st x : world st -> fine x (get_var st x).
  Proof.
    intros (_ & Ha & Hr & Hk). destruct x; try exact I; [exact Ha|exact Hr|]. cbn [get_var fine]. intros k d Hd. unfold kten in Hd.
    destruct (w_tenants st !! t) as [c|] eqn:Ht; [by eapply (Hk t c Ht)|]. cbn in Hd. by rewrite lookup_empty in Hd.
  Qed.
  Lemma world_put st x v : world st -> fine x v -> world (put_var st x v).
  Proof.
    intros (Hd & Ha & Hr & Hk) Hf.
    assert (Hal : forall t f, (forall c, w_tenants st !! t = Some c -> fine (GKids t) (vt_children (f c))) -> world (alter_tenant st t f)).
    { intros t f Hc. split; [exact Hd|]. split; [exact Ha|]. split; [exact Hr|]. intros t' c Ht'. cbn in Ht'.
      destruct (decide (t = t')) as [->|Hn]; [|rewrite list_lookup_alter_ne in Ht' by done; by apply Hk].
      rewrite list_lookup_alter in Ht'. destruct (w_tenants st !! t') as [c0|]; [|discriminate]. injection Ht' as <-. by apply Hc. }
    destruct x; cbn [put_var].
    - exact (conj Hd (conj Ha (conj Hr Hk))).
    - exact (conj Hd (conj Hf (conj Hr Hk))).
    - exact (conj Hd (conj Ha (conj Hr Hk))).
    - exact (conj Hd (conj Ha (conj Hf Hk))).
    - exact (conj Hd (conj Ha (conj Hr Hk))).
    - apply Hal. intros c Hc. exact (Hk _ _ Hc).
    - apply Hal. intros c Hc. exact (Hk _ _ Hc).
    - apply Hal. intros c Hc. exact (Hk _ _ Hc).
    - apply Hal. intros c Hc. exact (Hk _ _ Hc).
    - apply Hal. intros c Hc. exact Hf.
    - exact (conj Hd (conj Ha (conj Hr Hk))).
  Qed.
  Definition set_at (st : vstate) (S : nat -> Prop) : Prop := forall l, S l -> is_Some (get_var st (GExpiry l)).
  Lemma set_at_put st x v S : set_only x v -> set_at st S -> set_at (put_var st x v) S.
  Proof.
    intros Hv HS l Hl. specialize (HS l Hl). destruct x; try exact HS. cbn in HS |- *. destruct (decide (l0 = l)) as [->|Hn].
    - rewrite list_lookup_alter. destruct (w_prs st !! l) as [pr|]; [exact Hv|]. by destruct HS.
    - by rewrite list_lookup_alter_ne by done.
  Qed.
  Lemma set_at_known st S x : set_at st S -> known S x (get_var st x).
  Proof. intros HS. destruct x; try exact I. intros Hl. by apply HS. Qed.
  Lemma set_at_learn st S x : set_at st S -> set_at st (learn S x (get_var st x)).
  Proof. intros HS. destruct x; try exact HS. intros l' [Hl|[-> Hs]]; [by apply HS|exact Hs]. Qed.
  Lemma world_resolve st b name : world st -> exists st' v, resolve_step b st name = Ok (st', v) /\ world st' /\
    forall S, set_at st S -> set_at st' S.
  Proof.
    intros (Hd & Ha & Hr & Hk). rewrite resolve_step_eq.
    destruct (resolve_returns (contrib_k b) (w_roles st) (w_dag st) name Hd) as (d' & s & Hres). rewrite Hres. cbn.
    exists (vw_dag st d'), s. split; [reflexivity|]. split; [|intros S HS; exact HS]. split; [|exact (conj Ha (conj Hr Hk))].
    unfold resolve in Hres. destruct (d_resolved (w_dag st) !! name); [by injection Hres as <- <-|].
    apply rbind_inv in Hres as (s' & _ & [= <- <-]). exact Hd.
  Qed.
  Definition all_safe (calls : list kcall) (s : ksh * list (code kout)) : Prop :=
    length s.2 = length calls /\ world (k_st s.1) /\
    forall i k c, s.2 !! i = Some k -> calls !! i = Some c -> exists S, set_at (k_st s.1) S /\ safe (comes_to c) S k.
  Lemma safe_met calls s : world fr -> Forall (handed fr) calls -> Forall no_nil calls -> tmet fr calls s -> all_safe calls s.
  Proof.
    intros Hw Hh Hn. revert s. apply tmet_ind.
    - split; [apply fmap_length|]. split; [exact Hw|]. intros i k c Hk Hc. cbn in Hk. rewrite list_lookup_fmap, Hc in Hk. injection Hk as <-.
      exists (fun _ => False). split; [by intros l []|]. apply code_safe; [by eapply Forall_lookup_1|by eapply Forall_lookup_1].
    - intros s i s' _ (Hl & Hws & Hi) Hs. apply tstep_inv in Hs as (k & h' & k' & Hk & Hstep & ->). cbn [fst snd].
      assert (exists call, calls !! i = Some call) as [c Hc].
      { apply lookup_lt_is_Some. rewrite <- Hl. by apply lookup_lt_Some in Hk. }
      destruct (Hi _ _ _ Hk Hc) as (S & HS & Hsafe). destruct s as [[st' h] ks]. cbn [fst snd k_held k_st] in *.
      assert (Hil : i < length ks) by (by apply lookup_lt_Some in Hk).
      assert (Hdo : forall st2 S2 k2 h2, world st2 -> (forall S, set_at st' S -> set_at st2 S) -> set_at st2 S2 -> safe (comes_to c) S2 k2 ->
        all_safe calls (KSh st2 h2, <[i := k2]> ks)).
      { intros st2 S2 k2 h2 Hw2 Hkeep HS2 Hk2. split; [cbn [snd]; by rewrite insert_length|]. split; [exact Hw2|]. cbn [fst snd k_st].
        intros j kj cj Hkj Hcj. destruct (decide (j = i)) as [->|Hne].
        - rewrite list_lookup_insert in Hkj by done. injection Hkj as <-. replace cj with c by congruence. by exists S2.
        - rewrite list_lookup_insert_ne in Hkj by done. destruct (Hi _ _ _ Hkj Hcj) as (Sj & HSj & ?). exists Sj. split; [by apply Hkeep|done]. }
      destruct k as [r|x f|x g k|b name f|m k|m k]; cbn [code_step] in Hstep; cbn [safe] in Hsafe.
      + discriminate.
      + injection Hstep as <- <-. eapply Hdo; [exact Hws|done|by apply set_at_learn|]. apply Hsafe; [by apply world_get|by apply set_at_known].
      + injection Hstep as <- <-. destruct Hsafe as [Hg Hsafe]. destruct (Hg (get_var st' x)) as [Hf Hset]; [by apply world_get|].
        eapply Hdo; [by apply world_put|intros S'; by apply set_at_put|by apply set_at_put|exact Hsafe].
      + destruct (world_resolve st' b name Hws) as (st2 & v & Hr & Hw2 & Hkeep). rewrite Hr in Hstep. injection Hstep as <- <-.
        eapply Hdo; [exact Hw2|exact Hkeep|by apply Hkeep|apply Hsafe].
      + destruct (free h m); [|discriminate]. injection Hstep as <- <-. by eapply Hdo.
      + injection Hstep as <- <-. by eapply Hdo.
  Qed.
End safe.

Lemma world_start st : vreachable st -> ~ broken st -> world st st.
Proof.
  intros Hr Hb. apply vreachable_wf in Hr as Hwf. split; [apply (wf_dag st Hwf)|]. split; [|split].
  - intros [l|] Hp; [|done]. exists l. split; [done|]. destruct (wf_prs st Hwf l Hp) as [pr Hpr]. by exists pr.
  - intros k t Ht. destruct (wf_reg st Hwf k t Ht) as (c & Hc & _). by exists c.
  - intros t c Hc k d Hd. destruct (wf_kids st Hwf t c k d Hc Hd) as (tc & Htc & _). by exists tc.
Qed.
Lemma no_crash st calls s i c r : vreachable st -> ~ broken st -> Forall (handed st) calls -> Forall no_nil calls -> tmet st calls s ->
  calls !! i = Some c -> returned s i r -> comes_to c r.
Proof.
  intros Hr Hb Hh Hn Hm Hc Hret. destruct (safe_met st calls s (world_start st Hr Hb) Hh Hn Hm) as (_ & _ & Hi).
  destruct (Hi _ _ _ Hret Hc) as (S & _ & H). exact H.
Qed.
