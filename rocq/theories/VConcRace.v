(** Data races on a v2 authorizer; who waits for whom. *)
From Verif Require Export VConcProofs.
From Verif Require Import RoleModel.

(** The lock under which a variable is written *)
Definition lock_of (x : kvar) : option mutex :=
  match x with
  | GDefault | GStatus _ | GExpiry _ => None
  | GAssign | GIndex | GReg | GParents => Some LAuth
  | GNames t | GScopes t _ | GDefNs t | GKids t => Some (LTenant t)
  end.

Section discipline.
  Variables W R N : kvar -> Prop.
  Definition covered (H : option mutex) (x : kvar) : Prop := N x \/ exists m, H = Some m /\ lock_of x = Some m.
  (** The program, which holds [H], keeps to its footprint and, except where it may go without, to the locks. *)
  Fixpoint disc {A} (H : option mutex) (c : code A) : Prop :=
    match c with
    | KRet r => H = None \/ r = Panic
    | KRead x k => (W x \/ R x) /\ covered H x /\ forall v, disc H (k v)
    | KUpd x _ k => W x /\ covered H x /\ disc H k
    | KResolve _ _ k => H = None /\ forall v, disc H (k v)
    | KLock m k => H = None /\ disc (Some m) k
    | KUnlock m k => H = Some m /\ disc None k
    end.
  Lemma disc_bind {A B} (c : code A) (f : A -> code B) : (forall a, disc None (f a)) -> forall H, disc H c ->
    (forall a, c = KRet (Ok a) -> H = None) -> disc H (kbind c f).
  Proof.
    intros Hf. induction c as [[a| |]|x k IH|x g k IH|b name k IH|m k IH|m k IH]; intros H Hc Hr; cbn [kbind disc] in *.
    - rewrite (Hr a eq_refl). apply Hf.
    - by right.
    - destruct Hc as [Hc|Hc]; [by left|discriminate].
    - destruct Hc as (? & ? & Hc). split; [done|]. split; [done|]. intros v. apply IH; [apply Hc|].
      intros a Ha. specialize (Hc v). rewrite Ha in Hc. destruct Hc as [Hc|Hc]; [exact Hc|discriminate].
    - destruct Hc as (? & ? & Hc). split; [done|]. split; [done|]. apply IH; [exact Hc|].
      intros a Ha. rewrite Ha in Hc. destruct Hc as [Hc|Hc]; [exact Hc|discriminate].
    - destruct Hc as (? & Hc). split; [done|]. intros v. apply IH; [apply Hc|]. intros; done.
    - destruct Hc as (? & Hc). split; [done|]. apply IH; [exact Hc|].
      intros a Ha. rewrite Ha in Hc. destruct Hc as [Hc|Hc]; [exact Hc|discriminate].
    - destruct Hc as (? & Hc). split; [done|]. apply IH; [exact Hc|]. intros; done.
  Qed.
  Lemma disc_bind_none {A B} (c : code A) (f : A -> code B) : disc None c -> (forall a, disc None (f a)) -> disc None (kbind c f).
  Proof. intros Hc Hf. apply disc_bind; auto. Qed.
End discipline.

(** ** The calls keep to their footprints *)
Section footprint.
  Variable fr : vstate.
  Variable now : Z.
  Variable q : request.
  Variables W R : kvar -> Prop.
  Notation N := (fun _ : kvar => True).
  Notation dn := (disc W R N None).
  Hypothesis HR : forall x, match x with
    | GDefault | GStatus _ => q_tenant q = "" | GDefNs _ => q_namespace q = "" | GScopes _ _ => q_scope q <> ""
    | GIndex | GParents => False | _ => True end -> R x.
  Ltac leaf := cbn [disc]; left; reflexivity.
  Ltac look := cbn [disc]; split; [right; apply HR; auto|]; split; [left; exact I|]; intros.

  Lemma dn_expired l : dn (k_expired now l).
  Proof. unfold k_expired. look. destruct v; [|leaf]. look. destruct v; [leaf|by right]. Qed.
  Section traverse.
    Context {A : Type}.
    Variable krow : A -> prole -> code A.
    Hypothesis Hrow : forall acc pr, dn (krow acc pr).
    Lemma dn_rows user tid ps : forall acc, dn (k_rows fr now krow user tid acc ps).
    Proof.
      induction ps as [|[l|] ps IH]; intros acc; cbn [k_rows]; [leaf| |by right].
      destruct (w_prs fr !! l) as [pr|]; [|by right]. destruct (_ && _); [|apply IH].
      apply disc_bind_none; [apply dn_expired|]. intros []; [apply IH|]. apply disc_bind_none; [apply Hrow|]. intros; apply IH.
    Qed.
    Section loops.
      Variable krec : oracle -> nat -> gset string -> A -> code (gset string * A).
      Hypothesis Hrec : forall o t V acc, dn (krec o t V acc).
      Lemma dn_kids o cs : forall i V acc, dn (k_kids krec o i cs V acc).
      Proof. induction cs as [|c cs IH]; intros i V acc; cbn [k_kids]; [leaf|]. apply disc_bind_none; [apply Hrec|]. intros; apply IH. Qed.
      Lemma dn_manage user o t tid ps : forall i V acc, dn (k_manage fr user krec o i t tid ps V acc).
      Proof.
        induction ps as [|[l|] ps IH]; intros i V acc; cbn [k_manage]; [leaf| |by right].
        destruct (w_prs fr !! l) as [pr|]; [|by right]. destruct (_ && _); [|apply IH]. look.
        apply disc_bind_none; [apply dn_kids|]. intros; apply IH.
      Qed.
    End loops.
    Lemma dn_traverse user fuel : forall o t V acc, dn (k_traverse fr now krow user fuel o t V acc).
    Proof.
      induction fuel as [|fuel IH]; intros o t V acc; cbn [k_traverse]; [leaf|]. destruct (w_tenants fr !! t) as [c|]; [|by right].
      destruct (bool_decide _); [leaf|]. look. apply disc_bind_none; [apply dn_rows|]. intros acc'. look. apply dn_manage. intros; apply IH.
    Qed.
    Lemma dn_traverse_all user o t acc : dn (k_traverse_all fr now krow user o t acc).
    Proof. apply disc_bind_none; [apply dn_traverse|]. intros; leaf. Qed.
  End traverse.
  Lemma dn_permissions o user tid ns scope : dn (k_permissions fr now o user tid ns scope).
  Proof.
    unfold k_permissions. look. destruct (_ !! _); [|leaf]. apply disc_bind_none; [|intros; leaf]. apply dn_traverse_all.
    intros acc pr. unfold k_perm_row. destruct (_ || _); [|leaf]. cbn [disc]. split; [reflexivity|]. intros; by left.
  Qed.
  Lemma dn_roles o user tid ns : dn (k_roles fr now o user tid ns).
  Proof.
    unfold k_roles. look. destruct (_ !! _); [|leaf]. apply disc_bind_none; [|intros; leaf]. apply dn_traverse_all.
    intros acc pr. unfold k_role_row. destruct (_ && _); [|leaf]. cbn [disc]. split; [reflexivity|]. intros; by left.
  Qed.
  Lemma dn_own_tenants user ps : q_tenant q = "" -> forall acc, dn (k_own_tenants fr user acc ps).
  Proof.
    intros Hq. induction ps as [|[l|] ps IH]; intros acc; cbn [k_own_tenants]; [leaf| |by right].
    destruct (w_prs fr !! l) as [pr|]; [|by right]. destruct (_ && _); [|apply IH]. look. destruct (_ !! _); [|apply IH].
    destruct (w_tenants fr !! _); [|by right]. look. apply IH.
  Qed.
  Lemma dn_find_targets o : dn (k_find_targets fr o q).
  Proof.
    unfold k_find_targets. destruct (bool_decide (q_tenant q = "")) eqn:Hb.
    - apply bool_decide_eq_true in Hb.
      assert (Hn : forall tn : string, dn (if bool_decide (tn = "") then kbind (k_find_own fr o (q_principal q)) (fun ts => KRet (Ok (Some ts)))
        else KRead GReg (fun reg : gmap string nat => KRet (Ok (match reg !! tn with None => None | Some t => Some [t] end))))).
      { intros tn. destruct (bool_decide (tn = "")).
        - apply disc_bind_none; [|intros; leaf]. unfold k_find_own. look. look. apply disc_bind_none; [by apply dn_own_tenants|]. intros; leaf.
        - look. leaf. }
      look. match goal with |- disc _ _ _ _ (if ?b then _ else _) => destruct b end; [exact (Hn "")|]. look. apply Hn.
    - look. leaf.
  Qed.
  Lemma dn_namespace o t : dn (k_namespace o t q).
  Proof.
    unfold k_namespace.
    assert (Hn : forall n, dn (KRead (GNames t) (fun names : gset string => if bool_decide (n ∈ names) then
          if bool_decide (q_scope q = "") then KRet (Ok (Some n))
          else KRead (GScopes t n) (fun ss : gset string => KRet (Ok (if bool_decide (q_scope q ∈ ss) then Some n else None)))
        else KRet (Ok None)))).
    { intros n. look. destruct (bool_decide (n ∈ _)); [|leaf]. destruct (bool_decide (q_scope q = "")) eqn:Hs; [leaf|].
      apply bool_decide_eq_false in Hs. look. leaf. }
    destruct (bool_decide (q_namespace q = "")) eqn:Hb; cbn [negb]; [|apply Hn]. apply bool_decide_eq_true in Hb.
    look. destruct (negb _); [look; apply Hn|]. look.
    match goal with |- disc _ _ _ _ (if ?b then _ else _) => destruct b end; [|leaf]. look.
    match goal with |- disc _ _ _ _ (match ?l with [] => _ | _ => _ end) => destruct l end; apply Hn.
  Qed.
  Lemma dn_authorize o : dn (k_authorize fr now o q).
  Proof.
    apply disc_bind_none; [apply dn_find_targets|]. intros [ts|]; [|leaf]. generalize (sub o 1) as o1. intros o1. generalize 0 as i.
    induction ts as [|t ts IH]; intros i; cbn [k_authorize_loop]; [leaf|]. destruct (w_tenants fr !! t) as [c|]; [|by right].
    apply disc_bind_none; [apply dn_namespace|]. intros [n|]; [|apply IH]. apply disc_bind_none; [apply dn_permissions|].
    intros [ps|]; [|apply IH]. apply disc_bind_none; [leaf|]. intros []; [leaf|apply IH].
  Qed.
  Lemma dn_can o roles : dn (k_can fr now o q roles).
  Proof.
    apply disc_bind_none; [apply dn_find_targets|]. intros [ts|]; [|leaf]. generalize (sub o 1) as o1. intros o1. generalize 0 as i.
    induction ts as [|t ts IH]; intros i; cbn [k_can_loop]; [leaf|]. destruct (w_tenants fr !! t) as [c|]; [|by right].
    apply disc_bind_none; [apply dn_namespace|]. intros [n|]; [|apply IH]. apply disc_bind_none; [apply dn_roles|].
    intros [rs|]; [|apply IH]. destruct (existsb _ _); [leaf|apply IH].
  Qed.
End footprint.

Definition kept (c : kcall) (H : option mutex) (k : code kout) : Prop := disc (may_write c) (may_read c) (no_lock c) H k.
Ltac held := right; eexists; split; reflexivity.
Lemma disc_weaken {A} W R (N N' : kvar -> Prop) (c : code A) : (forall x, N x -> N' x) -> forall H, disc W R N H c -> disc W R N' H c.
Proof.
  intros HN. assert (Hu : forall H x, covered N H x -> covered N' H x) by (intros H x [?|?]; [left; auto|by right]).
  induction c as [r|x k IH|x g k IH|b name k IH|m k IH|m k IH]; intros H; cbn [disc]; firstorder.
Qed.
Lemma code_kept st c : kept c None (code_of st c).
Proof.
  unfold kept. destruct c as [o now q|o now q roles|id| |id|o t|ls|target|t n b|t n ss|t cs|t s|now l e|now l a|l]; cbn [code_of].
  - apply disc_bind_none; [|intros; by left]. apply (disc_weaken _ _ (fun _ => True)); [by intros []|]. apply dn_authorize.
    intros []; cbn; auto.
  - apply disc_bind_none; [|intros; by left]. apply (disc_weaken _ _ (fun _ => True)); [by intros []|]. apply dn_can.
    intros []; cbn; auto.
  - cbn [k_get_tenant disc]. split; [reflexivity|]. split; [by right|]. split; [held|]. intros v. split; [reflexivity|]. by left.
  - unfold k_get_default. cbn [disc]. split; [by right|]. split; [by left|]. intros v. destruct (bool_decide _); [by left|].
    cbn [disc]. split; [by right|]. split; [by left|]. intros v'. cbn [k_get_tenant disc]. split; [reflexivity|]. split; [by right|].
    split; [held|]. intros v2. split; [reflexivity|]. by left.
  - cbn [disc]. split; [done|]. split; [by left|]. by left.
  - unfold k_add_tenant. destruct (w_tenants st !! t) as [c|]; [|by right]. cbn [disc]. split; [reflexivity|]. split; [done|]. split; [held|].
    split; [by right|]. split; [by left|]. intros v. generalize (ordered o (map_to_list (v : gmap string nat)).*2) as cs.
    induction cs as [|d cs IH]; cbn [k_parents]; [split; [reflexivity|by left]|].
    destruct (w_tenants st !! d) as [c1|]; [|by right]. cbn [disc]. split; [done|]. split; [held|]. apply IH.
  - cbn [disc]. split; [reflexivity|]. change (disc (may_write (KAddPR ls)) (may_read (KAddPR ls)) (no_lock (KAddPR ls))) with
      (disc (A := kout) (may_write (KAddPR [])) (may_read (KAddPR [])) (no_lock (KAddPR []))).
    induction ls as [|l ls IH]; cbn [k_add_rows]; [split; [reflexivity|by left]|].
    destruct (w_prs st !! l) as [c0|]; [|by right]. cbn [disc]. split; [by right|]. split; [held|]. intros v. split; [done|]. split; [held|].
    split; [done|]. split; [held|]. apply IH.
  - unfold k_remove. cbn [disc]. split; [by right|]. split; [by left|]. intros v. split; [by right|]. split; [by left|]. intros v'.
    match goal with |- context [remove_into ?a ?b ?c ?d] => destruct (remove_into a b c d) as [[new|]| |] end; try (by left).
    cbn [disc]. split; [done|]. split; [by left|]. split; [done|]. split; [by left|]. by left.
  - unfold k_add_namespace. destruct (w_tenants st !! t) as [c0|]; [|by right]. cbn [disc]. split; [reflexivity|]. split; [by right|]. split; [held|].
    intros v. assert (Hb : disc (may_write (KAddNamespace t n b)) (may_read (KAddNamespace t n b)) (no_lock (KAddNamespace t n b)) (Some (LTenant t))
      ((if b then KUpd (GDefNs t) (set_to (x := GDefNs t) n) else id) (KUnlock (LTenant t) (KRet (Ok TUnit))))).
    { destruct b; cbn [disc id]; [split; [done|]; split; [held|]|]; (split; [reflexivity|by left]). }
    destruct (bool_decide _); [exact Hb|]. cbn [disc]. split; [done|]. split; [held|]. exact Hb.
  - unfold k_add_scopes. destruct (w_tenants st !! t) as [c0|]; [|by right]. cbn [disc]. split; [reflexivity|]. split; [by right|]. split; [held|].
    intros v. destruct (bool_decide _); [|cbn [disc]; split; [reflexivity|by left]].
    change (disc (may_write (KAddScopes t n ss)) (may_read (KAddScopes t n ss)) (no_lock (KAddScopes t n ss))) with
      (disc (A := kout) (may_write (KAddScopes t n [])) (may_read (KAddScopes t n [])) (no_lock (KAddScopes t n []))).
    induction ss as [|s ss IH]; cbn [k_scopes disc].
    + split; [done|]. split; [held|]. split; [reflexivity|by left].
    + split; [done|]. split; [held|]. exact IH.
  - unfold k_add_children. destruct (w_tenants st !! t) as [c0|]; [|by right]. cbn [disc]. split; [reflexivity|].
    change (disc (may_write (KAddChildren t cs)) (may_read (KAddChildren t cs)) (no_lock (KAddChildren t cs))) with
      (disc (A := kout) (may_write (KAddChildren t [])) (may_read (KAddChildren t [])) (no_lock (KAddChildren t []))).
    induction cs as [|d cs IH]; cbn [k_children]; [split; [reflexivity|by left]|].
    destruct (w_tenants st !! d) as [c1|]; [|by right]. cbn [disc]. split; [done|]. split; [held|]. exact IH.
  - destruct (w_tenants st !! t) as [c0|]; [|by right]. cbn [disc]. split; [done|]. split; [by left|]. by left.
  - unfold k_set_expiry. destruct (w_prs st !! l) as [c0|]; [|by right]. destruct (bool_decide _); [by left|]. cbn [disc]. split; [done|].
    split; [by left|]. by left.
  - unfold k_set_duration. destruct (w_prs st !! l) as [c0|]; [|by right].
    destruct a as [[d|]|d|]; cbn [disc]; try (by left); (split; [done|]; split; [by left|]; by left).
  - unfold k_clear_expiry. destruct (w_prs st !! l) as [c0|]; [|by right]. cbn [disc]. split; [done|]. split; [by left|]. by left.
Qed.

(** ** Invariant of the interleavings *)
Lemma held_once {s : ksh} m i j : NoDup (k_held s).*1 -> (m, i) ∈ k_held s -> (m, j) ∈ k_held s -> i = j.
Proof.
  destruct s as [st h]. cbn [k_held]. induction h as [|[a b] h IH]; intros Hnd Hi Hj; [by apply elem_of_nil in Hi|].
  cbn in Hnd. apply NoDup_cons in Hnd as [Hna Hnd].
  assert (Hab : forall x, (m, x) ∈ h -> a <> m).
  { intros x Hx ->. apply Hna. apply elem_of_list_fmap. by exists (m, x). }
  apply elem_of_cons in Hi as [Ei|Hi]; apply elem_of_cons in Hj as [Ej|Hj]; [congruence| | |by apply IH].
  - destruct (Hab _ Hj). congruence.
  - destruct (Hab _ Hi). congruence.
Qed.
Definition orderly (calls : list kcall) (s : ksh * list (code kout)) : Prop :=
  length s.2 = length calls /\ NoDup (k_held s.1).*1 /\
  (forall i k c, s.2 !! i = Some k -> calls !! i = Some c -> exists H, kept c H k /\ forall m, H = Some m <-> (m, i) ∈ k_held s.1) /\
  (forall m i, (m, i) ∈ k_held s.1 -> i < length calls).
Lemma orderly_met st calls s : tmet st calls s -> orderly calls s.
Proof.
  revert s. apply tmet_ind.
  - split; [apply fmap_length|]. split; [constructor|]. split; [|intros m i H; by apply elem_of_nil in H].
    intros i k c Hk Hc. cbn in Hk. rewrite list_lookup_fmap, Hc in Hk. injection Hk as <-. exists None. split; [apply code_kept|].
    intros m. split; [discriminate|]. intros H. by apply elem_of_nil in H.
  - intros s i s' _ (Hl & Hnd & Hi & Hb) Hs. apply tstep_inv in Hs as (k & h' & k' & Hk & Hstep & ->). cbn [fst snd].
    assert (exists call, calls !! i = Some call) as [c Hc].
    { apply lookup_lt_is_Some. rewrite <- Hl. by apply lookup_lt_Some in Hk. }
    destruct (Hi _ _ _ Hk Hc) as (H & Hkept & Hheld). destruct s as [[st' h] ks]. cbn [fst snd k_held k_st] in *.
    assert (Hil : i < length ks) by (by apply lookup_lt_Some in Hk).
    assert (Hsame : forall h2 H2 k2, (forall m j, j <> i -> (m, j) ∈ h2 <-> (m, j) ∈ h) -> NoDup h2.*1 -> kept c H2 k2 ->
      (forall m, H2 = Some m <-> (m, i) ∈ h2) -> forall st2, orderly calls (KSh st2 h2, <[i := k2]> ks)).
    { intros h2 H2 k2 Hoth Hnd2 Hk2 Hh2 st2. split; [cbn [snd]; by rewrite insert_length|]. split; [exact Hnd2|]. cbn [fst snd k_held]. split.
      - intros j kj cj Hkj Hcj. destruct (decide (j = i)) as [->|Hn].
        + rewrite list_lookup_insert in Hkj by done. injection Hkj as <-. replace cj with c by congruence. by exists H2.
        + rewrite list_lookup_insert_ne in Hkj by done. destruct (Hi _ _ _ Hkj Hcj) as (Hj & ? & Hhj). exists Hj. split; [done|].
          intros m. rewrite Hhj. symmetry. by apply Hoth.
      - intros m j Hmj. destruct (decide (j = i)) as [->|Hn]; [by apply lookup_lt_Some in Hc|]. apply (Hb m). by apply Hoth. }
    assert (Hquiet : forall k2 st2, kept c H k2 -> orderly calls (KSh st2 h, <[i := k2]> ks)) by (intros; by eapply Hsame).
    destruct k as [r|x f|x g k|b name f|m k|m k]; cbn [code_step] in Hstep; unfold kept in Hkept; cbn [disc] in Hkept.
    + discriminate.
    + injection Hstep as <- <-. apply Hquiet. apply Hkept.
    + injection Hstep as <- <-. apply Hquiet. apply Hkept.
    + destruct Hkept as [-> Hkept]. destruct (resolve_step b st' name) as [[st2 v]| |]; injection Hstep as <- <-; apply Hquiet; [apply Hkept| |]; by left.
    + destruct Hkept as [-> Hkept]. destruct (free h m) eqn:Hf; [|discriminate]. injection Hstep as <- <-.
      unfold free in Hf. apply bool_decide_eq_true in Hf. apply Hsame with (H2 := Some m); [|by constructor|exact Hkept|].
      * intros m' j Hj. rewrite elem_of_cons. split; [intros [[= -> ->]|?]; done|by right].
      * intros m'. rewrite elem_of_cons. rewrite <- Hheld. split; [intros [= ->]; by left|]. intros [[= ->]|?]; done.
    + destruct Hkept as [-> Hkept]. injection Hstep as <- <-. apply Hsame with (H2 := None); [| |exact Hkept|].
      * intros m' j Hj. rewrite elem_of_list_filter. cbn [fst]. split; [by intros [_ ?]|]. intros Hin. split; [|exact Hin]. intros ->.
        assert (Hmi : (m, i) ∈ h) by (by apply Hheld). apply Hj.
        exact (held_once (s := KSh st' h) m j i Hnd Hin Hmi).
      * clear -Hnd. induction h as [|[a b] h IH]; [constructor|]. cbn in Hnd. apply NoDup_cons in Hnd as [Hna Hnd].
        rewrite filter_cons. destruct (decide _); [|by apply IH]. cbn. apply NoDup_cons. split; [|by apply IH].
        intros Hin. apply Hna. apply elem_of_list_fmap in Hin as ([x y] & -> & Hin). apply elem_of_list_filter in Hin as [_ Hin].
        apply elem_of_list_fmap. by exists (x, y).
      * intros m'. rewrite elem_of_list_filter. cbn [fst]. split; [discriminate|]. intros [Hne Hin]. apply Hheld in Hin. congruence.
Qed.
Lemma race_collides st calls s x i j : tmet st calls s -> vrace s x i j ->
  exists c c', calls !! i = Some c /\ calls !! j = Some c' /\ may_collide c c' x.
Proof.
  intros Hm (Hij & ki & kj & b & Hi & Hj & Hti & Htj). destruct (orderly_met _ _ _ Hm) as (Hl & Hnd & Ho & _).
  assert (exists c, calls !! i = Some c) as [c Hc] by (apply lookup_lt_is_Some; rewrite <- Hl; by apply lookup_lt_Some in Hi).
  assert (exists c, calls !! j = Some c) as [c' Hc'] by (apply lookup_lt_is_Some; rewrite <- Hl; by apply lookup_lt_Some in Hj).
  exists c, c'. split; [exact Hc|]. split; [exact Hc'|].
  destruct (Ho _ _ _ Hi Hc) as (H & Hk & Hh). destruct (Ho _ _ _ Hj Hc') as (H' & Hk' & Hh').
  assert (Hw : may_write c x /\ covered (no_lock c) H x).
  { destruct ki as [r|y k|y g k|b' name k|m k|m k]; cbn in Hti; try discriminate. injection Hti as ->. destruct Hk as (? & ? & _). auto. }
  assert (Hr : (may_write c' x \/ may_read c' x) /\ covered (no_lock c') H' x).
  { destruct kj as [r|y k|y g k|b' name k|m k|m k]; cbn in Htj; try discriminate; injection Htj as -> _; destruct Hk' as (? & ? & _); auto. }
  destruct Hw as [Hw Hu]. destruct Hr as [Hr Hu']. split; [exact Hw|]. split; [exact Hr|].
  destruct Hu as [Hu|(m & -> & Hg)]; [by left|]. destruct Hu' as [Hu'|(m' & -> & Hg')]; [by right|].
  exfalso. apply Hij. apply (held_once m i j Hnd); [by apply Hh|]. apply Hh'. congruence.
Qed.

(** ** Nobody waits for good *)
Lemma progress st calls s i k : tmet st calls s -> s.2 !! i = Some k -> (forall r, k <> KRet r) ->
  crashed s \/ exists j, can_move s j.
Proof.
  intros Hm Hi Hk. destruct (orderly_met _ _ _ Hm) as (Hl & Hnd & Ho & Hb).
  assert (Hmove : forall j kj, s.2 !! j = Some kj -> is_Some (code_step j s.1 kj) -> can_move s j).
  { intros j kj Hj [[s' k'] Hs]. unfold can_move, tstep. rewrite Hj. cbn. rewrite Hs. cbn. eauto. }
  destruct s as [[st' h] ks]. cbn [fst snd k_held] in *.
  destruct k as [r|x f|x g k|b name f|m k|m k].
  - by destruct (Hk r).
  - right. exists i. eapply Hmove; [exact Hi|]. cbn. eauto.
  - right. exists i. eapply Hmove; [exact Hi|]. cbn. eauto.
  - right. exists i. eapply Hmove; [exact Hi|]. cbn. destruct (resolve_step b st' name) as [[? ?]| |]; eauto.
  - destruct (free h m) eqn:Hf.
    + right. exists i. eapply Hmove; [exact Hi|]. cbn. rewrite Hf. eauto.
    + unfold free in Hf. apply bool_decide_eq_false in Hf. apply dec_stable in Hf. apply elem_of_list_fmap in Hf as ([m' j] & -> & Hin). cbn [fst] in *.
      pose proof (Hb _ _ Hin) as Hj. destruct (lookup_lt_is_Some_2 calls j Hj) as [c Hc]. rewrite <- Hl in Hj.
      destruct (lookup_lt_is_Some_2 ks j Hj) as [kj Hkj]. destruct (Ho _ _ _ Hkj Hc) as (H & Hkept & Hh).
      assert (H = Some m') as -> by (by apply Hh).
      destruct kj as [r|x f|x g k2|b name f|m2 k2|m2 k2]; unfold kept in Hkept; cbn [disc] in Hkept.
      * destruct Hkept as [?|Hp]; [discriminate|]. left. exists j. unfold returned. cbn [snd]. rewrite Hkj, Hp. reflexivity.
      * right. exists j. eapply Hmove; [exact Hkj|]. cbn. eauto.
      * right. exists j. eapply Hmove; [exact Hkj|]. cbn. eauto.
      * destruct Hkept as [? _]. discriminate.
      * destruct Hkept as [? _]. discriminate.
      * right. exists j. eapply Hmove; [exact Hkj|]. cbn. eauto.
  - right. exists i. eapply Hmove; [exact Hi|]. cbn. eauto.
Qed.

(** ** Every call ends *)
Definition smaller (c' c : code kout) : Prop :=
  match c with
  | KRet _ => False
  | KRead x k => exists v, c' = k v
  | KUpd _ _ k | KLock _ k | KUnlock _ k => c' = k
  | KResolve _ _ k => (exists v, c' = k v) \/ exists r, c' = KRet r
  end.
Lemma smaller_acc c : Acc smaller c.
Proof.
  induction c as [r|x k IH|x g k IH|b name k IH|m k IH|m k IH]; constructor; cbn [smaller].
  - intros c' [].
  - intros c' [v ->]. apply IH.
  - by intros c' ->.
  - intros c' [[v ->]|[r ->]]; [apply IH|]. constructor. intros c2 [].
  - by intros c' ->.
  - by intros c' ->.
Qed.
Definition one_smaller (l' l : list (code kout)) : Prop := exists i c c', l !! i = Some c /\ smaller c' c /\ l' = <[i := c']> l.
Lemma one_smaller_acc l : Acc one_smaller l.
Proof.
  induction l as [|c l IH].
  - constructor. intros l' (i & c & c' & Hi & _). by rewrite lookup_nil in Hi.
  - revert l IH. induction (smaller_acc c) as [c _ IHc]. intros l Hl. induction Hl as [l Hl IHl].
    constructor. intros l' (i & c1 & c' & Hi & Hs & ->). destruct i as [|i].
    + injection Hi as <-. cbn. apply IHc; [exact Hs|]. by constructor.
    + cbn in Hi |- *. apply IHl. by exists i, c1, c'.
Qed.
Lemma code_step_smaller i s c s' c' : code_step i s c = Some (s', c') -> smaller c' c.
Proof.
  destruct s as [st h]. destruct c as [r|x k|x g k|b name k|m k|m k]; cbn [code_step smaller]; try discriminate.
  - intros [= _ <-]. eauto.
  - by intros [= _ <-].
  - destruct (resolve_step b st name) as [[st2 v]| |]; intros [= _ <-]; eauto.
  - destruct (free h m); [|discriminate]. by intros [= _ <-].
  - by intros [= _ <-].
Qed.
Lemma not_for_ever st calls : ~ runs_for_ever st calls.
Proof.
  intros [sched Hs].
  assert (Hacc : forall l, Acc one_smaller l -> forall n s, trun (tstart st calls) (sched <$> seq 0 n) = Some s -> s.2 = l -> False).
  { intros l Hl. induction Hl as [l _ IH]. intros n s Hn Hsl. destruct (Hs (S n)) as [s' Hn'].
    assert (Hsnoc : trun (tstart st calls) (sched <$> seq 0 (S n)) = tstep s (sched n)).
    { rewrite seq_S, fmap_app. change (sched <$> [0 + n]) with [sched n]. rewrite trun_snoc, Hn. reflexivity. }
    pose proof Hn' as Hstep. rewrite Hsnoc in Hstep. apply tstep_inv in Hstep as (c & h' & c' & Hc & Hst & ->).
    eapply (IH (<[sched n := c']> s.2)) with (n := S n); [|exact Hn'|reflexivity].
    subst l. exists (sched n), c, c'. split; [exact Hc|]. split; [by eapply code_step_smaller|reflexivity]. }
  eapply Hacc with (n := 0); [apply one_smaller_acc|reflexivity|reflexivity].
Qed.
