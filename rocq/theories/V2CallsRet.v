(** Which calls to package v2 return, told from the calls made before. *)
From Verif Require Export V2CallsProofs V2RetSpec.
From Verif Require Import V2Final V2Remove V2Auth V2Cor RoleModel RoleHas.
From Verif Require Import V2RetSpec.

(** ** Authorize: no answer only where a comparison does not end *)
Section loops.
  Context (st : vstate) (now : Z) (q : request).
  Hypotheses (W : v2_wf st) (D : distinct_ids st).
  Definition asks : Prop := q_resource q <> "" \/ q_action q <> "".
  Definition offered (t : nat) (p : string) : Prop :=
    exists c n, tenant_at st t c /\ uses_namespace c q n /\ effective st now (q_principal q) t n (q_scope q) p.
  Notation loops p := (StrLoops p (res_act (q_resource q) (q_action q))).
  Notation regs ts := (forall t, t ∈ ts -> exists c, tenant_at st t c /\ w_reg st !! vt_id c = Some t).
  Lemma regs_tail t ts : regs (t :: ts) -> regs ts.
  Proof. intros H t' Ht'. apply H. right. exact Ht'. Qed.
  Lemma asks_dec : asks /\ bool_decide (q_resource q = "") && bool_decide (q_action q = "") = false
    \/ ~ asks /\ bool_decide (q_resource q = "") && bool_decide (q_action q = "") = true.
  Proof.
    unfold asks. destruct (decide (q_resource q = "")) as [E1|N1], (decide (q_action q = "")) as [E2|N2]; rewrite ?(bool_decide_true _ E1), ?(bool_decide_true _ E2), ?(bool_decide_false _ N1), ?(bool_decide_false _ N2).
    - right. split; [intros [H|H]; [exact (H E1)|exact (H E2)]|reflexivity].
    - left. split; [right; exact N2|reflexivity].
    - left. split; [left; exact N1|reflexivity].
    - left. split; [left; exact N1|reflexivity].
  Qed.
  Lemma loop_returns o i d ts : ~ broken st -> extends st vr_perms d -> regs ts -> (asks -> forall t p, t ∈ ts -> offered t p -> ~ loops p) ->
    exists d' b, authorize_loop o i st now q d ts = Ok (d', b).
  Proof.
    intros B. revert i d. induction ts as [|t ts IH]; intros i d Hd R N; cbn [authorize_loop]; [eauto|].
    assert (G : forall i d, extends st vr_perms d -> exists d' b, authorize_loop o i st now q d ts = Ok (d', b)).
    { intros i' d' He. apply IH; [exact He|exact (regs_tail _ _ R)|]. intros A t' p Ht'. apply (N A). right. exact Ht'. }
    destruct (R t) as (c & Hc & Hreg); [left|]. unfold tenant_at in Hc. rewrite Hc.
    destruct (target_namespace c q) as [n|] eqn:Hn; [|apply G; exact Hd]. apply target_namespace_exact in Hn.
    destruct (rpp_returns (sub (sub o i) 0) st now d (q_principal q) (vt_id c) n (q_scope q) W B Hd) as (d1 & ps & Hp & Hd1). rewrite Hp. cbn [rbind fst snd].
    destruct (rpp_exact _ _ _ _ _ _ _ _ _ _ _ W D Hd Hreg Hp) as [_ X].
    destruct ps as [s|]; [|apply G; exact Hd1].
    assert (Y : exists b, perms_match (sub (sub o i) 1) q s = Ok b).
    { unfold perms_match. destruct asks_dec as [[A E]|[_ E]]; rewrite E; [|eauto]. apply any_match_returns.
      intros p Hps%elem_of_ordered%elem_of_elements. apply (N A t p); [left|]. exists c, n. split_and!; [exact Hc|exact Hn|]. apply X. exists s. split; [reflexivity|exact Hps]. }
    destruct Y as [b ->]. cbn [rbind]. destruct b; [eauto|apply G; exact Hd1].
  Qed.
  Lemma any_match_false v ps : any_match v ps = Ok false -> forall p, p ∈ ps -> ~ StrLoops p v.
  Proof.
    induction ps as [|p' ps IH]; cbn [any_match]; [intros _ p H; destruct (not_elem_of_nil _ H)|].
    destruct (match_resource v p') as [[]| |] eqn:E; try discriminate. cbn [rbind]. intros H p [->|Hp]%elem_of_cons; [|exact (IH H p Hp)].
    intros L. apply match_resource_hang in L. rewrite L in E. discriminate.
  Qed.
  Lemma loop_refuses o i d ts d' : extends st vr_perms d -> regs ts -> authorize_loop o i st now q d ts = Ok (d', false) ->
    asks -> forall t p, t ∈ ts -> offered t p -> ~ loops p.
  Proof.
    revert i d. induction ts as [|t ts IH]; intros i d Hd R; cbn [authorize_loop]; [intros _ _ t p H; destruct (not_elem_of_nil _ H)|].
    destruct (R t) as (c & Hc & Hreg); [left|]. unfold tenant_at in Hc. rewrite Hc. intros H A.
    assert (S : forall p, offered t p -> exists n, target_namespace c q = Some n /\ effective st now (q_principal q) t n (q_scope q) p).
    { intros p (c' & n & Hc' & Hn & He). unfold tenant_at in Hc'. rewrite Hc in Hc'. injection Hc' as <-. exists n. split; [apply target_namespace_exact; exact Hn|exact He]. }
    destruct (target_namespace c q) as [n|] eqn:Hn.
    - apply rbind_inv in H as ([d1 ps] & Hp & H). cbn [fst snd] in H. destruct (rpp_exact _ _ _ _ _ _ _ _ _ _ _ W D Hd Hreg Hp) as [Hd1 X].
      destruct ps as [s|].
      + apply rbind_inv in H as ([] & Hm & H); [discriminate|]. intros t' p [->|Ht']%elem_of_cons; [|exact (IH _ _ Hd1 (regs_tail _ _ R) H A t' p Ht')].
        intros (n' & [= <-] & He)%S. apply X in He as (s' & [= <-] & Hps). unfold perms_match in Hm. destruct asks_dec as [[_ E]|[NA _]]; [rewrite E in Hm|destruct (NA A)].
        apply (any_match_false _ _ Hm). apply elem_of_ordered, elem_of_elements. exact Hps.
      + intros t' p [->|Ht']%elem_of_cons; [|exact (IH _ _ Hd1 (regs_tail _ _ R) H A t' p Ht')].
        intros (n' & [= <-] & He)%S. apply X in He as (s' & [=] & _).
    - intros t' p [->|Ht']%elem_of_cons; [|exact (IH _ _ Hd (regs_tail _ _ R) H A t' p Ht')]. intros (n' & [=] & _)%S.
  Qed.
  Lemma authorize_answers o : ~ broken st -> (asks -> forall t p, target st q t -> offered t p -> ~ loops p) -> exists st' b, v2_authorize o st now q = Ok (st', b).
  Proof.
    intros B N. unfold v2_authorize. destruct (find_target_returns (sub o 0) st q W B) as [ts Hts]. rewrite Hts. cbn [rbind]. destruct ts as [ts|]; [|eauto].
    destruct (loop_returns (sub o 1) 0 (w_dag st) ts B (extends_refl st vr_perms) (fun t Ht => find_target_reg _ _ _ _ _ t W Hts eq_refl Ht)) as (d' & b & E).
    - intros A t p Ht. apply (N A). apply (find_target_exact _ _ _ _ Hts). exists ts. split; [reflexivity|exact Ht].
    - rewrite E. cbn. eauto.
  Qed.
  Lemma authorize_refuses o st' : v2_authorize o st now q = Ok (st', false) -> asks -> forall t p, target st q t -> offered t p -> ~ loops p.
  Proof.
    unfold v2_authorize. intros (ts & Hts & H)%rbind_inv A t p Ht. apply (find_target_exact _ _ _ _ Hts) in Ht as (l & -> & Ht).
    apply rbind_inv in H as ([d b] & H & [= _ ->]).
    exact (loop_refuses _ _ _ _ _ (extends_refl st vr_perms) (fun t Ht => find_target_reg _ _ _ _ _ t W Hts eq_refl Ht) H A t p Ht).
  Qed.
End loops.

(** ** Calls that set something up *)
Lemma pointers_told h st x : told h st -> pointers_made h x -> sets_up x -> points_in st x.
Proof.
  intros T P U. pose proof (told_length _ _ (to_tenants _ _ T)) as L.
  assert (LP : length (w_prs st) = length (assignments_made h)) by (rewrite (proj1 (to_prs _ _ T)), imap_length; reflexivity).
  assert (LR : length (w_roles st) = length (roles_made h)) by (rewrite <- (to_rnames _ _ T), fmap_length; reflexivity).
  unfold points_in. rewrite LP, LR, <- L. destruct x; try contradiction; try exact P. cbn in *. apply Forall_cons in P. exact P.
Qed.
Lemma upd_pr_returns st l f : l < length (w_prs st) -> exists st' e, upd_pr st l f = Ok (st', e).
Proof. intros [pr H]%lookup_lt_is_Some. unfold upd_pr. rewrite H. eauto. Qed.
Lemma made_returns o h st x : told h st -> v2_wf st -> pointers_made h x -> ~ decides x -> match x with VRemovePR _ => False | _ => True end ->
  exists st' y, vstep o st x = Ok (st', y).
Proof.
  intros T W P N R. assert (LP : length (w_prs st) = length (assignments_made h)) by (rewrite (proj1 (to_prs _ _ T)), imap_length; reflexivity).
  destruct x; try contradiction; try (apply step_returns; [exact W|exact I|]; exact (pointers_told _ _ _ T P I)); try (cbn [vstep]; eauto; fail).
  - cbn [vstep pointers_made] in *. rewrite <- LP in P. destruct (upd_pr_returns st pr (fun p => set_expiry now p e) P) as (st' & e' & ->). cbn. eauto.
  - cbn [vstep pointers_made] in *. rewrite <- LP in P. destruct (upd_pr_returns st pr (fun p => set_expiry_duration now p a) P) as (st' & e' & ->). cbn. eauto.
  - cbn [vstep pointers_made] in *. rewrite <- LP in P. destruct (upd_pr_returns st pr (fun p => (clear_expiry p, None)) P) as (st' & e' & ->). cbn. eauto.
Qed.
Lemma exactly_ret {A B} (x : res (A * B)) (P : Prop) : (P /\ x = Panic \/ ~ P /\ exists a b, x = Ok (a, b)) ->
  ((exists a b, x = Ok (a, b)) <-> ~ P) /\ (x = Panic <-> P) /\ x <> Hang.
Proof.
  intros [[Y ->]|[N (a & b & ->)]]; split_and!; try discriminate; split; try (intros (? & ? & ?); discriminate); try (intros Z; destruct (Z Y)); try (intros; exact Y); try reflexivity; try discriminate.
  - intros _. exact N.
  - intros _. exists a, b. reflexivity.
  - intros Z. destruct (N Z).
Qed.
Lemma told_all o ops st outs : vrun o 0 v2_init ops = Ok (st, outs) -> told (zip ops outs) st.
Proof. intros H. exact (told_run _ _ _ _ _ _ _ init_wf H told_init). Qed.
Lemma no_criteria_dec c : no_criteria c \/ ~ no_criteria c.
Proof. destruct (blank c) eqn:E; [left|right]; rewrite <- no_criteria_blank, E; [reflexivity|discriminate]. Qed.
Lemma c116_set_up o ops st outs o' x : vrun o 0 v2_init ops = Ok (st, outs) -> pointers_made (zip ops outs) x -> ~ decides x ->
  ((exists st' y, vstep o' st x = Ok (st', y)) <-> ~ (nil_left (zip ops outs) /\ looks_through (zip ops outs) x))
  /\ (vstep o' st x = Panic <-> nil_left (zip ops outs) /\ looks_through (zip ops outs) x) /\ vstep o' st x <> Hang.
Proof.
  intros H P N. pose proof (told_all _ _ _ _ H) as T. assert (W : v2_wf st) by (apply vreachable_wf; exists o, ops, outs; exact H). apply exactly_ret.
  destruct x; try (right; split; [intros [_ []]|apply (made_returns o' _ st _ T W P N I)]); try (destruct (N I)).
  cbn [vstep looks_through]. destruct (nil_dec _ _ T) as [[L B]|[L B]].
  - pose proof (remove_broken st target B) as R. destruct (blank target) eqn:E.
    + right. split; [intros [_ Z]; apply Z, no_criteria_blank; exact E|]. destruct R as (st' & -> & _). cbn. eauto.
    + left. split; [|rewrite R; reflexivity]. split; [exact L|]. rewrite <- no_criteria_blank, E. discriminate.
  - right. split; [intros [Z _]; exact (L Z)|]. destruct (remove_returns st target W B) as (st' & e & ->). cbn. eauto.
Qed.

(** ** Decisions *)
Lemma looks_dec st q : v2_wf st -> state_looks st q \/ ~ state_looks st q.
Proof.
  intros W. unfold state_looks, nameless, names. destruct (decide (q_tenant q = "" /\ w_default st = "")) as [Y|N]; [left; left; exact Y|].
  set (tn := if decide (q_tenant q = "") then w_default st else q_tenant q).
  assert (M : forall id, id <> "" /\ (q_tenant q = id \/ q_tenant q = "" /\ w_default st = id) <-> id = tn).
  { intros id. unfold tn. destruct (decide (q_tenant q = "")) as [E|E].
    - split; [intros [Z [H|[_ H]]]; [destruct Z; rewrite <- H; exact E|symmetry; exact H]|]. intros ->. split; [intros Z; apply N; split; assumption|right; split; [exact E|reflexivity]].
    - split; [intros [_ [H|[H _]]]; [symmetry; exact H|destruct (E H)]|]. intros ->. split; [exact E|left; reflexivity]. }
  destruct (w_reg st !! tn) as [t|] eqn:R.
  - destruct (wf_reg _ W _ _ R) as (c & Hc & _). destruct (target_namespace c q) as [n|] eqn:E.
    + left. right. exists tn, t, c, n. exact (conj (proj2 (M tn) eq_refl) (conj R (conj Hc (proj1 (target_namespace_exact c q n) E)))).
    + right. intros [Y|(id & t' & c' & n & H & R' & Hc' & Hn)]; [exact (N Y)|]. apply M in H as ->. rewrite R in R'. injection R' as <-.
      unfold tenant_at in *. rewrite Hc in Hc'. injection Hc' as <-. apply target_namespace_exact in Hn. rewrite E in Hn. discriminate.
  - right. intros [Y|(id & t' & c' & n & H & R' & _)]; [exact (N Y)|]. apply M in H as ->. rewrite R in R'. discriminate.
Qed.
(** A request that looks at no assignment is refused, whatever the list of assignments is like. *)
Lemma quiet o st q : v2_wf st -> ~ state_looks st q ->
  exists ts, find_target_tenants o st q = Ok ts /\ forall l, ts = Some l -> exists t c, l = [t] /\ w_tenants st !! t = Some c /\ target_namespace c q = None.
Proof.
  intros W N. unfold find_target_tenants. assert (M : forall id t c n, id <> "" -> q_tenant q = id \/ q_tenant q = "" /\ w_default st = id -> w_reg st !! id = Some t -> tenant_at st t c -> target_namespace c q <> Some n).
  { intros id t c n Hi Hq R Hc Hn. apply N. right. exists id, t, c, n. exact (conj (conj Hi Hq) (conj R (conj Hc (proj1 (target_namespace_exact c q n) Hn)))). }
  assert (G : forall id, id <> "" -> q_tenant q = id \/ q_tenant q = "" /\ w_default st = id ->
    forall l, match w_reg st !! id with None => None | Some t => Some [t] end = Some l -> exists t c, l = [t] /\ w_tenants st !! t = Some c /\ target_namespace c q = None).
  { intros id Hi Hq l. destruct (w_reg st !! id) as [t|] eqn:R; [|discriminate]. intros [= <-]. destruct (wf_reg _ W _ _ R) as (c & Hc & _).
    exists t, c. split_and!; [reflexivity|exact Hc|]. destruct (target_namespace c q) as [n|] eqn:Hn; [|reflexivity]. destruct (M id t c n Hi Hq R Hc Hn). }
  destruct (decide (q_tenant q = "")) as [E|E]; [rewrite (bool_decide_true _ E)|rewrite (bool_decide_false _ E)].
  - destruct (decide (w_default st = "")) as [E'|E']; [destruct N; left; split; assumption|]. rewrite (bool_decide_false _ E'). eexists. split; [reflexivity|].
    apply (G (w_default st) E'). right. split; [exact E|reflexivity].
  - rewrite (bool_decide_false _ E). eexists. split; [reflexivity|]. apply (G (q_tenant q) E). left. reflexivity.
Qed.
Lemma can_quiet o st now q roles : v2_wf st -> ~ state_looks st q -> exists st' b, v2_can o st now q roles = Ok (st', b).
Proof.
  intros W N. unfold v2_can. destruct (quiet (sub o 0) st q W N) as (ts & -> & Q). cbn [rbind]. destruct ts as [l|]; [|eauto].
  destruct (Q l eq_refl) as (t & c & -> & Hc & Hn). cbn [can_loop]. rewrite Hc, Hn. cbn. eauto.
Qed.
Lemma authorize_quiet o st now q : v2_wf st -> ~ state_looks st q -> exists st', v2_authorize o st now q = Ok (st', false).
Proof.
  intros W N. unfold v2_authorize. destruct (quiet (sub o 0) st q W N) as (ts & -> & Q). cbn [rbind]. destruct ts as [l|]; [|eauto].
  destruct (Q l eq_refl) as (t & c & -> & Hc & Hn). cbn [authorize_loop]. rewrite Hc, Hn. cbn. eauto.
Qed.
Lemma told_looks h st now q : told h st -> v2_wf st -> distinct_ids st -> vreachable st ->
  nil_left h /\ looks_through h (VAuthorize now q) /\ broken st /\ state_looks st q
  \/ ~ (nil_left h /\ looks_through h (VAuthorize now q)) /\ (broken st -> ~ state_looks st q).
Proof.
  intros T W D V. pose proof (looks_told h st now q T W D) as E. destruct (nil_dec _ _ T) as [[L B]|[L B]].
  - destruct (looks_dec st q W) as [K|K].
    + left. split_and!; [exact L|apply E; exact K|exact B|exact K].
    + right. split; [intros [_ Z]; apply K, E; exact Z|intros _; exact K].
  - right. split; [intros [Z _]; exact (L Z)|intros Z; destruct (B Z)].
Qed.
Lemma c116_can o ops st outs o' now q roles : vrun o 0 v2_init ops = Ok (st, outs) -> own_ids (zip ops outs) ->
  ((exists st' b, v2_can o' st now q roles = Ok (st', b)) <-> ~ (nil_left (zip ops outs) /\ looks_through (zip ops outs) (VCan now q roles)))
  /\ (v2_can o' st now q roles = Panic <-> nil_left (zip ops outs) /\ looks_through (zip ops outs) (VCan now q roles)) /\ v2_can o' st now q roles <> Hang.
Proof.
  intros H I. pose proof (told_all _ _ _ _ H) as T. assert (V : vreachable st) by (exists o, ops, outs; exact H). pose proof (vreachable_wf _ V) as W.
  pose proof (own_distinct _ _ T I) as D. apply exactly_ret. destruct (told_looks _ _ now q T W D V) as [(L & K & B & S)|[N NB]].
  - left. split; [split; [exact L|exact K]|]. apply (c40_exact o' st now q roles V B). exact S.
  - right. split; [exact N|]. destruct (nil_dec _ _ T) as [[_ B]|[_ B]].
    + apply can_quiet; [exact W|exact (NB B)].
    + exact (c32_returns o' st now q roles V B).
Qed.
Lemma c116_authorize o ops st outs o' now q : vrun o 0 v2_init ops = Ok (st, outs) -> own_ids (zip ops outs) ->
  v2_authorize o' st now q = Panic <-> nil_left (zip ops outs) /\ looks_through (zip ops outs) (VAuthorize now q).
Proof.
  intros H I. pose proof (told_all _ _ _ _ H) as T. assert (V : vreachable st) by (exists o, ops, outs; exact H). pose proof (vreachable_wf _ V) as W.
  pose proof (own_distinct _ _ T I) as D. destruct (told_looks _ _ now q T W D V) as [(L & K & B & S)|[N NB]].
  - split; [intros _; split; [exact L|exact K]|intros _]. apply (c40_exact o' st now q [] V B). exact S.
  - split; [|intros Z; destruct (N Z)]. intros P. exfalso. destruct (nil_dec _ _ T) as [[_ B]|[_ B]].
    + destruct (authorize_quiet o' st now q W (NB B)) as [st' E]. rewrite P in E. discriminate.
    + destruct (c40_not_broken o' st now q [] V B) as [Z _]. exact (Z P).
Qed.

(** ** Requests that are answered *)
Lemma current_perm o ops1 ops2 st outs r p : vrun o 0 v2_init (ops1 ++ ops2) = Ok (st, outs) ->
  Forall (fun x => ~ decides x) ops1 -> Forall (fun x => ~ changes_roles x /\ ~ is_can x) ops2 -> role_perm st r p <-> role_perm (forget st) r p.
Proof.
  intros H N1 N2. apply up_to_date_perm. intros s Hs p'. apply (setup_cache_says vr_perms o ops1 ops2 st outs H N1); [| |exact Hs].
  - eapply Forall_impl; [exact N2|]. intros x [Hx _]. exact Hx.
  - left. split; [reflexivity|]. eapply Forall_impl; [exact N2|]. intros x [_ Hx]. exact Hx.
Qed.
Lemma effective_forget st now u t n s p : (forall r p, role_perm st r p <-> role_perm (forget st) r p) -> effective st now u t n s p <-> effective (forget st) now u t n s p.
Proof.
  intros E. assert (S : forall p, scoped_perm st now u t n s p <-> scoped_perm (forget st) now u t n s p).
  { intros p'. split; intros (pr & Hc & Hs & Hp); exists pr; (split; [exact Hc|split; [exact Hs|apply E; exact Hp]]). }
  unfold effective. rewrite (S p). split; (intros [H|[(pr & Hc & H1 & H2 & Hp) N]]; [left; exact H|right]; split; [exists pr; split_and!; [exact Hc|exact H1|exact H2|apply E; exact Hp]|intros p' Hp'; apply (N p'), S; exact Hp']).
Qed.
Section answered.
  Context (o : oracle) (ops1 ops2 : list vop) (st : vstate) (outs : list vout) (now : Z) (q : request).
  Hypotheses (H : vrun o 0 v2_init (ops1 ++ ops2) = Ok (st, outs)) (N1 : Forall (fun x => ~ decides x) ops1) (N2 : Forall (fun x => ~ changes_roles x /\ ~ is_can x) ops2).
  Notation h := (zip (ops1 ++ ops2) outs).
  Hypothesis (I : own_ids h).
  Lemma compared_told p : ~ nil_left h -> compared h now q p <-> asks q /\ exists t, target st q t /\ offered st now q t p.
  Proof.
    intros B. pose proof (told_all _ _ _ _ H) as T. assert (W : v2_wf st) by (apply vreachable_wf; exists o, (ops1 ++ ops2), outs; exact H).
    pose proof (own_distinct _ _ T I) as D. pose proof (told_forget _ _ T) as T'. pose proof (forget_wf _ W) as W'.
    assert (R : forall r, d_resolved (w_dag (forget st)) !! r = None) by (intros r; apply lookup_empty).
    pose proof (effective_told h (forget st) T' W' D B R) as EF. pose proof (fun n s p t => effective_forget st now (q_principal q) t n s p (fun r p => current_perm _ _ _ _ _ r p H N1 N2)) as FO.
    unfold compared, offered, asks. split; intros [A X]; (split; [exact A|]).
    - destruct X as (t & n & Ht & Hn & He). destruct (about_there _ _ T q t Ht) as [c Hc]. exists t. split; [apply (about_told _ _ T W D B); exact Ht|].
      exists c, n. split_and!; [exact Hc|apply (namespace_told _ _ T t c q n Hc); exact Hn|]. apply FO, EF. exact He.
    - destruct X as (t & Ht & c & n & Hc & Hn & He). exists t, n. split_and!; [apply (about_told _ _ T W D B); exact Ht|apply (namespace_told _ _ T t c q n Hc); exact Hn|].
      apply EF, FO. exact He.
  Qed.
  Lemma c117_answered o' : ~ (nil_left h /\ looks_through h (VAuthorize now q)) -> permissions_decide h now q ->
    exists st' b, v2_authorize o' st now q = Ok (st', b) /\ (b = true <-> granted h now q).
  Proof.
    intros N P. assert (G : exists st' b, v2_authorize o' st now q = Ok (st', b)).
    { pose proof (told_all _ _ _ _ H) as T. assert (V : vreachable st) by (exists o, (ops1 ++ ops2), outs; exact H). pose proof (vreachable_wf _ V) as W.
      pose proof (own_distinct _ _ T I) as D. destruct (nil_dec _ _ T) as [[L B]|[L B]].
      - destruct (told_looks _ _ now q T W D V) as [(L' & K & _)|[_ NB]]; [destruct N; split; [exact L'|exact K]|].
        destruct (authorize_quiet o' st now q W (NB B)) as [st' E]. exists st', false. exact E.
      - apply (authorize_answers st now q W D o' B). intros A t p Ht Ho. apply P. apply compared_told; [exact L|]. split; [exact A|]. exists t. split; assumption. }
    destruct G as (st' & b & E). exists st', b. split; [exact E|]. exact (calls_decide _ _ _ _ _ _ _ _ _ _ H N1 N2 I E).
  Qed.
  Lemma c117_refused o' : (exists st', v2_authorize o' st now q = Ok (st', false)) <->
    ~ granted h now q /\ permissions_decide h now q /\ ~ (nil_left h /\ looks_through h (VAuthorize now q)).
  Proof.
    split.
    - intros [st' E]. split_and!.
      + intros G. apply (calls_decide _ _ _ _ _ _ _ _ _ _ H N1 N2 I E) in G. discriminate.
      + pose proof (told_all _ _ _ _ H) as T. assert (V : vreachable st) by (exists o, (ops1 ++ ops2), outs; exact H). pose proof (vreachable_wf _ V) as W.
        pose proof (own_distinct _ _ T I) as D. intros p C. destruct (nil_dec _ _ T) as [[L B]|[L B]].
        * destruct C as (_ & t & n & Ht & Hn & _). exfalso.
          assert (Z : v2_authorize o' st now q = Panic) by (apply (c116_authorize _ _ _ _ _ _ _ H I); split; [exact L|exact (about_looks _ _ _ _ _ Ht Hn)]).
          rewrite E in Z. discriminate.
        * apply (compared_told _ L) in C as (A & t & Ht & Ho). exact (authorize_refuses st now q W D o' st' E A t p Ht Ho).
      + intros Z. apply (c116_authorize _ _ _ _ o' now q H I) in Z. rewrite E in Z. discriminate.
    - intros (G & P & N). destruct (c117_answered o' N P) as (st' & [] & E & X); [destruct G; apply X; reflexivity|]. exists st'. exact E.
  Qed.
End answered.
