(** Several v1 Authorize calls at the same time: the lemmas behind C119. *)
From Verif Require Import UtilsProofs RoleProofs V1Auth V1Dec V1SliceProofs V1Inv.
From Verif Require Export V1PoolInv.

(** ** Names *)
Lemma fmap_role st p q (rows : list trow) (f : trow -> Prop) `{!forall a, Decision (f a)} :
  (forall a, a ∈ rows -> assigned st a /\ tp_principal a = p) -> Forall (x_handles st p q) (tp_role <$> filter f rows).
Proof.
  intros Hr. apply Forall_forall. intros x Hx. apply elem_of_list_fmap in Hx as (a & -> & Ha). apply elem_of_list_filter in Ha as [_ Ha]. destruct (Hr a Ha) as [H1 H2]. exists a. split; [exact H1|]. split; [exact H2|]. left. reflexivity.
Qed.
Lemma work_names o o' st t p q prs w s : u_wf st -> get_principal_roles o st t p = Ok prs -> slice_work o' st prs (to_string (uo_namespace q)) s = Ok w -> work_ok (x_handles st p q) w.
Proof.
  intros W Hp. destruct (principal_roles_ok o st t p W) as (rs & Hr & Hin). rewrite Hp in Hr. injection Hr as <-.
  assert (H : forall a, a ∈ prs -> assigned st a /\ tp_principal a = p). { intros a Ha. apply Hin in Ha as (H1 & H2 & _). exact (conj H1 H2). } clear Hin Hp.
  unfold slice_work. destruct prs as [|first prs]; [discriminate|]. destruct (u_tenant st (tp_tenant first)) as [c|] eqn:Ec; [|discriminate].
  destruct (_ || _).
  - intros [= <-]. split_and!; apply Forall_nil; exact I.
  - intros X. apply rbind_ok in X as (m & Hm & X).
    assert (Hn : forall x, x ∈ un_roles m \/ x ∈ un_scopes m -> x_handles st p q x).
    { intros x Hx. destruct (ut_namespaces c !! to_string (uo_namespace q)) as [l|] eqn:El.
      - destruct (u_nss st !! l) as [n|] eqn:En; [|discriminate]. injection Hm as ->. exists first. destruct (H first ltac:(left)) as [H1 H2]. split; [exact H1|]. split; [exact H2|]. right. right. exists c, l, m. split_and!; assumption.
      - injection Hm as <-. cbn [un_roles un_scopes] in Hx. destruct Hx as [Hx|Hx]; destruct (not_elem_of_empty _ Hx). }
    assert (A : Forall (x_handles st p q) (ordered (sub o' 0) (elements (un_scopes m)))).
    { apply Forall_forall. intros x Hx. apply elem_of_ordered, elem_of_elements in Hx. apply Hn. right. exact Hx. }
    assert (B : Forall (x_handles st p q) (ordered (sub o' 1) (elements (un_roles m)))).
    { apply Forall_forall. intros x Hx. apply elem_of_ordered, elem_of_elements in Hx. apply Hn. left. exact Hx. }
    assert (S : Forall (x_handles st p q) (tp_scope <$> filter (fun a => tp_scope a <> "") (first :: prs))).
    { apply Forall_forall. intros x Hx. apply elem_of_list_fmap in Hx as (a & -> & Ha). apply elem_of_list_filter in Ha as [_ Ha]. destruct (H a Ha) as [H1 H2]. exists a. split; [exact H1|]. split; [exact H2|]. right. left. reflexivity. }
    assert (D : Forall (x_handles st p q) (match ordered (sub o' 1) (elements (un_roles m)) with [] => tp_role <$> filter (fun a => tp_ns a = "" /\ tp_scope a = "") (first :: prs) | _ => ordered (sub o' 1) (elements (un_roles m)) end)).
    { destruct (ordered (sub o' 1) (elements (un_roles m))) as [|x xs]; [|exact B]. apply fmap_role. exact H. }
    cbv zeta in X. destruct (_ || _) in X.
    + injection X as <-. split_and!; assumption.
    + injection X as <-. split_and!; [exact A|exact B|exact S|]. cbn [sw_allowed]. destruct (_ && _); [|exact D]. apply Forall_app. split; [exact D|]. apply fmap_role. intros a Ha. apply elem_of_list_filter in Ha as [_ Ha]. exact (H a Ha).
Qed.
Lemma work_weaken (Q Q' : string -> Prop) w : (forall x, Q x -> Q' x) -> work_ok Q w -> work_ok Q' w.
Proof. intros H (A & B & C & D). split_and!; eapply Forall_impl; eassumption. Qed.

(** ** Requests *)
Definition q_activity (q : uopts) : Prop := exists act, q = UOpts ANil ANil ANil ANil act /\ act <> ANil.
Lemma xauth_activity o st p q : known st p -> q_activity q ->
  x_authorize o st p q = x_activity o st p (to_string (uo_activity q)) /\ u_authorize o st p q = authorize_for_activity o st p (to_string (uo_activity q)).
Proof. intros Hp (act & -> & Ha). unfold x_authorize, u_authorize. rewrite bool_decide_eq_true_2 by exact Hp. destruct act; [destruct (Ha eq_refl)|split; reflexivity..]. Qed.
Lemma xauth_complex o st p q : known st p -> complex_request q -> x_authorize o st p q = x_complex o st q p.
Proof.
  intros Hp Hq. unfold x_authorize. rewrite bool_decide_eq_true_2 by exact Hp.
  destruct q as [[] [] [] [] []]; simpl; try reflexivity; exfalso; destruct Hq as [?|[[? [?|[?|?]]]|(? & ? & ? & ?)]]; simpl in *; congruence.
Qed.
Lemma xauth_cases o st p q : (known st p /\ q_activity q) \/ (known st p /\ complex_request q) \/ (x_authorize o st p q = XRet (u_authorize o st p q) /\ (known st p -> ~ q_activity q /\ ~ complex_request q)).
Proof.
  destruct (decide (p ∈ u_principals st)) as [Hp|Hp].
  - destruct q as [t n s g a].
    destruct (decide (is_nil g && negb (is_nil a) && is_nil t && is_nil n && is_nil s)) as [E|E].
    + left. split; [exact Hp|]. exists a. destruct t, n, s, g, a; try (destruct E; fail); (split; [reflexivity|discriminate]).
    + right. destruct (decide (negb (is_nil g) || negb (is_nil a) || (is_nil t && is_nil n && is_nil s))) as [F|F].
      * left. split; [exact Hp|]. destruct t, n, s, g, a; try (destruct F; fail); try (destruct (E I)); unfold complex_request; cbn [uo_group uo_activity uo_tenant uo_namespace uo_scope];
          first [left; discriminate | right; left; split; [discriminate|first [left; discriminate | right; left; discriminate | right; right; discriminate]] | right; right; split_and!; reflexivity].
      * right. split.
        -- unfold x_authorize. rewrite (bool_decide_eq_true_2 _ Hp). destruct t, n, s, g, a; try (destruct (F I)); reflexivity.
        -- intros _. split.
           ++ intros (act & [= -> -> -> -> ->] & Ha). apply F. destruct act; [destruct (Ha eq_refl)|exact I..].
           ++ intros Hq. apply F. destruct t, n, s, g, a; try exact I; exfalso; destruct Hq as [?|[[? [?|[?|?]]]|(? & ? & ? & ?)]]; simpl in *; congruence.
  - right. right. split; [|intros Hk; destruct (Hp Hk)]. unfold x_authorize, u_authorize. rewrite (bool_decide_eq_false_2 _ Hp). reflexivity.
Qed.
Lemma permits_more h l grp act al : permits h l grp act al -> permits h l grp act [].
Proof. intros (g & Ho & H). exists g. split; [exact Ho|]. destruct H as [H|(d & gd & Hd & _ & H)]; [left; exact H|right]. exists d, gd. split; [exact Hd|]. split; [left; reflexivity|exact H]. Qed.
Lemma permits_can st r l grp act al : u_roles st !! r = Some l -> permits (u_heap st) l grp act al -> role_can st r grp act.
Proof. intros Hl H. apply (permits_grants st r l grp act [] _ Hl); [|exact (permits_more _ _ _ _ _ H)]. intros x. split; [intros N; exact (not_elem_of_nil _ N)|intros []]. Qed.

(** ** One call *)
Section one.
  Context (st : ustate) (cs : list xcall) (W : u_wf st).
  Definition x_right (i : nat) (r : res bool) : Prop := forall o p q, cs !! i = Some (o, p, q) -> r = u_authorize o st p q.
  Definition x_bound (i : nat) (r : res bool) : Prop := forall o p q, cs !! i = Some (o, p, q) ->
    (r = Panic -> u_authorize o st p q = Panic)
    /\ (r = Ok true -> known st p /\ (complex_request q -> exists a, member st p (to_string (uo_tenant q)) a /\ role_can st (tp_role a) (to_string (uo_group q)) (to_string (uo_activity q)))
                       /\ (q_activity q -> exists x, x_name st cs x /\ role_can st x "" (to_string (uo_activity q))))
    /\ (~ complex_request q -> ~ q_activity q -> r = u_authorize o st p q).
  Lemma right_bound i r : x_right i r -> x_bound i r.
  Proof.
    intros H o p q Hi. pose proof (H o p q Hi) as ->. split; [intros E; exact E|]. split; [|reflexivity]. intros E.
    assert (Hp : known st p). { destruct (decide (p ∈ u_principals st)) as [Hp|Hp]; [exact Hp|]. unfold u_authorize in E. rewrite (bool_decide_eq_false_2 _ Hp) in E. discriminate. }
    split; [exact Hp|]. split.
    - intros Hq. destruct (proj1 (complex_exact o st p q true W Hp Hq E) eq_refl) as (c & _ & _ & a & Ha & l & g & Hl & Hg). exists a. split; [exact Ha|]. exists l, g. split; [exact Hl|].
      destruct Hg as [Ho [Hg|(d & gd & id & H1 & H2 & _ & H3)]]; (split; [exact Ho|]); [left; exact Hg|right]. exists d, gd, id. split; [exact H1|]. split; [exact H2|]. split; [left; intros x []|exact H3].
    - intros (act & -> & Ha). destruct (proj1 (activity_exact o st p act true W Hp Ha E) eq_refl) as (r & (t & c & a & Hm & Hc & Hr) & l & g & Hl & Hg). exists r. split.
      + right. exists i, o, p, (UOpts ANil ANil ANil ANil act). split; [exact Hi|].
        destruct Hr as [_ [(m & (lm & Hlm & Hm') & Hin)|[(_ & a' & (H1 & H2 & _) & _ & _ & <-)|(N & _)]]]; [| |destruct (N eq_refl)].
        * destruct Hm as (H1 & H2 & H3). exists a. split; [exact H1|]. split; [exact H2|]. right. right. exists c, lm, m. rewrite H3. split; [apply u_tenant_is; exact Hc|]. split; [exact Hlm|]. split; [exact Hm'|left; exact Hin].
        * exists a'. split; [exact H1|]. split; [exact H2|]. left. reflexivity.
      + exists l, g. split; [exact Hl|].
        destruct Hg as [Ho [Hg|(d & gd & id & H1 & H2 & _ & H3)]]; (split; [exact Ho|]); [left; exact Hg|right]. exists d, gd, id. split; [exact H1|]. split; [exact H2|]. split; [left; intros x []|exact H3].
  Qed.
  Lemma call_good i o p q : cs !! i = Some (o, p, q) ->
    good false (x_name st cs) (x_bound i) ∅ ∅ (x_authorize o st p q) /\ good true (fun _ => True) (x_right i) ∅ ∅ (x_authorize o st p q).
  Proof.
    intros Hi. assert (HR : x_right i (u_authorize o st p q)). { intros o' p' q' H. rewrite Hi in H. injection H as <- <- <-. reflexivity. }
    pose proof (right_bound i _ HR) as HB.
    assert (Wk : forall o1 o2 t prs w s, get_principal_roles o1 st t p = Ok prs -> slice_work o2 st prs (to_string (uo_namespace q)) s = Ok w -> work_ok (x_name st cs) w /\ work_ok (fun _ => True) w).
    { intros o1 o2 t prs w s H1 H2. pose proof (work_names _ _ _ _ _ _ _ _ _ W H1 H2) as H. split; [|exact (work_weaken _ _ _ (fun _ _ => I) H)]. refine (work_weaken _ _ _ _ H). intros x Hx. right. exists i, o, p, q. exact (conj Hi Hx). }
    destruct (xauth_cases o st p q) as [[Hp Hq]|[[Hp Hq]|[E _]]].
    - destruct (xauth_activity o st p q Hp Hq) as [E1 E2]. rewrite E1. rewrite E2 in HR, HB.
      assert (Nns : to_string (uo_namespace q) = "") by (destruct Hq as (act & -> & _); reflexivity). rewrite Nns in Wk. split.
      + apply activity_good; [left; reflexivity|intros j t prs w H1 H2; exact (proj1 (Wk _ _ _ _ _ _ H1 H2))|exact HB|]. intros _ ids F o' p' q' H. rewrite Hi in H. injection H as <- <- <-. split; [|split].
        * intros X. exfalso. revert X. apply any_has_no_panic; [apply W|]. intros l Hl. apply registered_roles_elem in Hl as (r & _ & Hl). destruct (uwf_roles _ W _ _ Hl) as (r' & H1 & _). exists r'. exact H1.
        * intros X. split; [exact Hp|]. split.
          -- intros Hc. exfalso. destruct Hq as (act & -> & Ha). destruct Hc as [Hc|[[_ [Hc|[Hc|Hc]]]|(Hc & _)]]; [exact (Hc eq_refl)..|exact (Ha Hc)].
          -- intros _. destruct (proj1 (any_has_ok _ _ _ _ _ _ _ _ X) eq_refl) as (l & Hl & Hper). apply registered_roles_elem in Hl as (r & Hr & Hl). exists r. split; [rewrite Forall_forall in F; exact (F r Hr)|exact (permits_can _ _ _ _ _ _ Hl Hper)].
        * intros _ N. destruct (N Hq).
      + apply activity_good; [exact I|intros j t prs w H1 H2; exact (proj2 (Wk _ _ _ _ _ _ H1 H2))|exact HR|discriminate].
    - rewrite (xauth_complex o st p q Hp Hq). pose proof (complex_request_dispatch o st p q Hp Hq) as E2. rewrite E2 in HR, HB. split.
      + apply complex_good; [left; reflexivity|intros prs w H1 H2; exact (proj1 (Wk _ _ _ _ _ _ H1 H2))|exact HB|]. intros _ prs ids Hprs o' p' q' H. rewrite Hi in H. injection H as <- <- <-.
        destruct (principal_roles_ok (sub o 0) st (to_string (uo_tenant q)) p W) as (rs & Hrs & Hin). rewrite Hprs in Hrs. injection Hrs as <-. split; [|split].
        * intros X. exfalso. revert X. apply any_has_no_panic; [apply W|]. intros l Hl. apply registered_roles_elem in Hl as (r & _ & Hl). destruct (uwf_roles _ W _ _ Hl) as (r' & H1 & _). exists r'. exact H1.
        * intros X. split; [exact Hp|]. split.
          -- intros _. destruct (proj1 (any_has_ok _ _ _ _ _ _ _ _ X) eq_refl) as (l & Hl & Hper). apply registered_roles_elem in Hl as (r & Hr & Hl).
             apply elem_of_list_fmap in Hr as (a & -> & Ha). exists a. split; [apply Hin; exact Ha|exact (permits_can _ _ _ _ _ _ Hl Hper)].
          -- intros (act & -> & Ha). exfalso. destruct Hq as [Hc|[[_ [Hc|[Hc|Hc]]]|(Hc & _)]]; [exact (Hc eq_refl)..|exact (Ha Hc)].
        * intros N. destruct (N Hq).
      + apply complex_good; [exact I|intros prs w H1 H2; exact (proj2 (Wk _ _ _ _ _ _ H1 H2))|exact HR|discriminate].
    - rewrite E. split; [exact HB|exact HR].
  Qed.
  Lemma met_inv M es : x_met st cs M es -> exists own old, xinv (x_name st cs) x_bound x_right (length cs) M es own old.
  Proof.
    intros [xs H]. assert (V : xinv (x_name st cs) x_bound x_right (length cs) (xstart st cs) [] (fun _ => ∅) (fun _ => ∅)).
    { apply xinv_start; [apply fmap_length|]. intros i c Hc. apply list_lookup_fmap_inv in Hc as ([[o p] q] & -> & Hi). exact (call_good i o p q Hi). }
    exact (xinv_run _ _ _ _ (or_introl eq_refl) xs _ _ _ _ _ _ V H).
  Qed.
End one.

(** ** C119 *)
Lemma undisturbed_right st cs M es i o p q r : ureachable st -> x_met st cs M es -> cs !! i = Some (o, p, q) -> x_undisturbed i es -> x_answered M i r -> r = u_authorize o st p q.
Proof.
  intros Hr HM Hi HU Ha. destruct (met_inv st cs (ureachable_wf _ Hr) M es HM) as (own & old & V). destruct (xi_codes _ _ _ _ _ _ _ _ V i _ Ha) as [_ G]. exact (G HU o p q Hi).
Qed.
Lemma answer_bound st cs M es i o p q r : ureachable st -> x_met st cs M es -> cs !! i = Some (o, p, q) -> x_answered M i r ->
  (r = Panic -> u_authorize o st p q = Panic)
  /\ (r = Ok true -> known st p /\ (complex_request q -> exists a, member st p (to_string (uo_tenant q)) a /\ role_can st (tp_role a) (to_string (uo_group q)) (to_string (uo_activity q)))
                     /\ (q_activity q -> exists x, x_name st cs x /\ role_can st x "" (to_string (uo_activity q))))
  /\ (~ complex_request q -> ~ q_activity q -> r = u_authorize o st p q).
Proof.
  intros Hr HM Hi Ha. destruct (met_inv st cs (ureachable_wf _ Hr) M es HM) as (own & old & V). destruct (xi_codes _ _ _ _ _ _ _ _ V i _ Ha) as [G _]. exact (G o p q Hi).
Qed.
Lemma own_roles st cs M es i o p q : ureachable st -> x_met st cs M es -> cs !! i = Some (o, p, q) -> complex_request q -> x_answered M i (Ok true) ->
  exists a, member st p (to_string (uo_tenant q)) a /\ role_can st (tp_role a) (to_string (uo_group q)) (to_string (uo_activity q)).
Proof. intros Hr HM Hi Hq Ha. exact (proj1 (proj2 (proj1 (proj2 (answer_bound _ _ _ _ _ _ _ _ _ Hr HM Hi Ha)) eq_refl)) Hq). Qed.
Lemma mixed_roles st cs M es i o p act : ureachable st -> x_met st cs M es -> cs !! i = Some (o, p, UOpts ANil ANil ANil ANil act) -> act <> ANil -> x_answered M i (Ok true) ->
  exists x, x_name st cs x /\ role_can st x "" (to_string act).
Proof. intros Hr HM Hi Hq Ha. refine (proj2 (proj2 (proj1 (proj2 (answer_bound _ _ _ _ _ _ _ _ _ Hr HM Hi Ha)) eq_refl)) _). exists act. exact (conj eq_refl Hq). Qed.
Lemma panic_same st cs M es i o p q : ureachable st -> x_met st cs M es -> cs !! i = Some (o, p, q) -> x_answered M i Panic -> u_authorize o st p q = Panic.
Proof. intros Hr HM Hi Ha. exact (proj1 (answer_bound _ _ _ _ _ _ _ _ _ Hr HM Hi Ha) eq_refl). Qed.
Lemma plain_same st cs M es i o p q r : ureachable st -> x_met st cs M es -> cs !! i = Some (o, p, q) -> uo_group q = ANil -> uo_activity q = ANil ->
  uo_tenant q <> ANil \/ uo_namespace q <> ANil \/ uo_scope q <> ANil -> x_answered M i r -> r = u_authorize o st p q.
Proof.
  intros Hr HM Hi Hg Hac Ho Ha. refine (proj2 (proj2 (answer_bound _ _ _ _ _ _ _ _ _ Hr HM Hi Ha)) _ _).
  - intros [N|[[N _]|(_ & N1 & N2 & N3)]]; [exact (N Hg)|exact (N Hac)|]. destruct Ho as [N|[N|N]]; [exact (N N1)|exact (N N2)|exact (N N3)].
  - intros (act & -> & N). exact (N Hac).
Qed.
Lemma exclusive st cs M es es1 i l es2 k es3 : ureachable st -> x_met st cs M es -> es = es1 ++ XTake i l :: es2 ++ XTake k l :: es3 -> (forall j, XTake j l ∉ es2) -> XBack i l ∈ es2.
Proof.
  intros Hr HM E N. destruct (met_inv st cs (ureachable_wf _ Hr) M es HM) as (own & old & V).
  assert (E' : es = (es1 ++ XTake i l :: es2) ++ XTake k l :: es3) by (rewrite <- app_assoc; exact E).
  assert (L : last_taker (es1 ++ XTake i l :: es2) l = Some i). { rewrite last_taker_app. cbn [foldl take_step]. rewrite Nat.eqb_refl. apply no_take. exact N. }
  destruct (xi_excl _ _ _ _ _ _ _ _ V _ _ _ _ E' (ex_intro _ i L)) as (e1 & e2 & j & F & Lj & T).
  apply app_eq_inv in F as [(z & F1 & F2)|(z & F1 & F2)].
  - destruct z as [|y z]; [discriminate|]. injection F2 as <- ->. destruct (T i). apply elem_of_app. right. left.
  - destruct z as [|y z]; [discriminate|]. injection F2 as <- ->. rewrite F1, last_taker_app in Lj. cbn [foldl take_step] in Lj. rewrite Nat.eqb_refl in Lj. rewrite no_take in Lj.
    + injection Lj as <-. apply elem_of_app. right. left.
    + intros x Hx. apply (N x). apply elem_of_app. left. exact Hx.
Qed.
Lemma progress st cs M es i : ureachable st -> x_met st cs M es -> i < length cs -> (exists r, x_answered M i r) \/ exists pick M' es', xstep M (i, pick) = Some (M', es').
Proof.
  intros Hr HM Hi. destruct (met_inv st cs (ureachable_wf _ Hr) M es HM) as (own & old & V). rewrite <- (xi_size _ _ _ _ _ _ _ _ V) in Hi. apply lookup_lt_is_Some_2 in Hi as [c Hc].
  destruct (xi_codes _ _ _ _ _ _ _ _ V i _ Hc) as [G _]. unfold xstep. cbn [fst snd]. unfold x_answered. rewrite Hc. destruct c as [r|k|l k|l n w k|l j w k|l j k]; cbn [mbind option_bind xcode_step good] in *.
  - left. exists r. reflexivity.
  - right. exists None. cbn [sl_get]. eexists. eexists. reflexivity.
  - right. exists None. eexists. eexists. reflexivity.
  - right. exists None. destruct (x_append (x_mem M) l n (default 0 None) w) as [m l']. eexists. eexists. reflexivity.
  - right. exists None. eexists. eexists. reflexivity.
  - right. exists None. destruct G as (arr & v & Ho & Hv & _). destruct (xi_old _ _ _ _ _ _ _ _ V _ _ _ Ho) as (_ & arr' & Ha & HL & _). rewrite Ha. cbn [mbind option_bind].
    apply lookup_lt_Some in Hv. rewrite <- HL in Hv. apply lookup_lt_is_Some_2 in Hv as [v' Hv]. rewrite Hv. eexists. eexists. reflexivity.
Qed.
(** ** One after the other *)
Definition ev_of (e : xevent) : nat := match e with XTake i _ | XBack i _ | XLook i _ => i end.
Lemma step_events M x M' es : xstep M x = Some (M', es) -> forall e, e ∈ es -> ev_of e = x.1.
Proof.
  unfold xstep. intros H. apply bind_Some in H as (c & _ & H). apply bind_Some in H as ([[m c'] es1] & H & E). injection E as _ <-.
  destruct c as [r|k|l k|l n w k|l j w k|l j k]; cbn [xcode_step] in H; [discriminate| | | | |].
  - destruct (sl_get (x_mem M) x.2) as [m0 l0]. injection H as _ _ <-. intros e He. apply elem_of_list_singleton in He as ->. reflexivity.
  - injection H as _ _ <-. intros e He. apply elem_of_list_singleton in He as ->. reflexivity.
  - destruct (x_append (x_mem M) l n (default 0 x.2) w) as [m0 l']. injection H as _ _ <-. intros e He. destruct (Nat.eqb l' l); [destruct (not_elem_of_nil _ He)|]. apply elem_of_list_singleton in He as ->. reflexivity.
  - injection H as _ _ <-. intros e He. destruct (not_elem_of_nil _ He).
  - apply bind_Some in H as (arr & _ & H). apply bind_Some in H as (v & _ & H). injection H as _ _ <-. intros e He. apply elem_of_list_singleton in He as ->. reflexivity.
Qed.
Lemma run_events (A : nat -> Prop) xs : forall M M' es, xrun M xs = Some (M', es) -> (forall x, x ∈ xs -> A x.1) -> forall e, e ∈ es -> A (ev_of e).
Proof.
  induction xs as [|x xs IH]; intros M M' es H HA e He; cbn [xrun] in H.
  - injection H as _ <-. destruct (not_elem_of_nil _ He).
  - apply bind_Some in H as ([M1 es1] & H1 & H). apply bind_Some in H as ([M2 es2] & H2 & H). injection H as <- <-. apply elem_of_app in He as [He|He].
    + rewrite (step_events _ _ _ _ H1 _ He). apply HA. left.
    + refine (IH _ _ _ H2 _ e He). intros y Hy. apply HA. right. exact Hy.
Qed.
Lemma run_app xs1 : forall xs2 M M' es, xrun M (xs1 ++ xs2) = Some (M', es) -> exists M1 es1 es2, xrun M xs1 = Some (M1, es1) /\ xrun M1 xs2 = Some (M', es2) /\ es = es1 ++ es2.
Proof.
  induction xs1 as [|x xs1 IH]; intros xs2 M M' es H; cbn [xrun app] in *.
  - exists M, [], es. split; [reflexivity|]. split; [exact H|reflexivity].
  - apply bind_Some in H as ([M1 es1] & H1 & H). apply bind_Some in H as ([M2 es2] & H2 & H). injection H as <- <-. destruct (IH _ _ _ _ H2) as (M3 & e1 & e2 & R1 & R2 & ->).
    exists M3, (es1 ++ e1), e2. rewrite H1. cbn [mbind option_bind]. rewrite R1. cbn [mbind option_bind]. split; [reflexivity|]. split; [exact R2|]. apply app_assoc.
Qed.
Lemma in_turn_right st cs xs M es i o p q r : ureachable st -> xrun (xstart st cs) xs = Some (M, es) -> cs !! i = Some (o, p, q) -> x_in_turn i xs -> x_answered M i r -> r = u_authorize o st p q.
Proof.
  intros Hr HM Hi (xs1 & xs2 & xs3 & -> & Hout & Hin) Ha. assert (HM' : x_met st cs M es) by (exists (xs1 ++ xs2 ++ xs3); exact HM). refine (undisturbed_right _ _ _ _ _ _ _ _ _ Hr HM' Hi _ Ha).
  destruct (met_inv st cs (ureachable_wf _ Hr) M es HM') as (own & old & V).
  apply run_app in HM as (M1 & e1 & e23 & R1 & R23 & ->). apply run_app in R23 as (M2 & e2 & e3 & R2 & R3 & ->).
  pose proof (run_events (fun k => k <> i) _ _ _ _ R1 (fun x Hx => Hout x (or_introl Hx))) as E1. pose proof (run_events (fun k => k = i) _ _ _ _ R2 Hin) as E2. pose proof (run_events (fun k => k <> i) _ _ _ _ R3 (fun x Hx => Hout x (or_intror Hx))) as E3.
  intros es1 l es2 E. pose proof (xi_looks _ _ _ _ _ _ _ _ V _ _ _ _ E) as Tk.
  apply app_eq_inv in E as [(z & F1 & F2)|(z & F1 & F2)].
  - destruct z as [|y z].
    + cbn [app] in F2. rewrite app_nil_r in F1. subst es1. destruct (E1 _ Tk). reflexivity.
    + injection F2 as <- ->. exfalso. apply (E1 (XLook i l)); [|reflexivity]. rewrite F1. apply elem_of_app. right. left.
  - subst es1. apply app_eq_inv in F2 as [(y & G1 & G2)|(y & G1 & G2)].
    + subst e2. rewrite last_taker_app. apply elem_of_app in Tk as [Tk|Tk]; [destruct (E1 _ Tk); reflexivity|].
      assert (Ez : forall e, e ∈ z -> ev_of e = i). { intros e He. apply E2. apply elem_of_app. left. exact He. }
      assert (Gen : forall w a, (forall e, e ∈ w -> ev_of e = i) -> XTake i l ∈ w \/ a = Some i -> foldl (take_step l) a w = Some i).
      { clear. induction w as [|e w IH]; intros a Hw [H|H].
        - destruct (not_elem_of_nil _ H).
        - exact H.
        - cbn [foldl]. apply IH; [intros e' He'; apply Hw; right; exact He'|]. apply elem_of_cons in H as [<-|H]; [right; cbn [take_step]; rewrite Nat.eqb_refl; reflexivity|left; exact H].
        - cbn [foldl]. apply IH; [intros e' He'; apply Hw; right; exact He'|]. right. rewrite H. pose proof (Hw e ltac:(left)) as He. destruct e as [j l'|j l'|j l']; [|reflexivity..]. cbn [ev_of] in He. rewrite He. cbn [take_step]. destruct (Nat.eqb l' l); reflexivity. }
      apply Gen; [exact Ez|left; exact Tk].
    + exfalso. apply (E3 (XLook i l)); [|reflexivity]. rewrite G2. apply elem_of_app. right. left.
Qed.
Lemma alone_right st xs M es o p q r : ureachable st -> xrun (xstart st [(o, p, q)]) xs = Some (M, es) -> x_answered M 0 r -> r = u_authorize o st p q.
Proof.
  intros Hr HM Ha. refine (in_turn_right st [(o, p, q)] xs M es 0 o p q r Hr HM eq_refl _ Ha). exists [], xs, []. rewrite app_nil_r. split; [reflexivity|]. split.
  - intros x [Hx|Hx]; destruct (not_elem_of_nil _ Hx).
  - assert (L : forall M0 M1 es1, length (x_codes M0) = 1 -> xrun M0 xs = Some (M1, es1) -> forall x, x ∈ xs -> x.1 = 0).
    { clear. induction xs as [|y xs IH]; intros M0 M1 es1 HL H x Hx; [destruct (not_elem_of_nil _ Hx)|]. cbn [xrun] in H. apply bind_Some in H as ([M2 es2] & H1 & H). apply bind_Some in H as ([M3 es3] & H2 & _).
      unfold xstep in H1. apply bind_Some in H1 as (c & Hc & H1). apply bind_Some in H1 as ([[m c'] e1] & _ & E). injection E as <- _. apply elem_of_cons in Hx as [->|Hx].
      - apply lookup_lt_Some in Hc. lia.
      - refine (IH _ _ _ _ H2 x Hx). cbn [x_codes]. rewrite insert_length. exact HL. }
    exact (L (xstart st [(o, p, q)]) _ _ eq_refl HM).
Qed.

(** ** Every call comes to its end *)
Definition xsmaller (c' c : xcode) : Prop :=
  match c with
  | XRet _ => False
  | XGet k | XApp _ _ _ k => exists l, c' = k l
  | XPut _ k | XSet _ _ _ k => c' = k
  | XElem _ _ k => exists v, c' = k v
  end.
Lemma xsmaller_acc c : Acc xsmaller c.
Proof.
  induction c as [r|k IH|l k IH|l n w k IH|l j w k IH|l j k IH]; constructor; cbn [xsmaller].
  - intros c' [].
  - intros c' [v ->]. apply IH.
  - intros c' ->. exact IH.
  - intros c' [v ->]. apply IH.
  - intros c' ->. exact IH.
  - intros c' [v ->]. apply IH.
Qed.
Definition xone_smaller (l' l : list xcode) : Prop := exists i c c', l !! i = Some c /\ xsmaller c' c /\ l' = <[i := c']> l.
Lemma xone_smaller_acc l : Acc xone_smaller l.
Proof.
  induction l as [|c l IH].
  - constructor. intros l' (i & c & c' & Hi & _). rewrite lookup_nil in Hi. discriminate.
  - revert l IH. induction (xsmaller_acc c) as [c _ IHc]. intros l Hl. induction Hl as [l Hl IHl].
    constructor. intros l' (i & c1 & c' & Hi & Hs & ->). destruct i as [|i].
    + injection Hi as <-. cbn. apply IHc; [exact Hs|]. constructor. exact Hl.
    + cbn in Hi |- *. apply IHl. exists i, c1, c'. exact (conj Hi (conj Hs eq_refl)).
Qed.
Lemma xstep_smaller M x M' es : xstep M x = Some (M', es) -> xone_smaller (x_codes M') (x_codes M).
Proof.
  unfold xstep. intros H. apply bind_Some in H as (c & Hc & H). apply bind_Some in H as ([[m c'] es1] & H & E). injection E as <- _. cbn [x_codes]. exists x.1, c, c'. split; [exact Hc|]. split; [|reflexivity].
  destruct c as [r|k|l k|l n w k|l j w k|l j k]; cbn [xcode_step xsmaller] in *; [discriminate| | | | |].
  - destruct (sl_get (x_mem M) x.2) as [m0 l0]. injection H as _ <- _. exists l0. reflexivity.
  - injection H as _ <- _. reflexivity.
  - destruct (x_append (x_mem M) l n (default 0 x.2) w) as [m0 l']. injection H as _ <- _. exists l'. reflexivity.
  - injection H as _ <- _. reflexivity.
  - apply bind_Some in H as (arr & _ & H). apply bind_Some in H as (v & _ & H). injection H as _ <- _. exists v. reflexivity.
Qed.
Lemma not_for_ever st cs : ~ x_for_ever st cs.
Proof.
  intros [sched Hs].
  assert (Hacc : forall l, Acc xone_smaller l -> forall n M es, xrun (xstart st cs) (sched <$> seq 0 n) = Some (M, es) -> x_codes M = l -> False).
  { intros l Hl. induction Hl as [l _ IH]. intros n M es Hn Hsl. destruct (Hs (S n)) as [[M' es'] Hn'].
    pose proof Hn' as H. rewrite seq_S, fmap_app in H. change (sched <$> [0 + n]) with [sched n] in H. apply run_app in H as (M1 & e1 & e2 & R1 & R2 & _). rewrite Hn in R1. injection R1 as <- <-.
    cbn [xrun] in R2. apply bind_Some in R2 as ([M2 e3] & R2 & R3). injection R3 as -> _.
    refine (IH (x_codes M') _ (S n) M' es' Hn' eq_refl). rewrite <- Hsl. exact (xstep_smaller _ _ _ _ R2). }
  exact (Hacc _ (xone_smaller_acc _) 0 _ _ eq_refl eq_refl).
Qed.
