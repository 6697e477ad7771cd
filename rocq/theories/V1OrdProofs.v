(** Orders of v1 grants. *)
From Verif Require Export V1OrdSpec.
From Verif Require Export V1Code V1Inv V1Write V1Cor V1Iso V1More V1Auth.

(** The rows a grant adds *)
Definition granted (st : ustate) (x : uop) (a : trow) : Prop :=
  match x with
  | UAddPrincipalRole p r t ns s m => row_for st p r t ns s m a
  | UTAddPrincipal t p rs => exists c r n, u_tenants st !! t = Some c /\ r ∈ rs /\ r ∈ ut_roles c /\ in_default st c n /\ a = TRow p r (ut_id c) n "" true
  | UTAddPrincipalInNamespace t p ns rs => exists c l m r, u_tenants st !! t = Some c /\ ut_namespaces c !! ns = Some l /\ u_nss st !! l = Some m
      /\ a = TRow p r (ut_id c) (un_id m) "" true /\
      match rs with
      | [] => r = "" \/ exists b, member st p (ut_id c) b /\ tp_ns b <> "" /\ tp_ns b <> ns /\ tp_role b = r
      | _ => r ∈ rs /\ r ∈ ut_roles c
      end
  | UTAssignScopes t p ss => exists c b s, u_tenants st !! t = Some c /\ member st p (ut_id c) b /\ s ∈ ss /\ s ∈ ut_scopes c /\
      (a = TRow p "" (ut_id c) "" s true \/ exists n, in_default st c n /\ a = TRow p (tp_role b) (ut_id c) n s true)
  | UTAssignScopesWithRole t p r ss => exists c b s n, u_tenants st !! t = Some c /\ member st p (ut_id c) b /\ r ∈ ut_roles c /\ s ∈ ss /\ s ∈ ut_scopes c /\
      in_default st c n /\ a = TRow p r (ut_id c) n s true
  | _ => False
  end.
Lemma step_grants o st x st' y : u_wf st -> grant x -> ustep o st x = Ok (st', y) -> adds st (granted st x) st' /\ y = YUnit.
Proof.
  intros W G H. destruct x; try destruct G; cbn [ustep] in H; unfold uret in H; rewrite rbind_ok in H; destruct H as (s1 & H & E); injection E as -> <-;
    (split; [|reflexivity]).
  - destruct (u_tenants st !! t) as [c|] eqn:Hc; [|unfold u_add_principal_role in H; rewrite Hc in H; discriminate H].
    assert (exists n, match ns with None => n = "" | Some l => exists m, u_nss st !! l = Some m /\ n = un_id m end) as (n & Hn).
    { destruct ns as [l|]; [|exists ""; reflexivity]. unfold u_add_principal_role in H. rewrite Hc in H.
      destruct (u_nss st !! l) as [m|]; [|discriminate H]. exists (un_id m), m. split; reflexivity. }
    eapply adds_ext; [|exact (adds_principal_role _ _ _ _ _ _ _ _ _ _ Hc Hn H)]. intros a. cbn [granted]. unfold row_for. split.
    + intros ->. exists c, n. split; [exact Hc|]. split; [destruct ns; exact Hn|reflexivity].
    + intros (c' & n' & Hc' & Hn' & ->). rewrite Hc in Hc'. injection Hc' as <-. assert (n' = n) as ->; [|reflexivity].
      destruct ns; [|congruence]. destruct Hn as (m1 & E1 & ->), Hn' as (m2 & E2 & ->). congruence.
  - destruct (u_tenants st !! t) as [c|] eqn:Hc.
    + eapply adds_ext; [|exact (add_principal_adds _ _ _ _ _ _ W Hc H)]. intros a. cbn [granted]. rewrite Hc. split.
      * intros (r & ? & ? & n & ? & ?). exists c, r, n. auto.
      * intros (c' & r & n & [= <-] & ? & ? & ? & ?). exists r. split; [auto|]. split; [auto|]. exists n. auto.
    + unfold ut_add_principal in H. destruct rs as [|r rs]; [|cbn [u_each] in H; rewrite Hc in H; discriminate H]. injection H as <-.
      eapply adds_ext; [|apply adds_none]. intros a. cbn [granted]. rewrite Hc. split; [intros []|]. intros (c & r & n & E & _). discriminate E.
  - unfold ut_add_principal_in_namespace in H. destruct (u_tenants st !! t) as [c|] eqn:Hc; [|discriminate H].
    destruct (ut_namespaces c !! ns) as [l|] eqn:Hl.
    + destruct (uwf_ns _ W _ _ _ _ Hc Hl) as (m & Hm & _).
      assert (H' : ut_add_principal_in_namespace o st t p ns rs = Ok st') by (unfold ut_add_principal_in_namespace; rewrite Hc, Hl; exact H).
      eapply adds_ext; [|exact (add_principal_in_namespace_adds _ _ _ _ _ _ _ _ _ _ W Hc Hl Hm H')]. intros a. cbn [granted]. split.
      * intros (r & Ha & Hr). exists c, l, m, r. auto.
      * intros (c' & l' & m' & r & E1 & E2 & E3 & Ha & Hr). rewrite Hc in E1. injection E1 as <-. rewrite Hl in E2. injection E2 as <-.
        rewrite Hm in E3. injection E3 as <-. exists r. auto.
    + injection H as <-. eapply adds_ext; [|apply adds_none]. intros a. cbn [granted]. split; [intros []|].
      intros (c' & l' & m' & r & E1 & E2 & _). rewrite Hc in E1. injection E1 as <-. rewrite Hl in E2. discriminate E2.
  - destruct (u_tenants st !! t) as [c|] eqn:Hc; [|unfold ut_assign_scopes in H; rewrite Hc in H; discriminate H].
    eapply adds_ext; [|exact (assign_scopes_adds _ _ _ _ _ _ _ W Hc H)]. intros a. cbn [granted]. split.
    + intros (b & Hb & s & ? & ? & ?). exists c, b, s. auto.
    + intros (c' & b & s & E & ? & ? & ? & ?). rewrite Hc in E. injection E as <-. exists b. split; [auto|]. exists s. auto.
  - destruct (u_tenants st !! t) as [c|] eqn:Hc.
    + eapply adds_ext; [|exact (assign_scopes_with_role_adds _ _ _ _ _ _ _ _ W Hc H)]. intros a. cbn [granted]. split.
      * intros ((b & Hb) & Hr & s & ? & ? & n & ? & ?). exists c, b, s, n. auto 10.
      * intros (c' & b & s & n & E & ? & ? & ? & ? & ? & ?). rewrite Hc in E. injection E as <-. split; [exists b; auto|]. split; [auto|]. exists s. split; [auto|].
        split; [auto|]. exists n. auto.
    + unfold ut_assign_scopes_with_role in H. rewrite Hc in H. destruct ss as [|s ss]; [|discriminate H]. injection H as <-.
      eapply adds_ext; [|apply adds_none]. intros a. cbn [granted]. split; [intros []|]. intros (c & b & s & n & E & _). rewrite Hc in E. discriminate E.
Qed.
Lemma adds_fun st X st1 st2 : adds st X st1 -> adds st X st2 -> st1 = st2.
Proof.
  intros [E1 R1] [E2 R2]. rewrite E1, E2. f_equal. apply leibniz_equiv. intros s. rewrite R1, R2. reflexivity.
Qed.

(** Whether a grant returns depends on the tenants only. *)
Definition may_grant (st : ustate) (x : uop) : Prop :=
  match x with
  | UAddPrincipalRole p r t ns s m => is_Some (u_tenants st !! t) /\ match ns with None => True | Some l => is_Some (u_nss st !! l) end
  | UTAddPrincipal t p rs => rs = [] \/ exists c, u_tenants st !! t = Some c /\ (ut_managed c = true \/ forall r, r ∈ rs -> r ∉ ut_roles c)
  | UTAddPrincipalInNamespace t p ns rs => exists c, u_tenants st !! t = Some c /\
      (ut_namespaces c !! ns = None \/ ut_managed c = true \/ rs <> [] /\ forall r, r ∈ rs -> r ∉ ut_roles c)
  | UTAssignScopes t p ss => exists c, u_tenants st !! t = Some c /\ ut_managed c = true
  | UTAssignScopesWithRole t p r ss => ss = [] \/ exists c, u_tenants st !! t = Some c /\ ut_managed c = true
  | _ => False
  end.
Lemma principal_role_returns st st1 t c c' p r ns s m : same_base st st1 -> u_tenants st !! t = Some c -> ut_managed c' = true ->
  match ns with None => True | Some l => is_Some (u_nss st !! l) end ->
  exists st2, ut_add_principal_role st1 c' p r t ns s m = Ok st2 /\ same_base st st2.
Proof.
  intros B Hc M Hn. unfold ut_add_principal_role, u_add_principal_role. rewrite M, (base_tenants _ _ B), (base_nss _ _ B), Hc.
  destruct ns as [l|].
  - destruct Hn as (n & ->). eexists. split; [reflexivity|]. rewrite B. unfold same_base. reflexivity.
  - eexists. split; [reflexivity|]. rewrite B. unfold same_base. reflexivity.
Qed.
Lemma each_returns {A} (f : ustate -> A -> res ustate) st (xs : list A) :
  (forall st1 x, same_base st st1 -> x ∈ xs -> exists st2, f st1 x = Ok st2 /\ same_base st st2) ->
  forall st1, same_base st st1 -> exists st2, u_each f st1 xs = Ok st2 /\ same_base st st2.
Proof.
  induction xs as [|x xs IH]; intros Hf st1 B; cbn [u_each].
  - exists st1. split; [reflexivity|exact B].
  - destruct (Hf st1 x B) as (st2 & E2 & B2); [left|]. rewrite E2. cbn [rbind]. apply IH; [|exact B2].
    intros st3 y B3 Hy. apply Hf; [exact B3|right; exact Hy].
Qed.
Lemma with_default_returns st st1 t c p r s : u_wf st -> same_base st st1 -> u_tenants st !! t = Some c -> ut_managed c = true ->
  exists st2, (let! st2 := ut_add_principal_role st1 c p r t None s [] in
   match ut_default c with
   | None => Ok st2
   | Some l => ut_add_principal_role st2 c p r t (Some l) s []
   end) = Ok st2 /\ same_base st st2.
Proof.
  intros W B Hc M. destruct (principal_role_returns st st1 t c c p r None s [] B Hc M I) as (st2 & -> & B2). cbn [rbind].
  destruct (ut_default c) as [l|] eqn:D; [|exists st2; split; [reflexivity|exact B2]].
  apply (principal_role_returns st st2 t c c p r (Some l) s [] B2 Hc M). exact (uwf_default _ W _ _ _ Hc D).
Qed.
Lemma grant_returns o st x : u_wf st -> may_grant st x -> exists st', ustep o st x = Ok (st', YUnit).
Proof.
  intros W G. pose proof (same_base_refl st) as B0.
  destruct x; try destruct G; cbn [ustep may_grant] in *; unfold uret;
    match goal with |- exists st', rbind ?e _ = _ => enough (exists s1, e = Ok s1) as (s1 & ->) by (exists s1; reflexivity) end.
  - destruct H as (c & Hc). unfold u_add_principal_role. rewrite Hc. destruct ns as [l|].
    + destruct H0 as (n & ->). eexists. reflexivity.
    + eexists. reflexivity.
  - subst rs. exists st. reflexivity.
  - destruct H as (c & Hc & Hr). unfold ut_add_principal.
    match goal with |- context [u_each ?f st ?l] => destruct (each_returns f st l) with (st1 := st) as (st2 & -> & B2) end.
    + intros st1 r B Hin. rewrite (base_tenants _ _ B), Hc. case_bool_decide as X; [|exists st1; split; [reflexivity|exact B]].
      destruct Hr as [M|N]; [|destruct (N r Hin X)]. exact (with_default_returns st st1 t c p r None W B Hc M).
    + exact B0.
    + exists st2. reflexivity.
  - destruct H as (Hc & Hr). unfold ut_add_principal_in_namespace. rewrite Hc. destruct (ut_namespaces x !! ns) as [l|] eqn:Hl; [|exists st; reflexivity].
    destruct Hr as [Hr|Hr]; [discriminate Hr|]. destruct (uwf_ns _ W _ _ _ _ Hc Hl) as (m & Hm & _).
    destruct rs as [|r0 rs].
    + destruct Hr as [M|[N _]]; [|destruct (N eq_refl)]. rewrite M. destruct (tenant_roles_ok o st (ut_id x) W) as (urs & -> & _). cbn [rbind].
      match goal with |- context [u_each ?f st ?l] => destruct (each_returns f st l) with (st1 := st) as (st2 & -> & B2) end.
      * intros st1 ur B _. exact (principal_role_returns st st1 t x x p _ (Some l) None [] B Hc M (mk_is_Some _ _ Hm)).
      * exact B0.
      * cbn [rbind]. destruct (principal_role_returns st st2 t x x p "" (Some l) None [] B2 Hc M (mk_is_Some _ _ Hm)) as (st3 & -> & _). exists st3. reflexivity.
    + match goal with |- context [u_each ?f st ?l] => destruct (each_returns f st l) with (st1 := st) as (st2 & -> & B2) end.
      * intros st1 r B Hin. case_bool_decide as X; [|exists st1; split; [reflexivity|exact B]]. destruct Hr as [M|[_ N]]; [|destruct (N r Hin X)].
        exact (principal_role_returns st st1 t x x p r (Some l) None [] B Hc M (mk_is_Some _ _ Hm)).
      * exact B0.
      * exists st2. reflexivity.
  - destruct H as (Hc & M). unfold ut_assign_scopes. rewrite Hc, M. destruct (principal_roles_ok o st (ut_id x) p W) as (prs & -> & _). cbn [rbind].
    destruct prs as [|a0 prs]; [exists st; reflexivity|].
    match goal with |- context [u_each ?f st ?l] => destruct (each_returns f st l) with (st1 := st) as (st2 & -> & B2) end.
    + intros st1 s B _. case_bool_decide as X; [|exists st1; split; [reflexivity|exact B]].
      match goal with |- context [u_each ?f st1 ?l] => destruct (each_returns f st l) with (st1 := st1) as (st2 & -> & B2) end.
      * intros st2 a B2 _. exact (with_default_returns st st2 t x p (tp_role a) (Some s) W B2 Hc M).
      * exact B.
      * cbn [rbind]. exact (principal_role_returns st st2 t x x p "" None (Some s) [] B2 Hc M I).
    + exact B0.
    + exists st2. reflexivity.
  - subst ss. exists st. reflexivity.
  - destruct H as (c & Hc & M). unfold ut_assign_scopes_with_role. destruct ss as [|s0 ss]; [exists st; reflexivity|]. rewrite Hc, M.
    destruct (principal_roles_ok o st (ut_id c) p W) as (prs & -> & _). cbn [rbind]. destruct prs as [|a0 prs]; [exists st; reflexivity|].
    case_bool_decide as Y; [|exists st; reflexivity].
    match goal with |- context [u_each ?f st ?l] => destruct (each_returns f st l) with (st1 := st) as (st2 & -> & B2) end.
    + intros st1 s B _. case_bool_decide as X; [|exists st1; split; [reflexivity|exact B]].
      exact (with_default_returns st st1 t c p r (Some s) W B Hc M).
    + exact B0.
    + exists st2. reflexivity.
Qed.
Lemma each_none {A} (f : ustate -> A -> res ustate) (P : A -> Prop) st (xs : list A) st' :
  (forall x, P x \/ ~ P x) -> (forall x, P x -> forall st2, f st x <> Ok st2) -> (forall x, ~ P x -> f st x = Ok st) ->
  u_each f st xs = Ok st' -> forall x, x ∈ xs -> ~ P x.
Proof.
  intros D HP HN. induction xs as [|x xs IH]; cbn [u_each]; intros H y Hy; [apply elem_of_nil in Hy; destruct Hy|].
  rewrite rbind_ok in H. destruct H as (st1 & H1 & H). destruct (D x) as [Hx|Hx]; [destruct (HP x Hx _ H1)|].
  rewrite (HN x Hx) in H1. injection H1 as <-. apply elem_of_cons in Hy as [->|Hy]; [exact Hx|exact (IH H y Hy)].
Qed.
Lemma grant_may o st x st' y : grant x -> ustep o st x = Ok (st', y) -> may_grant st x.
Proof.
  intros G H. destruct x; try destruct G; cbn [ustep] in H; unfold uret in H; rewrite rbind_ok in H; destruct H as (s1 & H & _); cbn [may_grant].
  - unfold u_add_principal_role in H. destruct (u_tenants st !! t) as [c|]; [|discriminate H]. split; [exists c; reflexivity|].
    destruct ns as [l|]; [|exact I]. destruct (u_nss st !! l) as [n|]; [exists n; reflexivity|discriminate H].
  - destruct rs as [|r0 rs]; [left; reflexivity|right]. unfold ut_add_principal in H.
    destruct (u_tenants st !! t) as [c|] eqn:Hc; [|cbn [u_each] in H; rewrite Hc in H; discriminate H]. exists c. split; [reflexivity|].
    destruct (ut_managed c) eqn:M; [left; reflexivity|right].
    refine (each_none _ (fun r => r ∈ ut_roles c) st _ _ _ _ _ H).
    + intros r. destruct (decide (r ∈ ut_roles c)); auto.
    + intros r Hr st2. rewrite Hc, bool_decide_true by exact Hr. unfold ut_add_principal_role. rewrite M. discriminate.
    + intros r Hr. rewrite Hc, bool_decide_false by exact Hr. reflexivity.
  - unfold ut_add_principal_in_namespace in H. destruct (u_tenants st !! t) as [c|] eqn:Hc; [|discriminate H]. exists c. split; [reflexivity|].
    destruct (ut_namespaces c !! ns) as [l|]; [right|left; reflexivity]. destruct (ut_managed c) eqn:M; [left; reflexivity|right].
    destruct rs as [|r0 rs]; [discriminate H|]. split; [discriminate|].
    refine (each_none _ (fun r => r ∈ ut_roles c) st _ _ _ _ _ H).
    + intros r. destruct (decide (r ∈ ut_roles c)); auto.
    + intros r Hr st2. rewrite bool_decide_true by exact Hr. unfold ut_add_principal_role. rewrite M. discriminate.
    + intros r Hr. rewrite bool_decide_false by exact Hr. reflexivity.
  - unfold ut_assign_scopes in H. destruct (u_tenants st !! t) as [c|]; [|discriminate H]. exists c. split; [reflexivity|].
    destruct (ut_managed c); [reflexivity|discriminate H].
  - destruct ss as [|s0 ss]; [left; reflexivity|right]. unfold ut_assign_scopes_with_role in H.
    destruct (u_tenants st !! t) as [c|]; [|discriminate H]. exists c. split; [reflexivity|]. destruct (ut_managed c); [reflexivity|discriminate H].
Qed.
Lemma may_grant_base st st1 x : same_base st st1 -> may_grant st x <-> may_grant st1 x.
Proof. intros B. rewrite B. destruct x; reflexivity. Qed.
Lemma may_grant_grant st x : may_grant st x -> grant x.
Proof. destruct x; cbn; tauto. Qed.
Lemma whose_base st st1 x : same_base st st1 -> whose st1 x = whose st x.
Proof. intros B. rewrite B. destruct x; reflexivity. Qed.

Lemma grant_step o st x st' y : u_wf st -> grant x -> ustep o st x = Ok (st', y) -> u_wf st' /\ same_base st st' /\ adds st (granted st x) st' /\ y = YUnit.
Proof.
  intros W G H. destruct (step_grants _ _ _ _ _ W G H) as [A ->]. split; [exact (proj1 (step_good _ _ _ _ _ H W))|]. split; [exact (adds_base _ _ _ A)|].
  split; [exact A|reflexivity].
Qed.
Lemma grant_det o o' st x st1 y1 st2 y2 : u_wf st -> grant x -> ustep o st x = Ok (st1, y1) -> ustep o' st x = Ok (st2, y2) -> st1 = st2 /\ y1 = y2.
Proof.
  intros W G H1 H2. destruct (grant_step _ _ _ _ _ W G H1) as (_ & _ & A1 & ->), (grant_step _ _ _ _ _ W G H2) as (_ & _ & A2 & ->).
  split; [exact (adds_fun _ _ _ _ A1 A2)|reflexivity].
Qed.

(** *** When the two grants do not get in each other's way *)
Lemma granted_same st st1 x a : same_base st st1 -> (forall p id b, whose st x = Some (p, id) -> member st1 p id b <-> member st p id b) ->
  granted st1 x a <-> granted st x a.
Proof.
  intros B Hm. destruct x; try reflexivity; try (rewrite B; reflexivity).
  - cbn [whose] in Hm. cbn [granted]. rewrite (base_tenants _ _ B), (base_nss _ _ B).
    split; intros (c & l & m & r & Hc & Hl & Hn & Ha & Hr); exists c, l, m, r; (do 4 (split; [assumption|])); (destruct rs; [|exact Hr]);
      (destruct Hr as [Hr|(b & Hb & Hr)]; [left; exact Hr|right; exists b; split; [|exact Hr]]); apply (Hm p (ut_id c) b); try exact Hb; rewrite Hc; reflexivity.
  - cbn [whose] in Hm. cbn [granted]. rewrite (base_tenants _ _ B).
    assert (D : forall c n, in_default st1 c n <-> in_default st c n) by (intros c n; rewrite B; reflexivity).
    split; intros (c & b & s & Hc & Hb & Hs & Hi & Ha); exists c, b, s; (split; [exact Hc|]); (split; [apply (Hm p (ut_id c) b); [rewrite Hc; reflexivity|exact Hb]|]);
      (split; [exact Hs|]); (split; [exact Hi|]); (destruct Ha as [Ha|(n & Hn & Ha)]; [left; exact Ha|right; exists n; split; [apply D; exact Hn|exact Ha]]).
  - cbn [whose] in Hm. cbn [granted]. rewrite (base_tenants _ _ B).
    assert (D : forall c n, in_default st1 c n <-> in_default st c n) by (intros c n; rewrite B; reflexivity).
    split; intros (c & b & s & n & Hc & Hb & Hr & Hs & Hi & Hn & Ha); exists c, b, s, n; (split; [exact Hc|]); (split; [apply (Hm p (ut_id c) b); [rewrite Hc; reflexivity|exact Hb]|]);
      (split; [exact Hr|]); (split; [exact Hs|]); (split; [exact Hi|]); (split; [apply D; exact Hn|exact Ha]).
Qed.
Lemma granted_plain st st1 x a : same_base st st1 -> plain_grant x -> granted st1 x a <-> granted st x a.
Proof.
  intros B Hp. destruct x; try destruct Hp; try (rewrite B; reflexivity). destruct rs as [|r0 rs]; [destruct Hp|]. rewrite B. reflexivity.
Qed.
Lemma plain_is_grant x : plain_grant x -> grant x.
Proof. destruct x; cbn; tauto. Qed.
Lemma read_back_whose x b : clean (tp_principal x) -> clean (tp_role x) -> clean (tp_tenant x) -> read_back x b ->
  tp_tenant b = tp_tenant x /\ tp_principal b = tp_principal x.
Proof.
  intros Hp Hr Ht Hb. apply row_parse_ok in Hb. unfold row_parse, row_string in Hb.
  rewrite bytes_under, split_app, bytes_under, split_app, bytes_under, split_app in Hb by assumption. cbn [fmap list_fmap] in Hb.
  rewrite !of_bytes_bytes in Hb.
  repeat match type of Hb with context [match ?l with _ => _ end] => destruct l; try discriminate Hb end; injection Hb as <-; split; reflexivity.
Qed.
(** Rows of a tidy grant are about the principal and tenant of the call. *)
Lemma granted_whose st x a b : grant x -> tidy st x -> granted st x a -> read_back a b -> whose st x = Some (tp_principal b, tp_tenant b).
Proof.
  intros G [Hr Hw] Ha Hb.
  assert (exists p r id n s m, whose st x = Some (p, id) /\ a = TRow p r id n s m /\ clean r) as (p & r & id & n & s & m & E & -> & Cr).
  { destruct x; try destruct G; cbn [granted named_roles whose] in *.
    - destruct Ha as (c & n & Hc & Hn & ->). rewrite Hc. do 6 eexists. split; [reflexivity|]. split; [reflexivity|]. inversion Hr; assumption.
    - destruct Ha as (c & r & n & Hc & Hin & _ & _ & ->). rewrite Hc. do 6 eexists. split; [reflexivity|]. split; [reflexivity|].
      rewrite Forall_forall in Hr. exact (Hr r Hin).
    - destruct Ha as (c & l & m & r & Hc & _ & _ & -> & Hin). rewrite Hc. do 6 eexists. split; [reflexivity|]. split; [reflexivity|].
      destruct rs as [|r0 rs]; [|rewrite Forall_forall in Hr; exact (Hr r (proj1 Hin))].
      destruct Hin as [->|(b' & (Hb' & _) & _ & _ & <-)]; [apply clean_empty|exact (proj1 (proj2 (assigned_clean _ _ Hb')))].
    - destruct Ha as (c & b' & s & Hc & (Hb' & _) & _ & _ & [->|(n & _ & ->)]); rewrite Hc; do 6 eexists; (split; [reflexivity|]); (split; [reflexivity|]);
        [apply clean_empty|exact (proj1 (proj2 (assigned_clean _ _ Hb')))].
    - destruct Ha as (c & b' & s & n & Hc & _ & _ & _ & _ & _ & ->). rewrite Hc. do 6 eexists. split; [reflexivity|]. split; [reflexivity|]. inversion Hr; assumption. }
  destruct Hw as (p' & id' & E' & Cp & Ci). rewrite E in E'. injection E' as <- <-. destruct (read_back_whose (TRow p r id n s m) b Cp Cr Ci Hb) as [-> ->]. exact E.
Qed.
(** A grant to somebody else does not change whether [p] is a member. *)
Lemma others_members st x st' p id b : grant x -> tidy st x -> adds st (granted st x) st' -> whose st x <> Some (p, id) -> member st' p id b <-> member st p id b.
Proof.
  intros G T A N. unfold member. rewrite (adds_assigned _ _ _ b A). split.
  - intros ([Ha|(a & Ha & Hb)] & <- & <-); [auto|]. destruct (N (granted_whose st x a b G T Ha Hb)).
  - intros (Ha & E1 & E2). auto.
Qed.
Definition indep (st : ustate) (x y : uop) : Prop :=
  plain_grant x /\ plain_grant y \/ grant x /\ grant y /\ tidy st x /\ tidy st y /\ whose st x <> whose st y.
Lemma tidy_base st st1 x : same_base st st1 -> tidy st1 x <-> tidy st x.
Proof. intros B. unfold tidy. rewrite (whose_base _ _ _ B). reflexivity. Qed.
Lemma indep_base st st1 x y : same_base st st1 -> indep st1 x y <-> indep st x y.
Proof. intros B. unfold indep. rewrite !(tidy_base _ _ _ B), !(whose_base _ _ _ B). reflexivity. Qed.
Lemma indep_sym st x y : indep st x y -> indep st y x.
Proof. intros [[? ?]|(? & ? & ? & ? & N)]; [left; auto|right]. do 4 (split; [assumption|]). intros E. exact (N (eq_sym E)). Qed.
Lemma indep_grants st x y : indep st x y -> grant x /\ grant y.
Proof. intros [[? ?]|(? & ? & _)]; [split; apply plain_is_grant; assumption|auto]. Qed.
Lemma indep_granted st x y st1 a : indep st x y -> adds st (granted st x) st1 -> granted st1 y a <-> granted st y a.
Proof.
  intros [[Hx Hy]|(Gx & Gy & Tx & Ty & N)] A.
  - exact (granted_plain st st1 y a (adds_base _ _ _ A) Hy).
  - apply granted_same; [exact (adds_base _ _ _ A)|]. intros p id b E. apply (others_members st x st1 p id b Gx Tx A). rewrite <- E. exact N.
Qed.
Lemma indep_commute o1 o2 o3 o4 st x y s1 v1 s2 v2 : u_wf st -> indep st x y -> ustep o1 st x = Ok (s1, v1) -> ustep o2 s1 y = Ok (s2, v2) ->
  exists s1', ustep o3 st y = Ok (s1', YUnit) /\ ustep o4 s1' x = Ok (s2, YUnit).
Proof.
  intros W D H1 H2. destruct (indep_grants _ _ _ D) as [Gx Gy].
  destruct (grant_step _ _ _ _ _ W Gx H1) as (W1 & B1 & A1 & _), (grant_step _ _ _ _ _ W1 Gy H2) as (W2 & B2 & A2 & _).
  destruct (grant_returns o3 st y W) as (s1' & H1').
  { apply (may_grant_base st s1); [exact B1|]. exact (grant_may _ _ _ _ _ Gy H2). }
  exists s1'. split; [exact H1'|]. destruct (grant_step _ _ _ _ _ W Gy H1') as (W1' & B1' & A1' & _).
  destruct (grant_returns o4 s1' x W1') as (s2' & H2').
  { apply (may_grant_base st s1'); [exact B1'|]. exact (grant_may _ _ _ _ _ Gx H1). }
  destruct (grant_step _ _ _ _ _ W1' Gx H2') as (_ & _ & A2' & _).
  assert (s2' = s2) as <-; [|exact H2'].
  assert (T : adds st (fun a => granted st x a \/ granted st y a) s2).
  { eapply adds_ext; [|exact (adds_trans _ _ _ _ _ A1 A2)]. intros a. cbv beta. rewrite (indep_granted st x y s1 a D A1). reflexivity. }
  assert (T' : adds st (fun a => granted st x a \/ granted st y a) s2').
  { eapply adds_ext; [|exact (adds_trans _ _ _ _ _ A1' A2')]. intros a. cbv beta. rewrite (indep_granted st y x s1' a (indep_sym _ _ _ D) A1'). tauto. }
  exact (adds_fun _ _ _ _ T' T).
Qed.

(** *** Runs *)
Lemma grants_cons o i st x ops st' outs' : urun o i st (x :: ops) = Ok (st', outs') ->
  exists s1 v1 outs, ustep (sub o i) st x = Ok (s1, v1) /\ urun o (S i) s1 ops = Ok (st', outs) /\ outs' = v1 :: outs.
Proof.
  cbn [urun]. rewrite rbind_ok. intros ([s1 v1] & H1 & H). rewrite rbind_ok in H. destruct H as ([s2 outs] & H2 & H). injection H as <- <-.
  exists s1, v1, outs. auto.
Qed.
Lemma cons_grants o i st x ops s1 v1 s2 outs : ustep (sub o i) st x = Ok (s1, v1) -> urun o (S i) s1 ops = Ok (s2, outs) ->
  urun o i st (x :: ops) = Ok (s2, v1 :: outs).
Proof. intros H1 H2. cbn [urun]. rewrite H1. cbn [rbind fst snd]. rewrite H2. reflexivity. Qed.
Lemma run_grants o i st ops st' outs : u_wf st -> Forall grant ops -> urun o i st ops = Ok (st', outs) ->
  u_wf st' /\ same_base st st' /\ outs = replicate (length ops) YUnit /\ forall o' i', urun o' i' st ops = Ok (st', outs).
Proof.
  intros W F. revert o i st W st' outs. induction F as [|x ops G F IH]; intros o i st W st' outs H.
  - injection H as <- <-. split; [exact W|]. split; [apply same_base_refl|]. split; [reflexivity|]. intros o' i'. reflexivity.
  - apply grants_cons in H as (s1 & v1 & outs1 & H1 & H2 & ->). cbn [fst snd] in *.
    destruct (grant_step _ _ _ _ _ W G H1) as (W1 & B1 & A1 & ->). destruct (IH _ _ _ W1 _ _ H2) as (W2 & B2 & -> & H2').
    split; [exact W2|]. split; [exact (same_base_trans _ _ _ B1 B2)|]. split; [reflexivity|]. intros o' i'.
    destruct (grant_returns (sub o' i') st x W (grant_may _ _ _ _ _ G H1)) as (s1' & H1').
    destruct (grant_det _ _ _ _ _ _ _ _ W G H1 H1') as [<- _]. exact (cons_grants _ _ _ _ _ _ _ _ _ H1' (H2' o' (S i'))).
Qed.
Lemma grants_back x pre : forall st post st' outs o i o' i', u_wf st -> Forall grant (pre ++ post) -> grant x -> (forall y, y ∈ pre -> indep st x y) ->
  urun o i st (x :: pre ++ post) = Ok (st', outs) -> urun o' i' st (pre ++ x :: post) = Ok (st', outs).
Proof.
  induction pre as [|y pre IH]; intros st post st' outs o i o' i' W F G D H.
  - refine (proj2 (proj2 (proj2 (run_grants _ _ _ _ _ _ W _ H))) o' i'). exact (Forall_cons_2 _ _ _ G F).
  - apply grants_cons in H as (s1 & v1 & outs1 & H1 & H & ->). cbn [fst snd app] in *.
    apply grants_cons in H as (s2 & v2 & outs2 & H2 & H & ->). cbn [fst snd] in *.
    apply Forall_cons in F as [Gy F]. destruct (grant_step _ _ _ _ _ W G H1) as (W1 & B1 & _ & ->).
    destruct (grant_step _ _ _ _ _ W1 Gy H2) as (W2 & _ & _ & ->).
    destruct (indep_commute _ _ (sub o' i') (sub o' 0) st x y _ _ _ _ W (D y (elem_of_list_here _ _)) H1 H2) as (s1' & H1' & H2').
    destruct (grant_step _ _ _ _ _ W Gy H1') as (W1' & B1' & _ & _).
    apply (cons_grants _ _ _ _ _ s1'); [exact H1'|]. destruct (run_grants _ _ _ _ _ _ W2 F H) as (_ & _ & _ & Hall).
    eapply (IH s1' post _ _ o' 0); [exact W1'|exact F|exact G| |exact (cons_grants _ _ _ _ _ _ _ _ _ H2' (Hall o' 1))].
    intros z Hz. apply (indep_base st); [exact B1'|]. apply D. right. exact Hz.
Qed.
Lemma c102_plain o i st ops ops' st' outs o' i' : ureachable st -> Forall plain_grant ops -> ops' ≡ₚ ops ->
  urun o i st ops = Ok (st', outs) -> urun o' i' st ops' = Ok (st', outs).
Proof.
  intros W%ureachable_wf. revert o i o' i' st W ops' st' outs. induction ops as [|x ops IH]; intros o i o' i' st W ops' st' outs F P H.
  - apply Permutation_sym, Permutation_nil in P as ->. injection H as <- <-. reflexivity.
  - apply Forall_cons in F as [Px F]. assert (Hx : x ∈ ops') by (rewrite P; left).
    apply elem_of_list_split in Hx as (pre & post & ->).
    assert (P' : pre ++ post ≡ₚ ops) by (symmetry in P; apply Permutation_cons_app_inv in P; symmetry; exact P).
    assert (F' : Forall plain_grant (pre ++ post)) by (rewrite P'; exact F).
    apply grants_cons in H as (s1 & v1 & outs1 & H1 & H & ->). cbn [fst snd] in *.
    destruct (grant_step _ _ _ _ _ W (plain_is_grant _ Px) H1) as (W1 & B1 & _ & ->).
    destruct (grant_returns (sub o' 0) st x W (grant_may _ _ _ _ _ (plain_is_grant _ Px) H1)) as (s1' & H1').
    destruct (grant_det _ _ _ _ _ _ _ _ W (plain_is_grant _ Px) H1 H1') as [<- _].
    apply (grants_back x pre st post st' _ o' 0); [exact W| |exact (plain_is_grant _ Px)| |].
    + exact (Forall_impl _ _ _ F' plain_is_grant).
    + intros y Hy. left. split; [exact Px|]. rewrite Forall_forall in F'. apply F'. apply elem_of_app. left. exact Hy.
    + exact (cons_grants _ _ _ _ _ _ _ _ _ H1' (IH _ _ o' 1 _ W1 _ _ _ F P' H)).
Qed.
Lemma first_of {A} (P : A -> Prop) `{forall x, Decision (P x)} (l : list A) : (exists x, x ∈ l /\ P x) ->
  exists pre x post, l = pre ++ x :: post /\ P x /\ forall y, y ∈ pre -> ~ P y.
Proof.
  induction l as [|z l IH]; intros (x & Hx & Px); [apply elem_of_nil in Hx; destruct Hx|].
  destruct (decide (P z)) as [Pz|Nz].
  - exists [], z, l. split; [reflexivity|]. split; [exact Pz|]. intros y Hy. apply elem_of_nil in Hy. destruct Hy.
  - apply elem_of_cons in Hx as [->|Hx]; [destruct (Nz Px)|]. destruct (IH (ex_intro _ x (conj Hx Px))) as (pre & w & post & -> & Pw & N).
    exists (z :: pre), w, post. split; [reflexivity|]. split; [exact Pw|]. intros y [->|Hy]%elem_of_cons; [exact Nz|exact (N y Hy)].
Qed.
Lemma filter_none {A} (P : A -> Prop) `{forall x, Decision (P x)} (l : list A) : (forall x, x ∈ l -> ~ P x) -> filter P l = [].
Proof.
  induction l as [|x l IH]; intros N; [reflexivity|]. rewrite filter_cons_False; [|apply N; left]. apply IH. intros y Hy. apply N. right. exact Hy.
Qed.
Lemma c102_apart o i st ops ops' st' outs o' i' : ureachable st -> Forall grant ops -> Forall (tidy st) ops -> ops' ≡ₚ ops -> same_turns st ops ops' ->
  urun o i st ops = Ok (st', outs) -> urun o' i' st ops' = Ok (st', outs).
Proof.
  intros W%ureachable_wf. revert o i o' i' st W ops' st' outs. induction ops as [|x ops IH]; intros o i o' i' st W ops' st' outs FG FT P S H.
  - apply Permutation_sym, Permutation_nil in P as ->. injection H as <- <-. reflexivity.
  - apply Forall_cons in FG as [G FG]. apply Forall_cons in FT as [T FT]. destruct T as [Tr (p & id & Hw & Tc)].
    assert (Hx : exists y, y ∈ ops' /\ whose st y = Some (p, id)) by (exists x; split; [rewrite P; left|exact Hw]).
    destruct (first_of (fun y => whose st y = Some (p, id)) ops' Hx) as (pre & x' & post & -> & Hx' & N).
    assert (x' = x) as ->.
    { pose proof (S (p, id)) as E. rewrite filter_app, (filter_none _ pre N), filter_cons_True in E by exact Hw. cbn [app] in E.
      rewrite filter_cons_True in E by exact Hx'. injection E as E _. symmetry. exact E. }
    assert (P' : pre ++ post ≡ₚ ops) by (symmetry in P; apply Permutation_cons_app_inv in P; symmetry; exact P).
    assert (FG' : Forall grant (pre ++ post)) by (rewrite P'; exact FG). assert (FT' : Forall (tidy st) (pre ++ post)) by (rewrite P'; exact FT).
    apply grants_cons in H as (s1 & v1 & outs1 & H1 & H & ->). cbn [fst snd] in *.
    destruct (grant_step _ _ _ _ _ W G H1) as (W1 & B1 & _ & ->).
    destruct (grant_returns (sub o' 0) st x W (grant_may _ _ _ _ _ G H1)) as (s1' & H1').
    destruct (grant_det _ _ _ _ _ _ _ _ W G H1 H1') as [<- _].
    apply (grants_back x pre st post st' _ o' 0); [exact W|exact FG'|exact G| |].
    + intros y Hy. right. assert (Hy' : y ∈ pre ++ post) by (apply elem_of_app; left; exact Hy). rewrite Forall_forall in FG', FT'.
      split; [exact G|]. split; [exact (FG' y Hy')|]. split; [split; [exact Tr|exists p, id; auto]|]. split; [exact (FT' y Hy')|].
      intros E. apply (N y Hy). rewrite <- E. exact Hw.
    + refine (cons_grants _ _ _ _ _ _ _ _ _ H1' (IH _ _ o' 1 _ W1 _ _ _ FG _ P' _ H)).
      * eapply Forall_impl; [exact FT|]. intros y Ty. apply (tidy_base st); [exact B1|exact Ty].
      * intros k. pose proof (S k) as E. rewrite filter_app in E.
        assert (X : forall l : list uop, filter (fun y => whose s1 y = Some k) l = filter (fun y => whose st y = Some k) l).
        { intros l. apply list_filter_iff. intros y. rewrite (whose_base _ _ _ B1). reflexivity. }
        rewrite !X, filter_app. destruct (decide (k = (p, id))) as [->|Nk].
        -- rewrite (filter_none _ pre N) in E |- *. rewrite !filter_cons_True in E by exact Hw. injection E as E. exact E.
        -- rewrite !filter_cons_False in E by congruence. exact E.
Qed.
Lemma c102_returns o i st ops ops' st1 outs1 o' i' : ureachable st -> Forall grant ops -> ops' ≡ₚ ops -> urun o i st ops = Ok (st1, outs1) ->
  exists st2, urun o' i' st ops' = Ok (st2, outs1).
Proof.
  intros W%ureachable_wf F P H.
  assert (X : u_wf st /\ Forall (may_grant st) ops /\ outs1 = replicate (length ops) YUnit).
  { split; [exact W|]. revert o i st W st1 outs1 H. clear P. induction F as [|x ops G F IH]; intros o i st W st1 outs1 H; [injection H as <- <-; split; [constructor|reflexivity]|].
    apply grants_cons in H as (s1 & v1 & outs & H1 & H & ->). cbn [fst snd] in *. destruct (grant_step _ _ _ _ _ W G H1) as (W1 & B1 & _ & ->).
    destruct (IH _ _ _ W1 _ _ H) as [M ->]. split; [|reflexivity]. constructor; [exact (grant_may _ _ _ _ _ G H1)|].
    eapply Forall_impl; [exact M|]. intros y Hy. apply (may_grant_base st s1 y B1). exact Hy. }
  destruct X as (_ & M & ->). rewrite <- (Permutation_length P). rewrite <- P in M. clear -W M. revert i' st W M.
  induction ops' as [|x ops IH]; intros i' st W M; [exists st; reflexivity|]. apply Forall_cons in M as [Mx M].
  destruct (grant_returns (sub o' i') st x W Mx) as (s1 & H1). destruct (grant_step _ _ _ _ _ W (may_grant_grant _ _ Mx) H1) as (W1 & B1 & _ & _).
  destruct (IH (S i') s1 W1) as (s2 & H2).
  { eapply Forall_impl; [exact M|]. intros y Hy. apply (may_grant_base st s1 y B1). exact Hy. }
  exists s2. exact (cons_grants _ _ _ _ _ _ _ _ _ H1 H2).
Qed.
Lemma c102_early o st t p ss : ureachable st -> (exists c, u_tenants st !! t = Some c /\ ut_managed c = true /\ forall a, ~ member st p (ut_id c) a) ->
  ustep o st (UTAssignScopes t p ss) = Ok (st, YUnit).
Proof.
  intros W%ureachable_wf (c & Hc & M & N). cbn [ustep]. unfold ut_assign_scopes. rewrite Hc, M.
  destruct (principal_roles_ok o st (ut_id c) p W) as (prs & -> & Hin). cbn [rbind]. destruct prs as [|a prs]; [reflexivity|].
  destruct (N a). apply Hin. left.
Qed.
Lemma c102_early_role o st t p r ss : ureachable st -> (exists c, u_tenants st !! t = Some c /\ ut_managed c = true /\ forall a, ~ member st p (ut_id c) a) ->
  ustep o st (UTAssignScopesWithRole t p r ss) = Ok (st, YUnit).
Proof.
  intros W%ureachable_wf (c & Hc & M & N). cbn [ustep]. unfold ut_assign_scopes_with_role. rewrite Hc, M. destruct ss as [|s ss]; [reflexivity|].
  destruct (principal_roles_ok o st (ut_id c) p W) as (prs & -> & Hin). cbn [rbind]. destruct prs as [|a prs]; [reflexivity|].
  destruct (N a). apply Hin. left.
Qed.
