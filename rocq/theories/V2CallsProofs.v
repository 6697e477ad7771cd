(** The state of a v2 authorizer, told from the calls made. *)
From Verif Require Export V2OrdProofs V2Hist V2RetSpec.
From Verif Require Import V2RegProofs V2Final.

(** ** Histories that grow *)
Section grow.
  Context (h : history) (x : vop) (r : vout).
  Lemma latest_snoc {A} (says : vop -> vout -> option A) :
    latest says (h ++ [(x, r)]) = match says x r with Some v => Some v | None => latest says h end.
  Proof.
    unfold latest. rewrite omap_app. cbn [omap list_omap fst snd]. destruct (says x r) as [v|]; [apply last_snoc|rewrite app_nil_r; reflexivity].
  Qed.
  Lemma called_snoc y : y ∈ (h ++ [(x, r)]).*1 <-> y ∈ h.*1 \/ y = x.
  Proof. rewrite fmap_app, elem_of_app. cbn. rewrite elem_of_list_singleton. reflexivity. Qed.
  Lemma event_snoc e : e ∈ h ++ [(x, r)] <-> e ∈ h \/ e = (x, r).
  Proof. rewrite elem_of_app, elem_of_list_singleton. reflexivity. Qed.
  Lemma roles_made_snoc : roles_made (h ++ [(x, r)]) = roles_made h ++ match x with VNewRole n => [n] | _ => [] end.
  Proof. unfold roles_made. rewrite omap_app. f_equal. destruct x; reflexivity. Qed.
  Lemma tenants_made_snoc : tenants_made (h ++ [(x, r)]) = tenants_made h ++ match x with VNewTenant id d => [(id, d)] | _ => [] end.
  Proof. unfold tenants_made. rewrite omap_app. f_equal. destruct x; reflexivity. Qed.
  Lemma assignments_made_snoc : assignments_made (h ++ [(x, r)]) = assignments_made h ++ match x with VNewPR pr => [pr] | _ => [] end.
  Proof. unfold assignments_made. rewrite omap_app. f_equal. destruct x; reflexivity. Qed.
  Lemma roles_added_snoc : roles_added (h ++ [(x, r)]) = roles_added h ++ match x with VAddRoles rs => rs | _ => [] end.
  Proof. unfold roles_added. rewrite bind_app. f_equal. cbn. apply app_nil_r. Qed.
End grow.

(** ** What every call does to the components of the state *)
Definition kids_accepted (r : string) (x : vop) (out : vout) : list string :=
  match out with WErr None => kids_given r x | _ => [] end.
Definition tenants_then (ids : list string) (x : vop) (out : vout) (ts : list vtenant) : list vtenant :=
  match x with
  | VNewTenant id d => ts ++ [new_vtenant id d]
  | VTenantScopes t n ss => match out with WErr None => tenant_eff ids x ts | _ => ts end
  | _ => tenant_eff ids x ts
  end.
Definition roles_then (x : vop) (h : list vrole) : list vrole :=
  match x with VNewRole n => h ++ [VRole n ∅] | _ => role_eff x h end.
Definition expiry_then (x : vop) (l : nat) (r : vout) (pr : prole) : prole := with_expiry pr (default (pr_expiry pr) (expiry_said l x r)).
Record then_ (x : vop) (out : vout) (st st' : vstate) : Prop := {
  th_roles : w_roles st' = roles_then x (w_roles st);
  th_tenants : w_tenants st' = tenants_then (vt_id <$> w_tenants st) x out (w_tenants st);
  th_prs : w_prs st' = imap (fun l pr => expiry_then x l out pr) (w_prs st) ++ match x with VNewPR pr => [pr] | _ => [] end;
  th_names : d_roles (w_dag st') = name_eff (vr_name <$> w_roles st) x (d_roles (w_dag st));
  th_children : forall r, edges_of (d_edges (w_dag st')) r = edges_of (d_edges (w_dag st)) r ++ kids_accepted r x out;
  th_assign : match x with VRemovePR _ => True | _ => w_assign st' = w_assign st ++ rows_given x end;
  th_reg : w_reg st' = reg_eff (vt_id <$> w_tenants st) x (w_reg st);
  th_default : w_default st' = default_eff x (w_default st)
}.
Lemma with_own_expiry pr : with_expiry pr (pr_expiry pr) = pr.
Proof. destruct pr. reflexivity. Qed.
Lemma imap_id {A} (f : nat -> A -> A) (l : list A) : (forall i a, f i a = a) -> imap f l = l.
Proof.
  intros E. apply list_eq. intros i. rewrite list_lookup_imap. destruct (l !! i) as [a|]; cbn; [rewrite E|]; reflexivity.
Qed.
Lemma expiry_silent x out l : match x with VSetExpiry _ _ _ | VSetExpiryDuration _ _ _ | VClearExpiry _ => False | _ => True end -> expiry_said l x out = None.
Proof. destruct x; intros H; try contradiction; reflexivity. Qed.
Lemma prs_silent x out prs : match x with VSetExpiry _ _ _ | VSetExpiryDuration _ _ _ | VClearExpiry _ => False | _ => True end ->
  imap (fun l pr => expiry_then x l out pr) prs = prs.
Proof. intros H. apply imap_id. intros i pr. unfold expiry_then. rewrite expiry_silent by exact H. apply with_own_expiry. Qed.
Lemma insert_imap {A} (f : nat -> A -> A) (l : list A) i a b : l !! i = Some a -> f i a = b -> (forall j c, j <> i -> f j c = c) -> <[i := b]> l = imap f l.
Proof.
  intros Hi E N. apply list_eq. intros j. rewrite list_lookup_imap. destruct (decide (j = i)) as [->|Hj].
  - rewrite list_lookup_insert by exact (lookup_lt_Some _ _ _ Hi). rewrite Hi. cbn. rewrite E. reflexivity.
  - rewrite list_lookup_insert_ne by (intros ->; apply Hj; reflexivity). destruct (l !! j) as [c|]; cbn; [rewrite N by exact Hj|]; reflexivity.
Qed.
Lemma same_then x out st st' : match x with VSetExpiry _ _ _ | VSetExpiryDuration _ _ _ | VClearExpiry _ => False | _ => True end ->
  effect x st st' -> (forall r, kids_accepted r x out = kids_given r x) -> tenants_then (vt_id <$> w_tenants st) x out (w_tenants st) = tenant_eff (vt_id <$> w_tenants st) x (w_tenants st) ->
  match x with VNewRole _ | VNewPR _ => False | _ => True end -> then_ x out st st'.
Proof.
  intros S [E1 E2 E3 E4 E5 E6 E7 E8 E9] K T N. split; try assumption.
  - rewrite E1. destruct x; try contradiction; reflexivity.
  - rewrite E2, T. reflexivity.
  - rewrite E3, prs_silent by exact S. destruct x; try contradiction; rewrite app_nil_r; reflexivity.
  - intros r. rewrite E6, K. reflexivity.
  - destruct x; try exact E7; exact I.
Qed.
Lemma idle_then x out st st' : match x with VSetExpiry _ _ _ | VSetExpiryDuration _ _ _ | VClearExpiry _ => False | _ => True end ->
  roles_then x (w_roles st) = w_roles st -> tenants_then (vt_id <$> w_tenants st) x out (w_tenants st) = w_tenants st ->
  match x with VNewPR _ | VAddRoles _ | VAddPR _ | VAddTenant _ | VSetDefault _ => False | _ => True end -> (forall r, kids_accepted r x out = []) ->
  w_roles st' = w_roles st -> w_tenants st' = w_tenants st -> w_prs st' = w_prs st -> d_roles (w_dag st') = d_roles (w_dag st) -> d_edges (w_dag st') = d_edges (w_dag st) ->
  match x with VRemovePR _ => True | _ => w_assign st' = w_assign st end -> w_reg st' = w_reg st -> w_default st' = w_default st -> then_ x out st st'.
Proof.
  intros S R T N K E1 E2 E3 E4 E5 E6 E7 E8. split.
  - rewrite R. exact E1.
  - rewrite T. exact E2.
  - rewrite E3, prs_silent by exact S. destruct x; try contradiction; rewrite app_nil_r; reflexivity.
  - rewrite E4. destruct x; try contradiction; reflexivity.
  - intros r. rewrite E5, K, app_nil_r. reflexivity.
  - destruct x; try contradiction; try exact I; rewrite E6; cbn; rewrite app_nil_r; reflexivity.
  - rewrite E7. destruct x; try contradiction; reflexivity.
  - rewrite E8. destruct x; try contradiction; reflexivity.
Qed.
Lemma expiry_then_ x l f st st' e : (exists pr, w_prs st !! l = Some pr /\ st' = vw_prs st (<[l := (f pr).1]> (w_prs st)) /\ e = (f pr).2) ->
  (forall pr, e = (f pr).2 -> expiry_then x l (WErr e) pr = (f pr).1) -> (forall j out, j <> l -> expiry_said j x out = None) ->
  match x with VSetExpiry _ _ _ | VSetExpiryDuration _ _ _ | VClearExpiry _ => True | _ => False end -> then_ x (WErr e) st st'.
Proof.
  intros (pr & Hpr & -> & ->) F N S.
  assert (E : <[l:=(f pr).1]> (w_prs st) = imap (fun j pr' => expiry_then x j (WErr (f pr).2) pr') (w_prs st)).
  { apply (insert_imap _ _ _ _ _ Hpr (F pr eq_refl)). intros j c Hj. unfold expiry_then. rewrite N by exact Hj. apply with_own_expiry. }
  split; cbn [w_roles w_tenants w_prs w_dag w_assign w_reg w_default vw_prs]; rewrite ?E; destruct x; try contradiction; cbn; rewrite ?app_nil_r; try reflexivity;
    intros ?; destruct (f pr).2; rewrite app_nil_r; reflexivity.
Qed.
Lemma step_then o st x st' out : v2_wf st -> vstep o st x = Ok (st', out) -> then_ x out st st'.
Proof.
  intros W H. destruct x.
  - cbn [vstep] in H. injection H as <- <-. split; cbn; rewrite ?app_nil_r; try reflexivity; [rewrite prs_silent by exact I; reflexivity|intros; rewrite app_nil_r; reflexivity].
  - cbn [vstep] in H. injection H as <- <-. split; cbn; rewrite ?app_nil_r; try reflexivity; [rewrite prs_silent by exact I; reflexivity|intros; rewrite app_nil_r; reflexivity].
  - cbn [vstep] in H. injection H as <- <-. split; cbn; rewrite ?app_nil_r; try reflexivity; [rewrite prs_silent by exact I; reflexivity|intros; rewrite app_nil_r; reflexivity].
  - pose proof H as H0. cbn [vstep] in H. apply rbind_inv in H as (s1 & _ & [= -> <-]).
    apply same_then; try exact I; try reflexivity. refine (step_effect _ _ _ _ _ _ H0 _); [exact I|discriminate].
  - pose proof H as H0. cbn [vstep] in H. apply rbind_inv in H as (s1 & _ & [= -> <-]).
    apply same_then; try exact I; try reflexivity. refine (step_effect _ _ _ _ _ _ H0 _); [exact I|discriminate].
  - pose proof H as H0. cbn [vstep] in H. apply rbind_inv in H as (s1 & _ & [= _ <-]).
    apply same_then; try exact I; try reflexivity. refine (step_effect _ _ _ _ _ _ H0 _); [exact I|discriminate].
  - pose proof H as H0. cbn [vstep] in H. apply rbind_inv in H as ([d e] & Hd & [= <- <-]). destruct e as [e|].
    + apply dag_add_child_error in Hd as ->. apply idle_then; try exact I; reflexivity.
    + apply same_then; try exact I; try reflexivity. refine (step_effect _ _ _ _ _ _ H0 _); [exact I|discriminate].
  - pose proof H as H0. cbn [vstep] in H. apply rbind_inv in H as (s1 & _ & [= -> <-]).
    apply same_then; try exact I; try reflexivity. refine (step_effect _ _ _ _ _ _ H0 _); [exact I|discriminate].
  - pose proof H as H0. cbn [vstep] in H. destruct (w_tenants st !! t) as [c|] eqn:Hc; [|discriminate]. injection H as <- <-.
    unfold vt_add_scopes in *. destruct (vt_namespaces c !! n) as [s|] eqn:Hn.
    + apply same_then; try exact I; try reflexivity. refine (step_effect _ _ _ _ _ _ H0 _); [exact I|discriminate].
    + cbn [fst snd] in *. apply idle_then; try exact I; try reflexivity. cbn. apply list_insert_id. exact Hc.
  - pose proof H as H0. cbn [vstep] in H. destruct (w_tenants st !! t) as [c|] eqn:Hc; [|discriminate]. apply rbind_inv in H as (c' & _ & [= _ <-]).
    apply same_then; try exact I; try reflexivity. refine (step_effect _ _ _ _ _ _ H0 _); [exact I|discriminate].
  - pose proof H as H0. cbn [vstep] in H. apply rbind_inv in H as (s1 & _ & [= -> <-]).
    apply same_then; try exact I; try reflexivity. refine (step_effect _ _ _ _ _ _ H0 _); [exact I|discriminate].
  - pose proof H as H0. cbn [vstep] in H. apply rbind_inv in H as (s1 & _ & [= -> <-]).
    apply same_then; try exact I; try reflexivity. refine (step_effect _ _ _ _ _ _ H0 _); [exact I|discriminate].
  - pose proof H as H0. cbn [vstep] in H. injection H as _ <-. apply same_then; try exact I; try reflexivity. refine (step_effect _ _ _ _ _ _ H0 _); [exact I|discriminate].
  - pose proof H as H0. cbn [vstep] in H. apply rbind_inv in H as (s1 & _ & [= -> <-]).
    apply same_then; try exact I; try reflexivity. refine (step_effect _ _ _ _ _ _ H0 _); [exact I|discriminate].
  - cbn [vstep] in H. apply rbind_inv in H as ([s1 e'] & (F1 & F2 & F3 & F4 & F5 & F6 & _)%v2_remove_inv & [= <- <-]). cbn [fst snd].
    apply idle_then; try exact I; try reflexivity; try assumption; rewrite ?F4; try reflexivity. intros r. cbn. destruct e'; reflexivity.
  - cbn [vstep] in H. apply rbind_inv in H as ([s1 e'] & Hu%upd_pr_inv & [= <- <-]). cbn [fst snd].
    apply (expiry_then_ (VSetExpiry now pr e) pr (fun p => set_expiry now p e) st s1 e' Hu); [| |exact I].
    + intros pr0 ->. unfold set_expiry. case_bool_decide as Hb; cbn; unfold expiry_then; cbn; [apply with_own_expiry|]. rewrite decide_True by reflexivity. reflexivity.
    + intros j out Hj. cbn. destruct out as [| |[?|]|]; try reflexivity. rewrite decide_False by (intros ->; apply Hj; reflexivity). reflexivity.
  - cbn [vstep] in H. apply rbind_inv in H as ([s1 e'] & Hu%upd_pr_inv & [= <- <-]). cbn [fst snd].
    apply (expiry_then_ (VSetExpiryDuration now pr a) pr (fun p => set_expiry_duration now p a) st s1 e' Hu); [| |exact I].
    + intros pr0 ->. unfold expiry_then. destruct a as [[d|]|d|]; cbn; rewrite ?decide_True by reflexivity; try reflexivity. apply with_own_expiry.
    + intros j out Hj. cbn. destruct a as [[d|]|d|]; rewrite ?decide_False by (intros ->; apply Hj; reflexivity); reflexivity.
  - cbn [vstep] in H. apply rbind_inv in H as ([s1 e'] & Hu%upd_pr_inv & [= <- <-]). cbn [fst snd].
    apply (expiry_then_ (VClearExpiry pr) pr (fun p => (clear_expiry p, None)) st s1 e' Hu); [| |exact I].
    + intros pr0 _. unfold expiry_then. cbn. rewrite decide_True by reflexivity. reflexivity.
    + intros j out Hj. cbn. rewrite decide_False by (intros ->; apply Hj; reflexivity). reflexivity.
  - cbn [vstep] in H. apply rbind_inv in H as ([s1 b] & H & [= <- <-]). apply v2_authorize_sound in H as [(d' & -> & Hd') _]; [|exact W].
    apply idle_then; try exact I; try reflexivity; cbn; [apply (ext_roles _ _ _ Hd')|apply (ext_edges _ _ _ Hd')].
  - cbn [vstep] in H. apply rbind_inv in H as ([s1 b] & H & [= <- <-]). apply v2_can_sound in H as [(d' & -> & Hd') _]; [|exact W].
    apply idle_then; try exact I; try reflexivity; cbn; [apply (ext_roles _ _ _ Hd')|apply (ext_edges _ _ _ Hd')].
Qed.

(** ** Roles *)
Lemma lookup_alter_if {A} (f : A -> A) (l : list A) (i j : nat) : alter f i l !! j = if decide (i = j) then f <$> l !! j else l !! j.
Proof. destruct (decide (i = j)) as [->|N]; [apply list_lookup_alter|apply list_lookup_alter_ne; exact N]. Qed.
Lemma lookup_snoc_if {A} (l : list A) a i b : (l ++ [a]) !! i = Some b <-> l !! i = Some b \/ i = length l /\ b = a.
Proof.
  rewrite lookup_app_Some. split.
  - intros [H|[Hl H]]; [left; exact H|]. apply list_lookup_singleton_Some in H as [E ->]. right. split; [lia|reflexivity].
  - intros [H|[-> ->]]; [left; exact H|right]. split; [reflexivity|]. rewrite Nat.sub_diag. reflexivity.
Qed.
Definition perms_told (h : history) (rs : list vrole) : Prop := forall l p, role_can h l p <-> exists r, rs !! l = Some r /\ p ∈ vr_perms r.
Lemma perms_step h x out rs : match x with VRoleAdd l _ | VRoleRemove l _ => l < length rs | _ => True end ->
  perms_told h rs -> perms_told (h ++ [(x, out)]) (roles_then x rs).
Proof.
  intros Hl T l p. unfold role_can. rewrite latest_snoc.
  destruct x; try exact (T l p).
  - rewrite (T l p : _ <-> _). cbn [roles_then]. split.
    + intros (r & H & Hp). exists r. split; [apply lookup_app_l_Some; exact H|exact Hp].
    + intros (r & [H|[_ ->]]%lookup_snoc_if & Hp); [exists r; split; assumption|]. apply elem_of_empty in Hp. contradiction.
  - cbn [roles_then role_eff]. destruct (decide (r = l /\ p ∈ perm_string <$> ps)) as [[-> Hp]|N].
    + split; [intros _|reflexivity]. apply lookup_lt_is_Some in Hl as [ro Hro]. exists (vrole_add ro ps). rewrite list_lookup_alter, Hro. split; [reflexivity|].
      cbn. apply elem_of_union. left. apply elem_of_list_to_set. exact Hp.
    + rewrite (T l p : _ <-> _), lookup_alter_if. destruct (decide (r = l)) as [->|Nr]; [|reflexivity].
      assert (Np : p ∉ perm_string <$> ps) by (intros Hp; apply N; split; [reflexivity|exact Hp]).
      split; intros (ro & H & Hp).
      * exists (vrole_add ro ps). rewrite H. split; [reflexivity|]. cbn. apply elem_of_union. right. exact Hp.
      * apply fmap_Some in H as (ro' & H & ->). exists ro'. split; [exact H|]. cbn in Hp. apply elem_of_union in Hp as [Hp%elem_of_list_to_set|Hp]; [contradiction|exact Hp].
  - cbn [roles_then role_eff]. destruct (decide (r = l /\ p ∈ perm_string <$> ps)) as [[-> Hp]|N].
    + split; [discriminate|]. intros (ro & H & Hq). rewrite list_lookup_alter in H. apply fmap_Some in H as (ro' & H & ->).
      cbn in Hq. apply elem_of_difference in Hq as [_ Hq]. destruct Hq. apply elem_of_list_to_set. exact Hp.
    + rewrite (T l p : _ <-> _), lookup_alter_if. destruct (decide (r = l)) as [->|Nr]; [|reflexivity].
      assert (Np : p ∉ perm_string <$> ps) by (intros Hp; apply N; split; [reflexivity|exact Hp]).
      split; intros (ro & H & Hp).
      * exists (vrole_remove ro ps). rewrite H. split; [reflexivity|]. cbn. apply elem_of_difference. split; [exact Hp|]. intros Hq%elem_of_list_to_set. contradiction.
      * apply fmap_Some in H as (ro' & H & ->). exists ro'. split; [exact H|]. cbn in Hp. apply elem_of_difference in Hp as [Hp _]. exact Hp.
Qed.
Lemma names_step h x out rs : vr_name <$> rs = roles_made h -> vr_name <$> roles_then x rs = roles_made (h ++ [(x, out)]).
Proof.
  intros E. rewrite roles_made_snoc. destruct x; cbn [roles_then role_eff]; rewrite ?app_nil_r; try exact E.
  - rewrite fmap_app, E. reflexivity.
  - rewrite <- E. apply alter_same_fmap. reflexivity.
  - rewrite <- E. apply alter_same_fmap. reflexivity.
Qed.
Definition puts (names : list string) (m : gmap string nat) (ls : list nat) : gmap string nat :=
  fold_left (fun m l => match names !! l with Some n => <[n := l]> m | None => m end) ls m.
Lemma puts_lookup names m ls n : Forall (fun l => l < length names) ls ->
  puts names m ls !! n = match last (filter (fun l => names !! l = Some n) ls) with Some l => Some l | None => m !! n end.
Proof.
  induction ls as [|l ls IH] using rev_ind; intros F; [reflexivity|]. apply Forall_app in F as [F [Hl _]%Forall_cons].
  unfold puts in *. rewrite fold_left_app, filter_app. cbn [fold_left]. apply lookup_lt_is_Some in Hl as [k Hk]. rewrite Hk.
  destruct (decide (k = n)) as [->|N].
  - rewrite lookup_insert, filter_cons_True by exact Hk. cbn [filter list_filter]. rewrite last_snoc. reflexivity.
  - rewrite lookup_insert_ne by exact N. rewrite filter_cons_False by (rewrite Hk; intros [= ->]; apply N; reflexivity). cbn [filter list_filter]. rewrite app_nil_r. exact (IH F).
Qed.
Lemma filter_names (names k : list string) (ls : list nat) (n : string) : Forall (fun l => l < length names) ls ->
  filter (fun l => (names ++ k) !! l = Some n) ls = filter (fun l => names !! l = Some n) ls.
Proof.
  induction 1 as [|l ls Hl F IH]; [reflexivity|]. rewrite !filter_cons, IH, lookup_app_l by exact Hl. reflexivity.
Qed.
Definition names_told (h : history) (m : gmap string nat) : Prop :=
  Forall (fun l => l < length (roles_made h)) (roles_added h) /\ forall n, m !! n = role_under h n.
Lemma under_step h x out m : match x with VAddRoles ls => Forall (fun l => l < length (roles_made h)) ls | _ => True end ->
  names_told h m -> names_told (h ++ [(x, out)]) (name_eff (roles_made h) x m).
Proof.
  intros Hl [F T]. unfold names_told, role_under. rewrite roles_made_snoc, roles_added_snoc. split.
  - rewrite app_length. apply Forall_app. split.
    + eapply Forall_impl; [exact F|]. cbn. intros l Hlt. lia.
    + destruct x; try constructor. eapply Forall_impl; [exact Hl|]. cbn. intros l Hlt. lia.
  - intros n. rewrite filter_app, filter_names by exact F. destruct x; cbn [name_eff filter list_filter]; rewrite ?app_nil_r; try apply T.
    rewrite last_app. rewrite (puts_lookup _ m rs n Hl : fold_left _ rs m !! n = _), T. reflexivity.
Qed.
Definition children_told (h : history) (e : gmap string (list string)) : Prop := forall a b, b ∈ edges_of e a <-> child_role h a b.
Lemma children_step h x out e e' : (forall r, edges_of e' r = edges_of e r ++ kids_accepted r x out) -> children_told h e -> children_told (h ++ [(x, out)]) e'.
Proof.
  intros E T a b. rewrite E, elem_of_app, (T a b : _ <-> _). unfold child_role. split.
  - intros [(cs & H & Hb)|H].
    + exists cs. split; [apply event_snoc; left; exact H|exact Hb].
    + unfold kids_accepted in H. destruct out as [| |[?|]|]; try (apply elem_of_nil in H; contradiction). unfold kids_given in H.
      destruct x; try (apply elem_of_nil in H; contradiction). destruct (decide (parent = a)) as [->|]; [|apply elem_of_nil in H; contradiction].
      exists cs. split; [apply event_snoc; right; reflexivity|exact H].
  - intros (cs & [H|[= <- <-]]%event_snoc & Hb).
    + left. exists cs. split; assumption.
    + right. cbn. rewrite decide_True by reflexivity. exact Hb.
Qed.

(** ** Tenants *)
Definition default_said (t : nat) (x : vop) (_ : vout) : option string :=
  match x with VTenantNamespace t' n true => if decide (t' = t) then Some n else None | _ => None end.
Definition status_said (t : nat) (x : vop) (_ : vout) : option tstatus :=
  match x with VTenantStatus t' s => if decide (t' = t) then Some s else None | _ => None end.
Record tenants_told (h : history) (ts : list vtenant) : Prop := {
  tt_ids : vt_id <$> ts = (tenants_made h).*1;
  tt_ns : forall t n, has_namespace h t n <-> exists c, ts !! t = Some c /\ is_Some (vt_namespaces c !! n);
  tt_scopes : forall t n s, has_scope h t n s <-> exists c S, ts !! t = Some c /\ vt_namespaces c !! n = Some S /\ s ∈ S;
  tt_default : forall t c, ts !! t = Some c -> vt_default c = default_now h t;
  tt_status : forall t c, ts !! t = Some c -> vt_status c = status_now h t;
  tt_silent : forall t, length ts <= t -> latest (default_said t) h = None /\ latest (status_said t) h = None;
  tt_kids : forall a c k b, ts !! a = Some c -> vt_children c !! k = Some b -> is_child h a b;
  tt_kept : forall a b, is_child h a b -> exists c k, ts !! a = Some c /\ (tenants_made h).*1 !! b = Some k /\ is_Some (vt_children c !! k)
}.
Lemma default_now_eq h t : default_now h t = match latest (default_said t) h with Some n => n | None => match tenants_made h !! t with Some (_, Some n) => n | _ => "" end end.
Proof. reflexivity. Qed.
Lemma status_now_eq h t : status_now h t = default TActive (latest (status_said t) h).
Proof. reflexivity. Qed.
Lemma told_length h ts : tenants_told h ts -> length (tenants_made h) = length ts.
Proof. intros T. pose proof (f_equal length (tt_ids _ _ T)) as E. rewrite !fmap_length in E. symmetry. exact E. Qed.
Lemma ns_snoc h x out t n : has_namespace (h ++ [(x, out)]) t n <->
  has_namespace h t n \/ (exists id, x = VNewTenant id (Some n) /\ t = length (tenants_made h)) \/ exists b, x = VTenantNamespace t n b.
Proof.
  unfold has_namespace. rewrite tenants_made_snoc. split.
  - intros [[id H]|[b [H|<-]%called_snoc]].
    + destruct x; rewrite ?app_nil_r in H; try (left; left; exists id; exact H).
      apply lookup_snoc_if in H as [H|[-> [= <- <-]]]; [left; left; exists id; exact H|right; left; exists id; split; reflexivity].
    + left. right. exists b. exact H.
    + right. right. exists b. reflexivity.
  - intros [[[id H]|[b H]]|[(id & -> & ->)|[b ->]]].
    + left. exists id. apply lookup_app_l_Some. exact H.
    + right. exists b. apply called_snoc. left. exact H.
    + left. exists id. apply lookup_snoc_if. right. split; reflexivity.
    + right. exists b. apply called_snoc. right. reflexivity.
Qed.
Lemma scope_snoc h x out t n s : has_scope (h ++ [(x, out)]) t n s <-> has_scope h t n s \/ exists ss, x = VTenantScopes t n ss /\ out = WErr None /\ s ∈ ss.
Proof.
  unfold has_scope. split.
  - intros (ss & [H|[= <- <-]]%event_snoc & Hs); [left; exists ss; split; assumption|right; exists ss; split_and!; [reflexivity|reflexivity|exact Hs]].
  - intros [(ss & H & Hs)|(ss & -> & -> & Hs)]; exists ss; (split; [apply event_snoc|exact Hs]); [left; exact H|right; reflexivity].
Qed.
Lemma kid_snoc h x out a b : is_child (h ++ [(x, out)]) a b <-> is_child h a b \/ exists cs, x = VTenantChildren a cs /\ b ∈ cs.
Proof.
  unfold is_child. split.
  - intros (cs & [H|<-]%called_snoc & Hb); [left; exists cs; split; assumption|right; exists cs; split; [reflexivity|exact Hb]].
  - intros [(cs & H & Hb)|(cs & -> & Hb)]; exists cs; (split; [apply called_snoc|exact Hb]); [left; exact H|right; reflexivity].
Qed.
Lemma made_kept h x out t e : tenants_made h !! t = Some e -> tenants_made (h ++ [(x, out)]) !! t = Some e.
Proof. intros H. rewrite tenants_made_snoc. apply lookup_app_l_Some. exact H. Qed.
Lemma made_below h x out t : t < length (tenants_made h) -> tenants_made (h ++ [(x, out)]) !! t = tenants_made h !! t.
Proof. intros H. rewrite tenants_made_snoc. apply lookup_app_l. exact H. Qed.
Lemma default_snoc h x out t : t < length (tenants_made h) -> default_now (h ++ [(x, out)]) t = default (default_now h t) (default_said t x out).
Proof. intros H. rewrite !default_now_eq, latest_snoc, made_below by exact H. destruct (default_said t x out); reflexivity. Qed.
Lemma status_snoc h x out t : status_now (h ++ [(x, out)]) t = default (status_now h t) (status_said t x out).
Proof. rewrite !status_now_eq, latest_snoc. destruct (status_said t x out); reflexivity. Qed.
Lemma silent_snoc h x out ts t : tenants_told h ts -> length ts <= t -> default_said t x out = None -> status_said t x out = None ->
  latest (default_said t) (h ++ [(x, out)]) = None /\ latest (status_said t) (h ++ [(x, out)]) = None.
Proof. intros T Hl E1 E2. rewrite !latest_snoc, E1, E2. exact (tt_silent _ _ T t Hl). Qed.
Lemma ids_kept h x out b k : (tenants_made h).*1 !! b = Some k -> (tenants_made (h ++ [(x, out)])).*1 !! b = Some k.
Proof. intros H. rewrite tenants_made_snoc, fmap_app. apply lookup_app_l_Some. exact H. Qed.

Lemma told_new h id d out ts : tenants_told h ts -> tenants_told (h ++ [(VNewTenant id d, out)]) (ts ++ [new_vtenant id d]).
Proof.
  intros T. pose proof (told_length _ _ T) as L. split.
  - rewrite tenants_made_snoc, !fmap_app, (tt_ids _ _ T). destruct d; reflexivity.
  - intros t n. rewrite ns_snoc, (tt_ns _ _ T). split.
    + intros [(c & H & Hn)|[(id' & [= -> ->] & ->)|[b [=]]]].
      * exists c. split; [apply lookup_app_l_Some; exact H|exact Hn].
      * rewrite L. exists (new_vtenant id' (Some n)). split; [apply lookup_snoc_if; right; split; reflexivity|]. cbn. rewrite lookup_singleton. eauto.
    + intros (c & [H|[-> ->]]%lookup_snoc_if & Hn); [left; exists c; split; assumption|]. destruct d as [d|]; cbn in Hn.
      * right. left. exists id. destruct Hn as [s [<- _]%lookup_singleton_Some]. split; [reflexivity|symmetry; exact L].
      * rewrite lookup_empty in Hn. destruct Hn as [? ?]; discriminate.
  - intros t n s. rewrite scope_snoc, (tt_scopes _ _ T). split.
    + intros [(c & S & H & Hn)|(ss & [=] & _)]. exists c, S. split; [apply lookup_app_l_Some; exact H|exact Hn].
    + intros (c & S & [H|[-> ->]]%lookup_snoc_if & Hn & Hs); [left; exists c, S; split_and!; assumption|]. destruct d as [d|]; cbn in Hn.
      * apply lookup_singleton_Some in Hn as [_ <-]. apply elem_of_empty in Hs. contradiction.
      * rewrite lookup_empty in Hn. discriminate.
  - intros t c [H|[-> ->]]%lookup_snoc_if.
    + rewrite default_snoc by (rewrite L; exact (lookup_lt_Some _ _ _ H)). exact (tt_default _ _ T t c H).
    + rewrite default_now_eq. destruct (silent_snoc h (VNewTenant id d) out ts (length ts) T) as [-> _]; [lia|reflexivity|reflexivity|].
      rewrite tenants_made_snoc, lookup_app_r, L, Nat.sub_diag by (rewrite L; lia). destruct d; reflexivity.
  - intros t c [H|[-> ->]]%lookup_snoc_if.
    + rewrite status_snoc. exact (tt_status _ _ T t c H).
    + rewrite status_now_eq. destruct (silent_snoc h (VNewTenant id d) out ts (length ts) T) as [_ ->]; [lia|reflexivity|reflexivity|]. destruct d; reflexivity.
  - intros t Ht. rewrite app_length in Ht. apply (silent_snoc h _ out ts t T); [cbn in Ht; lia|reflexivity|reflexivity].
  - intros a c k b [H|[-> ->]]%lookup_snoc_if Hk.
    + apply kid_snoc. left. exact (tt_kids _ _ T a c k b H Hk).
    + destruct d; cbn in Hk; rewrite lookup_empty in Hk; discriminate.
  - intros a b [H|(cs & [=] & _)]%kid_snoc. destruct (tt_kept _ _ T a b H) as (c & k & Hc & Hb & Hk).
    exists c, k. split_and!; [apply lookup_app_l_Some; exact Hc|apply ids_kept; exact Hb|exact Hk].
Qed.
(** A call that changes the tenant [t0] *)
Lemma told_alter h x out ts t0 c0 f : tenants_told h ts -> ts !! t0 = Some c0 -> (forall id d, x <> VNewTenant id d) ->
  (forall c, vt_id (f c) = vt_id c) ->
  (forall t, t <> t0 -> (forall n b, x <> VTenantNamespace t n b) /\ (forall n ss, x = VTenantScopes t n ss -> out <> WErr None) /\ (forall cs, x <> VTenantChildren t cs)
    /\ default_said t x out = None /\ status_said t x out = None) ->
  (forall n, is_Some (vt_namespaces (f c0) !! n) <-> is_Some (vt_namespaces c0 !! n) \/ exists b, x = VTenantNamespace t0 n b) ->
  (forall n s, (exists S, vt_namespaces (f c0) !! n = Some S /\ s ∈ S) <-> (exists S, vt_namespaces c0 !! n = Some S /\ s ∈ S) \/ exists ss, x = VTenantScopes t0 n ss /\ out = WErr None /\ s ∈ ss) ->
  vt_default (f c0) = default (vt_default c0) (default_said t0 x out) ->
  vt_status (f c0) = default (vt_status c0) (status_said t0 x out) ->
  (forall k b, vt_children (f c0) !! k = Some b -> vt_children c0 !! k = Some b \/ exists cs, x = VTenantChildren t0 cs /\ b ∈ cs) ->
  (forall k, is_Some (vt_children c0 !! k) -> is_Some (vt_children (f c0) !! k)) ->
  (forall cs b, x = VTenantChildren t0 cs -> b ∈ cs -> exists k, (vt_id <$> ts) !! b = Some k /\ is_Some (vt_children (f c0) !! k)) ->
  tenants_told (h ++ [(x, out)]) (alter f t0 ts).
Proof.
  intros T H0 X F1 O F2 F3 F4 F5 F6 F7 F8. pose proof (told_length _ _ T) as L.
  assert (M : tenants_made (h ++ [(x, out)]) = tenants_made h).
  { rewrite tenants_made_snoc. destruct x; rewrite ?app_nil_r; try reflexivity. destruct (X id def). reflexivity. }
  assert (A : forall t c, alter f t0 ts !! t = Some c <-> t <> t0 /\ ts !! t = Some c \/ t = t0 /\ c = f c0).
  { intros t c. rewrite lookup_alter_if. destruct (decide (t0 = t)) as [<-|N].
    - rewrite H0. cbn. split; [intros [= <-]; right; split; reflexivity|intros [[Z _]|[_ ->]]; [destruct Z; reflexivity|reflexivity]].
    - split; [intros H; left; split; [intros ->; apply N; reflexivity|exact H]|intros [[_ H]|[-> _]]; [exact H|destruct N; reflexivity]]. }
  split.
  - rewrite M, <- (tt_ids _ _ T). apply alter_same_fmap. exact F1.
  - intros t n. rewrite ns_snoc, (tt_ns _ _ T). split.
    + intros [(c & H & Hn)|[(id & E & _)|[b E]]].
      * destruct (decide (t = t0)) as [->|N].
        -- rewrite H0 in H. injection H as <-. exists (f c0). split; [apply A; right; split; reflexivity|]. apply F2. left. exact Hn.
        -- exists c. split; [apply A; left; split; assumption|exact Hn].
      * destruct (X _ _ E).
      * destruct (decide (t = t0)) as [->|N]; [|destruct (O t N) as (Z & _); destruct (Z _ _ E)].
        exists (f c0). split; [apply A; right; split; reflexivity|]. apply F2. right. exists b. exact E.
    + intros (c & [[N H]|[-> ->]]%A & Hn); [left; exists c; split; assumption|]. apply F2 in Hn as [Hn|[b E]]; [left; exists c0; split; assumption|].
      right. right. exists b. exact E.
  - intros t n s. rewrite scope_snoc, (tt_scopes _ _ T). split.
    + intros [(c & S & H & Hn & Hs)|(ss & E & Eo & Hs)].
      * destruct (decide (t = t0)) as [->|N].
        -- rewrite H0 in H. injection H as <-. destruct (proj2 (F3 n s)) as (S' & HS & Hs'); [left; exists S; split; assumption|].
           exists (f c0), S'. split_and!; [apply A; right; split; reflexivity|exact HS|exact Hs'].
        -- exists c, S. split_and!; [apply A; left; split; assumption|exact Hn|exact Hs].
      * destruct (decide (t = t0)) as [->|N]; [|destruct (O t N) as (_ & Z & _); destruct (Z _ _ E Eo)].
        destruct (proj2 (F3 n s)) as (S' & HS & Hs'); [right; exists ss; split_and!; assumption|].
        exists (f c0), S'. split_and!; [apply A; right; split; reflexivity|exact HS|exact Hs'].
    + intros (c & S & [[N H]|[-> ->]]%A & Hn & Hs); [left; exists c, S; split_and!; assumption|].
      destruct (proj1 (F3 n s)) as [(S' & HS & Hs')|E]; [exists S; split; assumption|left; exists c0, S'; split_and!; assumption|right; exact E].
  - intros t c [[N H]|[-> ->]]%A.
    + rewrite default_snoc by (rewrite L; exact (lookup_lt_Some _ _ _ H)). destruct (O t N) as (_ & _ & _ & -> & _). exact (tt_default _ _ T t c H).
    + rewrite default_snoc, F4, (tt_default _ _ T _ _ H0) by (rewrite L; exact (lookup_lt_Some _ _ _ H0)). reflexivity.
  - intros t c [[N H]|[-> ->]]%A.
    + rewrite status_snoc. destruct (O t N) as (_ & _ & _ & _ & ->). exact (tt_status _ _ T t c H).
    + rewrite status_snoc, F5, (tt_status _ _ T _ _ H0). reflexivity.
  - intros t Ht. rewrite alter_length in Ht. assert (N : t <> t0) by (intros ->; apply lookup_lt_Some in H0; lia).
    destruct (O t N) as (_ & _ & _ & E1 & E2). exact (silent_snoc h x out ts t T Ht E1 E2).
  - intros a c k b [[N H]|[-> ->]]%A Hk; apply kid_snoc.
    + left. exact (tt_kids _ _ T a c k b H Hk).
    + apply F6 in Hk as [Hk|Hk]; [left; exact (tt_kids _ _ T t0 c0 k b H0 Hk)|right; exact Hk].
  - intros a b [H|(cs & E & Hb)]%kid_snoc.
    + destruct (tt_kept _ _ T a b H) as (c & k & Hc & Hb & Hk). rewrite M. destruct (decide (a = t0)) as [->|N].
      * rewrite H0 in Hc. injection Hc as <-. exists (f c0), k. split_and!; [apply A; right; split; reflexivity|exact Hb|exact (F7 k Hk)].
      * exists c, k. split_and!; [apply A; left; split; assumption|exact Hb|exact Hk].
    + destruct (decide (a = t0)) as [->|N]; [|destruct (O a N) as (_ & _ & Z & _); destruct (Z _ E)].
      destruct (F8 cs b E Hb) as (k & Hi & Hk). rewrite (tt_ids _ _ T) in Hi. rewrite M. exists (f c0), k. split_and!; [apply A; right; split; reflexivity|exact Hi|exact Hk].
Qed.
Lemma told_idle h x out ts : tenants_told h ts ->
  match x with VNewTenant _ _ | VTenantNamespace _ _ _ | VTenantChildren _ _ | VTenantStatus _ _ => False | VTenantScopes _ _ _ => out <> WErr None | _ => True end ->
  tenants_told (h ++ [(x, out)]) ts.
Proof.
  intros T X. pose proof (told_length _ _ T) as L.
  assert (M : tenants_made (h ++ [(x, out)]) = tenants_made h) by (rewrite tenants_made_snoc; destruct x; try contradiction; apply app_nil_r).
  assert (D : forall t, default_said t x out = None) by (intros t; destruct x; try contradiction; reflexivity).
  assert (S : forall t, status_said t x out = None) by (intros t; destruct x; try contradiction; reflexivity).
  split.
  - rewrite M. exact (tt_ids _ _ T).
  - intros t n. rewrite <- (tt_ns _ _ T), ns_snoc. split; [|intros H; left; exact H]. intros [H|[(id & -> & _)|[b ->]]]; [exact H|contradiction|contradiction].
  - intros t n s. rewrite <- (tt_scopes _ _ T), scope_snoc. split; [|intros H; left; exact H]. intros [H|(ss & -> & -> & _)]; [exact H|destruct X; reflexivity].
  - intros t c H. rewrite default_snoc, D by (rewrite L; exact (lookup_lt_Some _ _ _ H)). exact (tt_default _ _ T t c H).
  - intros t c H. rewrite status_snoc, S. exact (tt_status _ _ T t c H).
  - intros t Ht. exact (silent_snoc h x out ts t T Ht (D t) (S t)).
  - intros a c k b H Hk. apply kid_snoc. left. exact (tt_kids _ _ T a c k b H Hk).
  - intros a b [H|(cs & -> & _)]%kid_snoc; [|contradiction]. rewrite M. exact (tt_kept _ _ T a b H).
Qed.
Lemma kids_eff_spec (ids : list string) (cs : list nat) (m : gmap string nat) : Forall (fun c => c < length ids) cs ->
  (forall k b, kids_eff ids cs m !! k = Some b -> m !! k = Some b \/ b ∈ cs)
  /\ (forall k, is_Some (m !! k) -> is_Some (kids_eff ids cs m !! k))
  /\ (forall b, b ∈ cs -> exists k, ids !! b = Some k /\ is_Some (kids_eff ids cs m !! k)).
Proof.
  intros F. assert (P : forall k, kids_eff ids cs m !! k = match last (filter (fun l => ids !! l = Some k) cs) with Some l => Some l | None => m !! k end)
    by (intros k; exact (puts_lookup ids m cs k F)). split_and!.
  - intros k b. rewrite P. destruct (last _) as [l|] eqn:E; [|intros H; left; exact H]. intros [= <-]. right.
    apply last_Some_elem_of in E. apply elem_of_list_filter in E as [_ E]. exact E.
  - intros k H. rewrite P. destruct (last _); [eauto|exact H].
  - intros b Hb. rewrite Forall_forall in F. pose proof (F b Hb) as Hl. apply lookup_lt_is_Some in Hl as [k Hk]. exists k. split; [exact Hk|].
    rewrite P. destruct (last _) as [l|] eqn:E; [eauto|]. apply last_None in E.
    assert (Z : b ∈ filter (fun l => ids !! l = Some k) cs) by (apply elem_of_list_filter; split; assumption). rewrite E in Z. apply elem_of_nil in Z. contradiction.
Qed.
Lemma tenants_step h x out ts : tenants_told h ts ->
  match x with
  | VTenantNamespace t _ _ | VTenantStatus t _ => t < length ts
  | VTenantScopes t n _ => out = WErr None -> exists c, ts !! t = Some c /\ is_Some (vt_namespaces c !! n)
  | VTenantChildren t cs => t < length ts /\ Forall (fun c => c < length ts) cs
  | _ => True
  end -> tenants_told (h ++ [(x, out)]) (tenants_then (vt_id <$> ts) x out ts).
Proof.
  intros T P. destruct x; try (apply told_idle; [exact T|exact I]).
  - apply told_new. exact T.
  - apply lookup_lt_is_Some in P as [c0 H0]. cbn [tenants_then]. unfold tenant_eff, on_tenant. cbn [fst snd].
    assert (N : forall k, vt_namespaces (vt_add_namespace c0 n is_default) !! k = if decide (k = n) then Some (default ∅ (vt_namespaces c0 !! n)) else vt_namespaces c0 !! k).
    { intros k. cbn. destruct (vt_namespaces c0 !! n) as [S|] eqn:E; cbn.
      - destruct (decide (k = n)) as [->|]; [exact E|reflexivity].
      - destruct (decide (k = n)) as [->|Z]; [apply lookup_insert|apply lookup_insert_ne; intros ->; apply Z; reflexivity]. }
    apply (told_alter h _ out ts t c0 _ T H0); try discriminate; try reflexivity.
    + intros t' Ht. split_and!; try discriminate; try reflexivity.
      * intros n' b [= -> _ _]. apply Ht. reflexivity.
      * cbn. destruct is_default; [|reflexivity]. rewrite decide_False by (intros ->; apply Ht; reflexivity). reflexivity.
    + intros k. rewrite N. destruct (decide (k = n)) as [->|Z].
      * split; [intros _; right; exists is_default; reflexivity|eauto].
      * split; [intros H; left; exact H|intros [H|[b [= -> _]]]; [exact H|destruct Z; reflexivity]].
    + intros k s. rewrite N. destruct (decide (k = n)) as [->|Z].
      * split; [|intros [(S & -> & Hs)|(ss & [=] & _)]; exists S; split; [reflexivity|exact Hs]]. intros (S & [= <-] & Hs). left.
        destruct (vt_namespaces c0 !! n) as [S|]; [exists S; split; [reflexivity|exact Hs]|]. apply elem_of_empty in Hs. contradiction.
      * split; [intros H; left; exact H|intros [H|(ss & [=] & _)]; exact H].
    + cbn. destruct is_default; [rewrite decide_True by reflexivity|]; reflexivity.
    + intros k b H. left. exact H.
    + intros k H. exact H.
  - cbn [tenants_then]. destruct out as [| |[e|]|]; try (apply told_idle; [exact T|discriminate]).
    destruct (P eq_refl) as (c0 & H0 & S0 & HS0). unfold tenant_eff, on_tenant. cbn [fst snd].
    assert (N : forall k, vt_namespaces (scopes_eff n ss c0) !! k = if decide (k = n) then Some (list_to_set ss ∪ S0) else vt_namespaces c0 !! k).
    { intros k. cbn. rewrite HS0. cbn. destruct (decide (k = n)) as [->|Z]; [apply lookup_insert|apply lookup_insert_ne; intros ->; apply Z; reflexivity]. }
    apply (told_alter h _ _ ts t c0 _ T H0); try discriminate; try reflexivity.
    + intros t' Ht. split_and!; try discriminate; try reflexivity. intros n' ss' [= -> _ _]. destruct Ht. reflexivity.
    + intros k. rewrite N. destruct (decide (k = n)) as [->|Z].
      * split; [intros _; left; rewrite HS0; eauto|eauto].
      * split; [intros H; left; exact H|intros [H|[b [=]]]; exact H].
    + intros k s. rewrite N. destruct (decide (k = n)) as [->|Z].
      * split.
        -- intros (S & [= <-] & [Hs%elem_of_list_to_set|Hs]%elem_of_union); [right; exists ss; split_and!; [reflexivity|reflexivity|exact Hs]|left; exists S0; split; assumption].
        -- intros [(S & HS & Hs)|(ss' & [= <-] & _ & Hs)]; exists (list_to_set ss ∪ S0); (split; [reflexivity|]); apply elem_of_union.
           ++ right. rewrite HS0 in HS. injection HS as <-. exact Hs.
           ++ left. apply elem_of_list_to_set. exact Hs.
      * split; [intros H; left; exact H|intros [H|(ss' & [= -> _] & _)]; [exact H|destruct Z; reflexivity]].
    + intros k b H. left. exact H.
    + intros k H. exact H.
  - destruct P as [P F]. apply lookup_lt_is_Some in P as [c0 H0]. cbn [tenants_then]. unfold tenant_eff, on_tenant. cbn [fst snd].
    destruct (kids_eff_spec (vt_id <$> ts) cs (vt_children c0)) as (K1 & K2 & K3); [rewrite fmap_length; exact F|].
    apply (told_alter h _ out ts t c0 _ T H0); try discriminate; try reflexivity.
    + intros t' Ht. split_and!; try discriminate; try reflexivity. intros cs' [= -> _]. apply Ht. reflexivity.
    + intros n. split; [intros H; left; exact H|intros [H|[b [=]]]; exact H].
    + intros n s. split; [intros H; left; exact H|intros [H|(ss & [=] & _)]; exact H].
    + intros k b H. apply K1 in H as [H|H]; [left; exact H|right; exists cs; split; [reflexivity|exact H]].
    + exact K2.
    + intros cs' b [= <-] Hb. exact (K3 b Hb).
  - apply lookup_lt_is_Some in P as [c0 H0]. cbn [tenants_then]. unfold tenant_eff, on_tenant. cbn [fst snd].
    apply (told_alter h _ out ts t c0 _ T H0); try discriminate; try reflexivity.
    + intros t' Ht. split_and!; try discriminate; try reflexivity. cbn. rewrite decide_False by (intros ->; apply Ht; reflexivity). reflexivity.
    + intros n. split; [intros H; left; exact H|intros [H|[b [=]]]; exact H].
    + intros n s'. split; [intros H; left; exact H|intros [H|(ss & [=] & _)]; exact H].
    + cbn. rewrite decide_True by reflexivity. reflexivity.
    + intros k b H. left. exact H.
    + intros k H. exact H.
Qed.

(** ** The rest *)
Definition reg_told (h : history) (m : gmap string nat) : Prop :=
  (forall id t, m !! id = Some t -> VAddTenant t ∈ h.*1)
  /\ (forall t, VAddTenant t ∈ h.*1 -> exists id, (tenants_made h).*1 !! t = Some id /\ is_Some (m !! id)).
Lemma reg_step h x out m : match x with VAddTenant t => t < length (tenants_made h) | _ => True end -> reg_told h m ->
  reg_told (h ++ [(x, out)]) (reg_eff (tenants_made h).*1 x m).
Proof.
  intros P [R1 R2].
  assert (I : (forall t, x <> VAddTenant t) -> reg_told (h ++ [(x, out)]) m).
  { intros X. split.
    - intros id t H. apply called_snoc. left. exact (R1 id t H).
    - intros t [H|<-]%called_snoc; [|destruct (X t); reflexivity]. destruct (R2 t H) as (id & Hi & Hm). exists id. split; [apply ids_kept; exact Hi|exact Hm]. }
  destruct x; try (apply I; discriminate). clear I. cbn [reg_eff]. rewrite <- (fmap_length fst) in P. apply lookup_lt_is_Some in P as [id Hid]. rewrite Hid. split.
  - intros id' t' H. apply called_snoc. apply lookup_insert_Some in H as [[_ <-]|[_ H]]; [right; reflexivity|left; exact (R1 _ _ H)].
  - intros t' [H|[= ->]]%called_snoc.
    + destruct (R2 t' H) as (id' & Hi & Hm). exists id'. split; [apply ids_kept; exact Hi|]. apply lookup_insert_is_Some'. right. exact Hm.
    + exists id. split; [apply ids_kept; exact Hid|]. rewrite lookup_insert. eauto.
Qed.
Definition default_told (h : history) (d : string) : Prop := d = default_tenant h.
Lemma default_step h x out d : default_told h d -> default_told (h ++ [(x, out)]) (default_eff x d).
Proof. unfold default_told, default_tenant. intros ->. rewrite latest_snoc. destruct x; reflexivity. Qed.
Definition prs_told (h : history) (prs : list prole) : Prop :=
  prs = imap (fun l pr => with_expiry pr (default (pr_expiry pr) (latest (expiry_said l) h))) (assignments_made h)
  /\ forall l, length prs <= l -> latest (expiry_said l) h = None.
Lemma prs_step h x out prs : match x with VSetExpiry _ l _ | VSetExpiryDuration _ l _ | VClearExpiry l => l < length prs | _ => True end -> prs_told h prs ->
  prs_told (h ++ [(x, out)]) (imap (fun l pr => expiry_then x l out pr) prs ++ match x with VNewPR pr => [pr] | _ => [] end).
Proof.
  intros P [E N]. assert (L : length prs = length (assignments_made h)) by (rewrite E, imap_length; reflexivity).
  assert (B : forall l, length prs <= l -> latest (expiry_said l) (h ++ [(x, out)]) = None).
  { intros l Hl. rewrite latest_snoc, (N l Hl). destruct x as [| | | | | | | | | | | | | | |now l' e|now l' a|l'| |]; try reflexivity; cbn.
    - destruct out as [| |[?|]|]; try reflexivity. rewrite decide_False by (intros ->; lia). reflexivity.
    - destruct a as [[d|]|d|]; rewrite ?decide_False by (intros ->; lia); reflexivity.
    - rewrite decide_False by (intros ->; lia). reflexivity. }
  split.
  - rewrite assignments_made_snoc, imap_app. f_equal.
    + rewrite E at 1. apply list_eq. intros l. rewrite !list_lookup_imap. destruct (assignments_made h !! l) as [pr|]; [|reflexivity]. cbn [fmap option_fmap option_map]. f_equal. unfold expiry_then. rewrite latest_snoc. destruct (expiry_said l x out) as [v|]; reflexivity.
    + destruct x; try reflexivity. cbn. rewrite Nat.add_0_r, <- L, (B (length prs)) by lia. cbn. rewrite with_own_expiry. reflexivity.
  - intros l Hl. apply B. rewrite app_length, imap_length in Hl. lia.
Qed.
(** The assignments: while no nil is left behind, the list holds exactly those in force. *)
Definition all_made (h : history) : Prop := forall ls, VAddPR ls ∈ h.*1 -> Forall (fun l => l < length (assignments_made h)) ls.
Lemma taken_grow made k c l : l < length made -> taken (made ++ k) c l <-> taken made c l.
Proof. intros H. unfold taken. rewrite lookup_app_l by exact H. reflexivity. Qed.
Lemma filter_same {A} (P Q : A -> Prop) `{forall x, Decision (P x)} `{forall x, Decision (Q x)} (l : list A) :
  (forall x, x ∈ l -> P x <-> Q x) -> filter P l = filter Q l.
Proof.
  induction l as [|x l IH]; intros E; [reflexivity|]. rewrite !filter_cons, IH by (intros y Hy; apply E; right; exact Hy).
  destruct (decide (P x)) as [H1|H1], (decide (Q x)) as [H2|H2]; try reflexivity; [destruct H2|destruct H1]; apply (E x); try assumption; left.
Qed.
Lemma filter_all {A} (P : A -> Prop) `{forall x, Decision (P x)} (l : list A) : (forall x, x ∈ l -> P x) -> filter P l = l.
Proof.
  induction l as [|x l IH]; intros E; [reflexivity|]. rewrite filter_cons, decide_True by (apply E; left). f_equal. apply IH. intros y Hy. apply E. right. exact Hy.
Qed.
Lemma filter_none {A} (P : A -> Prop) `{forall x, Decision (P x)} (l : list A) : (forall x, x ∈ l -> ~ P x) -> filter P l = [].
Proof.
  induction l as [|x l IH]; intros E; [reflexivity|]. rewrite filter_cons, decide_False by (apply E; left). apply IH. intros y Hy. apply E. right. exact Hy.
Qed.
Lemma held_of_snoc made h x r : held_of made (h ++ [(x, r)]) =
  match x with VAddPR new => held_of made h ++ new | VRemovePR c => filter (fun l => ~ taken made c l) (held_of made h) | _ => held_of made h end.
Proof. unfold held_of. rewrite fold_left_app. cbn [fold_left fst]. reflexivity. Qed.
Lemma held_of_bound n made h : (forall ls, VAddPR ls ∈ h.*1 -> Forall (fun l => l < n) ls) -> Forall (fun l => l < n) (held_of made h).
Proof.
  induction h as [|[x r] h IH] using rev_ind; intros B; [constructor|]. rewrite held_of_snoc.
  assert (H : Forall (fun l => l < n) (held_of made h)) by (apply IH; intros ls Hl; apply B, called_snoc; left; exact Hl).
  destruct x; try exact H.
  - apply Forall_app. split; [exact H|]. apply B, called_snoc. right. reflexivity.
  - apply Forall_forall. intros l [_ Hl]%elem_of_list_filter. rewrite Forall_forall in H. exact (H l Hl).
Qed.
Lemma held_of_grow made k h : (forall ls, VAddPR ls ∈ h.*1 -> Forall (fun l => l < length made) ls) -> held_of (made ++ k) h = held_of made h.
Proof.
  induction h as [|[x r] h IH] using rev_ind; intros B; [reflexivity|]. rewrite !held_of_snoc.
  assert (B' : forall ls, VAddPR ls ∈ h.*1 -> Forall (fun l => l < length made) ls) by (intros ls Hl; apply B, called_snoc; left; exact Hl).
  rewrite (IH B'). destruct x; try reflexivity. apply filter_same. intros l Hl.
  rewrite taken_grow; [reflexivity|]. pose proof (held_of_bound _ made h B') as F. rewrite Forall_forall in F. exact (F l Hl).
Qed.
Lemma held_snoc h x r : all_made h -> held (h ++ [(x, r)]) =
  match x with VAddPR new => held h ++ new | VRemovePR c => filter (fun l => ~ taken (assignments_made h) c l) (held h) | _ => held h end.
Proof.
  intros B. unfold held. rewrite held_of_snoc, assignments_made_snoc. destruct x; rewrite ?app_nil_r; try reflexivity. apply held_of_grow. exact B.
Qed.
Lemma held_bound h l : all_made h -> l ∈ held h -> l < length (assignments_made h).
Proof. intros B Hl. pose proof (held_of_bound _ (assignments_made h) h B) as F. rewrite Forall_forall in F. exact (F l Hl). Qed.
Lemma nil_left_snoc h x r : nil_left (h ++ [(x, r)]) <-> match x with VRemovePR c => out_of_order h c \/ nil_left h /\ ~ no_criteria c | _ => nil_left h end.
Proof.
  unfold nil_left at 1. split.
  - intros (h1 & c & r1 & h2 & E & O & N). destruct h2 as [|e h2 _] using rev_ind.
    + apply app_inj_tail in E as [-> [= -> ->]]. left. exact O.
    + change ((VRemovePR c, r1) :: h2 ++ [e]) with (((VRemovePR c, r1) :: h2) ++ [e]) in E. rewrite app_assoc in E. apply app_inj_tail in E as [-> <-].
      assert (L : nil_left (h1 ++ (VRemovePR c, r1) :: h2)).
      { exists h1, c, r1, h2. split_and!; [reflexivity|exact O|]. intros c' r' H. apply (N c' r'), elem_of_app. left. exact H. }
      destruct x; try exact L. right. split; [exact L|]. apply (N _ r), elem_of_app. right. apply elem_of_list_singleton. reflexivity.
  - intros H. assert (G : nil_left h /\ match x with VRemovePR c => ~ no_criteria c | _ => True end \/ exists c, x = VRemovePR c /\ out_of_order h c).
    { destruct x; try (left; split; [exact H|exact I]). destruct H as [H|H]; [right; exists target; split; [reflexivity|exact H]|left; exact H]. }
    clear H. destruct G as [[(h1 & c & r1 & h2 & -> & O & N) X]|(c & -> & O)].
    + exists h1, c, r1, (h2 ++ [(x, r)]). split_and!; [rewrite <- app_assoc; reflexivity|exact O|].
      intros c' r' [H|H]%elem_of_app; [exact (N c' r' H)|]. apply elem_of_list_singleton in H as [= <- _]. exact X.
    + exists h, c, r, []. split_and!; [reflexivity|exact O|]. intros c' r' H. destruct (not_elem_of_nil _ H).
Qed.
Lemma no_criteria_blank c : blank c = true <-> no_criteria c.
Proof. unfold blank, no_criteria. rewrite !andb_true_iff, !bool_decide_eq_true. tauto. Qed.
Lemma no_criteria_meets c pr : no_criteria c -> meets c pr.
Proof. intros (H1 & H2 & H3 & H4 & H5). unfold meets. tauto. Qed.
Definition assign_told (h : history) (ps : list (option nat)) : Prop :=
  all_made h /\ (nil_left h /\ None ∈ ps \/ ~ nil_left h /\ ps = Some <$> held h).
Lemma all_made_step h x out : match x with VAddPR ls => Forall (fun l => l < length (assignments_made h)) ls | _ => True end -> all_made h -> all_made (h ++ [(x, out)]).
Proof.
  intros P B ls H. rewrite assignments_made_snoc, app_length. apply Forall_forall. intros l Hl. apply Nat.lt_le_trans with (length (assignments_made h)); [|apply Nat.le_add_r].
  apply called_snoc in H as [H|<-].
  - pose proof (B ls H) as F. rewrite Forall_forall in F. exact (F l Hl).
  - rewrite Forall_forall in P. exact (P l Hl).
Qed.
Lemma assign_step h x out ps : match x with VRemovePR _ => False | VAddPR ls => Forall (fun l => l < length (assignments_made h)) ls | _ => True end ->
  assign_told h ps -> assign_told (h ++ [(x, out)]) (ps ++ rows_given x).
Proof.
  intros P [B T]. split; [apply all_made_step; [destruct x; try exact I; exact P|exact B]|]. rewrite nil_left_snoc, (held_snoc _ _ _ B).
  destruct T as [[N H]|[N ->]].
  - left. split; [|apply elem_of_app; left; exact H]. destruct x; try exact N. contradiction.
  - right. split; [destruct x; try exact N; contradiction|]. destruct x; try contradiction; cbn [rows_given]; rewrite ?app_nil_r; try reflexivity. rewrite fmap_app. reflexivity.
Qed.
Lemma meets_expiry c pr e : meets c (with_expiry pr e) <-> meets c pr.
Proof. reflexivity. Qed.
Lemma taken_told h st c l : prs_told h (w_prs st) -> obj_meets st c l <-> taken (assignments_made h) c l.
Proof.
  intros [E _]. unfold obj_meets, taken. rewrite E, list_lookup_imap. destruct (assignments_made h !! l) as [pr0|]; cbn.
  - split; intros (pr & [= <-] & M); eexists; (split; [reflexivity|exact M]).
  - split; intros (pr & [=] & _).
Qed.
Lemma remains_filter st c made ls : (forall l, obj_meets st c l <-> taken made c l) -> remains st c ls (filter (fun l => ~ taken made c l) ls).
Proof.
  intros E. induction ls as [|l ls IH]; [constructor|]. rewrite filter_cons. destruct (decide (~ taken made c l)) as [N|N].
  - apply remains_keep; [rewrite E; exact N|exact IH].
  - apply remains_drop; [|exact IH]. apply E. destruct (decide (taken made c l)) as [Y|Y]; [exact Y|destruct (N Y)].
Qed.
Lemma order_dec {A} (P : A -> Prop) `{forall x, Decision (P x)} (l : list A) :
  (exists i j a b, i < j /\ l !! i = Some a /\ l !! j = Some b /\ P a /\ ~ P b) \/ (forall i j a b, i < j -> l !! i = Some a -> l !! j = Some b -> P a -> P b).
Proof.
  induction l as [|x l [(i & j & a & b & L & Hi & Hj & Pa & Pb)|IH]].
  - right. intros i j a b _ Hi. discriminate.
  - left. exists (S i), (S j), a, b. split_and!; [apply -> Nat.succ_lt_mono; exact L|exact Hi|exact Hj|exact Pa|exact Pb].
  - destruct (decide (P x)) as [Px|Nx].
    + destruct (decide (Exists (fun y => ~ P y) l)) as [E|E].
      * left. apply Exists_exists in E as (y & Hy & Ny). apply elem_of_list_lookup in Hy as [j Hj]. exists 0, (S j), x, y. split_and!; [apply Nat.lt_0_succ|reflexivity|exact Hj|exact Px|exact Ny].
      * right. intros i j a b L Hi Hj Pa. destruct j as [|j]; [inversion L|]. cbn in Hj. destruct (decide (P b)) as [Y|Y]; [exact Y|]. destruct E. apply Exists_exists.
        exists b. split; [exact (elem_of_list_lookup_2 _ _ _ Hj)|exact Y].
    + right. intros i j a b L Hi Hj Pa. destruct i as [|i]; [injection Hi as <-; destruct (Nx Pa)|]. destruct j as [|j]; [inversion L|].
      apply (IH i j a b); [apply Nat.succ_lt_mono; exact L|exact Hi|exact Hj|exact Pa].
Qed.
Lemma remove_step h st c st' e out : v2_wf st -> prs_told h (w_prs st) -> v2_remove_principal_role st c = Ok (st', e) ->
  assign_told h (w_assign st) -> assign_told (h ++ [(VRemovePR c, out)]) (w_assign st').
Proof.
  intros W P H [B T]. split; [apply all_made_step; [exact I|exact B]|]. rewrite nil_left_snoc, (held_snoc _ _ _ B).
  pose proof (fun l => taken_told h st c l P) as E.
  destruct T as [[N Hn]|[N Ha]].
  - pose proof (remove_broken st c Hn) as R. destruct (blank c) eqn:Hb; [|rewrite H in R; discriminate].
    apply no_criteria_blank in Hb. destruct R as (st1 & R & L & _). rewrite H in R. injection R as <- _. right. split.
    + intros [(i & j & a & b & _ & _ & Hj & _ & M)|[_ M]]; [|exact (M Hb)]. apply M.
      apply elem_of_list_lookup_2, (held_bound _ _ B), lookup_lt_is_Some in Hj as [pr Hj]. exists pr. split; [exact Hj|apply no_criteria_meets; exact Hb].
    + unfold list_is in L. rewrite L. rewrite filter_none; [reflexivity|]. intros l Hl M. apply M.
      apply (held_bound _ _ B), lookup_lt_is_Some in Hl as [pr Hl]. exists pr. split; [exact Hl|apply no_criteria_meets; exact Hb].
  - pose proof (remains_filter st c _ (held h) E) as R. destruct (remove_exact st c _ _ W Ha R) as (st1 & e1 & H1 & C).
    rewrite H in H1. injection H1 as <- <-. destruct C as [(M & _ & ->)|(M & -> & _)].
    + right. split.
      * intros [(i & j & a & b & _ & Hi & _ & Ta & _)|[L _]]; [|exact (N L)]. apply (M a); [exact (elem_of_list_lookup_2 _ _ _ Hi)|apply E; exact Ta].
      * rewrite Ha, filter_all; [reflexivity|]. intros l Hl Tl. apply (M l Hl), E. exact Tl.
    + destruct (remove_success st c st' _ _ W Ha R H) as [G1 G2]. destruct (go_last_dec st c (held h)) as [G|G].
      * right. split; [|exact (G1 G)]. intros [(i & j & a & b & L & Hi & Hj & Ta & Tb)|[L _]]; [|exact (N L)]. apply Tb, E, (G i j a b L Hi Hj), E. exact Ta.
      * left. split; [|exact (G2 G)]. left. destruct (order_dec (taken (assignments_made h) c) (held h)) as [O|O]; [exact O|]. destruct G. intros i j a b L Hi Hj Ta. apply E, (O i j a b L Hi Hj), E. exact Ta.
Qed.

Record told (h : history) (st : vstate) : Prop := {
  to_perms : perms_told h (w_roles st);
  to_rnames : vr_name <$> w_roles st = roles_made h;
  to_under : names_told h (d_roles (w_dag st));
  to_children : children_told h (d_edges (w_dag st));
  to_tenants : tenants_told h (w_tenants st);
  to_reg : reg_told h (w_reg st);
  to_default : default_told h (w_default st);
  to_prs : prs_told h (w_prs st);
  to_assign : assign_told h (w_assign st)
}.
Lemma told_init : told [] v2_init.
Proof.
  split.
  - intros l p. split; [discriminate|]. intros (r & H & _). discriminate.
  - reflexivity.
  - split; [constructor|]. intros n. cbn. apply lookup_empty.
  - intros a b. unfold edges_of. cbn. rewrite lookup_empty. cbn. split; [intros H; apply elem_of_nil in H; contradiction|intros (cs & H & _); apply elem_of_nil in H; contradiction].
  - split.
    + reflexivity.
    + intros t n. split; [intros [[id H]|[b H]]; [discriminate|apply elem_of_nil in H; contradiction]|intros (c & H & _); discriminate].
    + intros t n s. split; [intros (ss & H & _); apply elem_of_nil in H; contradiction|intros (c & S & H & _); discriminate].
    + intros t c H. discriminate.
    + intros t c H. discriminate.
    + intros t _. split; reflexivity.
    + intros a c k b H. discriminate.
    + intros a b (cs & H & _). apply elem_of_nil in H. contradiction.
  - split; [intros id t H; cbn in H; rewrite lookup_empty in H; discriminate|intros t H; apply elem_of_nil in H; contradiction].
  - reflexivity.
  - split; [reflexivity|intros l _; reflexivity].
  - split; [intros ls H; destruct (not_elem_of_nil _ H)|right]. split; [|reflexivity]. intros (h1 & c & r & h2 & E & _). destruct h1; discriminate.
Qed.
Lemma scopes_need o st t n ss st' : vstep o st (VTenantScopes t n ss) = Ok (st', WErr None) -> exists c, w_tenants st !! t = Some c /\ is_Some (vt_namespaces c !! n).
Proof.
  cbn [vstep]. destruct (w_tenants st !! t) as [c|]; [|discriminate]. unfold vt_add_scopes. destruct (vt_namespaces c !! n) as [S|] eqn:E; [|discriminate].
  intros _. exists c. split; [reflexivity|]. rewrite E. eauto.
Qed.
Lemma told_step o h st x st' out : v2_wf st -> vstep o st x = Ok (st', out) -> told h st -> told (h ++ [(x, out)]) st'.
Proof.
  intros W H [T1 T2 T3 T4 T5 T6 T7 T8 T9]. destruct (step_then o st x st' out W H) as [E1 E2 E3 E4 E5 E6 E7 E8].
  assert (P : sets_up x -> points_in st x) by (intros U; apply (step_returns o st x W U); exists st', out; exact H).
  pose proof (told_length _ _ T5) as L.
  split.
  - rewrite E1. apply perms_step; [|exact T1]. destruct x; try exact I; exact (P I).
  - rewrite E1. apply names_step. exact T2.
  - rewrite E4, T2. apply under_step; [|exact T3]. destruct x; try exact I. rewrite <- T2, fmap_length. exact (P I).
  - exact (children_step _ _ _ _ _ E5 T4).
  - rewrite E2. apply tenants_step; [exact T5|]. destruct x; try exact I; try exact (P I). intros ->. exact (scopes_need _ _ _ _ _ _ H).
  - rewrite E7, (tt_ids _ _ T5). apply reg_step; [|exact T6]. destruct x; try exact I. rewrite L. exact (P I).
  - rewrite E8. apply default_step. exact T7.
  - rewrite E3. apply prs_step; [|exact T8]. destruct x; try exact I; cbn [vstep] in H;
      apply rbind_inv in H as ([s1 e'] & (pr0 & Hpr & _)%upd_pr_inv & _); exact (lookup_lt_Some _ _ _ Hpr).
  - assert (LP : length (w_prs st) = length (assignments_made h)) by (rewrite (proj1 T8), imap_length; reflexivity).
    destruct x; try (rewrite E6; apply assign_step; [try exact I|exact T9]).
    + rewrite <- LP. exact (P I).
    + cbn [vstep] in H. apply rbind_inv in H as ([s1 e] & Hr & [= <- <-]). exact (remove_step _ _ _ _ _ _ W T8 Hr T9).
Qed.
Lemma told_run o i h st ops st' outs : v2_wf st -> vrun o i st ops = Ok (st', outs) -> told h st -> told (h ++ zip ops outs) st'.
Proof.
  revert i h st outs. induction ops as [|x ops IH]; intros i h st outs W H T; cbn [vrun] in H.
  - injection H as <- <-. cbn. rewrite app_nil_r. exact T.
  - apply rbind_inv in H as ([st1 o1] & H1 & H). apply rbind_inv in H as ([st2 o2] & H2 & [= <- <-]). cbn [fst snd] in *.
    cbn. change ((x, o1) :: zip ops o2) with ([(x, o1)] ++ zip ops o2). rewrite app_assoc.
    apply (IH (S i) _ st1 o2 (vstep_wf _ _ _ _ _ W H1) H2). exact (told_step _ _ _ _ _ _ W H1 T).
Qed.

(** ** Decisions *)
Lemma told_forget h st : told h st -> told h (forget st).
Proof. intros [T1 T2 T3 T4 T5 T6 T7 T8 T9]. split; assumption. Qed.
Lemma own_distinct h st : told h st -> own_ids h -> distinct_ids st.
Proof.
  intros T N a b ta tb Ha Hb E. unfold own_ids in N. rewrite <- (tt_ids _ _ (to_tenants _ _ T)) in N.
  apply (NoDup_lookup _ _ _ (vt_id ta) N); rewrite list_lookup_fmap; unfold tenant_at in *; [rewrite Ha|rewrite Hb, E]; reflexivity.
Qed.
Lemma rtc_impl {A} (R S : A -> A -> Prop) a b : (forall x y, R x y -> S x y) -> rtc R a b -> rtc S a b.
Proof. intros H. induction 1 as [|x y z H1 H2 IH]; [constructor|exact (rtc_l _ _ _ _ (H _ _ H1) IH)]. Qed.
Lemma rtc_same {A} (R S : A -> A -> Prop) a b : (forall x y, R x y <-> S x y) -> rtc R a b <-> rtc S a b.
Proof. intros H. split; apply rtc_impl; intros x y; apply H. Qed.

Section decide.
  Context (h : history) (st : vstate).
  Hypotheses (T : told h st) (W : v2_wf st) (D : distinct_ids st) (B : ~ nil_left h) (R : forall r, d_resolved (w_dag st) !! r = None).

  Lemma under_named n l : role_under h n = Some l -> roles_made h !! l = Some n.
  Proof. intros H. unfold role_under in H. apply last_Some_elem_of, elem_of_list_filter in H as [H _]. exact H. Qed.
  Lemma registered_told n r : registered (w_roles st) (w_dag st) n r <-> exists l, role_under h n = Some l /\ w_roles st !! l = Some r.
  Proof. unfold registered. split; intros (l & H1 & H2); exists l; (split; [|exact H2]); [rewrite <- (proj2 (to_under _ _ T) n)|rewrite (proj2 (to_under _ _ T) n)]; exact H1. Qed.
  Lemma registered_some n : (exists r, registered (w_roles st) (w_dag st) n r) <-> is_Some (role_under h n).
  Proof.
    split.
    - intros [r (l & H & _)%registered_told]. exists l. exact H.
    - intros [l H]. pose proof H as H0. rewrite <- (proj2 (to_under _ _ T) n) in H. destruct (wf_dag _ W n l H) as [r Hr]. exists r. apply registered_told. exists l. split; assumption.
  Qed.
  Lemma below_told a b : below (w_roles st) (w_dag st) a b <-> role_above h a b.
  Proof.
    unfold below, role_above. rewrite registered_some, <- (to_children _ _ T a b : _ <-> _). unfold child, edges_of.
    split; intros [H1 H2]; (split; [exact H1|]).
    - destruct H2 as (cs & -> & Hb). exact Hb.
    - destruct (d_edges (w_dag st) !! a) as [cs|]; [exists cs; split; [reflexivity|exact H2]|]. apply elem_of_nil in H2. contradiction.
  Qed.
  Lemma role_perm_told r p : role_perm st r p <-> role_yields h r p.
  Proof.
    unfold role_perm, role_yields, confers. rewrite R. split.
    - intros (n & ro & H1 & (l & H2 & Hl)%registered_told & Hp). exists n, l. split_and!; [apply (rtc_same _ _ _ _ below_told); exact H1|exact H2|].
      apply (to_perms _ _ T). exists ro. split; assumption.
    - intros (n & l & H1 & H2 & (ro & Hl & Hp)%(to_perms _ _ T)). exists n, ro. split_and!; [apply (rtc_same _ _ _ _ below_told); exact H1| |exact Hp].
      apply registered_told. exists l. split; assumption.
  Qed.
  Lemma role_name_told r x : role_name st r x <-> role_covers h r x.
  Proof.
    unfold role_name, role_covers, includes. rewrite R. split.
    - intros (n & ro & H1 & (l & H2 & Hl)%registered_told & ->). assert (E : vr_name ro = n).
      { pose proof (under_named _ _ H2) as E. rewrite <- (to_rnames _ _ T), list_lookup_fmap, Hl in E. injection E as E. exact E. }
      rewrite E. split; [apply (rtc_same _ _ _ _ below_told); exact H1|exists l; exact H2].
    - intros [H1 [l H2]]. pose proof (under_named _ _ H2) as E. rewrite <- (to_rnames _ _ T), list_lookup_fmap in E. apply fmap_Some in E as (ro & Hl & E).
      exists x, ro. split_and!; [apply (rtc_same _ _ _ _ below_told); exact H1|apply registered_told; exists l; split; assumption|exact E].
  Qed.

  Lemma tenant_id_told t id : tenant_id h t id <-> exists c, tenant_at st t c /\ id = vt_id c.
  Proof.
    unfold tenant_id, tenant_at. pose proof (tt_ids _ _ (to_tenants _ _ T)) as E. apply (f_equal (fun l => l !! t)) in E. rewrite !list_lookup_fmap in E. split.
    - intros [d H]. rewrite H in E. cbn in E. apply fmap_Some in E as (c & Hc & ->). exists c. split; [exact Hc|reflexivity].
    - intros (c & Hc & ->). rewrite Hc in E. cbn in E. symmetry in E. apply fmap_Some in E as ([id' d] & Hm & Ei). cbn in Ei. exists d. rewrite Hm, Ei. reflexivity.
  Qed.
  Lemma under_told id t : w_reg st !! id = Some t <-> tenant_under h id t.
  Proof.
    destruct (to_reg _ _ T) as [R1 R2]. unfold tenant_under. rewrite tenant_id_told. split.
    - intros H. destruct (wf_reg _ W id t H) as (c & Hc & <-). split; [exists c; split; [exact Hc|reflexivity]|exact (R1 _ _ H)].
    - intros [(c & Hc & ->) H]. destruct (R2 t H) as (id & Hi & [t' Ht']). rewrite <- (tt_ids _ _ (to_tenants _ _ T)), list_lookup_fmap in Hi. unfold tenant_at in Hc. rewrite Hc in Hi. injection Hi as <-.
      destruct (wf_reg _ W _ _ Ht') as (c' & Hc' & E). rewrite (D _ _ _ _ Hc' Hc E) in Ht'. exact Ht'.
  Qed.
  Lemma kid_told a b : child_tenant st a b <-> is_child h a b.
  Proof.
    unfold child_tenant. split.
    - intros (c & k & Hc & Hk). exact (tt_kids _ _ (to_tenants _ _ T) a c k b Hc Hk).
    - intros H. destruct (tt_kept _ _ (to_tenants _ _ T) a b H) as (c & k & Hc & Hb & [b' Hk]). exists c, k. split; [exact Hc|].
      destruct (wf_kids _ W _ _ _ _ Hc Hk) as (cb & Hcb & Ek). rewrite <- (tt_ids _ _ (to_tenants _ _ T)), list_lookup_fmap in Hb. apply fmap_Some in Hb as (cb' & Hcb' & Eb).
      rewrite (D _ _ _ _ Hcb Hcb' (eq_trans Ek Eb)) in Hk. exact Hk.
  Qed.
  Lemma assigned_told pr : assigned st pr <-> assigned_now h pr.
  Proof.
    destruct (to_prs _ _ T) as [E _]. destruct (to_assign _ _ T) as [_ [[N _]|[_ L]]]; [destruct (B N)|]. unfold assigned, assigned_now. rewrite L. split.
    - intros (l & (l' & [= <-] & H)%elem_of_list_fmap & Hp). rewrite E, list_lookup_imap in Hp. apply fmap_Some in Hp as (pr0 & H0 & ->).
      exists l, pr0. split_and!; [exact H|exact H0|reflexivity].
    - intros (l & pr0 & H & H0 & ->). exists l. split; [apply elem_of_list_fmap; exists l; split; [reflexivity|exact H]|]. rewrite E, list_lookup_imap, H0. reflexivity.
  Qed.
  Lemma about_told q t : target st q t <-> about h q t.
  Proof.
    unfold target, about, names, nameless. pose proof (to_default _ _ T) as E. unfold default_told in E. rewrite E. split.
    - intros [(name & [Hn Hq] & Hr)|[[H1 H2] (pr & c & Ha & Hp & Ht & Hr & Hc & Hs)]].
      + left. exists name. split_and!; [exact Hn|exact Hq|apply under_told; exact Hr].
      + right. split_and!; [exact H1|exact H2|]. exists pr. split_and!; [apply assigned_told; exact Ha|exact Hp|exact Ht|apply under_told; exact Hr|].
        rewrite <- (tt_status _ _ (to_tenants _ _ T) t c Hc). exact Hs.
    - intros [(name & Hn & Hq & Hr)|(H1 & H2 & pr & Ha & Hp & Ht & Hr & Hs)].
      + left. exists name. split; [split; assumption|apply under_told; exact Hr].
      + right. split; [split; assumption|]. apply under_told in Hr. destruct (wf_reg _ W _ _ Hr) as (c & Hc & _). exists pr, c.
        split_and!; [apply assigned_told; exact Ha|exact Hp|exact Ht|exact Hr|exact Hc|]. rewrite (tt_status _ _ (to_tenants _ _ T) t c Hc). exact Hs.
  Qed.
  Lemma namespace_told t c q n : tenant_at st t c -> uses_namespace c q n <-> in_namespace h t q n.
  Proof.
    intros Hc. unfold uses_namespace, in_namespace. rewrite <- (tt_default _ _ (to_tenants _ _ T) t c Hc).
    assert (N : forall k, has_namespace h t k <-> is_Some (vt_namespaces c !! k)).
    { intros k. rewrite (tt_ns _ _ (to_tenants _ _ T)). split; [intros (c' & H & Hk); unfold tenant_at in Hc; rewrite Hc in H; injection H as <-; exact Hk|intros Hk; exists c; split; assumption]. }
    assert (S : forall k s, has_scope h t k s <-> exists S, vt_namespaces c !! k = Some S /\ s ∈ S).
    { intros k s. rewrite (tt_scopes _ _ (to_tenants _ _ T)). split.
      - intros (c' & S & H & Hk & Hs). unfold tenant_at in Hc. rewrite Hc in H. injection H as <-. exists S. split; assumption.
      - intros (S & Hk & Hs). exists c, S. split_and!; assumption. }
    assert (O : dom (vt_namespaces c) = {[n]} <-> forall n', has_namespace h t n' <-> n' = n).
    { rewrite set_eq. split; intros H k; specialize (H k); rewrite elem_of_dom, elem_of_singleton in *; rewrite N in *; exact H. }
    rewrite O, N, S. split.
    - intros [H1 (ss & Hn & Hs)]. split; [exact H1|]. split; [exists ss; exact Hn|]. destruct Hs as [Hs|Hs]; [left; exact Hs|right; exists ss; split; assumption].
    - intros [H1 [[ss Hn] Hs]]. split; [exact H1|]. exists ss. split; [exact Hn|]. destruct Hs as [Hs|(S' & E & Hs)]; [left; exact Hs|right]. rewrite Hn in E. injection E as <-. exact Hs.
  Qed.
  Lemma manages_told u a b : manages st u a b <-> manages_below h u a b.
  Proof.
    unfold manages, manages_below. rewrite kid_told. split; intros [Hk H]; (split; [exact Hk|]).
    - destruct H as (c & pr & Hc & Ha & Hp & Ht & Hm). exists (vt_id c), pr. split_and!; [apply tenant_id_told; exists c; split; [exact Hc|reflexivity]|apply assigned_told; exact Ha|exact Hp|exact Ht|exact Hm].
    - destruct H as (id & pr & (c & Hc & ->)%tenant_id_told & Ha%assigned_told & Hp & Ht & Hm). exists c, pr. split_and!; assumption.
  Qed.
  Lemma counts_told now u t n pr : counts st now u t n pr <-> in_force h now u t n pr.
  Proof.
    unfold counts, in_force. rewrite assigned_told.
    assert (E : (exists t' c, rtc (manages st u) t t' /\ tenant_at st t' c /\ pr_tenant pr = vt_id c) <-> exists t', rtc (manages_below h u) t t' /\ tenant_id h t' (pr_tenant pr)).
    { split.
      - intros (t' & c & H & Hc & E). exists t'. split; [apply (rtc_same _ _ _ _ (manages_told u)); exact H|apply tenant_id_told; exists c; split; assumption].
      - intros (t' & H & (c & Hc & E)%tenant_id_told). exists t', c. split_and!; [apply (rtc_same _ _ _ _ (manages_told u)); exact H|exact Hc|exact E]. }
    rewrite E. reflexivity.
  Qed.
  Lemma scope_perm_told now u t n s p : scoped_perm st now u t n s p <-> scope_perm h now u t n s p.
  Proof.
    unfold scoped_perm, scope_perm. split; intros (pr & Hc & Hs & Hp); exists pr; (split; [apply counts_told; exact Hc|split; [exact Hs|apply role_perm_told; exact Hp]]).
  Qed.
  Lemma effective_told now u t n s p : effective st now u t n s p <-> scope_perm h now u t n s p \/ general_perm h now u t n p /\ forall p', ~ scope_perm h now u t n s p'.
  Proof.
    unfold effective. rewrite scope_perm_told. split.
    - intros [H|[(pr & Hc & _ & Hs & Hp) N]]; [left; exact H|right]. split.
      + exists pr. split_and!; [apply counts_told; exact Hc|exact Hs|apply role_perm_told; exact Hp].
      + intros p' H. apply (N p'), scope_perm_told. exact H.
    - intros [H|[(pr & Hc & Hs & Hp) N]]; [left; exact H|right]. split.
      + exists pr. split_and!; [apply counts_told; exact Hc| |exact Hs|apply role_perm_told; exact Hp].
        intros E. apply (N p). exists pr. split_and!; assumption.
      + intros p' H. apply (N p'), scope_perm_told. exact H.
  Qed.
  Lemma about_there q t : about h q t -> exists c, tenant_at st t c.
  Proof.
    intros H. assert (G : exists id, tenant_under h id t).
    { destruct H as [(id & _ & _ & H)|(_ & _ & pr & _ & _ & _ & H & _)]; [exists id|exists (pr_tenant pr)]; exact H. }
    destruct G as [id [(c & Hc & _)%tenant_id_told _]]. exists c. exact Hc.
  Qed.
  Lemma allowed_told now q : v2_allowed st now q <-> granted h now q.
  Proof.
    unfold v2_allowed, granted. split.
    - intros (t & c & n & p & Ht & Hc & Hn & He & Hm). exists t, n, p. split_and!; [apply about_told; exact Ht|apply (namespace_told t c q n Hc); exact Hn|exact Hm|apply effective_told; exact He].
    - intros (t & n & p & Ht & Hn & Hm & He). destruct (about_there _ _ Ht) as [c Hc]. exists t, c, n, p.
      split_and!; [apply about_told; exact Ht|exact Hc|apply (namespace_told t c q n Hc); exact Hn|apply effective_told; exact He|exact Hm].
  Qed.
  Lemma can_allowed_told now q roles : v2_can_allowed st now q roles <-> holds h now q roles.
  Proof.
    unfold v2_can_allowed, holds, holds_role. split.
    - intros (t & c & n & x & Ht & Hc & Hn & (pr & Hp & Hr & Hx) & Hi). exists t, n, pr, x.
      split_and!; [apply about_told; exact Ht|apply (namespace_told t c q n Hc); exact Hn|apply counts_told; exact Hp|exact Hr| |exact Hi].
      destruct Hx as [Hx|Hx]; [left; exact Hx|right; apply role_name_told; exact Hx].
    - intros (t & n & pr & x & Ht & Hn & Hp & Hr & Hx & Hi). destruct (about_there _ _ Ht) as [c Hc]. exists t, c, n, x.
      split_and!; [apply about_told; exact Ht|exact Hc|apply (namespace_told t c q n Hc); exact Hn| |exact Hi].
      exists pr. split_and!; [apply counts_told; exact Hp|exact Hr|]. destruct Hx as [Hx|Hx]; [left; exact Hx|right; apply role_name_told; exact Hx].
  Qed.
End decide.

(** ** A nil left behind *)
Lemma nil_dec h st : told h st -> nil_left h /\ broken st \/ ~ nil_left h /\ ~ broken st.
Proof.
  intros T. destruct (to_assign _ _ T) as [_ [[N H]|[N L]]]; [left; split; assumption|right]. split; [exact N|]. unfold broken. rewrite L.
  intros (l & [=] & _)%elem_of_list_fmap.
Qed.
Definition state_looks (st : vstate) (q : request) : Prop :=
  nameless st q \/ exists name t c n, names st q name /\ w_reg st !! name = Some t /\ tenant_at st t c /\ uses_namespace c q n.
Lemma looks_told h st now q : told h st -> v2_wf st -> distinct_ids st -> state_looks st q <-> looks_through h (VAuthorize now q).
Proof.
  intros T W D. unfold state_looks, looks_through, nameless, names. pose proof (to_default _ _ T) as E. unfold default_told in E. rewrite E. split.
  - intros [H|(id & t & c & n & [H1 H2] & Hr & Hc & Hn)]; [left; exact H|right]. exists id, t, n.
    split_and!; [exact H1|exact H2|apply (under_told _ _ T W D); exact Hr|apply (namespace_told _ _ T t c q n Hc); exact Hn].
  - intros [H|(id & t & n & H1 & H2 & Hr & Hn)]; [left; exact H|right]. destruct (proj1 (tenant_id_told _ _ T t id) (proj1 Hr)) as (c & Hc & _). exists id, t, c, n.
    split_and!; [exact H1|exact H2|apply (under_told _ _ T W D); exact Hr|exact Hc|apply (namespace_told _ _ T t c q n Hc); exact Hn].
Qed.
Lemma target_looks st q t c n : target st q t -> tenant_at st t c -> uses_namespace c q n -> state_looks st q.
Proof. intros [(id & N & H)|[N _]] Hc Hn; [right; exists id, t, c, n; split_and!; assumption|left; exact N]. Qed.
Lemma about_looks h now q t n : about h q t -> in_namespace h t q n -> looks_through h (VAuthorize now q).
Proof.
  intros [(id & N & Q & H)|(H1 & H2 & _)] Hn; [right; exists id, t, n; split_and!; assumption|left; split; assumption].
Qed.

Lemma calls_decide o ops1 ops2 st outs o' now q st' b : vrun o 0 v2_init (ops1 ++ ops2) = Ok (st, outs) ->
  Forall (fun x => ~ decides x) ops1 -> Forall (fun x => ~ changes_roles x /\ ~ is_can x) ops2 -> own_ids (zip (ops1 ++ ops2) outs) ->
  v2_authorize o' st now q = Ok (st', b) -> b = true <-> granted (zip (ops1 ++ ops2) outs) now q.
Proof.
  intros H N1 N2 I A. pose proof (told_run _ _ _ _ _ _ _ init_wf H told_init : told (zip (ops1 ++ ops2) outs) st) as T.
  assert (V : vreachable st) by (exists o, (ops1 ++ ops2), outs; exact H).
  pose proof (own_distinct _ _ T I) as D. rewrite (c30_setup _ _ _ _ _ _ _ _ _ _ H N1 N2 D A). destruct (nil_dec _ _ T) as [[_ B]|[B _]].
  { assert (L : ~ state_looks st q) by (intros L; apply (proj2 (proj1 (c40_exact o' st now q [] V B))) in L; rewrite A in L; discriminate). split.
    - intros (t & c & n & p & Ht & Hc & Hn & _). destruct L. exact (target_looks st q t c n Ht Hc Hn).
    - intros (t & n & p & Ht & Hn & _). destruct L. apply (looks_told _ _ now q T (vreachable_wf _ V) D). exact (about_looks _ _ _ _ _ Ht Hn). }
  apply (allowed_told _ _ (told_forget _ _ T)).
  - apply forget_wf, vreachable_wf. exact V.
  - exact D.
  - exact B.
  - intros r. apply lookup_empty.
Qed.
Lemma calls_decide_can o ops1 ops2 st outs o' now q roles st' b : vrun o 0 v2_init (ops1 ++ ops2) = Ok (st, outs) ->
  Forall (fun x => ~ decides x) ops1 -> Forall (fun x => ~ changes_roles x /\ ~ is_authorize x) ops2 -> own_ids (zip (ops1 ++ ops2) outs) ->
  v2_can o' st now q roles = Ok (st', b) -> b = true <-> holds (zip (ops1 ++ ops2) outs) now q roles.
Proof.
  intros H N1 N2 I A. pose proof (told_run _ _ _ _ _ _ _ init_wf H told_init : told (zip (ops1 ++ ops2) outs) st) as T.
  assert (V : vreachable st) by (exists o, (ops1 ++ ops2), outs; exact H).
  pose proof (own_distinct _ _ T I) as D. rewrite (c30_can_setup _ _ _ _ _ _ _ _ _ _ _ H N1 N2 D A). destruct (nil_dec _ _ T) as [[_ B]|[B _]].
  { assert (L : ~ state_looks st q) by (intros L; apply (proj2 (proj2 (c40_exact o' st now q roles V B))) in L; rewrite A in L; discriminate). split.
    - intros (t & c & n & x & Ht & Hc & Hn & _). destruct L. exact (target_looks st q t c n Ht Hc Hn).
    - intros (t & n & pr & x & Ht & Hn & _). destruct L. apply (looks_told _ _ now q T (vreachable_wf _ V) D). exact (about_looks _ _ _ _ _ Ht Hn). }
  apply (can_allowed_told _ _ (told_forget _ _ T)).
  - apply forget_wf, vreachable_wf. exact V.
  - exact D.
  - exact B.
  - intros r. apply lookup_empty.
Qed.
