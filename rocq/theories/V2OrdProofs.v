(** The order of set-up calls on a v2 authorizer. *)
From Verif Require Export V2Cor V2OrdSpec.

(** ** Folds and permutations *)
Definition pairwise {A} (C : A -> A -> Prop) (l : list A) : Prop :=
  forall i j x y, i <> j -> l !! i = Some x -> l !! j = Some y -> C x y.
Lemma pairwise_cons {A} (C : A -> A -> Prop) x l : pairwise C (x :: l) ->
  pairwise C l /\ forall y, y ∈ l -> C x y /\ C y x.
Proof.
  intros H. split.
  - intros i j a b Hij Ha Hb. apply (H (S i) (S j) a b); [lia|exact Ha|exact Hb].
  - intros y [i Hi]%elem_of_list_lookup. split; [apply (H 0 (S i)); [lia|reflexivity|exact Hi]|apply (H (S i) 0); [lia|exact Hi|reflexivity]].
Qed.
Lemma pairwise_of_cons {A} (C : A -> A -> Prop) x l : pairwise C l -> (forall y, y ∈ l -> C x y /\ C y x) -> pairwise C (x :: l).
Proof.
  intros H Hx [|i] [|j] a b Hij Ha Hb; cbn in Ha, Hb.
  - lia.
  - injection Ha as <-. apply Hx. exact (elem_of_list_lookup_2 _ _ _ Hb).
  - injection Hb as <-. apply Hx. exact (elem_of_list_lookup_2 _ _ _ Ha).
  - apply (H i j); [lia|exact Ha|exact Hb].
Qed.
Lemma pairwise_perm {A} (C : A -> A -> Prop) l l' : l ≡ₚ l' -> pairwise C l -> pairwise C l'.
Proof.
  induction 1 as [|x l l' P IH|x y l|l1 l2 l3 _ IH1 _ IH2].
  - exact (fun H => H).
  - intros [H Hx]%pairwise_cons. apply pairwise_of_cons; [exact (IH H)|]. intros y Hy. apply Hx. rewrite P. exact Hy.
  - intros [[H Hx]%pairwise_cons Hy]%pairwise_cons. apply pairwise_of_cons; [apply pairwise_of_cons; [exact H|]|].
    + intros z Hz. apply Hy. right. exact Hz.
    + intros z [->|Hz]%elem_of_cons; [|exact (Hx z Hz)]. destruct (Hy x) as [? ?]; [left|]. split; assumption.
  - intros H. exact (IH2 (IH1 H)).
Qed.
Lemma fold_perm {A B} (f : A -> B -> B) (C : A -> A -> Prop) :
  (forall x y b, C x y -> f x (f y b) = f y (f x b)) ->
  forall l l', l ≡ₚ l' -> pairwise C l -> forall b, fold_left (fun b x => f x b) l b = fold_left (fun b x => f x b) l' b.
Proof.
  intros Hc l l' P. induction P as [|x l l' P IH|x y l|l1 l2 l3 P1 IH1 P2 IH2]; intros HC b.
  - reflexivity.
  - apply pairwise_cons in HC as [HC _]. exact (IH HC _).
  - cbn. f_equal. apply Hc. apply pairwise_cons in HC as [_ HC]. apply (HC x). left.
  - rewrite (IH1 HC). apply IH2. exact (pairwise_perm C _ _ P1 HC).
Qed.

(** ** What each call does when it is accepted *)
Definition role_eff (x : vop) (h : list vrole) : list vrole :=
  match x with
  | VRoleAdd r ps => alter (fun ro => vrole_add ro ps) r h
  | VRoleRemove r ps => alter (fun ro => vrole_remove ro ps) r h
  | _ => h
  end.
Definition name_eff (names : list string) (x : vop) (m : gmap string nat) : gmap string nat :=
  match x with
  | VAddRoles rs => fold_left (fun m l => match names !! l with Some n => <[n := l]> m | None => m end) rs m
  | _ => m
  end.
Definition kids_eff (ids : list string) (cs : list nat) (m : gmap string nat) : gmap string nat :=
  fold_left (fun m l => match ids !! l with Some n => <[n := l]> m | None => m end) cs m.
Definition scopes_eff (n : string) (ss : list string) (t : vtenant) : vtenant :=
  VTenant (vt_id t) (<[n := list_to_set ss ∪ default ∅ (vt_namespaces t !! n)]> (vt_namespaces t)) (vt_default t)
    (vt_status t) (vt_children t).
Definition with_kids (t : vtenant) (m : gmap string nat) : vtenant :=
  VTenant (vt_id t) (vt_namespaces t) (vt_default t) (vt_status t) m.
Definition on_tenant (ids : list string) (x : vop) : option (nat * (vtenant -> vtenant)) :=
  match x with
  | VTenantNamespace t n b => Some (t, fun c => vt_add_namespace c n b)
  | VTenantScopes t n ss => Some (t, scopes_eff n ss)
  | VTenantChildren t cs => Some (t, fun c => with_kids c (kids_eff ids cs (vt_children c)))
  | VTenantStatus t s => Some (t, set_status s)
  | _ => None
  end.
Definition tenant_eff (ids : list string) (x : vop) (ts : list vtenant) : list vtenant :=
  match on_tenant ids x with Some tf => alter tf.2 tf.1 ts | None => ts end.
Definition reg_eff (ids : list string) (x : vop) (m : gmap string nat) : gmap string nat :=
  match x with
  | VAddTenant t => match ids !! t with Some n => <[n := t]> m | None => m end
  | _ => m
  end.
Definition default_eff (x : vop) (d : string) : string := match x with VSetDefault n => n | _ => d end.
Definition kids_given (r : string) (x : vop) : list string :=
  match x with VAddChildRole p cs => if decide (p = r) then cs else [] | _ => [] end.
Definition rows_given (x : vop) : list (option nat) := match x with VAddPR ls => Some <$> ls | _ => [] end.

Record effect (x : vop) (st st' : vstate) : Prop := {
  ef_roles : w_roles st' = role_eff x (w_roles st);
  ef_tenants : w_tenants st' = tenant_eff (vt_id <$> w_tenants st) x (w_tenants st);
  ef_prs : w_prs st' = w_prs st;
  ef_names : d_roles (w_dag st') = name_eff (vr_name <$> w_roles st) x (d_roles (w_dag st));
  ef_resolved : d_resolved (w_dag st') = d_resolved (w_dag st);
  ef_children : forall r, edges_of (d_edges (w_dag st')) r = edges_of (d_edges (w_dag st)) r ++ kids_given r x;
  ef_assign : w_assign st' = w_assign st ++ rows_given x;
  ef_reg : w_reg st' = reg_eff (vt_id <$> w_tenants st) x (w_reg st);
  ef_default : w_default st' = default_eff x (w_default st)
}.
Lemma insert_alter {A} (f : A -> A) (l : list A) i x : l !! i = Some x -> <[i := f x]> l = alter f i l.
Proof.
  revert i. induction l as [|y l IH]; intros [|i] H; try discriminate.
  - injection H as ->. reflexivity.
  - cbn. f_equal. exact (IH i H).
Qed.
Lemma add_roles_eff h d ls d' : dag_add_roles h d ls = Ok d' ->
  d_roles d' = fold_left (fun m l => match (vr_name <$> h) !! l with Some n => <[n := l]> m | None => m end) ls (d_roles d)
  /\ d_edges d' = d_edges d /\ d_resolved d' = d_resolved d.
Proof.
  revert d. induction ls as [|l ls IH]; intros d; cbn [dag_add_roles fold_left].
  - intros [= ->]. split_and!; reflexivity.
  - rewrite list_lookup_fmap. destruct (h !! l) as [r|]; [|discriminate]. cbn [fmap option_fmap option_map]. intros H. exact (IH _ H).
Qed.
Lemma add_kids_eff ts t cs t' : vt_add_children ts t cs = Ok t' -> t' = with_kids t (kids_eff (vt_id <$> ts) cs (vt_children t)).
Proof.
  revert t. induction cs as [|c cs IH]; intros t; cbn [vt_add_children].
  - intros [= <-]. destruct t. reflexivity.
  - unfold kids_eff. cbn [fold_left]. rewrite list_lookup_fmap. destruct (ts !! c) as [ct|]; [|discriminate].
    cbn [fmap option_fmap option_map]. intros H. exact (IH _ H).
Qed.
Lemma step_effect o st x st' out : sets_up x -> vstep o st x = Ok (st', out) -> (forall e, out <> WErr (Some e)) -> effect x st st'.
Proof.
  intros Hx H Ho. destruct x; try contradiction; cbn [vstep] in H.
  - apply rbind_inv in H as (s1 & (r' & Hr & ->)%upd_role_inv & [= <- <-]).
    split; cbn; rewrite ?app_nil_r; try reflexivity; [|intros; rewrite app_nil_r; reflexivity]. exact (insert_alter (fun ro => vrole_add ro ps) _ _ _ Hr).
  - apply rbind_inv in H as (s1 & (r' & Hr & ->)%upd_role_inv & [= <- <-]).
    split; cbn; rewrite ?app_nil_r; try reflexivity; [|intros; rewrite app_nil_r; reflexivity]. exact (insert_alter (fun ro => vrole_remove ro ps) _ _ _ Hr).
  - apply rbind_inv in H as (d & (E1 & E2 & E3)%add_roles_eff & [= <- <-]).
    split; cbn; rewrite ?app_nil_r; try reflexivity; try assumption. intros; rewrite E2, app_nil_r; reflexivity.
  - apply rbind_inv in H as ([d e] & Hd & [= <- <-]). unfold dag_add_child in Hd. apply rbind_inv in Hd as (err & _ & Hd).
    destruct err as [er|].
    + injection Hd as <- <-. destruct (Ho er). reflexivity.
    + injection Hd as <- <-. split; cbn; rewrite ?app_nil_r; try reflexivity. intros r. unfold edges_of. destruct (decide (parent = r)) as [->|Hn].
      * rewrite lookup_insert. reflexivity.
      * rewrite lookup_insert_ne, app_nil_r by exact Hn. reflexivity.
  - apply rbind_inv in H as (s1 & (c & Hc & ->)%upd_tenant_inv & [= <- <-]).
    split; cbn; rewrite ?app_nil_r; try reflexivity; [|intros; rewrite app_nil_r; reflexivity]. exact (insert_alter (fun c => vt_add_namespace c n is_default) _ _ _ Hc).
  - destruct (w_tenants st !! t) as [c|] eqn:Hc; [|discriminate]. injection H as <- <-.
    unfold vt_add_scopes in *. destruct (vt_namespaces c !! n) as [s|] eqn:Hn.
    2: { edestruct Ho. reflexivity. }
    split; cbn; rewrite ?app_nil_r; try reflexivity; [|intros; rewrite app_nil_r; reflexivity].
    rewrite <- (insert_alter (scopes_eff n ss) _ _ _ Hc). unfold scopes_eff. rewrite Hn. reflexivity.
  - destruct (w_tenants st !! t) as [c|] eqn:Hc; [|discriminate]. apply rbind_inv in H as (c' & ->%add_kids_eff & [= <- <-]).
    split; cbn; rewrite ?app_nil_r; try reflexivity; [|intros; rewrite app_nil_r; reflexivity].
    exact (insert_alter (fun c => with_kids c (kids_eff (vt_id <$> w_tenants st) cs (vt_children c))) _ _ _ Hc).
  - apply rbind_inv in H as (s1 & (c & Hc & ->)%upd_tenant_inv & [= <- <-]).
    split; cbn; rewrite ?app_nil_r; try reflexivity; [|intros; rewrite app_nil_r; reflexivity]. exact (insert_alter (set_status s) _ _ _ Hc).
  - apply rbind_inv in H as (s1 & H & [= <- <-]). unfold v2_add_tenant in H.
    destruct (w_tenants st !! t) as [c|] eqn:Hc; [|discriminate]. apply rbind_inv in H as (ps & _ & [= <-]).
    split; cbn; rewrite ?app_nil_r; try reflexivity; [intros; rewrite app_nil_r; reflexivity|]. rewrite list_lookup_fmap, Hc. reflexivity.
  - injection H as <- <-. split; cbn; rewrite ?app_nil_r; try reflexivity. intros; rewrite app_nil_r; reflexivity.
  - apply rbind_inv in H as (s1 & H & [= <- <-]). apply v2_add_principal_role_inv in H as (H1 & H2 & H3 & H4 & H5 & H6 & H7 & H8).
    split; cbn; rewrite ?app_nil_r, ?H1, ?H2, ?H3, ?H4, ?H5, ?H6, ?H7; try reflexivity. intros; rewrite app_nil_r; reflexivity.
Qed.

(** ** A whole run *)
Lemma alter_same_fmap {A B} (f : A -> A) (g : A -> B) (l : list A) (i : nat) : (forall x, g (f x) = g x) -> g <$> alter f i l = g <$> l.
Proof. intros H. revert i. induction l as [|x l IH]; intros [|i]; cbn; [reflexivity|reflexivity|rewrite H; reflexivity|f_equal; apply IH]. Qed.
Lemma role_eff_names x h : vr_name <$> role_eff x h = vr_name <$> h.
Proof. destruct x; try reflexivity; apply alter_same_fmap; reflexivity. Qed.
Lemma tenant_eff_ids ids x ts : vt_id <$> tenant_eff ids x ts = vt_id <$> ts.
Proof. unfold tenant_eff. destruct x; try reflexivity; apply alter_same_fmap; reflexivity. Qed.
Record effects (ops : list vop) (st st' : vstate) : Prop := {
  es_roles : w_roles st' = fold_left (fun h x => role_eff x h) ops (w_roles st);
  es_tenants : w_tenants st' = fold_left (fun h x => tenant_eff (vt_id <$> w_tenants st) x h) ops (w_tenants st);
  es_prs : w_prs st' = w_prs st;
  es_names : d_roles (w_dag st') = fold_left (fun m x => name_eff (vr_name <$> w_roles st) x m) ops (d_roles (w_dag st));
  es_resolved : d_resolved (w_dag st') = d_resolved (w_dag st);
  es_children : forall r, edges_of (d_edges (w_dag st')) r = edges_of (d_edges (w_dag st)) r ++ (ops ≫= kids_given r);
  es_assign : w_assign st' = w_assign st ++ (ops ≫= rows_given);
  es_reg : w_reg st' = fold_left (fun m x => reg_eff (vt_id <$> w_tenants st) x m) ops (w_reg st);
  es_default : w_default st' = fold_left (fun d x => default_eff x d) ops (w_default st)
}.
Lemma effect_ids x st st' : effect x st st' -> vt_id <$> w_tenants st' = vt_id <$> w_tenants st.
Proof. intros H. rewrite (ef_tenants _ _ _ H). apply tenant_eff_ids. Qed.
Lemma effect_rnames x st st' : effect x st st' -> vr_name <$> w_roles st' = vr_name <$> w_roles st.
Proof. intros H. rewrite (ef_roles _ _ _ H). apply role_eff_names. Qed.
Lemma effects_cons x ops st st1 st' : effect x st st1 -> effects ops st1 st' -> effects (x :: ops) st st'.
Proof.
  intros H H'. pose proof (effect_ids x st st1 H) as Ei. pose proof (effect_rnames x st st1 H) as Er.
  destruct H' as [A1 A2 A3 A4 A5 A6 A7 A8 A9]. rewrite ?Ei, ?Er in *. destruct H as [B1 B2 B3 B4 B5 B6 B7 B8 B9].
  split; cbn [fold_left]; try congruence.
  - intros r. rewrite A6, B6, <- app_assoc. reflexivity.
  - rewrite A7, B7, <- app_assoc. reflexivity.
Qed.
Lemma effects_nil st : effects [] st st.
Proof. split; try reflexivity; intros; cbn; rewrite app_nil_r; reflexivity. Qed.
Lemma none_refused_cons out outs : none_refused (out :: outs) -> (forall e, out <> WErr (Some e)) /\ none_refused outs.
Proof. intros H. split; intros e He; apply (H e); [rewrite He; left|right; exact He]. Qed.
Lemma run_effects o i st ops st' outs : Forall sets_up ops -> vrun o i st ops = Ok (st', outs) -> none_refused outs -> effects ops st st'.
Proof.
  intros F. revert i st outs. induction F as [|x ops Hx F IH]; intros i st outs; cbn [vrun].
  - intros [= -> <-] _. apply effects_nil.
  - intros ([s1 out] & H1 & ([s2 outs2] & H2 & [= -> <-])%rbind_inv)%rbind_inv [Ho Hr]%none_refused_cons.
    exact (effects_cons _ _ _ _ _ (step_effect _ _ _ _ _ Hx H1 Ho) (IH _ _ _ H2 Hr)).
Qed.

(** ** Calls that do not contradict each other commute *)
Definition no_clash (st : vstate) (x y : vop) : Prop := ~ contradict st x y.
Lemma alter_commute {A} (f g : A -> A) (i j : nat) (l : list A) : (i = j -> forall x, f (g x) = g (f x)) -> alter f i (alter g j l) = alter g j (alter f i l).
Proof.
  intros H. destruct (decide (i = j)) as [->|Hn]; [|apply list_alter_commute; exact Hn].
  rewrite <- !list_alter_compose. apply list_alter_ext; [|reflexivity]. intros x _. exact (H eq_refl x).
Qed.
Lemma perms_of_elem s (ps : list (string * string)) : s ∈ (list_to_set (perm_string <$> ps) : gset string) <-> exists p, p ∈ ps /\ perm_string p = s.
Proof. rewrite elem_of_list_to_set, elem_of_list_fmap. split; intros (p & ? & ?); exists p; split; [assumption|symmetry; assumption|symmetry; assumption|assumption]. Qed.
Lemma add_remove_commute ro ps ps' : ~ (exists p p', p ∈ ps /\ p' ∈ ps' /\ perm_string p = perm_string p') ->
  vrole_add (vrole_remove ro ps') ps = vrole_remove (vrole_add ro ps) ps'.
Proof.
  intros Hn. destruct ro as [n P]. unfold vrole_add, vrole_remove. cbn [vr_name vr_perms]. f_equal. apply set_eq. intros s.
  rewrite elem_of_union, !elem_of_difference, elem_of_union, !perms_of_elem. split.
  - intros [(p & Hp & <-)|[Hs Hs']].
    + split; [left; exists p; split; [exact Hp|reflexivity]|]. intros (p' & Hp' & E). apply Hn. exists p, p'. split_and!; [exact Hp|exact Hp'|symmetry; exact E].
    + split; [right; exact Hs|exact Hs'].
  - intros [[H|H] H']; [left; exact H|right; split; [exact H|exact H']].
Qed.
Lemma role_eff_commute st x y h : no_clash st x y -> role_eff x (role_eff y h) = role_eff y (role_eff x h).
Proof.
  intros H. unfold no_clash in H. destruct x, y; try reflexivity; cbn [role_eff contradict] in *; apply alter_commute; intros ->; intros ro.
  - unfold vrole_add. cbn [vr_name vr_perms]. f_equal. set_solver.
  - apply add_remove_commute. intros C. apply H. split; [reflexivity|exact C].
  - symmetry. apply add_remove_commute. intros C. apply H. split; [reflexivity|exact C].
  - unfold vrole_remove. cbn [vr_name vr_perms]. f_equal. set_solver.
Qed.
(** Registering lists of objects under their names *)
Definition put (names : list string) (m : gmap string nat) (l : nat) : gmap string nat :=
  match names !! l with Some n => <[n := l]> m | None => m end.
Lemma put_commute names l l' m : ~ (l <> l' /\ exists n, names !! l = Some n /\ names !! l' = Some n) -> put names (put names m l) l' = put names (put names m l') l.
Proof.
  intros H. unfold put. destruct (names !! l) as [n|] eqn:E, (names !! l') as [n'|] eqn:E'; try reflexivity.
  destruct (decide (n = n')) as [->|Hn]; [|apply insert_commute; congruence].
  destruct (decide (l = l')) as [->|Hl]; [reflexivity|]. destruct H. split; [exact Hl|]. exists n'. split; reflexivity.
Qed.
Lemma puts_commute names ls ls' m : (forall l l', l ∈ ls -> l' ∈ ls' -> ~ (l <> l' /\ exists n, names !! l = Some n /\ names !! l' = Some n)) ->
  fold_left (put names) ls' (fold_left (put names) ls m) = fold_left (put names) ls (fold_left (put names) ls' m).
Proof.
  intros H. rewrite <- !fold_left_app. revert m H. induction ls as [|l ls IH]; intros m H; [rewrite app_nil_r; reflexivity|].
  cbn [app fold_left]. rewrite IH by (intros a b Ha Hb; apply H; [right; exact Ha|exact Hb]).
  rewrite !fold_left_app. cbn [fold_left]. f_equal. clear IH.
  assert (H' : forall l', l' ∈ ls' -> ~ (l <> l' /\ exists n, names !! l = Some n /\ names !! l' = Some n)) by (intros l' Hl'; apply H; [left|exact Hl']).
  clear H ls. revert m. induction ls' as [|a ls' IH]; intros m; [reflexivity|]. cbn [fold_left].
  rewrite (put_commute names l a m (H' a ltac:(left))). apply IH. intros l' Hl'. apply H'. right. exact Hl'.
Qed.
Lemma rnames_called st l n : (vr_name <$> w_roles st) !! l = Some n <-> role_called st l n.
Proof. rewrite list_lookup_fmap, fmap_Some. unfold role_called. split; intros (r & ? & ?); exists r; split; (assumption || (symmetry; assumption)). Qed.
Lemma ids_called st l n : (vt_id <$> w_tenants st) !! l = Some n <-> tenant_called st l n.
Proof. rewrite list_lookup_fmap, fmap_Some. unfold tenant_called, tenant_at. split; intros (r & ? & ?); exists r; split; (assumption || (symmetry; assumption)). Qed.
Lemma name_eff_commute st x y m : no_clash st x y ->
  name_eff (vr_name <$> w_roles st) x (name_eff (vr_name <$> w_roles st) y m) = name_eff (vr_name <$> w_roles st) y (name_eff (vr_name <$> w_roles st) x m).
Proof.
  intros H. unfold no_clash in H. destruct x, y; try reflexivity. cbn [name_eff contradict] in *. symmetry.
  apply (puts_commute (vr_name <$> w_roles st) rs rs0 m). intros l l' Hl Hl' (Hn & n & E & E'). apply H.
  exists l, l', n. split_and!; [exact Hl|exact Hl'|exact Hn|apply rnames_called; exact E|apply rnames_called; exact E'].
Qed.
Lemma reg_eff_commute st x y m : no_clash st x y ->
  reg_eff (vt_id <$> w_tenants st) x (reg_eff (vt_id <$> w_tenants st) y m) = reg_eff (vt_id <$> w_tenants st) y (reg_eff (vt_id <$> w_tenants st) x m).
Proof.
  intros H. unfold no_clash in H. destruct x, y; try reflexivity. cbn [reg_eff contradict] in *. symmetry.
  apply (put_commute (vt_id <$> w_tenants st) t t0 m). intros (Hn & n & E & E'). apply H. split; [exact Hn|].
  exists n. split; apply ids_called; assumption.
Qed.
Lemma default_eff_commute st x y d : no_clash st x y -> default_eff x (default_eff y d) = default_eff y (default_eff x d).
Proof.
  intros H. unfold no_clash in H. destruct x, y; try reflexivity. cbn [default_eff contradict] in *.
  destruct (decide (t = t0)) as [->|Hn]; [reflexivity|destruct (H Hn)].
Qed.
Definition has_ns (n : string) (m : gmap string (gset string)) : gmap string (gset string) :=
  match m !! n with Some _ => m | None => <[n := ∅]> m end.
Definition more_scopes (n : string) (ss : gset string) (m : gmap string (gset string)) : gmap string (gset string) :=
  <[n := ss ∪ default ∅ (m !! n)]> m.
Lemma has_ns_lookup n m k : has_ns n m !! k = if decide (k = n) then Some (default ∅ (m !! n)) else m !! k.
Proof.
  unfold has_ns. destruct (decide (k = n)) as [->|Hn].
  - destruct (m !! n) eqn:E; [exact E|apply lookup_insert].
  - destruct (m !! n) eqn:E; [reflexivity|]. apply lookup_insert_ne. congruence.
Qed.
Lemma more_scopes_lookup n ss m k : more_scopes n ss m !! k = if decide (k = n) then Some (ss ∪ default ∅ (m !! n)) else m !! k.
Proof. unfold more_scopes. destruct (decide (k = n)) as [->|Hn]; [apply lookup_insert|apply lookup_insert_ne; congruence]. Qed.
Lemma has_has n n' m : has_ns n (has_ns n' m) = has_ns n' (has_ns n m).
Proof. apply map_eq. intros k. rewrite !has_ns_lookup. repeat case_decide; subst; try reflexivity; try contradiction. Qed.
Lemma has_more n n' ss m : has_ns n (more_scopes n' ss m) = more_scopes n' ss (has_ns n m).
Proof.
  apply map_eq. intros k. rewrite has_ns_lookup, !more_scopes_lookup, !has_ns_lookup. repeat case_decide; subst; try reflexivity; try contradiction.
Qed.
Lemma more_more n n' ss ss' m : more_scopes n ss (more_scopes n' ss' m) = more_scopes n' ss' (more_scopes n ss m).
Proof.
  apply map_eq. intros k. rewrite !more_scopes_lookup. repeat case_decide; subst; try reflexivity; try contradiction. cbn. f_equal. set_solver.
Qed.
Lemma tenant_eff_commute st x y ts : no_clash st x y ->
  tenant_eff (vt_id <$> w_tenants st) x (tenant_eff (vt_id <$> w_tenants st) y ts) = tenant_eff (vt_id <$> w_tenants st) y (tenant_eff (vt_id <$> w_tenants st) x ts).
Proof.
  intros H. unfold no_clash, tenant_eff in *. destruct x, y; try reflexivity; cbn [on_tenant contradict fst snd] in *; apply alter_commute; intros ->; intros [id ns df sta ch];
    unfold vt_add_namespace, scopes_eff, with_kids, set_status; cbn [vt_id vt_namespaces vt_default vt_status vt_children]; try reflexivity.
  - f_equal.
    + apply (has_has n n0 ns).
    + destruct is_default, is_default0; try reflexivity. destruct (decide (n = n0)) as [->|Hn]; [reflexivity|]. destruct H. split; [reflexivity|exact Hn].
  - f_equal. exact (has_more n n0 (list_to_set ss) ns).
  - f_equal. symmetry. exact (has_more n0 n (list_to_set ss) ns).
  - f_equal. exact (more_more n n0 (list_to_set ss) (list_to_set ss0) ns).
  - f_equal. symmetry. apply (puts_commute (vt_id <$> w_tenants st) cs cs0 ch). intros l l' Hl Hl' (Hn & k & E & E'). apply H.
    split; [reflexivity|]. exists l, l', k. split_and!; [exact Hl|exact Hl'|exact Hn|apply ids_called; exact E|apply ids_called; exact E'].
  - f_equal. destruct (decide (s = s0)) as [->|Hn]; [reflexivity|]. destruct H. split; [reflexivity|exact Hn].
Qed.

(** ** Two orders *)
Lemma effects_alike st ops ops' st1 st2 : agreeing st ops -> ops ≡ₚ ops' -> effects ops st st1 -> effects ops' st st2 -> alike st1 st2.
Proof.
  intros HA P [A1 A2 A3 A4 A5 A6 A7 A8 A9] [B1 B2 B3 B4 B5 B6 B7 B8 B9].
  assert (HC : pairwise (no_clash st) ops) by exact HA.
  split.
  - rewrite A1, B1. exact (fold_perm role_eff (no_clash st) (role_eff_commute st) _ _ P HC _).
  - rewrite A2, B2. exact (fold_perm (tenant_eff (vt_id <$> w_tenants st)) (no_clash st) (tenant_eff_commute st) _ _ P HC _).
  - congruence.
  - rewrite A4, B4. exact (fold_perm (name_eff (vr_name <$> w_roles st)) (no_clash st) (name_eff_commute st) _ _ P HC _).
  - congruence.
  - intros r. change (edges_of (d_edges (w_dag st1)) r ≡ₚ edges_of (d_edges (w_dag st2)) r). rewrite A6, B6. apply Permutation_app; [reflexivity|]. rewrite P. reflexivity.
  - rewrite A7, B7. apply Permutation_app; [reflexivity|]. rewrite P. reflexivity.
  - rewrite A8, B8. exact (fold_perm (reg_eff (vt_id <$> w_tenants st)) (no_clash st) (reg_eff_commute st) _ _ P HC _).
  - rewrite A9, B9. exact (fold_perm default_eff (no_clash st) (default_eff_commute st) _ _ P HC _).
Qed.
Lemma c101_alike o o' i i' st ops ops' st1 outs1 st2 outs2 : Forall sets_up ops -> agreeing st ops -> ops' ≡ₚ ops ->
  vrun o i st ops = Ok (st1, outs1) -> none_refused outs1 -> vrun o' i' st ops' = Ok (st2, outs2) -> none_refused outs2 -> alike st1 st2.
Proof.
  intros F HA P H1 N1 H2 N2. apply (effects_alike st ops ops'); [exact HA|symmetry; exact P|exact (run_effects _ _ _ _ _ _ F H1 N1)|].
  apply (run_effects _ _ _ _ _ _ (Permutation_Forall (Permutation_sym P) F) H2 N2).
Qed.

(** ** Decisions look at what is alike only *)
Lemma alike_sym st1 st2 : alike st1 st2 -> alike st2 st1.
Proof. intros [A1 A2 A3 A4 A5 A6 A7 A8 A9]. split; try (symmetry; assumption). intros r. symmetry. apply A6. Qed.
Lemma alike_assigned st1 st2 pr : alike st1 st2 -> assigned st1 pr -> assigned st2 pr.
Proof. intros H (l & Hl & E). exists l. rewrite <- (al_assign _ _ H), <- (al_prs _ _ H). split; assumption. Qed.
Lemma alike_registered st1 st2 n r : alike st1 st2 -> registered (w_roles st1) (w_dag st1) n r -> registered (w_roles st2) (w_dag st2) n r.
Proof. intros H (l & Hl & E). exists l. rewrite <- (al_names _ _ H), <- (al_roles _ _ H). split; assumption. Qed.
Lemma alike_below st1 st2 a b : alike st1 st2 -> rtc (below (w_roles st1) (w_dag st1)) a b -> rtc (below (w_roles st2) (w_dag st2)) a b.
Proof.
  intros H. induction 1 as [|x y z ((r & Hr) & Hc) _ IH]; [reflexivity|]. apply (rtc_l _ x y z); [|exact IH]. split.
  - exists r. exact (alike_registered _ _ _ _ H Hr).
  - apply child_edges_of. rewrite <- (al_children _ _ H x). apply child_edges_of in Hc. exact Hc.
Qed.
Lemma alike_perm st1 st2 r p : alike st1 st2 -> role_perm st1 r p -> role_perm st2 r p.
Proof.
  intros H. unfold role_perm. rewrite (al_resolved _ _ H). destruct (d_resolved (w_dag st2) !! r) as [s|]; [exact (fun X => X)|].
  intros (n & ro & H1 & H2 & H3). exists n, ro. split_and!; [exact (alike_below _ _ _ _ H H1)|exact (alike_registered _ _ _ _ H H2)|exact H3].
Qed.
Lemma alike_name st1 st2 r p : alike st1 st2 -> role_name st1 r p -> role_name st2 r p.
Proof.
  intros H. unfold role_name. rewrite (al_resolved _ _ H). destruct (d_resolved (w_dag st2) !! r) as [s|]; [exact (fun X => X)|].
  intros (n & ro & H1 & H2 & H3). exists n, ro. split_and!; [exact (alike_below _ _ _ _ H H1)|exact (alike_registered _ _ _ _ H H2)|exact H3].
Qed.
Lemma alike_tenants st1 st2 : alike st1 st2 -> tenants_like st1 st2.
Proof. intros H a c Hc. exists c. unfold tenant_at in *. rewrite <- (al_tenants _ _ H). split; [exact Hc|]. unfold same_but_status. split_and!; reflexivity. Qed.
Lemma alike_counts st1 st2 now u t n pr : alike st1 st2 -> counts st1 now u t n pr -> counts st2 now u t n pr.
Proof. intros H. apply counts_sub; [exact (alike_tenants _ _ H)|]. intros pr' _ _ _. exact (alike_assigned _ _ _ H). Qed.
Lemma alike_target st1 st2 q t : alike st1 st2 -> target st1 q t -> target st2 q t.
Proof.
  intros H. unfold target, names, nameless, tenant_at. rewrite <- (al_reg _ _ H), <- (al_default _ _ H), <- (al_tenants _ _ H).
  intros [X|(X & pr & c & H1 & H2)]; [left; exact X|right; split; [exact X|]]. exists pr, c. split; [exact (alike_assigned _ _ _ H H1)|exact H2].
Qed.
Lemma alike_effective st1 st2 now u t n s p : alike st1 st2 -> effective st1 now u t n s p -> effective st2 now u t n s p.
Proof.
  intros H. apply (effective_ext st1 st2).
  - intros pr. split; apply alike_counts; [exact H|exact (alike_sym _ _ H)].
  - intros pr p' _. split; apply alike_perm; [exact H|exact (alike_sym _ _ H)].
Qed.
Lemma alike_allowed st1 st2 now q : alike st1 st2 -> v2_allowed st1 now q -> v2_allowed st2 now q.
Proof.
  intros H. apply allowed_sub. intros t c n p H1 H2 H3 H4. exists c. split; [exact (alike_target _ _ _ _ H H1)|].
  split; [unfold tenant_at; rewrite <- (al_tenants _ _ H); exact H2|]. split; [exact H3|exact (alike_effective _ _ _ _ _ _ _ _ H H4)].
Qed.
Lemma alike_can_allowed st1 st2 now q roles : alike st1 st2 -> v2_can_allowed st1 now q roles -> v2_can_allowed st2 now q roles.
Proof.
  intros H. apply can_allowed_sub. intros t c n x H1 H2 H3 (pr & H4 & H5 & H6). exists c. split; [exact (alike_target _ _ _ _ H H1)|].
  split; [unfold tenant_at; rewrite <- (al_tenants _ _ H); exact H2|]. split; [exact H3|]. exists pr. split; [exact (alike_counts _ _ _ _ _ _ _ H H4)|].
  split; [exact H5|]. destruct H6 as [H6|H6]; [left; exact H6|right; exact (alike_name _ _ _ _ H H6)].
Qed.
Lemma effects_distinct ops st st' : effects ops st st' -> distinct_ids st -> distinct_ids st'.
Proof.
  intros H D. assert (E : vt_id <$> w_tenants st' = vt_id <$> w_tenants st).
  { rewrite (es_tenants _ _ _ H). generalize (w_tenants st) at 2 3 as ts. clear H D. induction ops as [|x ops IH]; intros ts; [reflexivity|].
    cbn [fold_left]. rewrite IH. apply tenant_eff_ids. }
  intros a b ta tb Ha Hb Eid.
  assert (L : forall l t, tenant_at st' l t -> exists t', tenant_at st l t' /\ vt_id t' = vt_id t).
  { intros l t Hl. unfold tenant_at in *. assert (X : (vt_id <$> w_tenants st') !! l = Some (vt_id t)) by (rewrite list_lookup_fmap, Hl; reflexivity).
    rewrite E, list_lookup_fmap in X. apply fmap_Some in X as (t' & ? & ?). exists t'. split; [assumption|congruence]. }
  destruct (L a ta Ha) as (ta' & Ha' & Ea), (L b tb Hb) as (tb' & Hb' & Eb). apply (D a b ta' tb' Ha' Hb'). congruence.
Qed.
Lemma run_wf o i st ops st' outs : v2_wf st -> vrun o i st ops = Ok (st', outs) -> v2_wf st'.
Proof. intros W H. exact (proj2 (vrun_inv (fun _ => True) o i st ops st' outs (fun _ _ _ _ _ _ _ _ => I) I W H)). Qed.
Lemma c101_authorize o o' i i' st ops ops' st1 outs1 st2 outs2 o1 o2 now q st1' b1 st2' b2 :
  vreachable st -> distinct_ids st -> Forall sets_up ops -> agreeing st ops -> ops' ≡ₚ ops ->
  vrun o i st ops = Ok (st1, outs1) -> none_refused outs1 -> vrun o' i' st ops' = Ok (st2, outs2) -> none_refused outs2 ->
  v2_authorize o1 st1 now q = Ok (st1', b1) -> v2_authorize o2 st2 now q = Ok (st2', b2) -> b1 = b2.
Proof.
  intros R D F HA P H1 N1 H2 N2 E1 E2. pose proof (vreachable_wf st R) as W.
  pose proof (c101_alike _ _ _ _ _ _ _ _ _ _ _ F HA P H1 N1 H2 N2) as L.
  pose proof (effects_distinct _ _ _ (run_effects _ _ _ _ _ _ F H1 N1) D) as D1.
  pose proof (effects_distinct _ _ _ (run_effects _ _ _ _ _ _ (Permutation_Forall (Permutation_sym P) F) H2 N2) D) as D2.
  destruct (v2_authorize_exact _ _ _ _ _ _ (run_wf _ _ _ _ _ _ W H1) D1 E1) as [I1 _].
  destruct (v2_authorize_exact _ _ _ _ _ _ (run_wf _ _ _ _ _ _ W H2) D2 E2) as [I2 _].
  apply bool_iff_eq. rewrite I1, I2. split; apply alike_allowed; [exact L|exact (alike_sym _ _ L)].
Qed.
Lemma c101_can o o' i i' st ops ops' st1 outs1 st2 outs2 o1 o2 now q roles st1' b1 st2' b2 :
  vreachable st -> distinct_ids st -> Forall sets_up ops -> agreeing st ops -> ops' ≡ₚ ops ->
  vrun o i st ops = Ok (st1, outs1) -> none_refused outs1 -> vrun o' i' st ops' = Ok (st2, outs2) -> none_refused outs2 ->
  v2_can o1 st1 now q roles = Ok (st1', b1) -> v2_can o2 st2 now q roles = Ok (st2', b2) -> b1 = b2.
Proof.
  intros R D F HA P H1 N1 H2 N2 E1 E2. pose proof (vreachable_wf st R) as W.
  pose proof (c101_alike _ _ _ _ _ _ _ _ _ _ _ F HA P H1 N1 H2 N2) as L.
  pose proof (effects_distinct _ _ _ (run_effects _ _ _ _ _ _ F H1 N1) D) as D1.
  pose proof (effects_distinct _ _ _ (run_effects _ _ _ _ _ _ (Permutation_Forall (Permutation_sym P) F) H2 N2) D) as D2.
  destruct (v2_can_exact _ _ _ _ _ _ _ (run_wf _ _ _ _ _ _ W H1) D1 E1) as [I1 _].
  destruct (v2_can_exact _ _ _ _ _ _ _ (run_wf _ _ _ _ _ _ W H2) D2 E2) as [I2 _].
  apply bool_iff_eq. rewrite I1, I2. split; apply alike_can_allowed; [exact L|exact (alike_sym _ _ L)].
Qed.

(** ** Every order returns *)
Definition points (nr nt np : nat) (x : vop) : Prop :=
  match x with
  | VRoleAdd r _ | VRoleRemove r _ => r < nr
  | VAddRoles rs => Forall (fun l => l < nr) rs
  | VTenantNamespace t _ _ | VTenantScopes t _ _ | VTenantStatus t _ | VAddTenant t => t < nt
  | VTenantChildren t cs => t < nt /\ Forall (fun l => l < nt) cs
  | VAddPR ls => Forall (fun l => l < np) ls
  | _ => True
  end.
Definition points_in (st : vstate) (x : vop) : Prop := points (length (w_roles st)) (length (w_tenants st)) (length (w_prs st)) x.
Lemma lookup_lt {A} (l : list A) i : is_Some (l !! i) <-> i < length l.
Proof. apply lookup_lt_is_Some. Qed.
Lemma add_roles_returns h d ls : Forall (fun l => l < length h) ls <-> exists d', dag_add_roles h d ls = Ok d'.
Proof.
  revert d. induction ls as [|l ls IH]; intros d; cbn [dag_add_roles].
  - split; [intros _; exists d; reflexivity|intros _; constructor].
  - rewrite Forall_cons, <- lookup_lt. destruct (h !! l) as [r|].
    + rewrite <- IH. split; [intros [_ H]; exact H|intros H; split; [exists r; reflexivity|exact H]].
    + split; [intros [[x ?] _]; discriminate|intros [d' ?]; discriminate].
Qed.
Lemma add_kids_returns ts t ls : Forall (fun l => l < length ts) ls <-> exists t', vt_add_children ts t ls = Ok t'.
Proof.
  revert t. induction ls as [|l ls IH]; intros t; cbn [vt_add_children].
  - split; [intros _; exists t; reflexivity|intros _; constructor].
  - rewrite Forall_cons, <- lookup_lt. destruct (ts !! l) as [r|].
    + rewrite <- IH. split; [intros [_ H]; exact H|intros H; split; [exists r; reflexivity|exact H]].
    + split; [intros [[x ?] _]; discriminate|intros [d' ?]; discriminate].
Qed.
Lemma add_prs_returns st ls : Forall (fun l => l < length (w_prs st)) ls <-> exists st', v2_add_principal_role st ls = Ok st'.
Proof.
  revert st. induction ls as [|l ls IH]; intros st; cbn [v2_add_principal_role].
  - split; [intros _; exists st; reflexivity|intros _; constructor].
  - rewrite Forall_cons, <- lookup_lt. destruct (w_prs st !! l) as [pr|].
    + rewrite <- IH. split; [intros [_ H]; exact H|intros H; split; [exists pr; reflexivity|exact H]].
    + split; [intros [[x ?] _]; discriminate|intros [d' ?]; discriminate].
Qed.
Lemma add_parents_returns ts t ps cs : (forall c, c ∈ cs -> is_Some (ts !! c)) -> exists ps', add_parents ts t ps cs = Ok ps'.
Proof.
  revert ps. induction cs as [|c cs IH]; intros ps H; cbn [add_parents]; [exists ps; reflexivity|].
  destruct (H c) as [ct E]; [left|]. rewrite E. apply IH. intros c' Hc'. apply H. right. exact Hc'.
Qed.
Lemma step_returns o st x : v2_wf st -> sets_up x -> points_in st x <-> exists st' out, vstep o st x = Ok (st', out).
Proof.
  intros W Hx. unfold points_in. destruct x; try contradiction; cbn [vstep points].
  - unfold upd_role. rewrite <- lookup_lt. destruct (w_roles st !! r); cbn; (split; [intros [? ?]|intros (? & ? & ?)]); try discriminate; eauto.
  - unfold upd_role. rewrite <- lookup_lt. destruct (w_roles st !! r); cbn; (split; [intros [? ?]|intros (? & ? & ?)]); try discriminate; eauto.
  - rewrite (add_roles_returns _ (w_dag st)). split.
    + intros [d' ->]. cbn. eauto.
    + intros (? & ? & (d' & H & _)%rbind_inv). exists d'. exact H.
  - split; [intros _|intros _; exact I]. destruct (dag_add_child_ok (w_dag st) parent cs) as (d' & err & ->). cbn. eauto.
  - unfold upd_tenant. rewrite <- lookup_lt. destruct (w_tenants st !! t); cbn; (split; [intros [? ?]|intros (? & ? & ?)]); try discriminate; eauto.
  - rewrite <- lookup_lt. destruct (w_tenants st !! t); cbn; (split; [intros [? ?]|intros (? & ? & ?)]); try discriminate; eauto.
  - rewrite <- lookup_lt. destruct (w_tenants st !! t) as [c|]; cbn.
    + rewrite (add_kids_returns _ c). split.
      * intros [_ [c' ->]]. cbn. eauto.
      * intros (? & ? & (c' & H & _)%rbind_inv). split; [eauto|]. exists c'. exact H.
    + split; [intros [[? ?] _]; discriminate|intros (? & ? & ?); discriminate].
  - unfold upd_tenant. rewrite <- lookup_lt. destruct (w_tenants st !! t); cbn; (split; [intros [? ?]|intros (? & ? & ?)]); try discriminate; eauto.
  - rewrite <- lookup_lt. unfold v2_add_tenant. destruct (w_tenants st !! t) as [c|] eqn:Hc; [|split; [intros [? ?]; discriminate|intros (? & ? & ?); discriminate]].
    split; [intros _|eauto].
    destruct (add_parents_returns (w_tenants st) t (w_parents st) (ordered o (map_to_list (vt_children c)).*2)) as [ps ->]; [|cbn; eauto].
    intros k Hk. rewrite elem_of_ordered in Hk. apply elem_of_list_fmap in Hk as ([k' l] & -> & Hk). apply elem_of_map_to_list in Hk. cbn.
    destruct (wf_kids st W t c k' l Hc Hk) as (tc & Htc & _). exists tc. exact Htc.
  - split; [intros _; eauto|intros _; exact I].
  - rewrite add_prs_returns. split.
    + intros [st' ->]. cbn. eauto.
    + intros (? & ? & (d' & H & _)%rbind_inv). exists d'. exact H.
Qed.
Lemma step_lengths o st x st' out : sets_up x -> vstep o st x = Ok (st', out) ->
  length (w_roles st') = length (w_roles st) /\ length (w_tenants st') = length (w_tenants st) /\ length (w_prs st') = length (w_prs st).
Proof.
  intros Hx H. destruct x; try contradiction; cbn [vstep] in H.
  - apply rbind_inv in H as (s1 & (r' & Hr & ->)%upd_role_inv & [= <- <-]). cbn. rewrite insert_length. split_and!; reflexivity.
  - apply rbind_inv in H as (s1 & (r' & Hr & ->)%upd_role_inv & [= <- <-]). cbn. rewrite insert_length. split_and!; reflexivity.
  - apply rbind_inv in H as (d & _ & [= <- <-]). split_and!; reflexivity.
  - apply rbind_inv in H as (d & _ & [= <- <-]). split_and!; reflexivity.
  - apply rbind_inv in H as (s1 & (r' & Hr & ->)%upd_tenant_inv & [= <- <-]). cbn. rewrite insert_length. split_and!; reflexivity.
  - destruct (w_tenants st !! t); [|discriminate]. injection H as <- <-. cbn. rewrite insert_length. split_and!; reflexivity.
  - destruct (w_tenants st !! t); [|discriminate]. apply rbind_inv in H as (c & _ & [= <- <-]). cbn. rewrite insert_length. split_and!; reflexivity.
  - apply rbind_inv in H as (s1 & (r' & Hr & ->)%upd_tenant_inv & [= <- <-]). cbn. rewrite insert_length. split_and!; reflexivity.
  - apply rbind_inv in H as (s1 & H & [= <- <-]). unfold v2_add_tenant in H. destruct (w_tenants st !! t); [|discriminate].
    apply rbind_inv in H as (ps & _ & [= <-]). split_and!; reflexivity.
  - injection H as <- <-. split_and!; reflexivity.
  - apply rbind_inv in H as (s1 & H & [= <- <-]). apply v2_add_principal_role_inv in H as (-> & -> & -> & _). split_and!; reflexivity.
Qed.
Lemma run_returns o i st ops : v2_wf st -> Forall sets_up ops -> Forall (points_in st) ops <-> exists st' outs, vrun o i st ops = Ok (st', outs).
Proof.
  intros W F. revert i st W. induction F as [|x ops Hx F IH]; intros i st W; cbn [vrun].
  - split; [intros _; exists st, []; reflexivity|intros _; constructor].
  - rewrite Forall_cons, (step_returns (sub o i) st x W Hx).
    assert (E : forall s1 out, vstep (sub o i) st x = Ok (s1, out) -> Forall (points_in st) ops <-> exists st' outs, vrun o (S i) s1 ops = Ok (st', outs)).
    { intros s1 out H1. rewrite <- (IH (S i) s1 (vstep_wf _ _ _ _ _ W H1)). unfold points_in. destruct (step_lengths _ _ _ _ _ Hx H1) as (-> & -> & ->). reflexivity. }
    split.
    + intros [(s1 & out & H1) H2]. apply (E s1 out H1) in H2 as (s2 & outs & H2). rewrite H1. cbn [rbind fst snd]. rewrite H2. cbn. eauto.
    + intros (st' & outs & ([s1 out] & H1 & ([s2 outs2] & H2 & _)%rbind_inv)%rbind_inv). split; [eauto|]. apply (E s1 out H1). eauto.
Qed.
Lemma c101_returns o o' i i' st ops ops' st1 outs1 : vreachable st -> Forall sets_up ops -> ops' ≡ₚ ops ->
  vrun o i st ops = Ok (st1, outs1) -> exists st2 outs2, vrun o' i' st ops' = Ok (st2, outs2).
Proof.
  intros R F P H. pose proof (vreachable_wf st R) as W.
  apply (run_returns o' i' st ops' W (Permutation_Forall (Permutation_sym P) F)). rewrite P.
  apply (run_returns o i st ops W F). eauto.
Qed.

(** ** Which sets of AddChildRole calls may be made in any order *)
Lemma listing_perm e rs rs' l : rs ≡ₚ rs' -> listing e rs l -> exists l', listing e rs' l' /\ l ≡ₚ l'.
Proof.
  intros P. revert l. induction P as [|x rs rs' P IH|x y rs|r1 r2 r3 _ IH1 _ IH2]; intros l H.
  - exists l. split; [exact H|reflexivity].
  - inversion H as [|? ? below rest H1 H2]; subst. destruct (IH _ H2) as (rest' & H2' & E). exists (x :: below ++ rest').
    split; [constructor; assumption|]. rewrite E. reflexivity.
  - inversion H as [|? ? by' rest H1 H2]; subst. inversion H2 as [|? ? bx rest' H3 H4]; subst.
    exists (x :: bx ++ (y :: by' ++ rest')). split; [constructor; [exact H3|constructor; assumption]|].
    etransitivity; [apply perm_skip; symmetry; apply Permutation_middle|]. etransitivity; [apply perm_swap|]. apply perm_skip.
    etransitivity; [|apply Permutation_middle]. apply perm_skip. rewrite !app_assoc. apply Permutation_app_tail, Permutation_app_comm.
  - destruct (IH1 _ H) as (l2 & H2 & E2), (IH2 _ H2) as (l3 & H3 & E3). exists l3. split; [exact H3|]. rewrite E2. exact E3.
Qed.
(** Fewer edges, shorter listings *)
Lemma listing_mono e e' : (forall r, edges_of e r ⊆+ edges_of e' r) ->
  forall rs' l', listing e' rs' l' -> forall rs, rs ⊆+ rs' -> exists l, listing e rs l /\ l ⊆+ l'.
Proof.
  intros He rs' l' H. induction H as [|r rs' below rest H1 IH1 H2 IH2]; intros rs Hrs.
  - apply submseteq_nil_r in Hrs as ->. exists []. split; [constructor|reflexivity].
  - apply submseteq_cons_r in Hrs as [Hrs|(rs0 & P & Hrs)].
    + destruct (IH2 rs Hrs) as (l & Hl & Hs). exists l. split; [exact Hl|]. rewrite Hs. apply submseteq_cons, submseteq_inserts_l. reflexivity.
    + destruct (IH2 rs0 Hrs) as (l2 & Hl2 & Hs2). destruct (IH1 (edges_of e r) (He r)) as (l1 & Hl1 & Hs1).
      destruct (listing_perm e (r :: rs0) rs (r :: l1 ++ l2) (Permutation_sym P)) as (l & Hl & E); [constructor; assumption|].
      exists l. split; [exact Hl|]. rewrite <- E. apply submseteq_skip. apply submseteq_app; assumption.
Qed.
Lemma accepted_mono e e' p cs : (forall r, edges_of e r ⊆+ edges_of e' r) ->
  (exists l, listing e' cs l /\ NoDup (p :: l)) -> exists l, listing e cs l /\ NoDup (p :: l).
Proof.
  intros He (l' & H & N). destruct (listing_mono e e' He cs l' H cs) as (l & Hl & Hs); [reflexivity|]. exists l. split; [exact Hl|].
  apply (submseteq_skip p) in Hs. apply submseteq_Permutation in Hs as (k & E). rewrite E in N. apply NoDup_app in N as [N _]. exact N.
Qed.
Lemma edges_with e p cs r : edges_of (with_children e p cs) r = edges_of e r ++ if decide (p = r) then cs else [].
Proof. unfold with_children, edges_of. destruct (decide (p = r)) as [->|Hn]; [rewrite lookup_insert; reflexivity|rewrite lookup_insert_ne, app_nil_r by exact Hn; reflexivity]. Qed.
Definition given_to (r : string) (c : string * list string) : list string := if decide (c.1 = r) then c.2 else [].
Lemma edges_all e calls r : edges_of (all_children e calls) r = edges_of e r ++ (calls ≫= given_to r).
Proof.
  revert e. induction calls as [|c calls IH]; intros e; cbn [all_children].
  - cbn. rewrite app_nil_r. reflexivity.
  - rewrite IH, edges_with, <- app_assoc. reflexivity.
Qed.
Lemma child_run st calls i o : (forall i c, calls !! i = Some c -> exists l, listing (all_children (d_edges (w_dag st)) (take i calls)) c.2 l /\ NoDup (c.1 :: l)) <->
  exists st' outs, vrun o i st (child_calls calls) = Ok (st', outs) /\ none_refused outs.
Proof.
  revert i st. induction calls as [|c calls IH]; intros i st; cbn [child_calls map vrun].
  - split; [intros _|intros _ i' c H; discriminate]. exists st, []. split; [reflexivity|]. intros e He. apply elem_of_nil in He. exact He.
  - cbn [vstep]. split.
    + intros H. pose proof (H 0 c eq_refl) as H0. cbn [take all_children] in H0.
      apply (dag_add_child_accepts (w_dag st) c.1 c.2) in H0 as [d' Hd]. pose proof Hd as Hd'. apply dag_add_child_success in Hd'.
      destruct (proj1 (IH (S i) (vw_dag st d'))) as (st' & outs & Hr & Hn).
      { intros k x Hk. destruct (H (S k) x Hk) as (l & Hl). exists l. cbn [take all_children] in Hl. subst d'. exact Hl. }
      exists st', (WErr None :: outs). split.
      * rewrite Hd. cbn [rbind fst snd]. fold (child_calls calls). rewrite Hr. reflexivity.
      * intros e [He|He]%elem_of_cons; [discriminate|exact (Hn e He)].
    + intros (st' & outs & ([s1 out] & ([d' err] & Hd & [= <- <-])%rbind_inv & ([s2 outs2] & H2 & [= -> <-])%rbind_inv)%rbind_inv & [Ho Hn]%none_refused_cons).
      cbn [fst snd] in *. destruct err as [er|]; [destruct (Ho er); reflexivity|].
      pose proof Hd as Hd'. apply dag_add_child_success in Hd'.
      intros [|k] x Hk.
      * injection Hk as <-. cbn [take all_children]. apply (dag_add_child_accepts (w_dag st) c.1 c.2). exists d'. exact Hd.
      * cbn in Hk. destruct (proj2 (IH (S i) (vw_dag st d'))) with (i := k) (c := x) as (l & Hl); [exists st', outs2; split; [exact H2|exact Hn]|exact Hk|].
        exists l. cbn [take all_children]. subst d'. exact Hl.
Qed.
Lemma perm_calls ops calls : ops ≡ₚ child_calls calls -> exists calls', calls' ≡ₚ calls /\ ops = child_calls calls'.
Proof. intros P. apply Permutation_map_inv in P as (calls' & -> & P). exists calls'. split; [symmetry; exact P|reflexivity]. Qed.
Lemma c101_roles st calls :
  (forall ops, ops ≡ₚ child_calls calls -> goes_through st ops) <->
  forall before p cs after, calls = before ++ (p, cs) :: after ->
    exists l, listing (all_children (d_edges (w_dag st)) (before ++ after)) cs l /\ NoDup (p :: l).
Proof.
  split.
  - intros H before p cs after ->.
    assert (G : goes_through st (child_calls (before ++ after ++ [(p, cs)]))).
    { apply H. unfold child_calls. apply Permutation_map. apply Permutation_app_head. symmetry. apply Permutation_cons_append. }
    apply (proj2 (child_run st _ 0 id_oracle)) with (i := length (before ++ after)) (c := (p, cs)) in G as (l & Hl & N).
    + exists l. cbn [fst snd] in *. split; [|exact N]. rewrite app_assoc, take_app in Hl. exact Hl.
    + rewrite app_assoc. apply list_lookup_middle. reflexivity.
  - intros H ops P. apply perm_calls in P as (calls' & P & ->). apply child_run. intros i [p cs] Hi.
    assert (E : calls' = take i calls' ++ (p, cs) :: drop (S i) calls') by (symmetry; apply take_drop_middle; exact Hi).
    assert (Hin : (p, cs) ∈ calls) by (rewrite <- P; exact (elem_of_list_lookup_2 _ _ _ Hi)).
    apply elem_of_list_split in Hin as (before & after & Ec). pose proof (H before p cs after Ec) as A. cbn [fst snd].
    refine (accepted_mono _ _ p cs _ A). intros r. rewrite !edges_all. apply submseteq_app; [reflexivity|].
    assert (Q : take i calls' ++ drop (S i) calls' ≡ₚ before ++ after).
    { apply (Permutation_cons_inv (a := (p, cs))). rewrite !Permutation_middle, <- Ec, <- P, <- E. reflexivity. }
    rewrite <- Q, bind_app. apply submseteq_inserts_r. reflexivity.
Qed.
