(** The roles and their permissions, told from the calls made. *)
From Verif Require Import V1Code V1Inv.
From Verif Require Export V1CallsStep.

Definition f_desc (hp : rheap) (l : nat) (id : string) : option nat := r ← h_roles hp !! l; r_desc r !! id.
Definition f_perms (hp : rheap) (l : nat) (grp : string) : option nat := r ← h_roles hp !! l; r_perms r !! grp.
Definition g_has (hp : rheap) (gl : nat) (k : string) : Prop := exists g, h_groups hp !! gl = Some g /\ is_Some (g_perms g !! k).
Definition made (h : log) (gl : nat) : Prop := exists id, group_named h gl id.

Record tells_roles (h : log) (hp : rheap) : Prop := {
  th_role : forall l id, role_named h l id <-> has_id hp l id;
  th_sub : forall l id d, sub_named h l id d <-> f_desc hp l id = Some d
}.
Record tells_groups (h : log) (hp : rheap) : Prop := {
  th_group : forall gl id, group_named h gl id -> exists g, h_groups hp !! gl = Some g /\ g_id g = id;
  th_called : forall gl attrs, called h (UGroupAdd gl attrs) -> made h gl;
  th_handed : forall l grp gl, store_of h l grp (Handed gl) <-> f_perms hp l grp = Some gl /\ made h gl;
  th_own : forall l grp, store_of h l grp Own <-> exists gl, f_perms hp l grp = Some gl /\ ~ made h gl;
  th_private : forall l grp gl l' grp', ~ made h gl -> f_perms hp l grp = Some gl -> f_perms hp l' grp' = Some gl -> l' = l /\ grp' = grp;
  th_given : forall l grp a, given h l grp a -> is_Some (f_perms hp l grp);
  th_has : forall gl k, made h gl -> g_has hp gl k <-> exists a, attr_string a = k /\ handed h gl a;
  th_keeps : forall l grp gl k, ~ made h gl -> f_perms hp l grp = Some gl -> g_has hp gl k <-> exists a, attr_string a = k /\ given h l grp a
}.

Lemma made_dec h gl : made h gl \/ ~ made h gl.
Proof.
  induction h as [|[x y] h IH]; [right; intros (id & H); exact (not_elem_of_nil _ H)|].
  destruct IH as [(id & H)|N]; [left; exists id; right; exact H|].
  assert (D : (exists id, (x, y) = (UNewGroup id, YLoc gl)) \/ forall id, (x, y) <> (UNewGroup id, YLoc gl)).
  { destruct x; try (right; discriminate). destruct y as [|l| | |]; try (right; discriminate).
    destruct (decide (l = gl)) as [->|M]; [left; exists id; reflexivity|right; intros id' [= _ E]; exact (M E)]. }
  destruct D as [(id & E)|D]; [left; exists id; rewrite E; left|right].
  intros (id & H). apply elem_of_cons in H as [E|H]; [exact (D id (eq_sym E))|apply N; exists id; exact H].
Qed.

(** ** Calls that say nothing about a part *)
Definition same_roles (h : log) (e : uop * uout) : Prop := forall l id, role_named (e :: h) l id <-> role_named h l id.
Definition same_subs (h : log) (e : uop * uout) : Prop := forall l id d, sub_named (e :: h) l id d <-> sub_named h l id d.
Definition same_groups (h : log) (e : uop * uout) : Prop := forall l id, group_named (e :: h) l id <-> group_named h l id.
Definition same_adds (h : log) (e : uop * uout) : Prop := forall gl attrs, called (e :: h) (UGroupAdd gl attrs) <-> called h (UGroupAdd gl attrs).
Definition same_stores (h : log) (e : uop * uout) : Prop := forall l grp w, store_of (e :: h) l grp w <-> store_of h l grp w.
Definition same_given (h : log) (e : uop * uout) : Prop := forall l grp a, given (e :: h) l grp a <-> given h l grp a.

Lemma elem_skip {A} (a b : A) l : b <> a -> b ∈ a :: l <-> b ∈ l.
Proof. intros N. rewrite elem_of_cons. tauto. Qed.
Lemma named_skip h x y : (forall id, x <> UNewRole id) -> same_roles h (x, y).
Proof. intros N l id. apply elem_skip. intros [= E _]. exact (N _ (eq_sym E)). Qed.
Lemma groups_skip h x y : (forall id, x <> UNewGroup id) -> same_groups h (x, y).
Proof. intros N l id. apply elem_skip. intros [= E _]. exact (N _ (eq_sym E)). Qed.
Lemma adds_skip h x y : (forall gl attrs, x <> UGroupAdd gl attrs) -> same_adds h (x, y).
Proof. intros N l id. apply called_skip. intros E. exact (N _ _ (eq_sym E)). Qed.
Lemma subs_skip h x y : (forall l ds, (x, y) <> (URoleAddDescendent l ds, YErr None)) -> same_subs h (x, y).
Proof. intros N l id d. apply first_skip. intros b (ds & E & _). exact (N _ _ E). Qed.
Lemma given_skip h x y : (forall l grp attrs, ~ accepts h (x, y) l grp attrs) -> same_given h (x, y).
Proof. intros N l grp a. apply ever_skip. intros (attrs & E & _). exact (N _ _ _ E). Qed.
Lemma stores_skip h x y : (forall l grp attrs, ~ accepts h (x, y) l grp attrs) -> (forall l gl, (x, y) <> (URoleAddGroup l gl, YErr None)) -> same_stores h (x, y).
Proof. intros N M l grp a. apply first_skip. intros b [[_ (attrs & E)]|(gl & _ & E & _)]; [exact (N _ _ _ E)|exact (M _ _ E)]. Qed.

(** ** Roles *)
Lemma roles_quiet h hp x y hp' : same_roles h (x, y) -> same_subs h (x, y) -> (forall l id, has_id hp' l id <-> has_id hp l id) ->
  (forall l id, f_desc hp' l id = f_desc hp l id) -> tells_roles h hp -> tells_roles ((x, y) :: h) hp'.
Proof.
  intros R S I D T. split.
  - intros l id. rewrite (R l id), I. apply (th_role _ _ T).
  - intros l id d. rewrite (S l id d), D. apply (th_sub _ _ T).
Qed.
Lemma new_has_id hp id l i : has_id (new_role hp id).2 l i <-> has_id hp l i \/ l = length (h_roles hp) /\ i = id.
Proof.
  unfold has_id. cbn [new_role snd h_roles]. split.
  - intros (r & Hr & E). apply lookup_app_Some in Hr as [Hr|[Hl Hr]]; [left; exists r; split; assumption|right].
    apply list_lookup_singleton_Some in Hr as [E0 <-]. split; [lia|exact (eq_sym E)].
  - intros [(r & Hr & E)|[-> ->]]; [exists r; split; [apply lookup_app_l_Some; exact Hr|exact E]|].
    eexists. split; [apply list_lookup_middle; reflexivity|reflexivity].
Qed.
Lemma new_desc hp id l i : f_desc (new_role hp id).2 l i = f_desc hp l i.
Proof.
  unfold f_desc. cbn [new_role snd h_roles]. destruct (h_roles hp !! l) as [r|] eqn:E; [rewrite (lookup_app_l_Some _ _ _ _ E); reflexivity|].
  rewrite lookup_app_r by (apply lookup_ge_None; exact E). destruct (l - length (h_roles hp)) as [|k]; [apply lookup_empty|destruct k; reflexivity].
Qed.
Lemma new_perms hp id l i : f_perms (new_role hp id).2 l i = f_perms hp l i.
Proof.
  unfold f_perms. cbn [new_role snd h_roles]. destruct (h_roles hp !! l) as [r|] eqn:E; [rewrite (lookup_app_l_Some _ _ _ _ E); reflexivity|].
  rewrite lookup_app_r by (apply lookup_ge_None; exact E). destruct (l - length (h_roles hp)) as [|k]; [apply lookup_empty|destruct k; reflexivity].
Qed.
Lemma roles_new h hp id : tells_roles h hp -> tells_roles ((UNewRole id, YLoc (length (h_roles hp))) :: h) (new_role hp id).2.
Proof.
  intros T. split.
  - intros l i. rewrite new_has_id. unfold role_named. rewrite elem_of_cons. rewrite <- (th_role _ _ T). split.
    + intros [[= -> ->]|H]; [right; split; reflexivity|left; exact H].
    + intros [H|[-> ->]]; [right; exact H|left; reflexivity].
  - intros l i d. rewrite new_desc, <- (th_sub _ _ T). apply subs_skip. discriminate.
Qed.
Lemma set_role_at hp l r r' l' : h_roles hp !! l = Some r -> h_roles (set_role hp l r') !! l' = if decide (l' = l) then Some r' else h_roles hp !! l'.
Proof.
  intros H. cbn. destruct (decide (l' = l)) as [->|N]; [apply list_lookup_insert, (lookup_lt_Some _ _ _ H)|apply list_lookup_insert_ne; congruence].
Qed.
Lemma set_group_at hp l r r' l' : h_groups hp !! l = Some r -> h_groups (set_group hp l r') !! l' = if decide (l' = l) then Some r' else h_groups hp !! l'.
Proof.
  intros H. cbn. destruct (decide (l' = l)) as [->|N]; [apply list_lookup_insert, (lookup_lt_Some _ _ _ H)|apply list_lookup_insert_ne; congruence].
Qed.
Lemma set_role_id hp l r r' : h_roles hp !! l = Some r -> r_id r' = r_id r -> forall l' id, has_id (set_role hp l r') l' id <-> has_id hp l' id.
Proof.
  intros H E l' id. unfold has_id. rewrite (set_role_at _ _ _ _ _ H). case_decide as D; [subst l'|reflexivity]. rewrite H.
  split; intros (x & [= <-] & <-); eexists; (split; [reflexivity|]); congruence.
Qed.
Lemma set_role_perms hp l r r' : h_roles hp !! l = Some r -> r_perms r' = r_perms r -> forall l' id, f_perms (set_role hp l r') l' id = f_perms hp l' id.
Proof.
  intros H E l' id. unfold f_perms. rewrite (set_role_at _ _ _ _ _ H). case_decide as D; [subst l'|reflexivity]. rewrite H. cbn. rewrite E. reflexivity.
Qed.
Lemma set_role_desc hp l r r' : h_roles hp !! l = Some r -> r_desc r' = r_desc r -> forall l' id, f_desc (set_role hp l r') l' id = f_desc hp l' id.
Proof.
  intros H E l' id. unfold f_desc. rewrite (set_role_at _ _ _ _ _ H). case_decide as D; [subst l'|reflexivity]. rewrite H. cbn. rewrite E. reflexivity.
Qed.
Lemma desc_loop hp ds desc desc' : add_descendants_loop hp desc ds = Ok desc' -> forall id d,
  desc' !! id = Some d <-> desc !! id = Some d \/ desc !! id = None /\ first_in (fun d' => has_id hp d' id) ds d.
Proof.
  revert desc. induction ds as [|x ds IH]; intros desc H id d; cbn in H.
  - injection H as <-. split; [left; assumption|]. intros [H|[_ H]]; [exact H|destruct (first_in_nil _ _ H)].
  - destruct (h_roles hp !! x) as [c|] eqn:E; [|discriminate]. rewrite (IH _ H id d). clear IH H.
    assert (N : r_id c <> id -> ~ has_id hp x id) by (intros N (r & Hr & <-); apply N; congruence).
    rewrite (first_in_cons (fun d' => has_id hp d' id)). destruct (desc !! r_id c) as [z|] eqn:Ed.
    + destruct (decide (r_id c = id)) as [D|D].
      * subst id. rewrite Ed. split; (intros [H|[H _]]; [left; exact H|discriminate]).
      * specialize (N D). tauto.
    + destruct (decide (r_id c = id)) as [D|D].
      * subst id. rewrite lookup_insert, Ed. split.
        -- intros [[= <-]|[? _]]; [right; split; [reflexivity|left; split; [exists c; split; [exact E|reflexivity]|reflexivity]]|discriminate].
        -- intros [?|[_ [[_ ->]|[Hn _]]]]; [discriminate|left; reflexivity|destruct Hn; exists c; split; [exact E|reflexivity]].
      * rewrite lookup_insert_ne by exact D. specialize (N D). tauto.
Qed.
Lemma roles_desc h hp l ds hp' e : role_add_descendant hp l ds = Ok (hp', e) -> tells_roles h hp -> tells_roles ((URoleAddDescendent l ds, YErr e) :: h) hp'.
Proof.
  intros H T. unfold role_add_descendant in H. destruct (h_roles hp !! l) as [r|] eqn:E; [|discriminate]. destruct (r_lock r) eqn:El.
  { injection H as <- <-. apply (roles_quiet h hp); [apply named_skip; discriminate|apply subs_skip; discriminate|intros l0 id0; reflexivity|intros l0 id0; reflexivity|exact T]. }
  rewrite rbind_ok in H. destruct H as (desc & Hl & [= <- <-]). split.
  - intros l' id. rewrite (set_role_id hp l r) by (exact E || reflexivity). assert (NS : same_roles h (URoleAddDescendent l ds, YErr None)) by (apply named_skip; discriminate). rewrite (NS l' id). apply (th_role _ _ T).
  - intros l' id d. unfold f_desc. rewrite (set_role_at hp l r) by exact E. pose proof (desc_loop _ _ _ _ Hl id d) as L. clear Hl.
    assert (Q : sub_named ((URoleAddDescendent l ds, YErr None) :: h) l' id d <-> sub_named h l' id d \/ (forall b, ~ sub_named h l' id b) /\ l' = l /\ first_in (fun d' => has_id hp d' id) ds d).
    { unfold sub_named at 1. cbn [first_of]. fold (sub_named h l' id). split; (intros [H0|[N H0]]; [left; exact H0|right; split; [exact N|]]).
      - destruct H0 as (ds' & [= -> ->] & H1). split; [reflexivity|]. destruct H1 as (l1 & l2 & -> & Ha & Hb). exists l1, l2. split; [reflexivity|].
        split; [apply (th_role _ _ T); exact Ha|]. eapply Forall_impl; [exact Hb|]. intros b0 Nb Hh. apply Nb, (th_role _ _ T), Hh.
      - destruct H0 as [-> H1]. exists ds. split; [reflexivity|]. destruct H1 as (l1 & l2 & -> & Ha & Hb). exists l1, l2. split; [reflexivity|].
        split; [apply (th_role _ _ T); exact Ha|]. eapply Forall_impl; [exact Hb|]. intros b0 Nb Hh. apply Nb, (th_role _ _ T), Hh. }
    rewrite Q. clear Q. case_decide as D.
    + subst l'. cbn [mbind option_bind r_desc]. rewrite L. rewrite (th_sub _ _ T). unfold f_desc at 1. rewrite E. cbn [mbind option_bind].
      split; (intros [H0|[N H0]]; [left; exact H0|right]).
      * split; [|apply H0]. destruct (r_desc r !! id) as [z|] eqn:Ez; [|reflexivity]. destruct (N z). apply (th_sub _ _ T). unfold f_desc. rewrite E. exact Ez.
      * split; [|split; [reflexivity|exact H0]]. intros b Hb. apply (th_sub _ _ T) in Hb. unfold f_desc in Hb. rewrite E in Hb. cbn in Hb. congruence.
    + fold (f_desc hp l' id). rewrite <- (th_sub _ _ T). split; [intros [H0|(_ & H0 & _)]; [exact H0|destruct (D H0)]|left; assumption].
Qed.

(** ** Groups *)
Lemma same_handed h x y : same_adds h (x, y) -> same_stores h (x, y) -> same_given h (x, y) -> forall gl a, handed ((x, y) :: h) gl a <-> handed h gl a.
Proof.
  intros A S G gl a. unfold handed. apply or_iff_compat_r || idtac.
  split; (intros [(attrs & H & Ha)|(l & grp & H & Ha)]; [left; exists attrs|right; exists l, grp]);
    (split; [first [apply A; exact H|apply (S l grp (Handed gl)); exact H]|first [exact Ha|apply (G l grp a); exact Ha]]).
Qed.
Lemma same_made h x y : same_groups h (x, y) -> forall gl, made ((x, y) :: h) gl <-> made h gl.
Proof. intros S gl. split; intros (id & H); exists id; apply S; exact H. Qed.
Lemma groups_quiet h hp x y hp' : same_groups h (x, y) -> same_adds h (x, y) -> same_stores h (x, y) -> same_given h (x, y) ->
  (forall l grp, f_perms hp' l grp = f_perms hp l grp) -> (forall gl g, h_groups hp !! gl = Some g -> exists g', h_groups hp' !! gl = Some g' /\ g_id g' = g_id g) ->
  (forall gl k, g_has hp' gl k <-> g_has hp gl k) -> tells_groups h hp -> tells_groups ((x, y) :: h) hp'.
Proof.
  intros SG SA SS SV EP EG EH T. pose proof (same_made _ _ _ SG) as SM. pose proof (same_handed _ _ _ SA SS SV) as SH. split.
  - intros gl id H. apply SG in H. destruct (th_group _ _ T _ _ H) as (g & Hg & E). destruct (EG _ _ Hg) as (g' & Hg' & E'). exists g'. split; [exact Hg'|congruence].
  - intros gl attrs H. apply SM. apply SA in H. exact (th_called _ _ T _ _ H).
  - intros l grp gl. rewrite (SS l grp (Handed gl)), EP, SM. apply (th_handed _ _ T).
  - intros l grp. rewrite (SS l grp Own), (th_own _ _ T). split; intros (gl & H & N); exists gl; (split; [rewrite EP in * || rewrite <- EP in *; exact H|rewrite SM in * || rewrite <- SM in *; exact N]).
  - intros l grp gl l' grp'. rewrite SM, !EP. apply (th_private _ _ T).
  - intros l grp a H. rewrite EP. apply (th_given _ _ T l grp a), (SV l grp a), H.
  - intros gl k H. rewrite EH. rewrite (th_has _ _ T gl k) by (apply SM; exact H). split; intros (a & E & Ha); exists a; (split; [exact E|apply SH; exact Ha]).
  - intros l grp gl k N. rewrite EP. intros H. rewrite EH. rewrite (th_keeps _ _ T l grp gl k) by (first [exact H|intros M; apply N, SM, M]).
    split; intros (a & E & Ha); exists a; (split; [exact E|apply (SV l grp a); exact Ha]).
Qed.
Lemma perms_valid hp l grp gl : wf_heap hp -> f_perms hp l grp = Some gl -> gl < length (h_groups hp).
Proof.
  intros (_ & W & _) H. unfold f_perms in H. destruct (h_roles hp !! l) as [r|] eqn:E; [|discriminate]. destruct (W _ _ _ _ E H) as (g & Hg & _). exact (lookup_lt_Some _ _ _ Hg).
Qed.
Lemma made_valid h hp gl : tells_groups h hp -> made h gl -> gl < length (h_groups hp).
Proof. intros T (id & H). destruct (th_group _ _ T _ _ H) as (g & Hg & _). exact (lookup_lt_Some _ _ _ Hg). Qed.
Lemma handed_made h hp gl a : tells_groups h hp -> handed h gl a -> made h gl.
Proof. intros T [(attrs & H & _)|(l & grp & H & _)]; [exact (th_called _ _ T _ _ H)|apply (th_handed _ _ T) in H; apply H]. Qed.
Lemma groups_new h hp id : wf_heap hp -> tells_groups h hp -> tells_groups ((UNewGroup id, YLoc (length (h_groups hp))) :: h) (new_group hp id).2.
Proof.
  intros W T. set (n := length (h_groups hp)). assert (SA : same_adds h (UNewGroup id, YLoc n)) by (apply adds_skip; discriminate).
  assert (NA : forall l grp attrs, ~ accepts h (UNewGroup id, YLoc n) l grp attrs) by (intros l grp attrs [?|(r & ? & _)]; discriminate).
  assert (SS : same_stores h (UNewGroup id, YLoc n)) by (apply stores_skip; [exact NA|discriminate]).
  assert (SV : same_given h (UNewGroup id, YLoc n)) by (apply given_skip; exact NA). pose proof (same_handed _ _ _ SA SS SV) as SH.
  assert (SM : forall gl, made ((UNewGroup id, YLoc n) :: h) gl <-> gl = n \/ made h gl).
  { intros gl. unfold made, group_named. split.
    - intros (i & H). apply elem_of_cons in H as [[= _ ->]|H]; [left; reflexivity|right; exists i; exact H].
    - intros [->|(i & H)]; [exists id; left|exists i; right; exact H]. }
  assert (EP : forall l grp, f_perms (new_group hp id).2 l grp = f_perms hp l grp) by reflexivity.
  assert (EG : forall gl g, h_groups (new_group hp id).2 !! gl = Some g <-> h_groups hp !! gl = Some g \/ gl = n /\ g = Group id ∅).
  { intros gl g. cbn [new_group snd h_groups]. rewrite lookup_app_Some, list_lookup_singleton_Some. fold n. split.
    - intros [H|(Hl & E & <-)]; [left; exact H|right; split; [lia|reflexivity]].
    - intros [H|[-> ->]]; [left; exact H|right; split; [lia|split; [lia|reflexivity]]]. }
  assert (EH : forall gl k, g_has (new_group hp id).2 gl k <-> g_has hp gl k).
  { intros gl k. split.
    - intros (g & Hg & Hk). apply EG in Hg as [Hg|[-> ->]]; [exists g; split; assumption|]. destruct Hk as [a Ha]. cbn in Ha. rewrite lookup_empty in Ha. discriminate.
    - intros (g & Hg & Hk). exists g. split; [apply EG; left; exact Hg|exact Hk]. }
  assert (FR : forall l grp gl, f_perms hp l grp = Some gl -> gl <> n) by (intros l grp gl H ->; apply (perms_valid _ _ _ _ W) in H; subst n; lia). split.
  - intros gl i H. apply elem_of_cons in H as [[= -> ->]|H]; [exists (Group id ∅); split; [apply EG; right; split; reflexivity|reflexivity]|].
    destruct (th_group _ _ T _ _ H) as (g & Hg & E). exists g. split; [apply EG; left; exact Hg|exact E].
  - intros gl attrs H. apply SM. right. apply SA in H. exact (th_called _ _ T _ _ H).
  - intros l grp gl. rewrite (SS l grp (Handed gl)), EP, SM, (th_handed _ _ T). split; intros [H N]; (split; [exact H|]); [right; exact N|].
    destruct N as [N|N]; [destruct (FR _ _ _ H N)|exact N].
  - intros l grp. rewrite (SS l grp Own), (th_own _ _ T). split; intros (gl & H & N); exists gl; (split; [exact H|]); rewrite SM in *; [|tauto].
    intros [E|M]; [exact (FR _ _ _ H E)|exact (N M)].
  - intros l grp gl l' grp'. rewrite SM, !EP. intros N. apply (th_private _ _ T). tauto.
  - intros l grp a H. rewrite EP. apply (th_given _ _ T l grp a), (SV l grp a), H.
  - intros gl k H. rewrite EH. apply SM in H as [->|H].
    + split.
      * intros (g & Hg & _). apply lookup_lt_Some in Hg. subst n. lia.
      * intros (a & _ & Ha). apply SH, (handed_made _ _ _ _ T), (made_valid _ _ _ T) in Ha. subst n. lia.
    + rewrite (th_has _ _ T gl k H). split; intros (a & E & Ha); exists a; (split; [exact E|apply SH; exact Ha]).
  - intros l grp gl k N. rewrite EP. intros H. rewrite EH. rewrite (th_keeps _ _ T l grp gl k) by (first [exact H|intros M; apply N, SM; right; exact M]).
    split; intros (a & E & Ha); exists a; (split; [exact E|apply (SV l grp a); exact Ha]).
Qed.
Lemma folded attrs (m : gmap string attr) k : is_Some (foldl (fun m a => <[attr_string a := a]> m) m attrs !! k) <-> is_Some (m !! k) \/ exists a, a ∈ attrs /\ attr_string a = k.
Proof.
  revert m. induction attrs as [|a attrs IH]; intros m; cbn [foldl].
  - split; [left; assumption|]. intros [H|(a & H & _)]; [exact H|destruct (not_elem_of_nil _ H)].
  - rewrite IH, lookup_insert_is_Some. split.
    + intros [[E|[_ H]]|(b & Hb & E)]; [right; exists a; split; [left|exact E]|left; exact H|right; exists b; split; [right; exact Hb|exact E]].
    + intros [H|(b & Hb & E)].
      * left. destruct (decide (attr_string a = k)) as [E|N]; [left; exact E|right; split; assumption].
      * apply elem_of_cons in Hb as [->|Hb]; [left; left; exact E|right; exists b; split; assumption].
Qed.
Lemma missing attrs (m : gmap string attr) k : is_Some (add_missing m attrs !! k) <-> is_Some (m !! k) \/ exists a, a ∈ attrs /\ attr_string a = k.
Proof.
  unfold add_missing. revert m. induction attrs as [|a attrs IH]; intros m; cbn [foldl].
  - split; [left; assumption|]. intros [H|(a & H & _)]; [exact H|destruct (not_elem_of_nil _ H)].
  - rewrite IH. clear IH. assert (E0 : is_Some (match m !! attr_string a with Some _ => m | None => <[attr_string a := a]> m end !! k) <-> is_Some (m !! k) \/ attr_string a = k).
    { destruct (m !! attr_string a) as [z|] eqn:E.
      - split; [left; assumption|]. intros [H|<-]; [exact H|exists z; exact E].
      - rewrite lookup_insert_is_Some. destruct (decide (attr_string a = k)) as [D|N]; [tauto|]. split; [intros [?|[_ ?]]; [right; assumption|left; assumption]|intros [?|?]; [right; split; assumption|contradiction]]. }
    rewrite E0. clear E0. split.
    + intros [[H|E]|(b & Hb & E)]; [left; exact H|right; exists a; split; [left|exact E]|right; exists b; split; [right; exact Hb|exact E]].
    + intros [H|(b & Hb & E)]; [left; left; exact H|]. apply elem_of_cons in Hb as [->|Hb]; [left; right; exact E|right; exists b; split; assumption].
Qed.
Lemma groups_add h hp gl0 attrs hp' : made h gl0 -> add_attributes hp gl0 attrs = Ok hp' -> tells_groups h hp -> tells_groups ((UGroupAdd gl0 attrs, YUnit) :: h) hp'.
Proof.
  intros M0 H T. unfold add_attributes in H. destruct (h_groups hp !! gl0) as [g0|] eqn:E0; [|discriminate]. injection H as <-.
  assert (SG : same_groups h (UGroupAdd gl0 attrs, YUnit)) by (apply groups_skip; discriminate).
  assert (NA : forall l grp attrs', ~ accepts h (UGroupAdd gl0 attrs, YUnit) l grp attrs') by (intros l grp attrs' [?|(r & ? & _)]; discriminate).
  assert (SS : same_stores h (UGroupAdd gl0 attrs, YUnit)) by (apply stores_skip; [exact NA|discriminate]).
  assert (SV : same_given h (UGroupAdd gl0 attrs, YUnit)) by (apply given_skip; exact NA). pose proof (same_made _ _ _ SG) as SM.
  assert (SH : forall gl a, handed ((UGroupAdd gl0 attrs, YUnit) :: h) gl a <-> handed h gl a \/ gl = gl0 /\ a ∈ attrs).
  { intros gl a. unfold handed. split.
    - intros [(at' & H & Ha)|(l & grp & H & Ha)].
      + apply called_cons in H as [[= -> ->]|H]; [right; split; [reflexivity|exact Ha]|left; left; exists at'; split; assumption].
      + left. right. exists l, grp. split; [apply SS; exact H|apply SV; exact Ha].
    - intros [[(at' & H & Ha)|(l & grp & H & Ha)]|[-> Ha]].
      + left. exists at'. split; [apply called_cons; right; exact H|exact Ha].
      + right. exists l, grp. split; [apply SS; exact H|apply SV; exact Ha].
      + left. exists attrs. split; [apply called_cons; left; reflexivity|exact Ha]. }
  set (hp' := set_group hp gl0 _). assert (EP : forall l grp, f_perms hp' l grp = f_perms hp l grp) by reflexivity.
  assert (EH : forall gl k, g_has hp' gl k <-> g_has hp gl k \/ gl = gl0 /\ exists a, a ∈ attrs /\ attr_string a = k).
  { intros gl k. unfold g_has. subst hp'. rewrite (set_group_at _ _ _ _ _ E0). case_decide as D.
    - subst gl. rewrite E0. split.
      + intros (g & [= <-] & Hk). cbn [g_perms] in Hk. apply folded in Hk as [Hk|Hk]; [left; exists g0; split; [reflexivity|exact Hk]|right; split; [reflexivity|exact Hk]].
      + intros Hk. eexists. split; [reflexivity|]. cbn [g_perms]. apply folded. destruct Hk as [(g & [= <-] & Hk)|[_ Hk]]; [left; exact Hk|right; exact Hk].
    - split; [left; assumption|]. intros [H|[H _]]; [exact H|destruct (D H)]. }
  split.
  - intros gl id H. apply SG in H. destruct (th_group _ _ T _ _ H) as (g & Hg & E). subst hp'. rewrite (set_group_at _ _ _ _ _ E0). case_decide as D; [|exists g; split; assumption].
    subst gl. eexists. split; [reflexivity|]. cbn [g_id]. congruence.
  - intros gl attrs' H. apply SM. apply called_cons in H as [[= -> _]|H]; [exact M0|exact (th_called _ _ T _ _ H)].
  - intros l grp gl. rewrite (SS l grp (Handed gl)), EP, SM. apply (th_handed _ _ T).
  - intros l grp. rewrite (SS l grp Own), (th_own _ _ T). split; intros (gl & H & N); exists gl; (split; [exact H|intros M; apply N, SM, M]).
  - intros l grp gl l' grp'. rewrite SM, !EP. apply (th_private _ _ T).
  - intros l grp a H. rewrite EP. apply (th_given _ _ T l grp a), (SV l grp a), H.
  - intros gl k H. apply SM in H. rewrite EH, (th_has _ _ T gl k H). split.
    + intros [(a & E & Ha)|(-> & a & Ha & E)]; exists a; (split; [exact E|apply SH]); [left; exact Ha|right; split; [reflexivity|exact Ha]].
    + intros (a & E & Ha). apply SH in Ha as [Ha|[-> Ha]]; [left; exists a; split; assumption|right; split; [reflexivity|exists a; split; assumption]].
  - intros l grp gl k N. rewrite EP. intros H. rewrite SM in N. rewrite EH, (th_keeps _ _ T l grp gl k N H). split.
    + intros [(a & E & Ha)|(-> & _)]; [exists a; split; [exact E|apply (SV l grp a); exact Ha]|destruct (N M0)].
    + intros (a & E & Ha). left. exists a. split; [exact E|apply (SV l grp a); exact Ha].
Qed.
Lemma no_store h hp l grp : tells_groups h hp -> (forall w, ~ store_of h l grp w) <-> f_perms hp l grp = None.
Proof.
  intros T. split.
  - intros N. destruct (f_perms hp l grp) as [gl|] eqn:E; [|reflexivity]. destruct (made_dec h gl) as [M|M].
    + destruct (N (Handed gl)). apply (th_handed _ _ T). split; assumption.
    + destruct (N Own). apply (th_own _ _ T). exists gl. split; assumption.
  - intros E [|gl] H; [apply (th_own _ _ T) in H as (gl & H & _)|apply (th_handed _ _ T) in H as [H _]]; congruence.
Qed.
Lemma groups_permission h hp x l grp attrs hp' : wf_heap hp ->
  (forall l' grp' attrs', accepts h (x, YErr None) l' grp' attrs' <-> l' = l /\ grp' = grp /\ attrs' = attrs) ->
  (forall id, x <> UNewGroup id) -> (forall gl at', x <> UGroupAdd gl at') -> (forall l gl, x <> URoleAddGroup l gl) ->
  role_add_permission hp l grp attrs = Ok (hp', None) -> tells_groups h hp -> tells_groups ((x, YErr None) :: h) hp'.
Proof.
  intros W AC N1 N2 N3 H T.
  assert (SG : same_groups h (x, YErr None)) by (apply groups_skip; exact N1).
  assert (SA : same_adds h (x, YErr None)) by (apply adds_skip; exact N2). pose proof (same_made _ _ _ SG) as SM.
  assert (SV : forall l' grp' a, given ((x, YErr None) :: h) l' grp' a <-> given h l' grp' a \/ l' = l /\ grp' = grp /\ a ∈ attrs).
  { intros l' grp' a. unfold given at 1. cbn [ever]. fold (given h l' grp' a). split.
    - intros [(at' & Ha & Hin)|Hg]; [right|left; exact Hg]. apply AC in Ha as (-> & -> & ->). split; [reflexivity|split; [reflexivity|exact Hin]].
    - intros [Hg|(-> & -> & Hin)]; [right; exact Hg|left]. exists attrs. split; [apply AC; split; [reflexivity|split; reflexivity]|exact Hin]. }
  assert (SS : forall l' grp' w, store_of ((x, YErr None) :: h) l' grp' w <-> store_of h l' grp' w \/ f_perms hp l' grp' = None /\ w = Own /\ l' = l /\ grp' = grp).
  { intros l' grp' w. unfold store_of at 1. cbn [first_of]. fold (store_of h l' grp'). rewrite (no_store h hp l' grp' T). split; (intros [H0|[H0 H1]]; [left; exact H0|right; split; [exact H0|]]).
    - destruct H1 as [(-> & at' & Ha)|(gl & _ & [= E] & _)]; [|destruct (N3 _ _ E)]. apply AC in Ha as (-> & -> & _). split; [reflexivity|split; reflexivity].
    - left. destruct H1 as (-> & -> & ->). split; [reflexivity|]. exists attrs. apply AC. split; [reflexivity|split; reflexivity]. }
  unfold role_add_permission in H. destruct (h_roles hp !! l) as [r|] eqn:Er; [|discriminate]. destruct (r_lock r); [discriminate|].
  assert (Ep : f_perms hp l grp = r_perms r !! grp) by (unfold f_perms; rewrite Er; reflexivity). destruct (r_perms r !! grp) as [gl0|] eqn:Eg.
  - destruct (h_groups hp !! gl0) as [g0|] eqn:E0; [|discriminate]. injection H as <-. set (hp' := set_group hp gl0 _).
    assert (SS' : same_stores h (x, YErr None)).
    { intros l' grp' w. rewrite SS. split; [|left; assumption]. intros [H0|(H0 & _ & -> & ->)]; [exact H0|congruence]. }
    assert (EP : forall l grp, f_perms hp' l grp = f_perms hp l grp) by reflexivity.
    assert (EH : forall gl k, g_has hp' gl k <-> g_has hp gl k \/ gl = gl0 /\ exists a, a ∈ attrs /\ attr_string a = k).
    { intros gl k. unfold g_has. subst hp'. rewrite (set_group_at _ _ _ _ _ E0). case_decide as D.
      - subst gl. rewrite E0. split.
        + intros (g & [= <-] & Hk). cbn [g_perms] in Hk. apply missing in Hk as [Hk|Hk]; [left; exists g0; split; [reflexivity|exact Hk]|right; split; [reflexivity|exact Hk]].
        + intros Hk. eexists. split; [reflexivity|]. cbn [g_perms]. apply missing. destruct Hk as [(g & [= <-] & Hk)|[_ Hk]]; [left; exact Hk|right; exact Hk].
      - split; [left; assumption|]. intros [H|[H _]]; [exact H|destruct (D H)]. }
    split.
    + intros gl id H. apply SG in H. destruct (th_group _ _ T _ _ H) as (g & Hg & E). subst hp'. rewrite (set_group_at _ _ _ _ _ E0). case_decide as D; [|exists g; split; assumption].
      subst gl. eexists. split; [reflexivity|]. cbn [g_id]. congruence.
    + intros gl attrs' H. apply SM. apply SA in H. exact (th_called _ _ T _ _ H).
    + intros l' grp' gl. rewrite (SS' l' grp' (Handed gl)), EP, SM. apply (th_handed _ _ T).
    + intros l' grp'. rewrite (SS' l' grp' Own), (th_own _ _ T). split; intros (gl & H & N); exists gl; (split; [exact H|intros M; apply N, SM, M]).
    + intros l1 grp1 gl l2 grp2. rewrite SM, !EP. apply (th_private _ _ T).
    + intros l' grp' a H. rewrite EP. apply SV in H as [H|(-> & -> & _)]; [apply (th_given _ _ T l' grp' a H)|rewrite Ep; eexists; reflexivity].
    + intros gl k H. apply SM in H. rewrite EH, (th_has _ _ T gl k H). split.
      * intros [(a & E & Ha)|(-> & a & Ha & E)]; exists a; (split; [exact E|]).
        -- destruct Ha as [(at' & H1 & H2)|(l' & grp' & H1 & H2)]; [left; exists at'; split; [apply SA; exact H1|exact H2]|right; exists l', grp'; split; [apply SS'; exact H1|apply SV; left; exact H2]].
        -- right. exists l, grp. split; [apply SS', (th_handed _ _ T); split; [exact Ep|exact H]|apply SV; right; split; [reflexivity|split; [reflexivity|exact Ha]]].
      * intros (a & E & [(at' & H1 & H2)|(l' & grp' & H1 & H2)]).
        -- left. exists a. split; [exact E|left; exists at'; split; [apply SA; exact H1|exact H2]].
        -- apply SS' in H1. apply SV in H2 as [H2|(-> & -> & H2)]; [left; exists a; split; [exact E|right; exists l', grp'; split; assumption]|right].
           apply (th_handed _ _ T) in H1 as [H1 _]. split; [congruence|exists a; split; assumption].
    + intros l' grp' gl k N. rewrite EP. intros H. rewrite SM in N. rewrite EH, (th_keeps _ _ T l' grp' gl k N H). split.
      * intros [(a & E & Ha)|(-> & a & Ha & E)]; exists a; (split; [exact E|apply SV]); [left; exact Ha|right].
        destruct (th_private _ _ T _ _ _ _ _ N Ep H) as [-> ->]. split; [reflexivity|split; [reflexivity|exact Ha]].
      * intros (a & E & Ha). apply SV in Ha as [Ha|(-> & -> & Ha)]; [left; exists a; split; assumption|right]. split; [congruence|exists a; split; assumption].
  - injection H as <-. set (n := length (h_groups hp)). set (hp' := RHeap _ _).
    assert (EP : forall l' grp', f_perms hp' l' grp' = if decide (l' = l /\ grp' = grp) then Some n else f_perms hp l' grp').
    { intros l' grp'. unfold f_perms. change (h_roles hp') with (h_roles (set_role hp l (Role (r_id r) false (<[grp:=n]> (r_perms r)) (r_desc r)))).
      rewrite (set_role_at _ _ _ _ _ Er). destruct (decide (l' = l)) as [D|D].
      - subst l'. rewrite Er. cbn [mbind option_bind r_perms]. destruct (decide (l = l /\ grp' = grp)) as [[_ D]|D]; [subst grp'; apply lookup_insert|].
        apply lookup_insert_ne. intros ->. apply D. split; reflexivity.
      - rewrite decide_False by (intros [? _]; contradiction). reflexivity. }
    assert (EG : forall gl g, h_groups hp' !! gl = Some g <-> h_groups hp !! gl = Some g \/ gl = n /\ g = Group grp (add_missing ∅ attrs)).
    { intros gl g. cbn [hp' h_groups]. rewrite lookup_app_Some, list_lookup_singleton_Some. fold n. split.
      - intros [H|(Hl & E & <-)]; [left; exact H|right; split; [lia|reflexivity]].
      - intros [H|[-> ->]]; [left; exact H|right; split; [lia|split; [lia|reflexivity]]]. }
    assert (EH : forall gl k, g_has hp' gl k <-> g_has hp gl k \/ gl = n /\ exists a, a ∈ attrs /\ attr_string a = k).
    { intros gl k. split.
      - intros (g & Hg & Hk). apply EG in Hg as [Hg|[-> ->]]; [left; exists g; split; assumption|right; split; [reflexivity|]].
        cbn [g_perms] in Hk. apply missing in Hk as [Hk|Hk]; [|exact Hk]. rewrite lookup_empty in Hk. destruct Hk; discriminate.
      - intros [(g & Hg & Hk)|[-> Hk]]; [exists g; split; [apply EG; left; exact Hg|exact Hk]|]. eexists. split; [apply EG; right; split; reflexivity|].
        cbn [g_perms]. apply missing. right. exact Hk. }
    assert (FR : forall l grp gl, f_perms hp l grp = Some gl -> gl <> n) by (intros l0 grp0 gl H ->; apply (perms_valid _ _ _ _ W) in H; subst n; lia).
    assert (NM : ~ made h n) by (intros M; apply (made_valid _ _ _ T) in M; subst n; lia).
    assert (NG : forall a, ~ given h l grp a) by (intros a Ha; destruct (th_given _ _ T _ _ _ Ha); congruence).
    assert (NL : forall k, ~ g_has hp n k) by (intros k (g & Hg & _); apply lookup_lt_Some in Hg; subst n; lia).
    assert (HS : forall l' grp' gl, store_of ((x, YErr None) :: h) l' grp' (Handed gl) <-> store_of h l' grp' (Handed gl)).
    { intros l' grp' gl. rewrite SS. split; [intros [H|(_ & ? & _)]; [exact H|discriminate]|left; assumption]. }
    split.
    + intros gl id H. apply SG in H. destruct (th_group _ _ T _ _ H) as (g & Hg & E). exists g. split; [apply EG; left; exact Hg|exact E].
    + intros gl attrs' H. apply SM. apply SA in H. exact (th_called _ _ T _ _ H).
    + intros l' grp' gl. rewrite HS, EP, SM, (th_handed _ _ T). case_decide as D; [|reflexivity]. destruct D as [-> ->]. split.
      * intros [H _]. congruence.
      * intros [[= <-] H]. contradiction.
    + intros l' grp'. rewrite SS, (th_own _ _ T), EP. case_decide as D.
      * destruct D as [-> ->]. split; [|intros _; right; split; [exact Ep|split; [reflexivity|split; reflexivity]]].
        intros _. exists n. split; [reflexivity|]. intros M. apply NM, SM, M.
      * split.
        -- intros [(gl & H & N)|(_ & _ & D')]; [exists gl; split; [exact H|intros M; apply N, SM, M]|destruct (D D')].
        -- intros (gl & H & N). left. exists gl. split; [exact H|intros M; apply N, SM, M].
    + intros l1 grp1 gl l2 grp2. rewrite SM, !EP. intros N. destruct (decide (l1 = l /\ grp1 = grp)) as [D1|D1], (decide (l2 = l /\ grp2 = grp)) as [D2|D2].
      * intros _ _. destruct D1 as [-> ->], D2 as [-> ->]. split; reflexivity.
      * intros [= <-] H. destruct (FR _ _ _ H eq_refl).
      * intros H [= <-]. destruct (FR _ _ _ H eq_refl).
      * apply (th_private _ _ T). exact N.
    + intros l' grp' a H. rewrite EP. case_decide as D; [eexists; reflexivity|]. apply SV in H as [H|(-> & -> & _)]; [exact (th_given _ _ T _ _ _ H)|destruct D; split; reflexivity].
    + intros gl k H. apply SM in H. assert (Hne : gl <> n) by (intros ->; exact (NM H)). rewrite EH, (th_has _ _ T gl k H). split.
      * intros [(a & E & Ha)|(? & _)]; [|contradiction]. exists a. split; [exact E|].
        destruct Ha as [(at' & H1 & H2)|(l' & grp' & H1 & H2)]; [left; exists at'; split; [apply SA; exact H1|exact H2]|right; exists l', grp'; split; [apply HS; exact H1|apply SV; left; exact H2]].
      * intros (a & E & Ha). left. exists a. split; [exact E|]. destruct Ha as [(at' & H1 & H2)|(l' & grp' & H1 & H2)]; [left; exists at'; split; [apply SA; exact H1|exact H2]|right].
        apply HS in H1. exists l', grp'. split; [exact H1|]. apply SV in H2 as [H2|(-> & -> & _)]; [exact H2|]. apply (th_handed _ _ T) in H1 as [H1 _]. congruence.
    + intros l' grp' gl k N. rewrite EP, SM in *. case_decide as D.
      * destruct D as [-> ->]. intros [= <-]. rewrite EH. split.
        -- intros [H|(_ & a & Ha & E)]; [destruct (NL _ H)|]. exists a. split; [exact E|apply SV; right; split; [reflexivity|split; [reflexivity|exact Ha]]].
        -- intros (a & E & Ha). apply SV in Ha as [Ha|(_ & _ & Ha)]; [destruct (NG _ Ha)|right; split; [reflexivity|exists a; split; assumption]].
      * intros H. rewrite EH, (th_keeps _ _ T l' grp' gl k N H). split.
        -- intros [(a & E & Ha)|(-> & _)]; [exists a; split; [exact E|apply SV; left; exact Ha]|destruct (FR _ _ _ H eq_refl)].
        -- intros (a & E & Ha). apply SV in Ha as [Ha|(-> & -> & _)]; [left; exists a; split; assumption|destruct D; split; reflexivity].
Qed.
Lemma groups_hand h hp l gl0 hp' : made h gl0 -> role_add_group hp l gl0 = Ok (hp', None) -> tells_groups h hp ->
  tells_groups ((URoleAddGroup l gl0, YErr None) :: h) hp'.
Proof.
  intros M0 H T.
  assert (SG : same_groups h (URoleAddGroup l gl0, YErr None)) by (apply groups_skip; discriminate).
  assert (SA : same_adds h (URoleAddGroup l gl0, YErr None)) by (apply adds_skip; discriminate). pose proof (same_made _ _ _ SG) as SM.
  assert (NA : forall l' grp attrs', ~ accepts h (URoleAddGroup l gl0, YErr None) l' grp attrs') by (intros l' grp attrs' [?|(r & ? & _)]; discriminate).
  assert (SV : same_given h (URoleAddGroup l gl0, YErr None)) by (apply given_skip; exact NA).
  unfold role_add_group in H. destruct (h_roles hp !! l) as [r|] eqn:Er; [|discriminate]. destruct (r_lock r); [discriminate|].
  destruct (h_groups hp !! gl0) as [g0|] eqn:E0; [|discriminate].
  assert (GN : forall grp, group_named h gl0 grp <-> grp = g_id g0).
  { intros grp. split.
    - intros H0. destruct (th_group _ _ T _ _ H0) as (g & Hg & E). congruence.
    - intros ->. destruct M0 as (id & H0). destruct (th_group _ _ T _ _ H0) as (g & Hg & E). rewrite E0 in Hg. injection Hg as <-. rewrite E. exact H0. }
  assert (SS : forall l' grp' w, store_of ((URoleAddGroup l gl0, YErr None) :: h) l' grp' w <-> store_of h l' grp' w \/ f_perms hp l' grp' = None /\ w = Handed gl0 /\ l' = l /\ grp' = g_id g0).
  { intros l' grp' w. unfold store_of at 1. cbn [first_of]. fold (store_of h l' grp'). rewrite (no_store h hp l' grp' T). split; (intros [H0|[H0 H1]]; [left; exact H0|right; split; [exact H0|]]).
    - destruct H1 as [(-> & at' & Ha)|(gl & -> & [= -> ->] & Hn)]; [destruct (NA _ _ _ Ha)|]. apply GN in Hn. split; [reflexivity|split; [reflexivity|exact Hn]].
    - right. destruct H1 as (-> & -> & ->). exists gl0. split; [reflexivity|split; [reflexivity|apply GN; reflexivity]]. }
  assert (Ep : f_perms hp l (g_id g0) = r_perms r !! g_id g0) by (unfold f_perms; rewrite Er; reflexivity). destruct (r_perms r !! g_id g0) as [gl1|] eqn:Eg.
  - injection H as <-. apply (groups_quiet h hp); [exact SG|exact SA| |exact SV|intros; reflexivity|intros gl g Hg; exists g; split; [exact Hg|reflexivity]|intros; reflexivity|exact T].
    intros l' grp' w. rewrite SS. split; [|left; assumption]. intros [H0|(H0 & _ & -> & ->)]; [exact H0|congruence].
  - injection H as <-. set (hp' := set_role hp l _).
    assert (EP : forall l' grp', f_perms hp' l' grp' = if decide (l' = l /\ grp' = g_id g0) then Some gl0 else f_perms hp l' grp').
    { intros l' grp'. unfold f_perms, hp'. rewrite (set_role_at _ _ _ _ _ Er). destruct (decide (l' = l)) as [D|D].
      - subst l'. rewrite Er. cbn [mbind option_bind r_perms]. destruct (decide (l = l /\ grp' = g_id g0)) as [[_ D]|D]; [subst grp'; apply lookup_insert|].
        apply lookup_insert_ne. intros E1. apply D. split; [reflexivity|exact (eq_sym E1)].
      - rewrite decide_False by (intros [? _]; contradiction). reflexivity. }
    assert (NG : forall a, ~ given h l (g_id g0) a) by (intros a Ha; destruct (th_given _ _ T _ _ _ Ha); congruence).
    assert (SH : forall gl a, handed ((URoleAddGroup l gl0, YErr None) :: h) gl a <-> handed h gl a).
    { intros gl a. unfold handed. split; (intros [(at' & H1 & H2)|(l' & grp' & H1 & H2)]; [left; exists at'; split; [apply SA; exact H1|exact H2]|right]).
      - apply SV in H2. apply SS in H1 as [H1|(_ & _ & -> & ->)]; [exists l', grp'; split; assumption|destruct (NG _ H2)].
      - exists l', grp'. split; [apply SS; left; exact H1|apply SV; exact H2]. }
    split.
    + intros gl id H. apply SG in H. exact (th_group _ _ T _ _ H).
    + intros gl attrs' H. apply SM. apply SA in H. exact (th_called _ _ T _ _ H).
    + intros l' grp' gl. rewrite SS, EP, SM, (th_handed _ _ T). case_decide as D.
      * destruct D as [-> ->]. split.
        -- intros [[H _]|(_ & [= ->] & _)]; [congruence|split; [reflexivity|exact M0]].
        -- intros [[= <-] _]. right. split; [exact Ep|split; [reflexivity|split; reflexivity]].
      * split; [intros [H|(_ & _ & H)]; [exact H|destruct (D H)]|left; assumption].
    + intros l' grp'. rewrite SS, (th_own _ _ T), EP. case_decide as D.
      * destruct D as [-> ->]. split.
        -- intros [(gl & H & _)|(_ & ? & _)]; [congruence|discriminate].
        -- intros (gl & [= <-] & N). destruct N. apply SM. exact M0.
      * split.
        -- intros [(gl & H & N)|(_ & ? & _)]; [exists gl; split; [exact H|intros M; apply N, SM, M]|discriminate].
        -- intros (gl & H & N). left. exists gl. split; [exact H|intros M; apply N, SM, M].
    + intros l1 grp1 gl l2 grp2. rewrite SM, !EP. intros N. destruct (decide (l1 = l /\ grp1 = g_id g0)) as [D1|D1], (decide (l2 = l /\ grp2 = g_id g0)) as [D2|D2].
      * intros [= <-]. contradiction.
      * intros [= <-]. contradiction.
      * intros _ [= <-]. contradiction.
      * apply (th_private _ _ T). exact N.
    + intros l' grp' a H. rewrite EP. case_decide as D; [eexists; reflexivity|]. apply SV in H. exact (th_given _ _ T _ _ _ H).
    + intros gl k H. apply SM in H. change (g_has hp' gl k) with (g_has hp gl k). rewrite (th_has _ _ T gl k H). split; intros (a & E & Ha); exists a; (split; [exact E|apply SH; exact Ha]).
    + intros l' grp' gl k N. rewrite SM in N. rewrite EP. change (g_has hp' gl k) with (g_has hp gl k). case_decide as D.
      * intros [= <-]. contradiction.
      * intros H. rewrite (th_keeps _ _ T l' grp' gl k N H). split; intros (a & E & Ha); exists a; (split; [exact E|apply (SV l' grp' a); exact Ha]).
Qed.
Lemma groups_same h hp x y : (forall id, x <> UNewGroup id) -> (forall gl at', x <> UGroupAdd gl at') -> (forall l grp attrs, ~ accepts h (x, y) l grp attrs) ->
  (forall l gl, (x, y) <> (URoleAddGroup l gl, YErr None)) -> tells_groups h hp -> tells_groups ((x, y) :: h) hp.
Proof.
  intros N1 N2 N3 N4. apply groups_quiet; [apply groups_skip; exact N1|apply adds_skip; exact N2|apply stores_skip; assumption|apply given_skip; exact N3|intros; reflexivity|intros gl g Hg; exists g; split; [exact Hg|reflexivity]|intros; reflexivity].
Qed.
Lemma groups_start : tells_groups [] (RHeap [] []).
Proof.
  assert (F : forall l grp, f_perms (RHeap [] []) l grp = None) by reflexivity. split.
  - intros gl id H. destruct (not_elem_of_nil _ H).
  - intros gl attrs H. destruct (not_elem_of_nil _ H).
  - intros l grp gl. rewrite F. split; [intros []|intros [? _]; discriminate].
  - intros l grp. split; [intros []|]. intros (gl & H & _). discriminate.
  - intros l grp gl l' grp' _ H. discriminate.
  - intros l grp a [].
  - intros gl k (id & H). destruct (not_elem_of_nil _ H).
  - intros l grp gl k _ H. discriminate.
Qed.
Lemma roles_start : tells_roles [] (RHeap [] []).
Proof.
  split.
  - intros l id. split; [intros H; destruct (not_elem_of_nil _ H)|intros (r & H & _); discriminate].
  - intros l id d. split; [intros []|intros H; discriminate].
Qed.
