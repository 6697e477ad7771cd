(** A call that runs alone does what the sequential model says. *)
From Verif Require Export VConcModel VConcSpec.
From Verif Require Import RoleModel RoleProofs V2Trav.

Lemma exec_bind {A B} (c : code A) (f : A -> code B) st :
  exec st (kbind c f) = let! r := exec st c in exec r.1 (f r.2).
Proof.
  revert st. induction c as [[a| |]|x k IH|x g k IH|b name k IH|m k IH|m k IH]; intros st; cbn [kbind exec rbind]; auto.
  destruct (resolve_step b st name) as [[st' v]| |]; cbn [rbind]; auto.
Qed.
Lemma rbind_assoc {A B C} (x : res A) (f : A -> res B) (g : B -> res C) :
  (let! b := (let! a := x in f a) in g b) = let! a := x in let! b := f a in g b.
Proof. by destruct x. Qed.
Definition lift {A} (fr : vstate) (x : res (dag * A)) : res (vstate * A) := let! da := x in Ok (vw_dag fr da.1, da.2).
Definition lift3 {A} (fr : vstate) (x : res (gset string * dag * A)) : res (vstate * (gset string * A)) :=
  let! s := x in Ok (vw_dag fr s.1.2, (s.1.1, s.2)).

Lemma map_size_one {A} (m : gmap string A) : size m = 1 -> exists n a, m = {[n := a]}.
Proof.
  unfold size, map_size. intros H. destruct (map_to_list m) as [|[n a] [|]] eqn:Hl; try discriminate.
  exists n, a. rewrite <- (list_to_map_to_list m), Hl. apply insert_empty.
Qed.

Section decisions.
  Variable fr : vstate.
  Variable now : Z.
  Notation on d := (vw_dag fr d).

  Lemma exec_expired d l pr : w_prs fr !! l = Some pr -> exec (on d) (k_expired now l) = Ok (on d, is_expired now pr).
  Proof.
    intros Hl. unfold k_expired, is_expired. cbn [exec get_var w_prs vw_dag]. rewrite Hl. cbn [mbind option_bind].
    destruct (pr_expiry pr) as [e|] eqn:He; cbn [exec get_var w_prs vw_dag rbind]; [|reflexivity]. rewrite Hl. cbn [mbind option_bind].
    rewrite He. reflexivity.
  Qed.

  Section traverse.
    Context {A : Type}.
    Variable krow : A -> prole -> code A.
    Variable row : dag -> A -> prole -> res (dag * A).
    Hypothesis Hrow : forall d acc pr, exec (on d) (krow acc pr) = lift fr (row d acc pr).
    Variable user : string.
    Lemma exec_rows tid ps : forall d acc,
      exec (on d) (k_rows fr now krow user tid acc ps) = lift fr (rows_loop row fr now user tid d acc ps).
    Proof.
      induction ps as [|[l|] ps IH]; intros d acc; cbn [k_rows rows_loop]; [reflexivity| |reflexivity].
      cbn [mbind option_bind]. destruct (w_prs fr !! l) as [pr|] eqn:Hl; [|reflexivity].
      destruct (bool_decide (pr_principal pr = user) && bool_decide (pr_tenant pr = tid)) eqn:Hm; cbn [andb]; [|apply IH].
      rewrite exec_bind, (exec_expired _ _ _ Hl). cbn [rbind fst snd]. destruct (is_expired now pr); cbn [negb]; [apply IH|].
      rewrite exec_bind, Hrow. unfold lift at 1. destruct (row d acc pr) as [[d' acc']| |]; cbn [rbind fst snd]; [apply IH|reflexivity|reflexivity].
    Qed.
    Section loops.
      Variable krec : oracle -> nat -> gset string -> A -> code (gset string * A).
      Variable rec : oracle -> nat -> gset string -> dag -> A -> res (gset string * dag * A).
      Hypothesis Hrec : forall o t V d acc, exec (on d) (krec o t V acc) = lift3 fr (rec o t V d acc).
      Lemma exec_kids o cs : forall i V d acc, exec (on d) (k_kids krec o i cs V acc) = lift3 fr (kids_loop rec o i cs V d acc).
      Proof.
        induction cs as [|c cs IH]; intros i V d acc; cbn [k_kids kids_loop]; [reflexivity|].
        rewrite exec_bind, Hrec. unfold lift3 at 1.
        destruct (rec (sub o i) c V d acc) as [[[V' d'] acc']| |]; cbn [rbind fst snd]; [apply IH|reflexivity|reflexivity].
      Qed.
      Lemma exec_manage o t c ps : w_tenants fr !! t = Some c -> forall i V d acc,
        exec (on d) (k_manage fr user krec o i t (vt_id c) ps V acc) = lift3 fr (manage_loop fr user rec o i c ps V d acc).
      Proof.
        intros Ht. induction ps as [|[l|] ps IH]; intros i V d acc; cbn [k_manage manage_loop]; [reflexivity| |reflexivity].
        cbn [mbind option_bind]. destruct (w_prs fr !! l) as [pr|]; [|reflexivity].
        destruct (bool_decide (pr_principal pr = user) && bool_decide (pr_tenant pr = vt_id c) && pr_manage pr); [|apply IH].
        cbn [exec]. rewrite exec_bind, exec_kids. cbn [get_var kten w_tenants vw_dag]. unfold kten. cbn [w_tenants vw_dag].
        rewrite Ht. cbn [default from_option].
        transitivity (let! s := lift3 fr (kids_loop rec (sub o i) 1 (ordered (sub (sub o i) 0) (map_to_list (vt_children c)).*2) V d acc) in
          exec s.1 (k_manage fr user krec o (S i) t (vt_id c) ps s.2.1 s.2.2)); [reflexivity|]. unfold lift3 at 1.
        destruct (kids_loop rec (sub o i) 1 (ordered (sub (sub o i) 0) (map_to_list (vt_children c)).*2) V d acc) as [[[V' d'] acc']| |];
          cbn [rbind fst snd]; [apply IH|reflexivity|reflexivity].
      Qed.
    End loops.
    Lemma exec_traverse fuel : forall o t V d acc,
      exec (on d) (k_traverse fr now krow user fuel o t V acc) = lift3 fr (traverse row fr now user fuel o t V d acc).
    Proof.
      induction fuel as [|fuel IH]; intros o t V d acc; cbn [k_traverse traverse]; [reflexivity|].
      destruct (w_tenants fr !! t) as [c|] eqn:Ht; [|reflexivity].
      destruct (bool_decide (vt_id c ∈ V)); [reflexivity|]. cbn [exec]. rewrite exec_bind. cbn [get_var w_assign vw_dag].
      rewrite exec_rows. unfold lift. destruct (rows_loop row fr now user (vt_id c) d acc (w_assign fr)) as [[d' acc']| |];
        cbn [rbind fst snd exec get_var w_assign vw_dag]; [|reflexivity|reflexivity].
      change (vw_dag fr d') with (on d'). cbn [w_assign vw_dag]. apply exec_manage; [|exact Ht]. intros. apply IH.
    Qed.
    Lemma exec_traverse_all o t d acc :
      exec (on d) (k_traverse_all fr now krow user o t acc) = lift fr (traverse_all row fr now user o t d acc).
    Proof.
      unfold k_traverse_all, traverse_all. rewrite exec_bind, exec_traverse. unfold lift3, lift. rewrite !rbind_assoc.
      by destruct (traverse row fr now user (S (length (w_tenants fr))) o t ∅ d acc) as [[[V' d'] acc']| |].
    Qed.
  End traverse.

  Lemma exec_resolve {A} (b : bool) name d (k : gset string -> code A) :
    exec (on d) (KResolve b name k) =
    let! ds := (if b then resolve_permissions else resolve_child_roles) (w_roles fr) d name in exec (on ds.1) (k ds.2).
  Proof.
    cbn [exec]. unfold resolve_step. cbn [w_roles w_dag vw_dag].
    destruct ((if b then resolve_permissions else resolve_child_roles) (w_roles fr) d name) as [[d' s]| |]; reflexivity.
  Qed.
  Lemma exec_perm_row ns scope d acc pr : exec (on d) (k_perm_row ns scope acc pr) = lift fr (perm_row fr ns scope d acc pr).
  Proof.
    unfold k_perm_row, perm_row. destruct (_ || _); [|reflexivity]. rewrite exec_resolve. unfold lift.
    destruct (resolve_permissions (w_roles fr) d (pr_role pr)) as [[d' s]| |]; reflexivity.
  Qed.
  Lemma exec_role_row ns d acc pr : exec (on d) (k_role_row ns acc pr) = lift fr (role_row fr ns d acc pr).
  Proof.
    unfold k_role_row, role_row. destruct (_ && _); [|reflexivity]. rewrite exec_resolve. unfold lift.
    destruct (resolve_child_roles (w_roles fr) d (pr_role pr)) as [[d' s]| |]; reflexivity.
  Qed.
  Lemma exec_permissions o d user tid ns scope :
    exec (on d) (k_permissions fr now o user tid ns scope) = lift fr (resolve_principal_permissions o fr now d user tid ns scope).
  Proof.
    unfold k_permissions, resolve_principal_permissions. cbn [exec get_var w_reg vw_dag]. destruct (w_reg fr !! tid) as [t|]; [|reflexivity].
    rewrite exec_bind, (exec_traverse_all _ _ (exec_perm_row ns scope)). unfold lift. rewrite !rbind_assoc.
    destruct (traverse_all _ _ _ _ _ _ _ _) as [[d' acc]| |]; reflexivity.
  Qed.
  Lemma exec_roles o d user tid ns :
    exec (on d) (k_roles fr now o user tid ns) = lift fr (resolve_principal_roles o fr now d user tid ns).
  Proof.
    unfold k_roles, resolve_principal_roles. cbn [exec get_var w_reg vw_dag]. destruct (w_reg fr !! tid) as [t|]; [|reflexivity].
    rewrite exec_bind, (exec_traverse_all _ _ (exec_role_row ns)). unfold lift. rewrite !rbind_assoc.
    destruct (traverse_all _ _ _ _ _ _ _ _) as [[d' acc]| |]; reflexivity.
  Qed.
  Lemma exec_own_tenants user ps : forall d acc,
    exec (on d) (k_own_tenants fr user acc ps) = let! m := principal_tenants fr user acc ps in Ok (on d, m).
  Proof.
    induction ps as [|[l|] ps IH]; intros d acc; cbn [k_own_tenants principal_tenants]; [reflexivity| |reflexivity].
    cbn [mbind option_bind]. destruct (w_prs fr !! l) as [pr|]; [|reflexivity].
    destruct (bool_decide (pr_principal pr = user) && negb (bool_decide (pr_tenant pr = ""))); [|apply IH].
    cbn [exec get_var w_reg vw_dag]. destruct (w_reg fr !! pr_tenant pr) as [t|]; [|apply IH].
    destruct (w_tenants fr !! t) as [c|] eqn:Ht; [|reflexivity]. cbn [exec get_var]. unfold kten. cbn [w_tenants vw_dag]. rewrite Ht.
    cbn [default from_option]. apply IH.
  Qed.
  Lemma exec_find_own o d user :
    exec (on d) (k_find_own fr o user) = let! m := find_principal_tenants o fr user in Ok (on d, m).
  Proof.
    unfold k_find_own, find_principal_tenants. cbn [exec]. rewrite exec_bind. cbn [get_var w_assign vw_dag]. rewrite exec_own_tenants.
    rewrite !rbind_assoc. destruct (principal_tenants _ _ _ _); reflexivity.
  Qed.
  Lemma exec_find_targets o d q :
    exec (on d) (k_find_targets fr o q) = let! m := find_target_tenants o fr q in Ok (on d, m).
  Proof.
    unfold k_find_targets, find_target_tenants.
    assert (Hn : forall tn, exec (on d) (if bool_decide (tn = "") then kbind (k_find_own fr o (q_principal q)) (fun ts => KRet (Ok (Some ts)))
        else KRead GReg (fun reg : gmap string nat => KRet (Ok (match reg !! tn with None => None | Some t => Some [t] end))))
      = let! m := (if bool_decide (tn = "") then let! ts := find_principal_tenants o fr (q_principal q) in Ok (Some ts)
          else Ok (match w_reg fr !! tn with None => None | Some t => Some [t] end)) in Ok (on d, m)).
    { intros tn. destruct (bool_decide (tn = "")).
      - rewrite exec_bind, exec_find_own, !rbind_assoc. destruct (find_principal_tenants _ _ _); reflexivity.
      - reflexivity. }
    destruct (bool_decide (q_tenant q = "")) eqn:Hq; [|specialize (Hn (q_tenant q)); rewrite Hq in *; exact Hn].
    cbn [exec get_var w_default vw_dag]. destruct (bool_decide (w_default fr = "")) eqn:Hd.
    - exact (Hn "").
    - cbn [exec get_var w_default vw_dag]. specialize (Hn (w_default fr)). rewrite Hd in *. exact Hn.
  Qed.
  Lemma exec_namespace o t c q d : w_tenants fr !! t = Some c ->
    exec (on d) (k_namespace o t q) = Ok (on d, target_namespace c q).
  Proof.
    intros Ht. assert (Hk : kten (on d) t = c) by (unfold kten; cbn [w_tenants vw_dag]; rewrite Ht; reflexivity).
    unfold k_namespace, target_namespace.
    assert (Hn : forall n, exec (on d) (KRead (GNames t) (fun names : gset string => if bool_decide (n ∈ names) then
          if bool_decide (q_scope q = "") then KRet (Ok (Some n))
          else KRead (GScopes t n) (fun ss : gset string => KRet (Ok (if bool_decide (q_scope q ∈ ss) then Some n else None)))
        else KRet (Ok None))) =
      Ok (on d, match vt_namespaces c !! n with None => None | Some scopes =>
        if bool_decide (q_scope q = "") || bool_decide (q_scope q ∈ scopes) then Some n else None end)).
    { intros n. cbn [exec get_var]. rewrite Hk. unfold names_at.
      destruct (vt_namespaces c !! n) as [ss|] eqn:Hs.
      - rewrite bool_decide_eq_true_2 by (by apply elem_of_dom_2 in Hs). destruct (bool_decide (q_scope q = "")); cbn [orb]; [reflexivity|].
        cbn [exec get_var]. rewrite Hk. unfold scopes_at. rewrite Hs. reflexivity.
      - rewrite bool_decide_eq_false_2 by (by rewrite not_elem_of_dom). reflexivity. }
    destruct (negb (bool_decide (q_namespace q = ""))); [apply Hn|].
    cbn [exec get_var]. rewrite Hk. unfold names_at.
    destruct (negb (bool_decide (vt_default c = ""))).
    { cbn [exec get_var]. rewrite Hk. unfold names_at. specialize (Hn (vt_default c)). cbn [exec get_var] in Hn. rewrite Hk in Hn. unfold names_at in Hn. exact Hn. }
    cbn [exec get_var]. rewrite Hk. unfold names_at.
    rewrite size_dom. destruct (bool_decide (size (vt_namespaces c) = 1)) eqn:Hz.
    - apply bool_decide_eq_true in Hz. apply map_size_one in Hz as (n & ss & Hz).
      cbn [exec get_var]. rewrite Hk. unfold names_at.
      assert (Ho : ordered o (elements (dom (vt_namespaces c))) = [n]).
      { rewrite Hz. apply Permutation_singleton_r. rewrite ordered_perm, dom_singleton_L, elements_singleton. reflexivity. }
      rewrite Ho, Hn. rewrite Hz, map_to_list_singleton. reflexivity.
    - apply bool_decide_eq_false in Hz. destruct (map_to_list (vt_namespaces c)) as [|[n ss] [|p l]] eqn:Hl; [reflexivity| |reflexivity].
      destruct Hz. unfold size, map_size. rewrite Hl. reflexivity.
  Qed.
  Lemma exec_authorize_loop o q ts : forall i d,
    exec (on d) (k_authorize_loop fr now o i q ts) = lift fr (authorize_loop o i fr now q d ts).
  Proof.
    induction ts as [|t ts IH]; intros i d; cbn [k_authorize_loop authorize_loop]; [reflexivity|].
    destruct (w_tenants fr !! t) as [c|] eqn:Ht; [|reflexivity].
    rewrite exec_bind, (exec_namespace _ _ _ _ _ Ht). cbn [rbind fst snd]. destruct (target_namespace c q) as [n|]; [|apply IH].
    rewrite exec_bind, exec_permissions. unfold lift at 1.
    destruct (resolve_principal_permissions _ _ _ _ _ _ _ _) as [[d' [ps|]]| |]; cbn [rbind fst snd]; [|apply IH|reflexivity|reflexivity].
    rewrite exec_bind. cbn [exec]. destruct (perms_match (sub (sub o i) 1) q ps) as [[]| |]; cbn [rbind fst snd]; [reflexivity|apply IH|reflexivity|reflexivity].
  Qed.
  Lemma exec_can_loop o q roles ts : forall i d,
    exec (on d) (k_can_loop fr now o i q roles ts) = lift fr (can_loop o i fr now q roles d ts).
  Proof.
    induction ts as [|t ts IH]; intros i d; cbn [k_can_loop can_loop]; [reflexivity|].
    destruct (w_tenants fr !! t) as [c|] eqn:Ht; [|reflexivity].
    rewrite exec_bind, (exec_namespace _ _ _ _ _ Ht). cbn [rbind fst snd]. destruct (target_namespace c q) as [n|]; [|apply IH].
    rewrite exec_bind, exec_roles. unfold lift at 1.
    destruct (resolve_principal_roles _ _ _ _ _ _ _) as [[d' [rs|]]| |]; cbn [rbind fst snd]; [|apply IH|reflexivity|reflexivity].
    destruct (existsb (contains roles) (elements rs)); [reflexivity|apply IH].
  Qed.
End decisions.
Lemma vw_dag_self st : vw_dag st (w_dag st) = st.
Proof. by destruct st. Qed.
Lemma exec_authorize st now o q : exec st (k_authorize st now o q) = v2_authorize o st now q.
Proof.
  unfold k_authorize, v2_authorize. rewrite <- (vw_dag_self st) at 1. rewrite exec_bind, exec_find_targets, rbind_assoc.
  destruct (find_target_tenants (sub o 0) st q) as [[ts|]| |]; cbn [rbind fst snd].
  - rewrite exec_authorize_loop. reflexivity.
  - cbn [exec rbind]. by rewrite vw_dag_self.
  - reflexivity.
  - reflexivity.
Qed.
Lemma exec_can st now o q roles : exec st (k_can st now o q roles) = v2_can o st now q roles.
Proof.
  unfold k_can, v2_can. rewrite <- (vw_dag_self st) at 1. rewrite exec_bind, exec_find_targets, rbind_assoc.
  destruct (find_target_tenants (sub o 0) st q) as [[ts|]| |]; cbn [rbind fst snd].
  - rewrite exec_can_loop. reflexivity.
  - cbn [exec rbind]. by rewrite vw_dag_self.
  - reflexivity.
  - reflexivity.
Qed.

(** ** Set-up *)
Lemma vt_eta t : VTenant (vt_id t) (vt_namespaces t) (vt_default t) (vt_status t) (vt_children t) = t.
Proof. by destruct t. Qed.
Lemma alter_some {A} (f : A -> A) (l : list A) i x : l !! i = Some x -> alter f i l = <[i := f x]> l.
Proof.
  intros H. apply list_eq. intros j. destruct (decide (j = i)) as [->|Hn].
  - rewrite list_lookup_alter, H, list_lookup_insert; [reflexivity|]. by apply lookup_lt_Some in H.
  - by rewrite list_lookup_alter_ne, list_lookup_insert_ne.
Qed.
Lemma insert_same {A} (l : list A) i x : l !! i = Some x -> <[i := x]> l = l.
Proof. apply list_insert_id. Qed.
Lemma vw_tenants_self st : vw_tenants st (w_tenants st) = st.
Proof. by destruct st. Qed.
Lemma vw_prs_self st : vw_prs st (w_prs st) = st.
Proof. by destruct st. Qed.
(** One tenant object replaced *)
Definition set_ten (st : vstate) (t : nat) (c : vtenant) : vstate := vw_tenants st (<[t := c]> (w_tenants st)).
Lemma kten_set st t c c0 : w_tenants st !! t = Some c0 -> kten (set_ten st t c) t = c.
Proof. intros H. unfold kten, set_ten. cbn [w_tenants vw_tenants]. rewrite list_lookup_insert; [reflexivity|]. by apply lookup_lt_Some in H. Qed.
Lemma alter_set st t c c0 f : w_tenants st !! t = Some c0 -> alter_tenant (set_ten st t c) t f = set_ten st t (f c).
Proof.
  intros H. unfold alter_tenant, set_ten. cbn [w_tenants vw_tenants].
  rewrite (alter_some f _ t c) by (apply list_lookup_insert; by apply lookup_lt_Some in H). rewrite list_insert_insert. reflexivity.
Qed.
Lemma set_ten_self st t c : w_tenants st !! t = Some c -> set_ten st t c = st.
Proof. intros H. unfold set_ten. rewrite insert_same by exact H. apply vw_tenants_self. Qed.

Lemma exec_parents st t cs : forall reg ps, exec (vw_reg st reg ps) (k_parents st t cs) =
  let! ps' := add_parents (w_tenants st) t ps cs in Ok (vw_reg st reg ps', TUnit).
Proof.
  induction cs as [|c cs IH]; intros reg ps; cbn [k_parents add_parents]; [reflexivity|].
  destruct (w_tenants st !! c) as [ct|]; [|reflexivity]. cbn [exec put_var get_var]. apply IH.
Qed.
Lemma exec_add_tenant st o t : exec st (k_add_tenant st o t) = seq_call st (KAddTenant o t).
Proof.
  unfold k_add_tenant, seq_call, by_op, vstep, wunit, v2_add_tenant. destruct (w_tenants st !! t) as [c|] eqn:Ht; [|reflexivity].
  cbn [exec put_var get_var]. rewrite exec_parents. unfold kten. cbn [w_tenants vw_reg w_parents]. rewrite Ht. cbn [default from_option].
  rewrite !rbind_assoc. destruct (add_parents _ _ _ _); reflexivity.
Qed.
Lemma exec_add_rows fr ls : forall st, w_prs st = w_prs fr ->
  exec st (k_add_rows fr ls) = let! st' := v2_add_principal_role st ls in Ok (st', TUnit).
Proof.
  induction ls as [|l ls IH]; intros st Hp; cbn [k_add_rows v2_add_principal_role]; [reflexivity|]. rewrite Hp.
  destruct (w_prs fr !! l) as [pr|]; [|reflexivity]. cbn [exec put_var get_var]. apply IH. exact Hp.
Qed.
Lemma remove_loop_length prs target ps new j : remove_loop prs target ps = Ok (new, j) -> length new = length ps.
Proof.
  revert new j. induction ps as [|p ps IH]; intros new j; cbn [remove_loop]; [intros [= <- _]; reflexivity|].
  destruct (ptr_matches prs target p) as [m| |]; cbn [rbind]; try discriminate.
  destruct (remove_loop prs target ps) as [[n1 j1]| |]; cbn [rbind fst snd]; try discriminate.
  specialize (IH _ _ eq_refl). destruct m; intros [= <- _]; cbn [length]; congruence.
Qed.
Lemma exec_remove st target : exec st (k_remove st target) = seq_call st (KRemovePR target).
Proof.
  unfold k_remove, seq_call, by_op, vstep, werr, v2_remove_principal_role, remove_into. cbn [exec get_var].
  rewrite drop_all. cbn [remove_loop]. destruct (remove_loop (w_prs st) target (w_assign st)) as [[new j]| |] eqn:Hr; cbn [rbind]; [|reflexivity|reflexivity].
  cbn [fst snd]. rewrite bool_decide_eq_true_2 by reflexivity. destruct (bool_decide (j = length (w_assign st))); cbn [rbind exec fst snd]; [reflexivity|].
  rewrite Nat.sub_diag. cbn [replicate]. rewrite app_nil_r, take_ge with (l := new) by (rewrite (remove_loop_length _ _ _ _ _ Hr); lia).
  reflexivity.
Qed.
Lemma put_names_old c v : v ⊆ dom (vt_namespaces c) -> put_names v c = c.
Proof.
  intros H. unfold put_names. rewrite <- (vt_eta c) at 6. f_equal. apply map_eq. intros n. rewrite lookup_union.
  destruct (vt_namespaces c !! n) as [ss|] eqn:Hn; [by destruct (set_to_map _ v !! n)|].
  destruct (set_to_map (fun n : string => (n, ∅)) v !! n) as [ss|] eqn:Hs; [|reflexivity].
  apply lookup_set_to_map in Hs; [|intros; done]. destruct Hs as (n' & Hv & [= -> _]). apply H, elem_of_dom in Hv as [? Hv]. congruence.
Qed.
Lemma put_names_new c n : vt_namespaces c !! n = None ->
  put_names ({[n]} ∪ names_at c) c = VTenant (vt_id c) (<[n := ∅]> (vt_namespaces c)) (vt_default c) (vt_status c) (vt_children c).
Proof.
  intros Hc. unfold put_names. f_equal. apply map_eq. intros m. rewrite lookup_union.
  destruct (set_to_map (fun n : string => (n, ∅)) ({[n]} ∪ names_at c) !! m) as [ss|] eqn:Hs.
  - apply lookup_set_to_map in Hs; [|intros; done]. destruct Hs as (n' & Hv & [= -> ->]).
    destruct (decide (m = n)) as [->|Hn]; [by rewrite Hc, lookup_insert|]. rewrite lookup_insert_ne by done.
    destruct (vt_namespaces c !! m) eqn:Hm; [reflexivity|]. exfalso. apply elem_of_union in Hv as [Hv|Hv]; [set_solver|].
    unfold names_at in Hv. apply elem_of_dom in Hv as [? ?]. congruence.
  - destruct (decide (m = n)) as [->|Hn].
    + exfalso. unfold names_at in Hs. apply eq_None_not_Some in Hs. apply Hs. exists ∅. apply lookup_set_to_map; [intros; done|].
      exists n. split; [set_solver|reflexivity].
    + rewrite lookup_insert_ne by done. by destruct (vt_namespaces c !! m).
Qed.
Lemma exec_add_namespace st t n b : exec st (k_add_namespace st t n b) = seq_call st (KAddNamespace t n b).
Proof.
  unfold k_add_namespace, seq_call, by_op, vstep, wunit, upd_tenant. destruct (w_tenants st !! t) as [c|] eqn:Ht; [|reflexivity].
  assert (Hk : kten st t = c) by (unfold kten; rewrite Ht; reflexivity).
  assert (Hb : forall c', exec (set_ten st t c') ((if b then KUpd (GDefNs t) (set_to (x := GDefNs t) n) else id) (KUnlock (LTenant t) (KRet (Ok TUnit)))) =
    Ok (set_ten st t (if b then put_default n c' else c'), TUnit)).
  { intros c'. destruct b; [|reflexivity]. cbn [exec put_var get_var rbind]. rewrite (alter_set _ _ _ _ _ Ht). reflexivity. }
  cbn [exec get_var]. rewrite Hk. unfold names_at at 1. cbn [rbind as_kout fst snd]. unfold vt_add_namespace.
  destruct (vt_namespaces c !! n) as [ss|] eqn:Hn.
  - rewrite bool_decide_eq_true_2 by (by apply elem_of_dom_2 in Hn).
    rewrite <- (set_ten_self st t c Ht) at 1. rewrite Hb. unfold set_ten, put_default. destruct b; [reflexivity|]. by rewrite vt_eta.
  - rewrite bool_decide_eq_false_2 by (by rewrite not_elem_of_dom). cbn [exec put_var get_var]. rewrite Hk.
    rewrite <- (set_ten_self st t c Ht) at 1. rewrite (alter_set _ _ _ _ _ Ht), (put_names_new _ _ Hn), Hb. unfold set_ten, put_default.
    by destruct b.
Qed.
Lemma exec_scopes st t c n k : w_tenants st !! t = Some c -> forall ss c', exec (set_ten st t c') (k_scopes t n ss k) =
  exec (set_ten st t (match ss with [] => c' | _ => put_scopes n (list_to_set ss ∪ scopes_at c' n) c' end)) k.
Proof.
  intros Ht. induction ss as [|s ss IH]; intros c'; cbn [k_scopes]; [reflexivity|]. cbn [exec put_var get_var].
  rewrite (kten_set _ _ _ _ Ht), (alter_set _ _ _ _ _ Ht), IH. f_equal. f_equal. destruct ss as [|s' ss].
  - f_equal. cbn [list_to_set]. set_solver.
  - unfold put_scopes, scopes_at. cbn [vt_id vt_namespaces vt_default vt_status vt_children]. rewrite lookup_insert, insert_insert.
    cbn [default from_option]. f_equal. f_equal. cbn [list_to_set]. set_solver.
Qed.
Lemma exec_add_scopes st t n ss : exec st (k_add_scopes st t n ss) = seq_call st (KAddScopes t n ss).
Proof.
  unfold k_add_scopes, seq_call, by_op, vstep. destruct (w_tenants st !! t) as [c|] eqn:Ht; [|reflexivity].
  assert (Hk : kten st t = c) by (unfold kten; rewrite Ht; reflexivity).
  cbn [exec get_var]. rewrite Hk. unfold vt_add_scopes, names_at. destruct (vt_namespaces c !! n) as [old|] eqn:Hn.
  - rewrite bool_decide_eq_true_2 by (by apply elem_of_dom_2 in Hn). cbn [rbind fst snd as_kout].
    rewrite <- (set_ten_self st t c Ht) at 1. rewrite (exec_scopes _ _ _ _ _ Ht). cbn [exec put_var get_var rbind].
    rewrite (kten_set _ _ _ _ Ht), (alter_set _ _ _ _ _ Ht), put_names_old by reflexivity.
    f_equal. f_equal. change (vw_tenants st (<[t := ?c]> (w_tenants st))) with (set_ten st t c). f_equal.
    destruct ss as [|s ss]; [|unfold put_scopes, scopes_at; rewrite Hn; reflexivity].
    cbn [list_to_set]. rewrite (left_id_L ∅ (∪) old), insert_id by exact Hn. by rewrite vt_eta.
  - rewrite bool_decide_eq_false_2 by (by rewrite not_elem_of_dom). cbn [exec rbind fst snd as_kout]. by rewrite insert_same, vw_tenants_self.
Qed.
Lemma exec_children st t c : w_tenants st !! t = Some c -> forall cs c', exec (set_ten st t c') (k_children st t cs) =
  let! c2 := vt_add_children (w_tenants st) c' cs in Ok (set_ten st t c2, TUnit).
Proof.
  intros Ht. induction cs as [|d cs IH]; intros c'; cbn [k_children vt_add_children]; [reflexivity|].
  destruct (w_tenants st !! d) as [ct|]; [|reflexivity]. cbn [exec put_var get_var].
  rewrite (kten_set _ _ _ _ Ht), (alter_set _ _ _ _ _ Ht), IH. reflexivity.
Qed.
Lemma exec_add_children st t cs : exec st (k_add_children st t cs) = seq_call st (KAddChildren t cs).
Proof.
  unfold k_add_children, seq_call, by_op, vstep. destruct (w_tenants st !! t) as [c|] eqn:Ht; [|reflexivity].
  cbn [exec]. rewrite <- (set_ten_self st t c Ht) at 1. rewrite (exec_children _ _ _ Ht), rbind_assoc.
  destruct (vt_add_children _ _ _); reflexivity.
Qed.
Lemma put_expiry st l pr e : w_prs st !! l = Some pr ->
  put_var st (GExpiry l) e = vw_prs st (<[l := with_expiry pr e]> (w_prs st)).
Proof. intros H. cbn [put_var]. by rewrite (alter_some _ _ _ _ H). Qed.
Lemma exec_bool {A} st (c : code A) (f : A -> kout) : exec st (kbind c (fun b => KRet (Ok (f b)))) = let! r := exec st c in Ok (r.1, f r.2).
Proof. rewrite exec_bind. destruct (exec st c); reflexivity. Qed.

Lemma exec_call st c : exec st (code_of st c) = seq_call st c.
Proof.
  destruct c; cbn [code_of].
  - rewrite exec_bool, exec_authorize. unfold seq_call, by_op, vstep, wbool. rewrite rbind_assoc. destruct (v2_authorize _ _ _ _); reflexivity.
  - rewrite exec_bool, exec_can. unfold seq_call, by_op, vstep, wbool. rewrite rbind_assoc. destruct (v2_can _ _ _ _ _); reflexivity.
  - reflexivity.
  - unfold k_get_default. cbn [exec get_var seq_call]. destruct (bool_decide (w_default st = "")); reflexivity.
  - reflexivity.
  - apply exec_add_tenant.
  - cbn [exec]. rewrite (exec_add_rows st) by reflexivity. unfold seq_call, by_op, vstep, wunit. rewrite rbind_assoc.
    destruct (v2_add_principal_role _ _); reflexivity.
  - apply exec_remove.
  - apply exec_add_namespace.
  - apply exec_add_scopes.
  - apply exec_add_children.
  - unfold seq_call, by_op, vstep, wunit, upd_tenant. destruct (w_tenants st !! t) as [c|] eqn:Ht; [|reflexivity].
    cbn [exec put_var rbind fst snd as_kout]. unfold alter_tenant. by rewrite (alter_some _ _ _ _ Ht).
  - unfold k_set_expiry, seq_call, by_op, vstep, werr, upd_pr, set_expiry. destruct (w_prs st !! l) as [pr|] eqn:Hl; [|reflexivity].
    destruct (bool_decide (e < now)%Z); cbn [exec rbind fst snd as_kout].
    + by rewrite insert_same, vw_prs_self.
    + by rewrite (put_expiry _ _ _ _ Hl).
  - unfold k_set_duration, seq_call, by_op, vstep, werr, upd_pr. destruct (w_prs st !! l) as [pr|] eqn:Hl; [|reflexivity].
    destruct a as [[d|]|d|]; cbn [exec rbind fst snd as_kout set_expiry_duration]; rewrite ?(put_expiry _ _ _ _ Hl); try reflexivity.
    by rewrite insert_same, vw_prs_self.
  - unfold k_clear_expiry, seq_call, by_op, vstep, werr, upd_pr. destruct (w_prs st !! l) as [pr|] eqn:Hl; [|reflexivity].
    cbn [exec rbind fst snd as_kout]. by rewrite (put_expiry _ _ _ _ Hl).
Qed.
