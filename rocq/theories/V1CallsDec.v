(** The decisions of a v1 manager, told from the calls made. *)
From Verif Require Import V1Code V1Inv V1Dec.
From Verif Require Export V1CallsTell.

Section told.
  Context (h : log) (st : ustate) (T : tells h st).
  Let W : u_wf st := tl_wf _ _ T.

  Lemma told_registered id c : utenant_is st id c <-> exists t, tenant_at h id t /\ u_tenants st !! t = Some c.
  Proof. split; intros (t & H & E); exists t; (split; [apply (tl_reg _ _ T); exact H|exact E]). Qed.
  Lemma told_at id t : tenant_at h id t -> exists c, u_tenants st !! t = Some c /\ utenant_is st id c.
  Proof.
    intros H. pose proof H as H0. apply (tl_reg _ _ T) in H0. destruct (uwf_reg _ W _ _ H0) as (c & E & _). exists c. split; [exact E|]. apply told_registered. exists t. split; assumption.
  Qed.
  Lemma told_has_namespace t c n m : u_tenants st !! t = Some c -> has_namespace st c n m <-> exists l, ns_in h t n l /\ u_nss st !! l = Some m.
  Proof. intros E. split; intros (l & H & Hm); exists l; (split; [apply (told_nsin _ _ _ _ _ _ T E); exact H|exact Hm]). Qed.
  Lemma told_ns_at t n l : ns_in h t n l -> exists m, u_nss st !! l = Some m.
  Proof.
    intros H. apply (tl_ns _ _ T) in H. unfold f_ns in H. destruct (u_tenants st !! t) as [c|] eqn:E; [|discriminate]. destruct (uwf_ns _ W _ _ _ _ E H) as (m & Hm & _). exists m. exact Hm.
  Qed.
  Lemma told_ns_role l m r : u_nss st !! l = Some m -> ns_role h l r <-> r ∈ un_roles m.
  Proof. intros E. rewrite (tl_nrole _ _ T). unfold n_roles. rewrite E. reflexivity. Qed.
  Lemma told_ns_scope l m r : u_nss st !! l = Some m -> ns_scope h l r <-> r ∈ un_scopes m.
  Proof. intros E. rewrite (tl_nscope _ _ T). unfold n_scopes. rewrite E. reflexivity. Qed.
  Lemma told_some_ns t c n : u_tenants st !! t = Some c -> (exists m, has_namespace st c n m) <-> exists l, ns_in h t n l.
  Proof.
    intros E. split.
    - intros (m & H). apply (told_has_namespace _ _ _ _ E) in H as (l & H & _). exists l. exact H.
    - intros (l & H). destruct (told_ns_at _ _ _ H) as (m & Hm). exists m. apply (told_has_namespace _ _ _ _ E). exists l. split; assumption.
  Qed.
  Lemma told_ns_roles t c n r : u_tenants st !! t = Some c -> (exists m, has_namespace st c n m /\ r ∈ un_roles m) <-> exists l, ns_in h t n l /\ ns_role h l r.
  Proof.
    intros E. split.
    - intros (m & H & Hr). apply (told_has_namespace _ _ _ _ E) in H as (l & H & Hm). exists l. split; [exact H|apply (told_ns_role _ _ _ Hm); exact Hr].
    - intros (l & H & Hr). destruct (told_ns_at _ _ _ H) as (m & Hm). exists m. split; [apply (told_has_namespace _ _ _ _ E); exists l; split; assumption|apply (told_ns_role _ _ _ Hm); exact Hr].
  Qed.
  Lemma told_restricts t c n : u_tenants st !! t = Some c -> ns_restricts st c n <-> restricts h t n.
  Proof.
    intros E. split.
    - intros (m & r & H). destruct (proj1 (told_ns_roles t c n r E) (ex_intro _ m H)) as (l & H'). exists l, r. exact H'.
    - intros (l & r & H). destruct (proj2 (told_ns_roles t c n r E) (ex_intro _ l H)) as (m & H'). exists m, r. exact H'.
  Qed.
  Lemma told_row p id (P : trow -> Prop) (Q : string -> string -> string -> Prop) : (forall r n s m, P (TRow p r id n s m) <-> Q r n s) ->
    (exists a, member st p id a /\ P a) <-> exists r n s, has_row h p r id n s /\ Q r n s.
  Proof.
    intros E. split.
    - intros (a & H & Ha). apply (told_member _ _ _ _ _ T) in H as (Hm & <- & <-). destruct a as [p r i n s m]. cbn [tp_principal tp_tenant] in *.
      exists r, n, s. split; [exists m; exact Hm|apply (E r n s m); exact Ha].
    - intros (r & n & s & (m & Hm) & Hq). exists (TRow p r id n s m). split; [apply (told_member _ _ _ _ _ T); split; [exact Hm|split; reflexivity]|apply E; exact Hq].
  Qed.
  Lemma told_row_at p id n s r : (exists a, member st p id a /\ tp_ns a = n /\ tp_scope a = s /\ tp_role a = r) <-> has_row h p r id n s.
  Proof.
    rewrite (told_row p id _ (fun r' n' s' => n' = n /\ s' = s /\ r' = r)) by reflexivity. split.
    - intros (? & ? & ? & H & -> & -> & ->). exact H.
    - intros H. exists r, n, s. split; [exact H|split; [reflexivity|split; reflexivity]].
  Qed.
  Lemma told_candidate t c p id n s r : u_tenants st !! t = Some c -> candidate st c p id n s r <-> considered h t id p n s r.
  Proof.
    intros E. unfold candidate, considered. rewrite (told_ns_roles t c n r E), (told_restricts t c n E), !told_row_at. reflexivity.
  Qed.
  Lemma told_place t c n s : u_tenants st !! t = Some c -> place_exists st c n s <-> place_known h t n s.
  Proof. intros E. unfold place_exists, place_known. rewrite (told_some_ns t c n E), (told_tscope _ _ _ _ _ T E). reflexivity. Qed.
  Lemma told_scope_row p id s : (exists a, member st p id a /\ tp_scope a = s) <-> exists r n, has_row h p r id n s.
  Proof.
    rewrite (told_row p id _ (fun r' n' s' => s' = s)) by reflexivity. split.
    - intros (r & n & s' & H & ->). exists r, n. exact H.
    - intros (r & n & H). exists r, n, s. split; [exact H|reflexivity].
  Qed.
  Lemma told_ns_row p id n : (exists a, member st p id a /\ tp_ns a = n) <-> exists r s, has_row h p r id n s.
  Proof.
    rewrite (told_row p id _ (fun r' n' s' => n' = n)) by reflexivity. split.
    - intros (r & n' & s & H & ->). exists r, s. exact H.
    - intros (r & s & H). exists r, n, s. split; [exact H|reflexivity].
  Qed.
  Lemma told_whole_row p id : (exists a, member st p id a /\ tp_ns a = "" /\ tp_scope a = "") <-> exists r, has_row h p r id "" "".
  Proof.
    rewrite (told_row p id _ (fun r' n' s' => n' = "" /\ s' = "")) by reflexivity. split.
    - intros (r & n & s' & H & -> & ->). exists r. exact H.
    - intros (r & H). exists r, "", "". split; [exact H|split; reflexivity].
  Qed.
  Lemma told_open t c p id n s : u_tenants st !! t = Some c -> place_open st c p id n s <-> place_free h t id p n s.
  Proof.
    intros E. unfold place_open, place_free. rewrite (told_place t c n s E), told_scope_row, told_whole_row.
    assert (A : (forall m s', has_namespace st c n m -> s' ∈ un_scopes m -> s ∈ un_scopes m) <-> forall l s', ns_in h t n l -> ns_scope h l s' -> ns_scope h l s).
    { split.
      - intros A l s' Hl Hs. destruct (told_ns_at _ _ _ Hl) as (m & Hm). apply (told_ns_scope _ _ _ Hm). apply (A m s'); [apply (told_has_namespace _ _ _ _ E); exists l; split; assumption|apply (told_ns_scope _ _ _ Hm); exact Hs].
      - intros A m s' Hm Hs. apply (told_has_namespace _ _ _ _ E) in Hm as (l & Hl & Hm). apply (told_ns_scope _ _ _ Hm). apply (A l s' Hl). apply (told_ns_scope _ _ _ Hm). exact Hs. }
    assert (B : (forall r, candidate st c p id n s r -> r ∈ ut_roles c) <-> forall r, considered h t id p n s r -> role_in h t r).
    { split; intros B r Hr; apply (told_trole _ _ _ _ _ T E), B, (told_candidate t c p id n s r E), Hr. }
    rewrite A, B. reflexivity.
  Qed.
  Lemma told_allowed t c p id n s r : u_tenants st !! t = Some c -> allowed_role st c p id n s r <-> usable h t id p n s r.
  Proof. intros E. unfold allowed_role, usable. rewrite (told_open t c p id n s E), (told_candidate t c p id n s r E). reflexivity. Qed.

  (** Roles *)
  Lemma told_edge l d : role_edge (u_heap st) l d <-> sub_role h l d.
  Proof.
    unfold role_edge, child_of, role_children, sub_role. split.
    - intros (m & k & Hm & Hk). exists k. apply (th_sub _ _ (tl_roles _ _ T)). unfold f_desc. destruct (h_roles (u_heap st) !! l) as [r|]; [|discriminate]. injection Hm as <-. exact Hk.
    - intros (k & Hk). apply (th_sub _ _ (tl_roles _ _ T)) in Hk. unfold f_desc in Hk. destruct (h_roles (u_heap st) !! l) as [r|]; [|discriminate]. exists (r_desc r), k. split; [reflexivity|exact Hk].
  Qed.
  Lemma told_descends l d : descends (u_heap st) l d <-> tc (sub_role h) l d.
  Proof.
    split; intros H; induction H as [x y E|x y z E _ IH].
    - apply tc_once, told_edge, E.
    - eapply tc_l; [apply told_edge; exact E|exact IH].
    - apply tc_once, told_edge, E.
    - eapply tc_l; [apply told_edge; exact E|exact IH].
  Qed.
  Lemma owns_points l grp g : owns (u_heap st) l grp g <-> exists gl, f_perms (u_heap st) l grp = Some gl /\ h_groups (u_heap st) !! gl = Some g.
  Proof.
    unfold owns, f_perms. split.
    - intros (r & gl & Hr & Hg & E). exists gl. rewrite Hr. split; assumption.
    - intros (gl & Hg & E). destruct (h_roles (u_heap st) !! l) as [r|]; [|discriminate]. exists r, gl. split; [reflexivity|split; assumption].
  Qed.
  Lemma told_store l grp : (exists w, store_of h l grp w) <-> exists g, owns (u_heap st) l grp g.
  Proof.
    pose proof (tl_groups _ _ T) as G. split.
    - intros (w & H). assert (E : exists gl, f_perms (u_heap st) l grp = Some gl).
      { destruct w; [apply (th_own _ _ G) in H as (gl & H & _)|apply (th_handed _ _ G) in H as [H _]]; eexists; exact H. }
      destruct E as (gl & E). pose proof (perms_valid _ _ _ _ (uwf_heap _ W) E) as L. apply lookup_lt_is_Some in L as [g Hg]. exists g. apply owns_points. exists gl. split; assumption.
    - intros (g & H). apply owns_points in H as (gl & E & _). destruct (made_dec h gl) as [M|M].
      + exists (Handed gl). apply (th_handed _ _ G). split; assumption.
      + exists Own. apply (th_own _ _ G). exists gl. split; assumption.
  Qed.
  Lemma told_attr l grp g k : owns (u_heap st) l grp g -> is_Some (g_perms g !! k) <-> exists a, attr_string a = k /\ role_attr h l grp a.
  Proof.
    intros H. pose proof (tl_groups _ _ T) as G. apply owns_points in H as (gl & E & Hg).
    { assert (K0 : is_Some (g_perms g !! k) <-> g_has (u_heap st) gl k).
      { split; [intros K; exists g; split; assumption|]. intros (g' & Hg' & K). congruence. }
      rewrite K0. destruct (made_dec h gl) as [M|M].
      - rewrite (th_has _ _ G gl k M). split; intros (a & Ha & Hh); exists a; (split; [exact Ha|]).
        + right. exists gl. split; [apply (th_handed _ _ G); split; assumption|exact Hh].
        + destruct Hh as [[Ho _]|(gl' & Hs & Hh)]; [apply (th_own _ _ G) in Ho as (gl' & E' & N); congruence|]. apply (th_handed _ _ G) in Hs as [E' _]. congruence.
      - rewrite (th_keeps _ _ G l grp gl k M E). split; intros (a & Ha & Hh); exists a; (split; [exact Ha|]).
        + left. split; [apply (th_own _ _ G); exists gl; split; assumption|exact Hh].
        + destruct Hh as [[_ Hh]|(gl' & Hs & _)]; [exact Hh|]. apply (th_handed _ _ G) in Hs as [E' M']. congruence. }
  Qed.
  Lemma told_offers l grp act g : owns (u_heap st) l grp g -> offers g act <-> role_offers h l grp act.
  Proof.
    intros H. pose proof (fun k => told_attr l grp g k H) as K. unfold offers, role_offers. split.
    - intros (k & a & Hk & Hm). destruct (proj1 (K k) (ex_intro _ a Hk)) as (a' & <- & Ha). exists a'. split; assumption.
    - intros (a & Ha & Hm). destruct (proj2 (K (attr_string a)) (ex_intro _ a (conj eq_refl Ha))) as [b Hb]. exists (attr_string a), b. split; assumption.
  Qed.
  Lemma offers_store l grp act : role_offers h l grp act -> exists w, store_of h l grp w.
  Proof. intros (a & [[H _]|(gl & H & _)] & _); eexists; exact H. Qed.
  Lemma told_grants r grp act (adm adm' : string -> Prop) : (forall x, adm x <-> adm' x) -> role_grants st r grp act adm <-> role_allows h r grp act adm'.
  Proof.
    intros A. unfold role_grants, role_allows. split.
    - intros (l & g & Hl & Ho & H). exists l. split; [apply (tl_rreg _ _ T); exact Hl|]. split; [apply told_store; exists g; exact Ho|].
      destruct H as [H|(d & gd & id & Hd & Hi & Had & Hod & H)]; [left; apply (told_offers _ _ _ _ Ho); exact H|right].
      exists d, id. split; [apply told_descends; exact Hd|]. split; [apply (th_role _ _ (tl_roles _ _ T)); exact Hi|].
      split; [|apply (told_offers _ _ _ _ Hod); exact H]. destruct Had as [N|Had]; [left; intros x Hx; apply (N x), A, Hx|right; apply A; exact Had].
    - intros (l & Hl & Hw & H). apply told_store in Hw as (g & Ho). exists l, g. split; [apply (tl_rreg _ _ T); exact Hl|]. split; [exact Ho|].
      destruct H as [H|(d & id & Hd & Hi & Had & H)]; [left; apply (told_offers _ _ _ _ Ho); exact H|right].
      destruct (proj1 (told_store d grp) (offers_store _ _ _ H)) as (gd & Hod).
      exists d, gd, id. split; [apply told_descends; exact Hd|]. split; [apply (th_role _ _ (tl_roles _ _ T)); exact Hi|].
      split; [|split; [exact Hod|apply (told_offers _ _ _ _ Hod); exact H]]. destruct Had as [N|Had]; [left; intros x Hx; apply (N x), A, Hx|right; apply A; exact Had].
  Qed.

  (** Decisions *)
  Lemma told_complex p id n s grp act : complex_grants st p id n s grp act <-> allowed_in h p id n s grp act.
  Proof.
    unfold complex_grants, allowed_in. split.
    - intros (c & Hc & Hp & a & Ha & Hg). apply told_registered in Hc as (t & Ht & E). exists t. split; [exact Ht|]. split; [apply (told_place t c n s E); exact Hp|].
      apply (told_member _ _ _ _ _ T) in Ha as (Hm & <- & <-). destruct a as [p r i n' s' m]. cbn [tp_principal tp_tenant tp_role] in *. exists r, n', s'. split; [exists m; exact Hm|].
      eapply told_grants; [|exact Hg]. intros x. apply (told_allowed t c p i n s x E).
    - intros (t & Ht & Hp & r & n' & s' & (m & Hm) & Hg). destruct (told_at _ _ Ht) as (c & E & Hc). exists c. split; [exact Hc|]. split; [apply (told_place t c n s E); exact Hp|].
      exists (TRow p r id n' s' m). split; [apply (told_member _ _ _ _ _ T); split; [exact Hm|split; reflexivity]|]. cbn [tp_role].
      eapply told_grants; [|exact Hg]. intros x. apply (told_allowed t c p id n s x E).
  Qed.
  Lemma told_anywhere p r : somewhere_allowed st p r <-> anywhere h p r.
  Proof.
    unfold somewhere_allowed, anywhere. split.
    - intros (id & c & a & Ha & Hc & Hr). apply told_registered in Hc as (t & Ht & E). apply (told_member _ _ _ _ _ T) in Ha as (Hm & <- & <-). destruct a as [p r' i n s m]. cbn [tp_principal tp_tenant] in *.
      exists i, t, r', n, s. split; [exists m; exact Hm|]. split; [exact Ht|]. apply (told_allowed t c p i "" "" r E). exact Hr.
    - intros (id & t & r' & n & s & (m & Hm) & Ht & Hr). destruct (told_at _ _ Ht) as (c & E & Hc). exists id, c, (TRow p r' id n s m).
      split; [apply (told_member _ _ _ _ _ T); split; [exact Hm|split; reflexivity]|]. split; [exact Hc|]. apply (told_allowed t c p id "" "" r E). exact Hr.
  Qed.
  Lemma told_activity p act : activity_grants st p act <-> allowed_anywhere h p act.
  Proof.
    unfold activity_grants, allowed_anywhere. split; intros (r & Hr & Hg); exists r; (split; [apply told_anywhere; exact Hr|]); (eapply told_grants; [|exact Hg]); intros x; apply told_anywhere.
  Qed.
  Lemma told_any_row (P : trow -> Prop) (Q : string -> string -> string -> string -> string -> Prop) : (forall p r id n s m, P (TRow p r id n s m) <-> Q p r id n s) ->
    (exists a, assigned st a /\ P a) <-> exists p r id n s, has_row h p r id n s /\ Q p r id n s.
  Proof.
    intros E. split.
    - intros (a & H & Ha). apply (told_assigned h st a (tl_rows _ _ T) (tl_clean _ _ T)) in H. destruct a as [p r i n s m]. exists p, r, i, n, s. split; [exists m; exact H|]. apply (E p r i n s m). exact Ha.
    - intros (p & r & id & n & s & (m & Hm) & Hq). exists (TRow p r id n s m). split; [apply (told_assigned h st _ (tl_rows _ _ T) (tl_clean _ _ T)); exact Hm|apply E; exact Hq].
  Qed.
  Lemma told_decision o p q b : u_authorize o st p q = Ok b -> b = true <-> granted h p q.
  Proof.
    intros H. unfold granted. rewrite (tl_prin _ _ T p).
    destruct (decide (p ∈ u_principals st)) as [K|K].
    2: { rewrite (unknown_denied o st p q K) in H. injection H as <-. split; [discriminate|]. intros [? _]. contradiction. }
    assert (C : complex_request q -> b = true <-> p ∈ u_principals st /\ allowed_in h p (to_string (uo_tenant q)) (to_string (uo_namespace q)) (to_string (uo_scope q)) (to_string (uo_group q)) (to_string (uo_activity q))).
    { intros Hq. rewrite (complex_exact o st p q b W K Hq H). unfold complex_of. rewrite told_complex. tauto. }
    destruct q as [t n s g a]. cbn [uo_tenant uo_namespace uo_scope uo_group uo_activity] in *. cbv zeta.
    destruct (asked g) eqn:Eg.
    { assert (G : g <> ANil) by (intros ->; discriminate). destruct (asked t), (asked n), (asked s), (asked a); apply C; left; exact G. }
    assert (g = ANil) as -> by (destruct g; [reflexivity|discriminate..]). clear Eg.
    destruct (asked a) eqn:Ea.
    { assert (A : a <> ANil) by (intros ->; discriminate). destruct (asked t) eqn:Et; [|destruct (asked n) eqn:En; [|destruct (asked s) eqn:Es]].
      - destruct (asked n), (asked s); apply C; right; left; (split; [exact A|left; intros E0; cbn in E0; subst; discriminate]).
      - destruct (asked s); apply C; right; left; (split; [exact A|right; left; intros E0; cbn in E0; subst; discriminate]).
      - apply C. right. left. split; [exact A|right; right; intros E0; cbn in E0; subst; discriminate].
      - assert (t = ANil) as -> by (destruct t; [reflexivity|discriminate..]). assert (n = ANil) as -> by (destruct n; [reflexivity|discriminate..]). assert (s = ANil) as -> by (destruct s; [reflexivity|discriminate..]).
        rewrite (activity_exact o st p a b W K A H), told_activity. tauto. }
    assert (a = ANil) as -> by (destruct a; [reflexivity|discriminate..]). clear Ea.
    destruct (asked t) eqn:Et, (asked n) eqn:En, (asked s) eqn:Es;
      try (assert (t = ANil) as -> by (destruct t; [reflexivity|discriminate..]); clear Et);
      try (assert (n = ANil) as -> by (destruct n; [reflexivity|discriminate..]); clear En);
      try (assert (s = ANil) as -> by (destruct s; [reflexivity|discriminate..]); clear Es);
      try (assert (Nt : t <> ANil) by (intros ->; discriminate)); try (assert (Nn : n <> ANil) by (intros ->; discriminate)); try (assert (Ns : s <> ANil) by (intros ->; discriminate)).
    - destruct (tenant_namespace_scope o st p t n s K Nt Nn Ns W) as (b' & E & Hb). rewrite H in E. injection E as <-. rewrite Hb.
      rewrite (told_any_row _ (fun p' r id n' s' => id = to_string t /\ n' = to_string n /\ s' = to_string s)) by reflexivity. split.
      + intros (p' & r & id & n' & s' & Hr & -> & -> & ->). split; [exact K|]. exists p', r. exact Hr.
      + intros (_ & p' & r & Hr). exists p', r, (to_string t), (to_string n), (to_string s). split; [exact Hr|split; [reflexivity|split; reflexivity]].
    - destruct (tenant_namespace o st p t n K Nt Nn W) as (b' & E & Hb). rewrite H in E. injection E as <-. rewrite Hb, told_ns_row. tauto.
    - destruct (tenant_scope o st p t s K Nt Ns W) as (b' & E & Hb). rewrite H in E. injection E as <-. rewrite Hb, told_scope_row. tauto.
    - destruct (only_tenant o st p t K Nt W) as (b' & E & Hb). rewrite H in E. injection E as <-. rewrite Hb. split.
      + intros (c & Hc). apply told_registered in Hc as (t' & Ht & _). split; [exact K|exists t'; exact Ht].
      + intros (_ & t' & Ht). destruct (told_at _ _ Ht) as (c & _ & Hc). exists c. exact Hc.
    - destruct (namespace_scope o st p n s K Nn Ns W) as (b' & E & Hb). rewrite H in E. injection E as <-. rewrite Hb.
      rewrite (told_any_row _ (fun p' r id n' s' => p' = p /\ n' = to_string n /\ s' = to_string s)) by reflexivity. split.
      + intros (p' & r & id & n' & s' & Hr & -> & -> & ->). split; [exact K|]. exists r, id. exact Hr.
      + intros (_ & r & id & Hr). exists p, r, id, (to_string n), (to_string s). split; [exact Hr|split; [reflexivity|split; reflexivity]].
    - destruct (only_namespace o st p n K Nn W) as (b' & E & Hb). rewrite H in E. injection E as <-. rewrite Hb. split.
      + intros (id & c & m & a & Ha & Hc & Hn). split; [exact K|]. apply (told_member _ _ _ _ _ T) in Ha as (Hm & <- & <-). destruct a as [p r i n' s' f]. cbn [tp_principal tp_tenant] in *.
        apply told_registered in Hc as (t' & Ht & E). apply (told_has_namespace _ _ _ _ E) in Hn as (l & Hl & _). exists r, i, n', s', t', l. split; [exists f; exact Hm|]. split; assumption.
      + intros (_ & r & id & n' & s' & t' & l & (f & Hm) & Ht & Hl). destruct (told_at _ _ Ht) as (c & E & Hc). destruct (told_ns_at _ _ _ Hl) as (m & Hm').
        exists id, c, m, (TRow p r id n' s' f). split; [apply (told_member _ _ _ _ _ T); split; [exact Hm|split; reflexivity]|]. split; [exact Hc|]. apply (told_has_namespace _ _ _ _ E). exists l. split; assumption.
    - destruct (only_scope o st p s K Ns W) as (b' & E & Hb). rewrite H in E. injection E as <-. rewrite Hb. split.
      + intros (id & c & a & Ha & Hs & Hc & Hin). split; [exact K|]. apply (told_member _ _ _ _ _ T) in Ha as (Hm & <- & <-). destruct a as [p r i n' s' f]. cbn [tp_principal tp_tenant tp_scope] in *. subst s'.
        apply told_registered in Hc as (t' & Ht & E). exists r, i, n', t'. split; [exists f; exact Hm|]. split; [exact Ht|apply (told_tscope _ _ _ _ _ T E); exact Hin].
      + intros (_ & r & id & n' & t' & (f & Hm) & Ht & Hs). destruct (told_at _ _ Ht) as (c & E & Hc).
        exists id, c, (TRow p r id n' (to_string s) f). split; [apply (told_member _ _ _ _ _ T); split; [exact Hm|split; reflexivity]|]. split; [reflexivity|]. split; [exact Hc|]. apply (told_tscope _ _ _ _ _ T E). exact Hs.
    - apply C. right. right. split; [reflexivity|split; [reflexivity|split; reflexivity]].
  Qed.
  Lemma told_stray p : (exists a, stray st p a) <-> exists r id n s, has_row h p r id n s /\ forall t, ~ tenant_at h id t.
  Proof.
    split.
    - intros (a & H & E & N). apply (told_assigned h st a (tl_rows _ _ T) (tl_clean _ _ T)) in H. destruct a as [p' r id n s m]. cbn [tp_principal tp_tenant] in *. subst p'.
      exists r, id, n, s. split; [exists m; exact H|]. intros t Ht. apply (tl_reg _ _ T) in Ht. rewrite N in Ht. discriminate.
    - intros (r & id & n & s & (m & Hm) & N). exists (TRow p r id n s m). split; [apply (told_assigned h st _ (tl_rows _ _ T) (tl_clean _ _ T)); exact Hm|]. split; [reflexivity|].
      cbn [tp_tenant]. destruct (u_reg st !! id) as [t|] eqn:E; [|reflexivity]. destruct (N t). apply (tl_reg _ _ T). exact E.
  Qed.
  Lemma told_lost o p q : u_authorize o st p q = Panic <-> lost h p q.
  Proof.
    unfold lost. rewrite (tl_prin _ _ T p), <- told_stray.
    destruct (decide (p ∈ u_principals st)) as [K|K].
    2: { rewrite (unknown_denied o st p q K). split; [discriminate|]. intros [? _]. contradiction. }
    assert (C : complex_request q -> u_authorize o st p q <> Panic) by (intros Hq; exact (complex_no_panic o st p q W K Hq)).
    destruct q as [t n s g a]. cbn [uo_tenant uo_namespace uo_scope uo_group uo_activity] in *.
    destruct (asked g) eqn:Eg.
    { assert (G : g <> ANil) by (intros ->; discriminate). split; [intros E; destruct (C (or_introl G) E)|]. intros (_ & E & _). injection E as _ _ _ E. contradiction. }
    assert (g = ANil) as -> by (destruct g; [reflexivity|discriminate..]). clear Eg.
    destruct (decide (t = ANil /\ n = ANil /\ s = ANil)) as [(-> & -> & ->)|Hno].
    { destruct (decide (a = ANil)) as [->|A].
      - split; [intros E; destruct (C (or_intror (or_intror (conj eq_refl (conj eq_refl (conj eq_refl eq_refl))))) E)|]. intros (_ & _ & E & _). destruct (E eq_refl).
      - rewrite (activity_panics o st p a W K A). split; [intros E; split; [exact K|split; [reflexivity|split; [exact A|exact E]]]|]. intros (_ & _ & _ & E). exact E. }
    split; [|intros (_ & E & _); injection E as -> -> ->; destruct Hno; split; [reflexivity|split; reflexivity]].
    intros E. exfalso. destruct (decide (a = ANil)) as [->|A].
    2: { apply (fun c => C (or_intror (or_introl (conj A c))) E). cbn [uo_tenant uo_namespace uo_scope]. destruct (decide (t = ANil)) as [Ht|Ht]; [|left; exact Ht]. destruct (decide (n = ANil)) as [Hn|Hn]; [|right; left; exact Hn]. right. right. intros Hs. apply Hno. split; [exact Ht|split; assumption]. }
    destruct (decide (t = ANil)) as [->|Nt], (decide (n = ANil)) as [->|Nn], (decide (s = ANil)) as [->|Ns].
    - apply Hno. split; [reflexivity|split; reflexivity].
    - destruct (only_scope o st p s K Ns W) as (b' & E' & _). rewrite E in E'. discriminate.
    - destruct (only_namespace o st p n K Nn W) as (b' & E' & _). rewrite E in E'. discriminate.
    - destruct (namespace_scope o st p n s K Nn Ns W) as (b' & E' & _). rewrite E in E'. discriminate.
    - destruct (only_tenant o st p t K Nt W) as (b' & E' & _). rewrite E in E'. discriminate.
    - destruct (tenant_scope o st p t s K Nt Ns W) as (b' & E' & _). rewrite E in E'. discriminate.
    - destruct (tenant_namespace o st p t n K Nt Nn W) as (b' & E' & _). rewrite E in E'. discriminate.
    - destruct (tenant_namespace_scope o st p t n s K Nt Nn Ns W) as (b' & E' & _). rewrite E in E'. discriminate.
  Qed.
End told.

Lemma decided_by_calls o ops st outs o' p q b : urun o 0 u_init ops = Ok (st, outs) -> Forall plain_names ops -> groups_made (log_of ops outs) ->
  u_authorize o' st p q = Ok b -> (b = true <-> granted (log_of ops outs) p q).
Proof. intros H P GM. exact (told_decision _ _ (tells_all _ _ _ _ H P GM) o' p q b). Qed.
Lemma lost_by_calls o ops st outs o' p q : urun o 0 u_init ops = Ok (st, outs) -> Forall plain_names ops -> groups_made (log_of ops outs) ->
  u_authorize o' st p q = Panic <-> lost (log_of ops outs) p q.
Proof. intros H P GM. exact (told_lost _ _ (tells_all _ _ _ _ H P GM) o' p q). Qed.
