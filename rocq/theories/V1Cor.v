(** Consequences for histories of package v1. *)
From Verif Require Import UtilsProofs V1Code V1Inv V1Auth.
From Verif Require Export V1Dec V1Write.

(** ** C44, C45 *)
Lemma c44_reads o st t p : ureachable st ->
  gives (get_principal_roles o st t p) (member st p t) /\ gives (get_tenant_roles o st t) (fun a => assigned st a /\ tp_tenant a = t)
  /\ gives (get_tenants_for_principal o st p) (fun x => exists a, member st p x a).
Proof. intros W%ureachable_wf. split_and!; [by apply principal_roles_ok|by apply tenant_roles_ok|by apply tenants_for_ok]. Qed.
Lemma step_row o st p r t ns s m st' y x : row_for st p r t ns s m x ->
  ustep o st (UAddPrincipalRole p r t ns s m) = Ok (st', y) -> forall b, assigned st' b <-> assigned st b \/ read_back x b.
Proof.
  intros (c & n & Hc & Hn & ->). cbn [ustep]. unfold uret. rewrite rbind_ok. intros (st1 & H & [= <- _]).
  by eapply add_principal_role_adds.
Qed.
Lemma row_for_fields st p r t ns s m x : row_for st p r t ns s m x -> tp_principal x = p /\ tp_role x = r.
Proof. by intros (c & n & _ & _ & ->). Qed.
Lemma assigned_clean st a : assigned st a -> clean_row a.
Proof. intros (s & _ & H). by eapply reads_clean. Qed.
Lemma c44_exact o o' st p r t ns s m st' y x : ureachable st -> row_for st p r t ns s m x ->
  ustep o st (UAddPrincipalRole p r t ns s m) = Ok (st', y) ->
  exists rows, get_principal_roles o' st' (tp_tenant x) p = Ok rows /\ (x ∈ rows <-> clean_row x).
Proof.
  intros W%ureachable_wf Hx H. pose proof (step_good _ _ _ _ _ H W) as [W' _].
  destruct (principal_roles_ok o' st' (tp_tenant x) p W') as (rows & Hr & Hin). exists rows. split; [done|].
  rewrite Hin. unfold member. rewrite (step_row _ _ _ _ _ _ _ _ _ _ _ Hx H).
  destruct (row_for_fields _ _ _ _ _ _ _ _ Hx) as [Hp _]. split.
  - intros ([Ha|Ha] & _); [by eapply assigned_clean|]. by eapply (read_back_exact x x Ha).
  - intros Hc. split; [right|done]. by apply roundtrip_clean.
Qed.
Lemma c44_clean o o' st p r t ns s m st' y x t' p' : ureachable st -> row_for st p r t ns s m x -> clean_row x ->
  ustep o st (UAddPrincipalRole p r t ns s m) = Ok (st', y) ->
  gives (get_principal_roles o' st' t' p') (fun a => member st p' t' a \/ (a = x /\ p' = p /\ t' = tp_tenant x)).
Proof.
  intros W%ureachable_wf Hx Hc H. pose proof (step_good _ _ _ _ _ H W) as [W' _].
  destruct (principal_roles_ok o' st' t' p' W') as (rows & Hr & Hin). exists rows. split; [done|]. intros a.
  rewrite Hin. unfold member. rewrite (step_row _ _ _ _ _ _ _ _ _ _ _ Hx H).
  destruct (row_for_fields _ _ _ _ _ _ _ _ Hx) as [Hp _]. split.
  - intros ([Ha|Ha] & <- & <-); [by left|right]. by rewrite (proj1 (reads_string_clean x a Hc) Ha).
  - intros [(Ha & ? & ?)|(-> & -> & ->)]; [by split_and!; [left|..]|]. split_and!; [right|done|done]. by apply roundtrip_clean.
Qed.
Lemma c44_hole o o' st p r t ns s m st' y q rest : ureachable st -> clean q -> p = under q rest ->
  ustep o st (UAddPrincipalRole p r t ns s m) = Ok (st', y) ->
  exists b rows, tp_principal b = q /\ get_principal_roles o' st' (tp_tenant b) q = Ok rows /\ b ∈ rows.
Proof.
  intros W%ureachable_wf Hq -> H. pose proof (step_good _ _ _ _ _ H W) as [W' _].
  assert (exists x, row_for st (under q rest) r t ns s m x) as (x & Hx).
  { cbn [ustep] in H. unfold uret, u_add_principal_role in H. rewrite rbind_ok in H. destruct H as (st1 & H & _).
    destruct (u_tenants st !! t) as [c|] eqn:Hc; [|done]. rewrite rbind_ok in H. destruct H as (n & Hn & _).
    eexists. exists c, n. split_and!; [done| |done]. destruct ns as [l|]; [|by injection Hn].
    destruct (u_nss st !! l) as [k|] eqn:Hk; [|done]. injection Hn as <-. by exists k. }
  destruct (row_for_fields _ _ _ _ _ _ _ _ Hx) as [Hp _]. destruct (read_back_total x) as (b & Hb).
  pose proof (read_back_principal x q rest Hq Hp b Hb) as Hbq.
  destruct (principal_roles_ok o' st' (tp_tenant b) q W') as (rows & Hr & Hin). exists b, rows. split_and!; try done.
  apply Hin. split; [|done]. apply (step_row _ _ _ _ _ _ _ _ _ _ _ Hx H). by right.
Qed.

(** ** Readers *)
Lemma gives_gives {A} (x : res (list A)) P Q : gives x P -> (forall a, P a <-> Q a) -> gives x Q.
Proof. intros (l & Hx & H) E. exists l. split; [done|]. intros a. by rewrite H. Qed.
Lemma implicit_rows_ok o i st ids : u_wf st ->
  gives (implicit_rows o i st ids) (fun a => assigned st a /\ tp_tenant a ∈ ids).
Proof.
  intros W. revert i. induction ids as [|id ids IH]; intros i; simpl.
  - exists []. split; [done|]. intros a. split; [by intros ?%elem_of_nil|]. by intros [_ ?%elem_of_nil].
  - destruct (tenant_roles_ok (sub o i) st id W) as (rs & -> & Hrs). destruct (IH (S i)) as (rest & -> & Hrest). simpl.
    eexists. split; [done|]. intros a. rewrite elem_of_app, Hrs, Hrest, elem_of_cons. tauto.
Qed.
Lemma implicit_ok o st t p : ureachable st ->
  gives (get_implicit_principal_roles o st t p)
    (fun a => member st p t a \/ exists c, utenant_is st t c /\ assigned st a /\ is_Some (ut_desc c !! tp_tenant a)).
Proof.
  intros W%ureachable_wf. unfold get_implicit_principal_roles.
  destruct (principal_roles_ok (sub o 0) st t p W) as (own & -> & Hown). cbn [rbind].
  destruct (u_tenant st t) as [c|] eqn:Hc.
  - destruct (implicit_rows_ok (sub o 1) 1 st (ordered (sub (sub o 1) 0) (map_to_list (ut_desc c)).*1) W) as (below & -> & Hb).
    cbn [rbind]. eexists. split; [done|]. intros a. rewrite elem_of_app, Hown, Hb, elem_of_ordered, elem_of_list_fmap.
    apply u_tenant_is in Hc. split.
    + intros [?|[Ha ([k l] & Hk & Hl)]]; [by left|right]. exists c. split_and!; try done. simpl in Hk. subst k.
      apply elem_of_map_to_list in Hl. by eexists.
    + intros [?|(c' & Hc' & Ha & (l & Hl))]; [by left|right]. split; [done|]. exists (tp_tenant a, l). split; [done|].
      apply elem_of_map_to_list. destruct Hc as (x & ? & ?), Hc' as (x' & ? & ?). by simplify_eq.
  - exists own. split; [done|]. intros a. rewrite Hown. split; [by left|]. intros [?|(c & Hc' & _)]; [done|].
    apply u_tenant_is in Hc'. congruence.
Qed.
Lemma scopes_ok o st p : ureachable st -> known st p ->
  exists l, get_scopes_for_principal o st p = Ok (Some l)
    /\ forall s, s ∈ l <-> s <> "" /\ exists a, assigned st a /\ tp_principal a = p /\ tp_scope a = s.
Proof.
  intros W%ureachable_wf Hp. unfold get_scopes_for_principal.
  rewrite bool_decide_eq_true_2 by done. destruct (read_rows_ok o st W) as (rs & -> & Hin). cbn [rbind].
  eexists. split; [done|]. intros s. rewrite elem_of_list_fmap. split.
  - intros (a & -> & Ha). rewrite elem_of_list_filter, Hin in Ha. destruct Ha as [[? ?] ?]. split; [done|]. by exists a.
  - intros (Hs & a & Ha & Hpa & <-). exists a. split; [done|]. by rewrite elem_of_list_filter, Hin.
Qed.
Lemma tenant_scopes_ok o st t p : ureachable st -> known st p -> (exists c, utenant_is st t c) ->
  exists l, get_tenant_scopes_for_principal o st t p = Ok (Some l)
    /\ forall s, s ∈ l <-> s <> "" /\ exists a, member st p t a /\ tp_scope a = s.
Proof.
  intros W%ureachable_wf Hp (c & l & Hl & _). unfold get_tenant_scopes_for_principal.
  rewrite bool_decide_eq_true_2, Hl by done. destruct (read_rows_ok o st W) as (rs & -> & Hin). cbn [rbind].
  eexists. split; [done|]. intros s. rewrite elem_of_list_fmap. split.
  - intros (a & -> & Ha). rewrite elem_of_list_filter, Hin in Ha. destruct Ha as [(? & ? & ?) ?]. split; [done|]. by exists a.
  - intros (Hs & a & (Ha & Hpa & Hta) & <-). exists a. split; [done|]. by rewrite elem_of_list_filter, Hin.
Qed.
Lemma scopes_unknown o st t p :
  (~ known st p -> get_scopes_for_principal o st p = Ok None /\ get_tenant_scopes_for_principal o st t p = Ok None)
  /\ (u_reg st !! t = None -> get_tenant_scopes_for_principal o st t p = Ok None).
Proof.
  unfold get_scopes_for_principal, get_tenant_scopes_for_principal, known. split.
  - intros Hp. by rewrite bool_decide_eq_false_2.
  - intros ->. by case_bool_decide.
Qed.

(** ** C47 *)
Lemma c47_hole o st p t : ureachable st -> known st p -> t <> ANil -> (exists c, utenant_is st (to_string t) c) ->
  u_authorize o st p (UOpts t ANil ANil ANil ANil) = Ok true.
Proof.
  intros W%ureachable_wf Hp Ht Hc. destruct (only_tenant o st p t Hp Ht W) as (b & Hb & Hi). rewrite Hb.
  f_equal. by apply Hi.
Qed.
Lemma c47_member o st p q : ureachable st -> known st p -> uo_tenant q <> ANil ->
  (uo_namespace q = ANil -> uo_scope q = ANil -> uo_group q = ANil -> uo_activity q <> ANil) ->
  (uo_namespace q <> ANil -> uo_scope q <> ANil -> uo_group q = ANil -> uo_activity q <> ANil) ->
  u_authorize o st p q = Ok true -> exists a, member st p (to_string (uo_tenant q)) a.
Proof.
  intros W%ureachable_wf Hp Ht H1 H2 H.
  destruct (decide (uo_group q = ANil /\ uo_activity q = ANil)) as [[Hg Ha]|Hn].
  - destruct q as [t n s g a]; cbn [uo_tenant uo_namespace uo_scope uo_group uo_activity] in *. subst g a.
    destruct (decide (n = ANil)) as [->|Hn], (decide (s = ANil)) as [->|Hs].
    + by destruct H1.
    + destruct (tenant_scope o st p t s Hp Ht Hs W) as (b & Hb & Hi). rewrite Hb in H. injection H as ->.
      destruct (proj1 Hi eq_refl) as (a & ? & _). by exists a.
    + destruct (tenant_namespace o st p t n Hp Ht Hn W) as (b & Hb & Hi). rewrite Hb in H. injection H as ->.
      destruct (proj1 Hi eq_refl) as (a & ? & _). by exists a.
    + by destruct H2.
  - assert (Hc : complex_request q).
    { destruct (decide (uo_group q = ANil)); [|by left]. right; left. split; [|by left].
      intros E. by apply Hn. }
    apply complex_exact in H; [|done|done|done]. destruct (proj1 H eq_refl) as (c & _ & _ & a & Ha & _). by exists a.
Qed.

(** ** C48 *)
Lemma c48_hole o st p t n s grp act c a l g b : ureachable st -> known st p -> grp <> ANil ->
  utenant_is st (to_string t) c -> place_exists st c (to_string n) (to_string s) ->
  member st p (to_string t) a -> u_roles st !! tp_role a = Some l -> owns (u_heap st) l (to_string grp) g ->
  offers g (to_string act) ->
  u_authorize o st p (UOpts t n s grp act) = Ok b -> b = true.
Proof.
  intros W%ureachable_wf Hp Hg Hc Hpl Ha Hl Ho Hof H.
  assert (Hq : complex_request (UOpts t n s grp act)) by by left.
  apply (complex_exact o st p (UOpts t n s grp act) b W Hp Hq H).
  exists c. split_and!; [done|done|]. exists a. split; [done|]. exists l, g. split_and!; [done|done|]. by left.
Qed.

(** ** C49 *)
Lemma c49_partial o st p t n s : ureachable st -> known st p -> t <> ANil -> n <> ANil -> s <> ANil ->
  (forall a, assigned st a -> tp_tenant a = to_string t -> tp_ns a = to_string n -> tp_scope a = to_string s ->
     tp_principal a = p \/ tp_principal a = "") ->
  u_authorize o st p (UOpts t n s ANil ANil) = Ok true ->
  exists a, assigned st a /\ (tp_principal a = p \/ tp_principal a = "") /\ tp_tenant a = to_string t
    /\ tp_ns a = to_string n /\ tp_scope a = to_string s.
Proof.
  intros W%ureachable_wf Hp Ht Hn Hs Hex H. destruct (tenant_namespace_scope o st p t n s Hp Ht Hn Hs W) as (b & Hb & Hi).
  rewrite Hb in H. injection H as ->. destruct (proj1 Hi eq_refl) as (a & Ha & ? & ? & ?). exists a. split_and!; auto.
Qed.

(** ** Nothing is taken away *)
Lemma le_assigned st st' a : u_le st st' -> assigned st a -> assigned st' a.
Proof. intros H (s & Hs & Hr). exists s. split; [|done]. by apply (le_rows _ _ H). Qed.
Lemma le_member st st' p t a : u_le st st' -> member st p t a -> member st' p t a.
Proof. intros H (Ha & ? & ?). split; [by eapply le_assigned|done]. Qed.
Lemma le_tenant st st' t c : u_le st st' -> utenant_is st t c -> exists c', utenant_is st' t c' /\ tenant_le c c'.
Proof.
  intros H (l & Hl & Hc). destruct (le_tenants _ _ H _ _ Hc) as (c' & Hc' & Hle). exists c'. split; [|done].
  exists l. split; [|done]. by eapply lookup_weaken; [exact Hl|apply H].
Qed.
Lemma le_namespace st st' c c' n m : u_le st st' -> tenant_le c c' -> has_namespace st c n m ->
  exists m', has_namespace st' c' n m' /\ ns_le m m'.
Proof.
  intros H (_ & Hn & _) (l & Hl & Hm). destruct (le_nss _ _ H _ _ Hm) as (m' & Hm' & Hle). exists m'. split; [|done].
  exists l. split; [|done]. by eapply lookup_weaken.
Qed.
Lemma le_place st st' c c' n s : u_le st st' -> tenant_le c c' -> place_exists st c n s -> place_exists st' c' n s.
Proof.
  intros H Hle [H1 H2]. split.
  - intros Hn. destruct (H1 Hn) as (m & Hm). destruct (le_namespace _ _ _ _ _ _ H Hle Hm) as (m' & ? & _). by exists m'.
  - intros Hs. destruct Hle as (_ & _ & _ & Hsub & _). by apply Hsub, H2.
Qed.
(** Requests without group and activity: a grant stays. *)
Lemma stays_le o o' st st' p q : u_wf st -> u_wf st' -> u_le st st' -> uo_group q = ANil -> uo_activity q = ANil ->
  (uo_tenant q <> ANil \/ uo_namespace q <> ANil \/ uo_scope q <> ANil) ->
  u_authorize o st p q = Ok true -> u_authorize o' st' p q = Ok true.
Proof.
  intros W W' Hle Hg Ha Hsome H. destruct q as [t n s g a]; cbn [uo_tenant uo_namespace uo_scope uo_group uo_activity] in *. subst g a.
  destruct (decide (p ∈ u_principals st)) as [Hp|Hp]; [|by rewrite unknown_denied in H].
  assert (Hp' : known st' p) by by apply (le_principals _ _ Hle).
  assert (Hlift : forall (P P' : Prop) b b', (b = true <-> P) -> (b' = true <-> P') -> (P -> P') ->
     u_authorize o st p (UOpts t n s ANil ANil) = Ok b -> u_authorize o' st' p (UOpts t n s ANil ANil) = Ok b' ->
     u_authorize o' st' p (UOpts t n s ANil ANil) = Ok true).
  { intros P P' b b' Hb Hb' HP E E'. rewrite E in H. injection H as ->. rewrite E'. f_equal. by apply Hb', HP, Hb. }
  destruct (decide (t = ANil)) as [->|Ht], (decide (n = ANil)) as [->|Hn], (decide (s = ANil)) as [->|Hs].
  - by destruct Hsome as [?|[?|?]].
  - destruct (only_scope o st p s Hp Hs W) as (b & Eb & Hb), (only_scope o' st' p s Hp' Hs W') as (b' & Eb' & Hb').
    apply (Hlift _ _ _ _ Hb Hb'); [|done|done]. intros (t & c & a & Hm & Hsc & Hc & Hin).
    destruct (le_tenant _ _ _ _ Hle Hc) as (c' & Hc' & Hcle). exists t, c', a. split_and!; try done; [by eapply le_member|].
    destruct Hcle as (_ & _ & _ & Hsub & _). by apply Hsub.
  - destruct (only_namespace o st p n Hp Hn W) as (b & Eb & Hb), (only_namespace o' st' p n Hp' Hn W') as (b' & Eb' & Hb').
    apply (Hlift _ _ _ _ Hb Hb'); [|done|done]. intros (t & c & m & a & Hm & Hc & Hnm).
    destruct (le_tenant _ _ _ _ Hle Hc) as (c' & Hc' & Hcle). destruct (le_namespace _ _ _ _ _ _ Hle Hcle Hnm) as (m' & ? & _).
    exists t, c', m', a. split_and!; try done. by eapply le_member.
  - destruct (namespace_scope o st p n s Hp Hn Hs W) as (b & Eb & Hb), (namespace_scope o' st' p n s Hp' Hn Hs W') as (b' & Eb' & Hb').
    apply (Hlift _ _ _ _ Hb Hb'); [|done|done]. intros (a & Hm & ? & ? & ?). exists a. split_and!; try done. by eapply le_assigned.
  - destruct (only_tenant o st p t Hp Ht W) as (b & Eb & Hb), (only_tenant o' st' p t Hp' Ht W') as (b' & Eb' & Hb').
    apply (Hlift _ _ _ _ Hb Hb'); [|done|done]. intros (c & Hc). destruct (le_tenant _ _ _ _ Hle Hc) as (c' & ? & _). by exists c'.
  - destruct (tenant_scope o st p t s Hp Ht Hs W) as (b & Eb & Hb), (tenant_scope o' st' p t s Hp' Ht Hs W') as (b' & Eb' & Hb').
    apply (Hlift _ _ _ _ Hb Hb'); [|done|done]. intros (a & Hm & ?). exists a. split_and!; try done. by eapply le_member.
  - destruct (tenant_namespace o st p t n Hp Ht Hn W) as (b & Eb & Hb), (tenant_namespace o' st' p t n Hp' Ht Hn W') as (b' & Eb' & Hb').
    apply (Hlift _ _ _ _ Hb Hb'); [|done|done]. intros (a & Hm & ?). exists a. split_and!; try done. by eapply le_member.
  - destruct (tenant_namespace_scope o st p t n s Hp Ht Hn Hs W) as (b & Eb & Hb), (tenant_namespace_scope o' st' p t n s Hp' Ht Hn Hs W') as (b' & Eb' & Hb').
    apply (Hlift _ _ _ _ Hb Hb'); [|done|done]. intros (a & Hm & ? & ? & ?). exists a. split_and!; try done. by eapply le_assigned.
Qed.
Lemma c59_stays o i st ops st' outs o1 o2 p q : ureachable st -> urun o i st ops = Ok (st', outs) ->
  uo_group q = ANil -> uo_activity q = ANil -> (uo_tenant q <> ANil \/ uo_namespace q <> ANil \/ uo_scope q <> ANil) ->
  u_authorize o1 st p q = Ok true -> u_authorize o2 st' p q = Ok true.
Proof. intros W%ureachable_wf H. destruct (urun_good _ _ _ _ _ _ H W) as [W' Hle]. by apply stays_le. Qed.
(** Requests with a group: a grant by the assigned role itself stays. *)
Lemma c59_own o i st ops st' outs o2 p q c a l g b : ureachable st -> urun o i st ops = Ok (st', outs) ->
  known st p -> complex_request q ->
  utenant_is st (to_string (uo_tenant q)) c -> place_exists st c (to_string (uo_namespace q)) (to_string (uo_scope q)) ->
  member st p (to_string (uo_tenant q)) a -> u_roles st !! tp_role a = Some l ->
  owns (u_heap st) l (to_string (uo_group q)) g -> offers g (to_string (uo_activity q)) ->
  u_authorize o2 st' p q = Ok b -> b = true.
Proof.
  intros W%ureachable_wf H Hp Hq Hc Hpl Ha Hl Ho Hof Hb. destruct (urun_good _ _ _ _ _ _ H W) as [W' Hle].
  assert (Hp' : known st' p) by by apply (le_principals _ _ Hle).
  apply (complex_exact o2 st' p q b W' Hp' Hq Hb).
  destruct (le_tenant _ _ _ _ Hle Hc) as (c' & Hc' & Hcle). destruct (grows_owns _ _ _ _ _ (le_grows _ _ Hle) Ho) as (g' & Ho' & Hg).
  exists c'. split_and!; [done|by eapply le_place|]. exists a. split; [by eapply le_member|]. exists l, g'.
  split_and!; [|done|left; by eapply grows_offers]. eapply lookup_weaken; [exact Hl|apply Hle].
Qed.
