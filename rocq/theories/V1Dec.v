(** v1 Authorize. *)
From Verif Require Import RoleHas UtilsProofs V1Code.
From Verif Require Export V1Auth.

Lemma existsb_bd {A} (f : A -> bool) (P : A -> Prop) l : (forall a, f a = true <-> P a) ->
  (existsb f l = true <-> exists a, a ∈ l /\ P a).
Proof.
  intros Hf. rewrite existsb_exists. split; intros (a & H1 & H2); exists a.
  - split; [by apply elem_of_list_In|by apply Hf].
  - split; [by apply elem_of_list_In|by apply Hf].
Qed.
Lemma some_row_ok o st t p f (P : trow -> Prop) : u_wf st -> (forall a, f a = true <-> P a) ->
  exists b, some_row o st t p f = Ok b /\ (b = true <-> exists a, member st p t a /\ P a).
Proof.
  intros W Hf. destruct (principal_roles_ok o st t p W) as (prs & Hr & Hin). unfold some_row. rewrite Hr. simpl.
  eexists. split; [done|]. rewrite (existsb_bd _ _ _ Hf). by setoid_rewrite Hin.
Qed.
Lemma some_row_loop_ok o i st p f (P : trow -> Prop) ts : u_wf st -> (forall a, f a = true <-> P a) ->
  exists b, some_row_loop o i st p f ts = Ok b /\ (b = true <-> exists t a, t ∈ ts /\ member st p t a /\ P a).
Proof.
  intros W Hf. revert i. induction ts as [|t ts IH]; intros i; simpl.
  - exists false. split; [done|]. split; [done|]. intros (? & ? & H & _). by apply elem_of_nil in H.
  - destruct (some_row_ok (sub o i) st t p f P W Hf) as (b & -> & Hb). simpl. destruct b.
    + exists true. split; [done|]. split; [|done]. intros _. destruct (proj1 Hb eq_refl) as (a & ? & ?).
      exists t, a. split; [by left|done].
    + destruct (IH (S i)) as (b' & -> & Hb'). exists b'. split; [done|]. rewrite Hb'. split.
      * intros (t' & a & ? & ?). exists t', a. split; [by right|done].
      * intros (t' & a & [->|Ht]%elem_of_cons & ? & ?); [|by exists t', a].
        assert (false = true) by (apply Hb; by exists a). done.
Qed.
Lemma two_fields n s a : bool_decide (tp_ns a = n) && bool_decide (tp_scope a = s) = true <-> tp_ns a = n /\ tp_scope a = s.
Proof. by rewrite andb_true_iff, !bool_decide_eq_true. Qed.

Lemma unknown_denied o st p q : ~ known st p -> u_authorize o st p q = Ok false.
Proof. intros H. unfold u_authorize. by rewrite bool_decide_eq_false_2. Qed.

Lemma only_tenant o st p t : known st p -> t <> ANil -> u_wf st ->
  exists b, u_authorize o st p (UOpts t ANil ANil ANil ANil) = Ok b
    /\ (b = true <-> exists c, utenant_is st (to_string t) c).
Proof.
  intros Hp Ht W. unfold u_authorize. rewrite bool_decide_eq_true_2 by done.
  assert (is_nil t = false) by by destruct t. cbn [uo_tenant uo_namespace uo_scope uo_group uo_activity].
  rewrite H. simpl. eexists. split; [done|]. by rewrite bool_decide_eq_true, registered_is.
Qed.
Lemma only_namespace o st p n : known st p -> n <> ANil -> u_wf st ->
  exists b, u_authorize o st p (UOpts ANil n ANil ANil ANil) = Ok b
    /\ (b = true <-> exists t c m a, member st p t a /\ utenant_is st t c /\ has_namespace st c (to_string n) m).
Proof.
  intros Hp Hn W. unfold u_authorize. rewrite bool_decide_eq_true_2 by done.
  assert (H : is_nil n = false) by by destruct n. cbn [uo_tenant uo_namespace uo_scope uo_group uo_activity].
  rewrite H. simpl. unfold authorize_for_namespace. destruct (tenants_for_ok o st p W) as (ts & -> & Hts). simpl.
  eexists. split; [done|]. rewrite existsb_exists. split.
  - intros (t & Ht & Hb). apply elem_of_list_In, Hts in Ht as (a & Ha).
    destruct (u_tenant st t) as [c|] eqn:E; [|done]. apply u_tenant_is in E.
    apply bool_decide_eq_true, (namespace_is st t c) in Hb as (m & Hm); [|done|done]. by exists t, c, m, a.
  - intros (t & c & m & a & Ha & Hc & Hm). exists t. split; [apply elem_of_list_In, Hts; by exists a|].
    pose proof (proj2 (u_tenant_is _ _ _) Hc) as ->. apply bool_decide_eq_true, (namespace_is st t c); eauto.
Qed.
Lemma scope_loop_ok o i st p s ts : u_wf st ->
  exists b, scope_loop o i st p s ts = Ok b
    /\ (b = true <-> exists t c a, t ∈ ts /\ utenant_is st t c /\ s ∈ ut_scopes c /\ member st p t a /\ tp_scope a = s).
Proof.
  intros W. revert i. induction ts as [|t ts IH]; intros i; simpl.
  - exists false. split; [done|]. split; [done|]. intros (? & ? & ? & H & _). by apply elem_of_nil in H.
  - destruct (IH (S i)) as (b' & E' & Hb').
    assert (Hno : (forall c a, utenant_is st t c -> s ∈ ut_scopes c -> member st p t a -> tp_scope a = s -> False) ->
      (b' = true <-> exists t0 c a, t0 ∈ t :: ts /\ utenant_is st t0 c /\ s ∈ ut_scopes c /\ member st p t0 a /\ tp_scope a = s)).
    { intros Hf. rewrite Hb'. split.
      - intros (t0 & c & a & ? & ?). exists t0, c, a. split; [by right|done].
      - intros (t0 & c & a & [->|Ht]%elem_of_cons & ? & ? & ? & ?); [by destruct (Hf c a)|by exists t0, c, a]. }
    destruct (u_tenant st t) as [c|] eqn:E.
    + apply u_tenant_is in E. case_bool_decide as Hs.
      * rewrite (utenant_id st t c W E). destruct (principal_roles_ok (sub o i) st t p W) as (prs & -> & Hin). simpl.
        destruct (existsb _ prs) eqn:Ex.
        -- exists true. split; [done|]. split; [|done]. intros _.
           apply (existsb_bd _ (fun a => tp_scope a = s)) in Ex as (a & Ha & ?); [|intros; apply bool_decide_eq_true].
           apply Hin in Ha. exists t, c, a. split; [by left|done].
        -- exists b'. split; [done|]. apply Hno. intros c' a Hc' _ Ha Hsc. apply not_true_iff_false in Ex. destruct Ex.
           apply (existsb_bd _ (fun a => tp_scope a = s)); [intros; apply bool_decide_eq_true|].
           exists a. split; [by apply Hin|done].
      * exists b'. split; [done|]. apply Hno. intros c' a Hc' Hs' _ _. apply u_tenant_is in E, Hc'. by simplify_eq.
    + exists b'. split; [done|]. apply Hno. intros c' a Hc' _ _ _. apply u_tenant_is in Hc'. congruence.
Qed.
Lemma only_scope o st p s : known st p -> s <> ANil -> u_wf st ->
  exists b, u_authorize o st p (UOpts ANil ANil s ANil ANil) = Ok b
    /\ (b = true <-> exists t c a, member st p t a /\ tp_scope a = to_string s
                        /\ utenant_is st t c /\ to_string s ∈ ut_scopes c).
Proof.
  intros Hp Hn W. unfold u_authorize. rewrite bool_decide_eq_true_2 by done.
  assert (H : is_nil s = false) by by destruct s. cbn [uo_tenant uo_namespace uo_scope uo_group uo_activity].
  rewrite H. simpl. unfold authorize_for_scope. destruct (tenants_for_ok (sub o 0) st p W) as (ts & -> & Hts). simpl.
  destruct (scope_loop_ok (sub o 1) 0 st p (to_string s) ts W) as (b & -> & Hb). exists b. split; [done|].
  rewrite Hb. split; intros (t & c & a & H1); exists t, c, a; [tauto|]. split; [|tauto]. apply Hts. exists a. tauto.
Qed.
Lemma tenant_namespace o st p t n : known st p -> t <> ANil -> n <> ANil -> u_wf st ->
  exists b, u_authorize o st p (UOpts t n ANil ANil ANil) = Ok b
    /\ (b = true <-> exists a, member st p (to_string t) a /\ tp_ns a = to_string n).
Proof.
  intros Hp Ht Hn W. unfold u_authorize. rewrite bool_decide_eq_true_2 by done.
  assert (H : is_nil n = false) by by destruct n. assert (H' : is_nil t = false) by by destruct t.
  cbn [uo_tenant uo_namespace uo_scope uo_group uo_activity]. rewrite H, H'. simpl.
  apply some_row_ok; [done|]. intros a. apply bool_decide_eq_true.
Qed.
Lemma tenant_scope o st p t s : known st p -> t <> ANil -> s <> ANil -> u_wf st ->
  exists b, u_authorize o st p (UOpts t ANil s ANil ANil) = Ok b
    /\ (b = true <-> exists a, member st p (to_string t) a /\ tp_scope a = to_string s).
Proof.
  intros Hp Ht Hn W. unfold u_authorize. rewrite bool_decide_eq_true_2 by done.
  assert (H : is_nil s = false) by by destruct s. assert (H' : is_nil t = false) by by destruct t.
  cbn [uo_tenant uo_namespace uo_scope uo_group uo_activity]. rewrite H, H'. simpl.
  apply some_row_ok; [done|]. intros a. apply bool_decide_eq_true.
Qed.
Lemma namespace_scope o st p n s : known st p -> n <> ANil -> s <> ANil -> u_wf st ->
  exists b, u_authorize o st p (UOpts ANil n s ANil ANil) = Ok b
    /\ (b = true <-> exists a, assigned st a /\ tp_principal a = p /\ tp_ns a = to_string n /\ tp_scope a = to_string s).
Proof.
  intros Hp Ht Hn W. unfold u_authorize. rewrite bool_decide_eq_true_2 by done.
  assert (H : is_nil s = false) by by destruct s. assert (H' : is_nil n = false) by by destruct n.
  cbn [uo_tenant uo_namespace uo_scope uo_group uo_activity]. rewrite H, H'. simpl.
  unfold authorize_for_namespace_and_scope. destruct (tenants_for_ok (sub o 0) st p W) as (ts & -> & Hts). simpl.
  destruct (some_row_loop_ok (sub o 1) 0 st p _ _ ts W (two_fields (to_string n) (to_string s))) as (b & -> & Hb).
  exists b. split; [done|]. rewrite Hb. split.
  - intros (t & a & _ & (Ha & Hp' & _) & H1 & H2). by exists a.
  - intros (a & Ha & Hp' & H1 & H2). exists (tp_tenant a), a. split_and!; try done. apply Hts. by exists a.
Qed.
Lemma tenant_namespace_scope o st p t n s : known st p -> t <> ANil -> n <> ANil -> s <> ANil -> u_wf st ->
  exists b, u_authorize o st p (UOpts t n s ANil ANil) = Ok b
    /\ (b = true <-> exists a, assigned st a /\ tp_tenant a = to_string t /\ tp_ns a = to_string n /\ tp_scope a = to_string s).
Proof.
  intros Hp Ht Hn Hs W. unfold u_authorize. rewrite bool_decide_eq_true_2 by done.
  assert (H : is_nil s = false) by by destruct s. assert (H' : is_nil n = false) by by destruct n.
  assert (H'' : is_nil t = false) by by destruct t.
  cbn [uo_tenant uo_namespace uo_scope uo_group uo_activity]. rewrite H, H', H''. simpl.
  unfold authorize_for_tenant_namespace_and_scope.
  destruct (some_row_ok (sub o 0) st (to_string t) p _ _ W (two_fields (to_string n) (to_string s))) as (b & -> & Hb). simpl.
  destruct b.
  - exists true. split; [done|]. split; [|done]. intros _. destruct (proj1 Hb eq_refl) as (a & (? & _ & ?) & ? & ?). by exists a.
  - destruct (tenant_roles_ok (sub o 1) st (to_string t) W) as (rs & -> & Hin). simpl. eexists. split; [done|].
    rewrite (existsb_bd _ _ _ (two_fields (to_string n) (to_string s))). setoid_rewrite Hin.
    split; intros (a & Hx); exists a; tauto.
Qed.

(** ** Groups and activities *)
Lemma any_has_ok o i h grp act al ls b : any_has o i h grp act al ls = Ok b ->
  (b = true <-> exists l, l ∈ ls /\ permits h l grp act al).
Proof.
  revert i b. induction ls as [|l ls IH]; intros i b; simpl.
  - intros [= <-]. split; [done|]. intros (l & H & _). by apply elem_of_nil in H.
  - rewrite rbind_ok. intros (b1 & H1 & H). apply role_has_ok in H1. destruct b1.
    + injection H as <-. split; [|done]. intros _. exists l. split; [by left|by apply H1].
    + rewrite (IH _ _ H). split; intros (l' & Hl & Hp).
      * exists l'. split; [by right|done].
      * apply elem_of_cons in Hl as [->|Hl]; [|by exists l']. by assert (false = true) by by apply H1.
Qed.
Lemma any_has_returns o i h grp act al ls : wf_heap h ->
  (forall l, l ∈ ls -> is_Some (h_roles h !! l) /\ ~ cyclic_from h l
     /\ forall d g, rtc (role_edge h) l d -> owns h d grp g -> ~ stalls g act) ->
  exists b, any_has o i h grp act al ls = Ok b.
Proof.
  intros Hw. revert i. induction ls as [|l ls IH]; intros i H; simpl; [by eexists|].
  destruct (H l) as (H1 & H2 & H3); [by left|].
  destruct (role_has_returns (sub o i) h l grp act al Hw H1 H2 H3) as (b & ->). simpl.
  destruct b; [by eexists|]. apply IH. intros l' Hl'. apply H. by right.
Qed.
Lemma any_has_no_panic o i h grp act al ls : wf_heap h -> (forall l, l ∈ ls -> is_Some (h_roles h !! l)) ->
  any_has o i h grp act al ls <> Panic.
Proof.
  intros Hw. revert i. induction ls as [|l ls IH]; intros i H; simpl; [done|].
  destruct (role_has (sub o i) h l grp act al) as [b| |] eqn:E; simpl; [|exfalso|done].
  - destruct b; [done|]. apply IH. intros l' Hl'. apply H. by right.
  - eapply has_fuel_no_panic in E; [done|done|apply H; by left].
Qed.
Lemma registered_roles_spec st ids r l : registered_roles st ids !! r = Some l <-> r ∈ ids /\ u_roles st !! r = Some l.
Proof.
  unfold registered_roles.
  assert (Hg : forall m : gmap string nat,
    foldl (fun m r => match u_roles st !! r with Some l => <[r := l]> m | None => m end) m ids !! r = Some l
    <-> (r ∈ ids /\ u_roles st !! r = Some l) \/ (~ (r ∈ ids /\ is_Some (u_roles st !! r)) /\ m !! r = Some l)).
  { induction ids as [|x ids IH]; intros m; simpl.
    - split; [|by intros [[?%elem_of_nil _]|[_ ?]]]. intros H. right. split; [|done]. by intros [?%elem_of_nil _].
    - rewrite IH. clear IH. destruct (u_roles st !! x) as [lx|] eqn:Ex.
      + destruct (decide (x = r)) as [->|Hne].
        * rewrite lookup_insert. destruct (decide (r ∈ ids)).
          -- split; [intros [[? ?]|[H _]]|]; [left; split; [by right|done]|destruct H; eauto|].
             intros [[_ ?]|[H _]]; [by left|]. destruct H. split; [by left|eauto].
          -- split; [intros [[? ?]|[_ [= ->]]]|]; [done|left; split; [by left|done]|].
             intros [[_ ?]|[H _]]; [right; split; [tauto|congruence]|]. destruct H. split; [by left|eauto].
        * rewrite lookup_insert_ne by done. rewrite elem_of_cons. naive_solver.
      + rewrite elem_of_cons. split.
        * intros [[? ?]|[H ?]]; [left; split; [by right|done]|right]. split; [|done].
          intros [[->|?] Hs]; [rewrite Ex in Hs; by apply is_Some_None in Hs|tauto].
        * intros [[[->|?] ?]|[H ?]]; [congruence|by left|]. right. split; [|done]. intros [? ?]. apply H. by split; [right|]. }
  rewrite Hg, lookup_empty. split; [intros [?|[_ ?]]; done|by left].
Qed.
Lemma registered_roles_elem o st ids l :
  l ∈ ordered o (map_to_list (registered_roles st ids)).*2 <-> exists r, r ∈ ids /\ u_roles st !! r = Some l.
Proof.
  rewrite elem_of_ordered, elem_of_list_fmap. split.
  - intros ([r l'] & -> & H). apply elem_of_map_to_list, registered_roles_spec in H. by exists r.
  - intros (r & Hr & Hl). exists (r, l). split; [done|]. by apply elem_of_map_to_list, registered_roles_spec.
Qed.
Lemma permits_grants st r l grp act al (adm : string -> Prop) : u_roles st !! r = Some l ->
  (forall x, x ∈ al <-> adm x) -> permits (u_heap st) l grp act al -> role_grants st r grp act adm.
Proof.
  intros Hl Hal (g & Ho & H). exists l, g. split_and!; [done|done|]. destruct H as [H|(d & gd & Hd & Had & Hod & Hof)]; [by left|right].
  destruct Had as [->|(id & Hid & Hin)].
  - pose proof Hod as (rd & ? & Hrd & _). exists d, gd, (r_id rd). split_and!; try done; [by exists rd|].
    left. intros y Hy. by apply Hal, elem_of_nil in Hy.
  - exists d, gd, id. split_and!; try done. right. by apply Hal.
Qed.
Lemma grants_permits st r grp act al (adm : string -> Prop) : (forall x, x ∈ al <-> adm x) ->
  role_grants st r grp act adm -> exists l, u_roles st !! r = Some l /\ permits (u_heap st) l grp act al.
Proof.
  intros Hal (l & g & Hl & Ho & H). exists l. split; [done|]. exists g. split; [done|].
  destruct H as [H|(d & gd & id & Hd & Hid & Had & Hod & Hof)]; [by left|right].
  exists d, gd. split_and!; try done. destruct Had as [Hno|Hadm].
  - left. destruct al as [|x al]; [done|]. destruct (Hno x). apply Hal. by left.
  - right. exists id. split; [done|by apply Hal].
Qed.

Lemma allowed_ids_elem o st c p t n s al r : (forall r, r ∈ default [] al <-> allowed_role st c p t n s r) ->
  r ∈ get_allowed_role_ids o c (default [] al) <-> allowed_role st c p t n s r.
Proof.
  intros Hal. unfold get_allowed_role_ids. rewrite elem_of_list_In, in_flat_map. split.
  - intros (x & _ & Hx). apply elem_of_list_In, elem_of_list_filter in Hx as [-> Hx]. by apply Hal.
  - intros H. exists r. split.
    + apply elem_of_list_In, ordered_elements. destruct H as [(_ & _ & _ & H) Hc]. by apply H.
    + apply elem_of_list_In, elem_of_list_filter. split; [done|by apply Hal].
Qed.
Lemma complex_steps o st q p : u_wf st ->
  (authorize_complex o st q p = Ok false /\ ~ exists c a, utenant_is st (to_string (uo_tenant q)) c
     /\ place_exists st c (to_string (uo_namespace q)) (to_string (uo_scope q)) /\ member st p (to_string (uo_tenant q)) a)
  \/ exists c (prs : list trow) al ls,
      utenant_is st (to_string (uo_tenant q)) c /\ place_exists st c (to_string (uo_namespace q)) (to_string (uo_scope q))
      /\ (forall a, a ∈ prs <-> member st p (to_string (uo_tenant q)) a)
      /\ (forall r, r ∈ al <-> allowed_role st c p (to_string (uo_tenant q)) (to_string (uo_namespace q)) (to_string (uo_scope q)) r)
      /\ (forall l, l ∈ ls <-> exists a, a ∈ prs /\ u_roles st !! tp_role a = Some l)
      /\ authorize_complex o st q p
         = any_has (sub o 3) 1 (u_heap st) (to_string (uo_group q)) (to_string (uo_activity q)) al ls.
Proof.
  intros W. unfold authorize_complex. set (t := to_string (uo_tenant q)).
  set (n := to_string (uo_namespace q)). set (s := to_string (uo_scope q)).
  set (grp := to_string (uo_group q)). set (act := to_string (uo_activity q)).
  destruct (u_tenant st t) as [c|] eqn:Hc.
  2: { left. split; [done|]. intros (c & _ & Hc' & _). apply u_tenant_is in Hc'. congruence. }
  apply u_tenant_is in Hc. destruct (principal_roles_ok (sub o 0) st t p W) as (prs & -> & Hin). cbn [rbind].
  destruct (decide (prs = [])) as [->|Hne].
  { left. split; [done|]. intros (_ & a & _ & _ & Ha). by apply Hin, elem_of_nil in Ha. }
  set (g1 := _ || _).
  assert (Hg1 : g1 = false <-> place_exists st c n s).
  { unfold g1, place_exists. rewrite orb_false_iff, !andb_false_iff, !negb_false_iff, !bool_decide_eq_true.
    rewrite (namespace_is st t c n W Hc). split.
    - intros [H1 H2]. split; [intros; by destruct H1|intros; by destruct H2].
    - intros [H1 H2]. split; [destruct (decide (n = "")); auto|destruct (decide (s = "")); auto]. }
  destruct (allowed_ok (sub o 1) st c p t n s prs W Hc Hin Hne) as (al & Hal & Hall).
  destruct prs as [|a0 prs]; [done|]. destruct g1.
  { left. split; [done|]. intros (c' & _ & Hc' & Hpl & _).
    assert (c' = c) as -> by (apply u_tenant_is in Hc, Hc'; congruence). by apply Hg1 in Hpl. }
  right. exists c, (a0 :: prs), (get_allowed_role_ids (sub o 2) c (default [] al)).
  exists (ordered (sub (sub o 3) 0) (map_to_list (registered_roles st (tp_role <$> a0 :: prs))).*2).
  split_and!; [done|by apply Hg1|done| | |].
  - intros r. by apply allowed_ids_elem.
  - intros l. rewrite registered_roles_elem. setoid_rewrite elem_of_list_fmap. split.
    + intros (r & (a & -> & Ha) & Hl). by exists a.
    + intros (a & Ha & Hl). exists (tp_role a). split; [|done]. by exists a.
  - rewrite Hal. done.
Qed.
Lemma complex_request_dispatch o st p q : known st p -> complex_request q ->
  u_authorize o st p q = authorize_complex o st q p.
Proof.
  intros Hp Hq. unfold u_authorize. rewrite bool_decide_eq_true_2 by done.
  destruct q as [[] [] [] [] []]; simpl; try done;
    exfalso; destruct Hq as [?|[[? [?|[?|?]]]|(? & ? & ? & ?)]]; simpl in *; congruence.
Qed.
Lemma complex_exact o st p q b : u_wf st -> known st p -> complex_request q ->
  u_authorize o st p q = Ok b -> (b = true <-> complex_of q st p).
Proof.
  intros W Hp Hq. rewrite complex_request_dispatch by done.
  destruct (complex_steps o st q p W) as [[-> Hno]|(c & prs & al & ls & Hc & Hpl & Hin & Hal & Hls & ->)].
  - intros [= <-]. split; [done|]. intros (c & Hc & Hpl & a & Ha & _). destruct Hno. by exists c, a.
  - intros H. rewrite (any_has_ok _ _ _ _ _ _ _ _ H). split.
    + intros (l & Hl & Hper). apply Hls in Hl as (a & Ha & Hl). apply Hin in Ha.
      exists c. split_and!; [done|done|]. exists a. split; [done|]. by eapply permits_grants.
    + intros (c' & Hc' & _ & a & Ha & Hg).
      assert (c' = c) as -> by (apply u_tenant_is in Hc, Hc'; congruence).
      eapply grants_permits in Hg as (l & Hl & Hper); [|exact Hal]. exists l. split; [|done].
      apply Hls. exists a. split; [by apply Hin|done].
Qed.
Lemma complex_returns o st p q : u_wf st -> known st p -> complex_request q ->
  (forall a, member st p (to_string (uo_tenant q)) a -> terminating st (tp_role a) (to_string (uo_group q)) (to_string (uo_activity q))) ->
  exists b, u_authorize o st p q = Ok b.
Proof.
  intros W Hp Hq Ht. rewrite complex_request_dispatch by done.
  destruct (complex_steps o st q p W) as [[-> _]|(c & prs & al & ls & Hc & Hpl & Hin & Hal & Hls & ->)]; [by eexists|].
  apply any_has_returns; [apply W|]. intros l Hl. apply Hls in Hl as (a & Ha & Hl). apply Hin in Ha.
  split; [|by apply (Ht a Ha)]. destruct (uwf_roles _ W _ _ Hl) as (r & ? & _). by eexists.
Qed.
Lemma complex_no_panic o st p q : u_wf st -> known st p -> complex_request q -> u_authorize o st p q <> Panic.
Proof.
  intros W Hp Hq. rewrite complex_request_dispatch by done.
  destruct (complex_steps o st q p W) as [[-> _]|(c & prs & al & ls & Hc & Hpl & Hin & Hal & Hls & ->)]; [done|].
  apply any_has_no_panic; [apply W|]. intros l Hl. apply Hls in Hl as (a & Ha & Hl).
  destruct (uwf_roles _ W _ _ Hl) as (r & ? & _). by eexists.
Qed.

(** ** Only an activity *)
Lemma collect_ok o i st p ts : u_wf st -> (forall t, t ∈ ts -> exists a, member st p t a) ->
  (exists t, t ∈ ts /\ u_reg st !! t = None /\ collect_allowed o i st p ts = Panic)
  \/ ((forall t, t ∈ ts -> is_Some (u_reg st !! t)) /\ exists ids, collect_allowed o i st p ts = Ok ids
      /\ forall r, r ∈ ids <-> exists t c, t ∈ ts /\ utenant_is st t c /\ allowed_role st c p t "" "" r).
Proof.
  intros W. revert i. induction ts as [|t ts IH]; intros i Hts; simpl.
  - right. split; [by intros ? ?%elem_of_nil|]. exists []. split; [done|]. intros r.
    split; [by intros ?%elem_of_nil|]. intros (? & ? & ?%elem_of_nil & _). done.
  - destruct (principal_roles_ok (sub (sub o i) 0) st t p W) as (prs & -> & Hin). simpl.
    assert (Hne : prs <> []).
    { destruct (Hts t) as (a & Ha); [by left|]. apply Hin in Ha. intros ->. by apply elem_of_nil in Ha. }
    assert (nil_slice prs = Some prs) as -> by by destruct prs.
    destruct (u_reg st !! t) as [l|] eqn:Hreg.
    + destruct (proj1 (registered_is st t W)) as (c & Hc); [by eexists|].
      destruct (allowed_ok (sub (sub o i) 1) st c p t "" "" prs W Hc Hin Hne) as (al & -> & Hal). simpl.
      destruct (IH (S i)) as [(t' & Ht' & Hr' & ->)|(Hreg' & ids & -> & Hids)]; [intros; apply Hts; by right| |].
      * left. exists t'. split; [by right|done].
      * right. split; [intros t' [->|?]%elem_of_cons; [by eexists|auto]|]. eexists. split; [done|].
        intros r. rewrite elem_of_app, Hal, Hids. split.
        -- intros [H|(t' & c' & ? & ?)]; [exists t, c; split; [by left|done]|exists t', c'; split; [by right|done]].
        -- intros (t' & c' & [->|?]%elem_of_cons & Hc' & HH); [left|right; by exists t', c'].
           assert (c' = c) as -> by (apply u_tenant_is in Hc, Hc'; congruence). done.
    + left. exists t. split_and!; [by left|done|]. destruct prs as [|a0 prs]; [done|].
      unfold get_allowed_roles. assert (tp_tenant a0 = t) as -> by (apply (Hin a0); by left).
      unfold u_tenant. rewrite Hreg. done.
Qed.
Lemma activity_steps o st p act : u_wf st -> known st p -> act <> ANil ->
  let q := UOpts ANil ANil ANil ANil act in
  ((exists a, stray st p a) /\ u_authorize o st p q = Panic)
  \/ ((forall a, ~ stray st p a) /\ exists al ls,
        (forall r, r ∈ al <-> somewhere_allowed st p r)
        /\ (forall l, l ∈ ls <-> exists r, somewhere_allowed st p r /\ u_roles st !! r = Some l)
        /\ u_authorize o st p q = any_has (sub o 2) 1 (u_heap st) "" (to_string act) al ls).
Proof.
  intros W Hp Ha q. unfold u_authorize. rewrite bool_decide_eq_true_2 by done.
  assert (H : is_nil act = false) by by destruct act. unfold q. cbn [uo_tenant uo_namespace uo_scope uo_group uo_activity].
  rewrite H. simpl. unfold authorize_for_activity. destruct (tenants_for_ok (sub o 0) st p W) as (ts & -> & Hts). simpl.
  destruct (collect_ok (sub o 1) 0 st p ts W) as [(t & Ht & Hr & ->)|(Hreg & ids & -> & Hids)]; [by apply Hts| |].
  - left. split; [|done]. apply Hts in Ht as (a & Ha' & Hp' & <-). exists a. done.
  - right. simpl. split.
    + intros a (Ha' & Hp' & Hno). destruct (Hreg (tp_tenant a)) as [? ?]; [apply Hts; by exists a|congruence].
    + assert (Hal : forall r, r ∈ compact_adjacent ids <-> somewhere_allowed st p r).
      { intros r. rewrite elem_of_compact_adjacent, Hids. split.
        - intros (t & c & Ht & Hc & Hr). apply Hts in Ht as (a & Ha'). by exists t, c, a.
        - intros (t & c & a & Ha' & Hc & Hr). exists t, c. split_and!; [apply Hts; by exists a|done|done]. }
      eexists _, _. split_and!; [exact Hal| |done]. intros l. rewrite registered_roles_elem. by setoid_rewrite Hal.
Qed.
Lemma activity_exact o st p act b : u_wf st -> known st p -> act <> ANil ->
  u_authorize o st p (UOpts ANil ANil ANil ANil act) = Ok b -> (b = true <-> activity_grants st p (to_string act)).
Proof.
  intros W Hp Ha. destruct (activity_steps o st p act W Hp Ha) as [[_ ->]|(_ & al & ls & Hal & Hls & ->)]; [done|].
  intros H. rewrite (any_has_ok _ _ _ _ _ _ _ _ H). split.
  - intros (l & Hl & Hper). apply Hls in Hl as (r & Hr & Hl). exists r. split; [done|]. by eapply permits_grants.
  - intros (r & Hr & Hg). eapply grants_permits in Hg as (l & Hl & Hper); [|exact Hal]. exists l. split; [|done].
    apply Hls. by exists r.
Qed.
Lemma activity_panics o st p act : u_wf st -> known st p -> act <> ANil ->
  u_authorize o st p (UOpts ANil ANil ANil ANil act) = Panic <-> exists a, stray st p a.
Proof.
  intros W Hp Ha. destruct (activity_steps o st p act W Hp Ha) as [[? ->]|(Hno & al & ls & Hal & Hls & ->)]; [done|].
  split; [|intros (a & Hs); by destruct (Hno a)].
  intros H. exfalso. revert H. apply any_has_no_panic; [apply W|]. intros l Hl. apply Hls in Hl as (r & _ & Hl).
  destruct (uwf_roles _ W _ _ Hl) as (r' & ? & _). by eexists.
Qed.
Lemma activity_returns o st p act : u_wf st -> known st p -> act <> ANil -> (forall a, ~ stray st p a) ->
  (forall r, somewhere_allowed st p r -> terminating st r "" (to_string act)) ->
  exists b, u_authorize o st p (UOpts ANil ANil ANil ANil act) = Ok b.
Proof.
  intros W Hp Ha Hno Ht.
  destruct (activity_steps o st p act W Hp Ha) as [[(a & Hs) _]|(_ & al & ls & Hal & Hls & ->)]; [by destruct (Hno a)|].
  apply any_has_returns; [apply W|]. intros l Hl. apply Hls in Hl as (r & Hr & Hl).
  split; [|by apply (Ht r Hr)]. destruct (uwf_roles _ W _ _ Hl) as (r' & ? & _). by eexists.
Qed.
