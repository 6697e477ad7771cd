(** v1 readers and decisions. *)
From Verif Require Import RoleHas UtilsProofs AuthProofs V1Code.
From Verif Require Export V1Inv.

Lemma parse_rows_ok hs : (forall h, h ∈ hs -> exists a, row_parse h = Ok a) ->
  exists rs, parse_rows hs = Ok rs /\ Forall2 (fun h a => row_parse h = Ok a) hs rs.
Proof.
  induction hs as [|h hs IH]; intros H; simpl; [by exists []|].
  destruct (H h) as (a & Ha); [by left|]. destruct IH as (rs & Hr & Hf); [intros; apply H; by right|].
  exists (a :: rs). rewrite Ha, Hr. simpl. split; [done|by constructor].
Qed.
Lemma read_rows_ok o st : u_wf st -> exists rs, read_rows o st = Ok rs /\ forall a, a ∈ rs <-> assigned st a.
Proof.
  intros W. unfold read_rows. destruct (parse_rows_ok (ordered o (elements (u_rows st)))) as (rs & Hr & Hf).
  - intros h Hh. apply elem_of_ordered, elem_of_elements in Hh. destruct (uwf_rows _ W _ Hh) as (a & ->).
    apply row_parse_total.
  - exists rs. split; [done|]. intros a. split.
    + intros Ha. apply elem_of_list_lookup in Ha as (i & Hi). destruct (Forall2_lookup_r _ _ _ _ _ Hf Hi) as (h & Hh & Hp).
      exists h. split; [|by apply row_parse_ok]. apply elem_of_elements, (elem_of_ordered o). by eapply elem_of_list_lookup_2.
    + intros (s & Hs & Hra). apply elem_of_elements, (elem_of_ordered o), elem_of_list_lookup in Hs as (i & Hi).
      destruct (Forall2_lookup_l _ _ _ _ _ Hf Hi) as (b & Hb & Hp). apply row_parse_ok in Hp.
      rewrite (reads_fun _ _ _ Hra Hp). by eapply elem_of_list_lookup_2.
Qed.
Lemma principal_roles_ok o st t p : u_wf st ->
  exists rs, get_principal_roles o st t p = Ok rs /\ forall a, a ∈ rs <-> member st p t a.
Proof.
  intros W. destruct (read_rows_ok o st W) as (rs & Hr & Hin). unfold get_principal_roles. rewrite Hr. simpl.
  eexists. split; [done|]. intros a. rewrite elem_of_list_filter, Hin. unfold member. tauto.
Qed.
Lemma tenant_roles_ok o st t : u_wf st ->
  exists rs, get_tenant_roles o st t = Ok rs /\ forall a, a ∈ rs <-> assigned st a /\ tp_tenant a = t.
Proof.
  intros W. destruct (read_rows_ok o st W) as (rs & Hr & Hin). unfold get_tenant_roles. rewrite Hr. simpl.
  eexists. split; [done|]. intros a. rewrite elem_of_list_filter, Hin. tauto.
Qed.
Lemma tenants_for_ok o st p : u_wf st ->
  exists ts, get_tenants_for_principal o st p = Ok ts /\ forall t, t ∈ ts <-> exists a, member st p t a.
Proof.
  intros W. destruct (read_rows_ok o st W) as (rs & Hr & Hin). unfold get_tenants_for_principal. rewrite Hr. simpl.
  eexists. split; [done|]. intros t. rewrite elem_of_compact_adjacent, elem_of_list_fmap. split.
  - intros (a & -> & Ha). rewrite elem_of_list_filter, Hin in Ha. destruct Ha as [Hp Ha]. exists a. done.
  - intros (a & Ha & Hp & <-). exists a. split; [done|]. by rewrite elem_of_list_filter, Hin.
Qed.
Lemma u_tenant_is st t c : u_tenant st t = Some c <-> utenant_is st t c.
Proof. unfold u_tenant, utenant_is. rewrite bind_Some. done. Qed.
Lemma utenant_id st t c : u_wf st -> utenant_is st t c -> ut_id c = t.
Proof. intros W (l & Hl & Hc). destruct (uwf_reg _ W _ _ Hl) as (c' & ? & <-). by simplify_eq. Qed.
Lemma registered_is st t : u_wf st -> is_Some (u_reg st !! t) <-> exists c, utenant_is st t c.
Proof.
  intros W. split; [|intros (c & l & ? & _); by eexists].
  intros (l & Hl). destruct (uwf_reg _ W _ _ Hl) as (c & Hc & _). exists c, l. done.
Qed.
Lemma namespace_is st t c n : u_wf st -> utenant_is st t c ->
  is_Some (ut_namespaces c !! n) <-> exists m, has_namespace st c n m.
Proof.
  intros W (l & Hl & Hc). split; [|intros (m & l' & ? & _); by eexists].
  intros (l' & Hl'). destruct (uwf_ns _ W _ _ _ _ Hc Hl') as (m & Hm & _). exists m, l'. done.
Qed.

(** ** GetAllowedRoles *)
Lemma ordered_elements o (X : gset string) x : x ∈ ordered o (elements X) <-> x ∈ X.
Proof. by rewrite elem_of_ordered, elem_of_elements. Qed.
Lemma ordered_elements_nil o (X : gset string) : ordered o (elements X) = [] <-> forall x, x ∉ X.
Proof.
  split.
  - intros H x Hx. apply (ordered_elements o) in Hx. rewrite H in Hx. by apply elem_of_nil in Hx.
  - intros H. destruct (ordered o (elements X)) as [|x l] eqn:E; [done|].
    destruct (H x). apply (ordered_elements o). rewrite E. by left.
Qed.
Section allowed.
  Context (o : oracle) (st : ustate) (c : utenant) (p t n s : string) (prs : list trow).
  Context (W : u_wf st) (Hc : utenant_is st t c) (Hin : forall a, a ∈ prs <-> member st p t a) (Hne : prs <> []).

  Let md : unamespace := match ut_namespaces c !! n with
                         | Some l => match u_nss st !! l with Some m => m | None => UNamespace "" ∅ ∅ end
                         | None => UNamespace "" ∅ ∅
                         end.
  Let base := match ordered (sub o 1) (elements (un_roles md)) with
              | [] => tp_role <$> filter (fun a => tp_ns a = "" /\ tp_scope a = "") prs
              | _ => ordered (sub o 1) (elements (un_roles md))
              end.
  Let extra := if negb (bool_decide (n = "")) && negb (bool_decide (s = "")) then
                 base ++ (tp_role <$> filter (fun a => tp_ns a = n /\ tp_scope a = s)
                                        (filter (fun a => tp_ns a <> "" /\ tp_scope a <> "") prs))
               else base.

  Lemma md_role r : r ∈ un_roles md <-> exists m, has_namespace st c n m /\ r ∈ un_roles m.
  Proof.
    unfold md, has_namespace. destruct (ut_namespaces c !! n) as [l|] eqn:E; [|simpl; set_solver].
    destruct (u_nss st !! l) as [m|] eqn:Em; simpl; [|set_solver]. split.
    - intros H. exists m. split; [|done]. by exists l.
    - intros (m' & (l' & ? & ?) & ?). by simplify_eq.
  Qed.
  Lemma md_scope r : r ∈ un_scopes md <-> exists m, has_namespace st c n m /\ r ∈ un_scopes m.
  Proof.
    unfold md, has_namespace. destruct (ut_namespaces c !! n) as [l|] eqn:E; [|simpl; set_solver].
    destruct (u_nss st !! l) as [m|] eqn:Em; simpl; [|set_solver]. split.
    - intros H. exists m. split; [|done]. by exists l.
    - intros (m' & (l' & ? & ?) & ?). by simplify_eq.
  Qed.
  Lemma base_role r : r ∈ base <->
    (exists m, has_namespace st c n m /\ r ∈ un_roles m)
    \/ (~ ns_restricts st c n /\ exists a, member st p t a /\ tp_ns a = "" /\ tp_scope a = "" /\ tp_role a = r).
  Proof.
    unfold base. rewrite <-md_role. destruct (ordered (sub o 1) (elements (un_roles md))) as [|x l] eqn:E.
    - pose proof (proj1 (ordered_elements_nil _ _) E) as Hno.
      assert (~ ns_restricts st c n) as Hnr.
      { intros (m & r' & Hm & Hr'). destruct (Hno r'). apply md_role. eauto. }
      rewrite elem_of_list_fmap. split.
      + intros (a & -> & Ha). right. split; [done|]. apply elem_of_list_filter in Ha as [[? ?] Ha].
        exists a. split_and!; try done. by apply Hin.
      + intros [H|[_ (a & Ha & H1 & H2 & <-)]]; [by destruct (Hno r)|].
        exists a. split; [done|]. apply elem_of_list_filter. split; [done|by apply Hin].
    - rewrite <-E, ordered_elements. split; [by left|]. intros [H|[H _]]; [done|]. destruct H.
      assert (Hx : x ∈ un_roles md) by (apply (ordered_elements (sub o 1)); rewrite E; by left).
      apply md_role in Hx as (m & Hm & Hx). by exists m, x.
  Qed.
  Lemma extra_role r : r ∈ extra <-> candidate st c p t n s r.
  Proof.
    unfold extra, candidate. case_bool_decide as Hn; simpl; [rewrite base_role; tauto|].
    case_bool_decide as Hs; simpl; [rewrite base_role; tauto|].
    rewrite elem_of_app, base_role, elem_of_list_fmap.
    assert ((exists a, r = tp_role a /\ a ∈ filter (fun a => tp_ns a = n /\ tp_scope a = s)
                                   (filter (fun a => tp_ns a <> "" /\ tp_scope a <> "") prs))
            <-> exists a, member st p t a /\ tp_ns a = n /\ tp_scope a = s /\ tp_role a = r) as ->; [|tauto].
    split.
    - intros (a & -> & Ha). apply elem_of_list_filter in Ha as [[? ?] Ha]. apply elem_of_list_filter in Ha as [_ Ha].
      exists a. split_and!; try done. by apply Hin.
    - intros (a & Ha & <- & <- & <-). exists a. split; [done|]. rewrite !elem_of_list_filter.
      split_and!; try done. by apply Hin.
  Qed.
  Lemma allowed_ok : exists al, get_allowed_roles o st (Some prs) n s = Ok al
    /\ forall r, r ∈ default [] al <-> allowed_role st c p t n s r.
  Proof.
    unfold get_allowed_roles. remember prs as q eqn:Eprs in |- *. destruct q as [|a0 prs']; [by destruct Hne|].
    assert (tp_tenant a0 = t) as ->. { apply (Hin a0). rewrite <-Eprs. by left. }
    pose proof (proj2 (u_tenant_is st t c) Hc) as Hc'. rewrite Hc', Eprs. clear Hc'.
    set (g1 := _ || _).
    assert (Hg1 : g1 = false <-> place_exists st c n s).
    { unfold g1, place_exists. rewrite orb_false_iff, !andb_false_iff, !negb_false_iff, !bool_decide_eq_true.
      rewrite (namespace_is st t c n W Hc). split.
      - intros [H1 H2]. split; [intros; by destruct H2|intros; by destruct H1].
      - intros [H1 H2]. split; [destruct (decide (s = "")); auto|destruct (decide (n = "")); auto]. }
    destruct g1.
    { exists None. split; [done|]. intros r. split; [by intros ?%elem_of_nil|].
      intros [[Hp _] _]. by apply Hg1 in Hp. }
    assert (Hpe : place_exists st c n s) by by apply Hg1. clear Hg1.
    assert (Hmd : match ut_namespaces c !! n with
                  | None => Ok (UNamespace "" ∅ ∅)
                  | Some l => match u_nss st !! l with None => Panic | Some m => Ok m end
                  end = Ok md).
    { unfold md. destruct (ut_namespaces c !! n) as [l|] eqn:E; [|done].
      destruct Hc as (l0 & _ & Hl0). destruct (uwf_ns _ W _ _ _ _ Hl0 E) as (m & -> & _). done. }
    cbv zeta. rewrite Hmd. cbn [rbind]. fold base. fold extra.
    set (g2 := _ || _).
    assert (Hg2 : g2 = false <->
      ((s <> "" /\ exists a, member st p t a /\ tp_scope a = s)
        \/ exists a, member st p t a /\ tp_ns a = "" /\ tp_scope a = "")
      /\ (forall m s', has_namespace st c n m -> s' ∈ un_scopes m -> s ∈ un_scopes m)).
    { unfold g2. rewrite orb_false_iff, !andb_false_iff, !negb_false_iff, !bool_decide_eq_false, !contains_spec.
      rewrite elem_of_list_fmap, ordered_elements, md_scope. f_equiv.
      - f_equiv.
        + split.
          * intros (a & -> & Ha). apply elem_of_list_filter in Ha as [? Ha]. apply Hin in Ha. split; [done|]. by exists a.
          * intros (Hs & a & Ha & <-). exists a. split; [done|]. apply elem_of_list_filter. split; [done|by apply Hin].
        + split.
          * intros Hnn. destruct (filter (fun a => tp_ns a = "" /\ tp_scope a = "") prs) as [|a l] eqn:E; [done|].
            assert (Ha : a ∈ filter (fun a => tp_ns a = "" /\ tp_scope a = "") prs) by (rewrite E; by left).
            apply elem_of_list_filter in Ha as [[? ?] Ha]. exists a. split_and!; try done. by apply Hin.
          * intros (a & Ha & H1 & H2) E. eapply (elem_of_nil (A:=trow) a). rewrite <-E.
            apply elem_of_list_filter. split; [done|by apply Hin].
      - split.
        + intros H m s' Hm Hs'. destruct H as [H|(m' & Hm' & Hs)].
          * destruct H. intros Hnil. apply (proj1 (ordered_elements_nil _ _) Hnil s'). apply md_scope. eauto.
          * destruct Hm as (? & ? & ?), Hm' as (? & ? & ?). by simplify_eq.
        + intros H. destruct (ordered (sub o 0) (elements (un_scopes md))) as [|x l] eqn:E; [left; tauto|right].
          assert (Hx : x ∈ un_scopes md) by (apply (ordered_elements (sub o 0)); rewrite E; by left).
          apply md_scope in Hx as (m & Hm & Hx). exists m. split; [done|]. by eapply H. }
    destruct g2.
    { exists None. split; [done|]. intros r. split; [by intros ?%elem_of_nil|].
      intros [(_ & H1 & H2 & _) _]. assert (true = false) by (apply Hg2; by split). done. }
    destruct (proj1 Hg2 eq_refl) as [H1 H2]. clear Hg2.
    destruct (forallb (fun r => bool_decide (r ∈ ut_roles c)) extra) eqn:Hall.
    - eexists. split; [done|]. intros r. simpl. rewrite elem_of_compact_adjacent, extra_role. unfold allowed_role.
      split; [|tauto]. intros Hr. split; [|done]. split_and!; try done.
      intros r' Hr'. apply extra_role in Hr'. rewrite forallb_forall in Hall.
      apply elem_of_list_In, Hall in Hr'. by apply bool_decide_eq_true in Hr'.
    - exists None. split; [done|]. intros r. split; [by intros ?%elem_of_nil|].
      intros [(_ & _ & _ & H3) _]. exfalso. assert (forallb (fun r => bool_decide (r ∈ ut_roles c)) extra = true); [|congruence].
      apply forallb_forall. intros x Hx. apply bool_decide_eq_true, H3, extra_role. by apply elem_of_list_In.
  Qed.
End allowed.
