(** What the v1 writers add. *)
From Verif Require Import V1Code.
From Verif Require Export V1Dec.

Lemma adds_assigned st X st' b : adds st X st' -> assigned st' b <-> assigned st b \/ exists x, X x /\ read_back x b.
Proof.
  intros [_ H]. split.
  - intros (s & Hs & Hr). apply H in Hs as [Hs|(x & Hx & ->)]; [left; by exists s|right; by exists x].
  - intros [(s & Hs & Hr)|(x & Hx & Hr)]; eexists; (split; [|exact Hr]); apply H; [by left|right; by exists x].
Qed.
Lemma uw_rows_self st : uw_rows st (u_rows st) = st.
Proof. by destruct st. Qed.
Lemma uw_rows_twice st r r' : uw_rows (uw_rows st r) r' = uw_rows st r'.
Proof. done. Qed.
Lemma adds_none st : adds st (fun _ => False) st.
Proof. split; [by rewrite uw_rows_self|]. intros s. split; [by left|]. intros [?|(? & [] & _)]; done. Qed.
Lemma adds_trans st X st1 Y st2 : adds st X st1 -> adds st1 Y st2 -> adds st (fun a => X a \/ Y a) st2.
Proof.
  intros [E1 H1] [E2 H2]. split.
  - rewrite E2 at 1. rewrite E1 at 1. done.
  - intros s. rewrite H2, H1. split.
    + intros [[?|(x & ? & ->)]|(x & ? & ->)]; [by left|right|right]; exists x; auto.
    + intros [?|(x & [?|?] & ->)]; [by left; left|left; right|right]; by exists x.
Qed.
Lemma adds_ext st X Y st' : (forall a, X a <-> Y a) -> adds st X st' -> adds st Y st'.
Proof. intros H [E1 H1]. split; [done|]. intros s. rewrite H1. by setoid_rewrite H. Qed.
(** The two states agree on everything but the assignments. *)
Definition same_base (st st' : ustate) : Prop := st' = uw_rows st (u_rows st').
Lemma adds_base st X st' : adds st X st' -> same_base st st'.
Proof. by intros [H _]. Qed.
Lemma same_base_trans st st1 st2 : same_base st st1 -> same_base st1 st2 -> same_base st st2.
Proof. unfold same_base. intros E1 E2. rewrite E2 at 1. rewrite E1 at 1. done. Qed.
Lemma same_base_refl st : same_base st st.
Proof. unfold same_base. by rewrite uw_rows_self. Qed.

Lemma adds_each {A} (f : ustate -> A -> res ustate) (X : A -> trow -> Prop) st xs st' :
  (forall st1 x st2, same_base st st1 -> f st1 x = Ok st2 -> adds st1 (X x) st2) ->
  u_each f st xs = Ok st' -> adds st (fun a => exists x, x ∈ xs /\ X x a) st'.
Proof.
  intros Hf.
  assert (Hg : forall st1, same_base st st1 -> u_each f st1 xs = Ok st' -> adds st1 (fun a => exists x, x ∈ xs /\ X x a) st').
  { induction xs as [|x xs IH]; intros st1 Hb; simpl.
    - intros [= <-]. eapply adds_ext; [|apply adds_none]. intros a. split; [done|]. by intros (? & ?%elem_of_nil & _).
    - rewrite rbind_ok. intros (st2 & H1 & H2). apply Hf in H1; [|done].
      apply IH in H2; [|eapply same_base_trans; [exact Hb|by eapply adds_base]].
      eapply adds_ext; [|by eapply adds_trans]. intros a. split.
      + intros [?|(y & ? & ?)]; [exists x; split; [by left|done]|exists y; split; [by right|done]].
      + intros (y & [->|?]%elem_of_cons & ?); [by left|right; by exists y]. }
  apply Hg, same_base_refl.
Qed.
Lemma adds_principal_role st p r t c ns n s m st' : u_tenants st !! t = Some c ->
  match ns with None => n = "" | Some l => exists m, u_nss st !! l = Some m /\ n = un_id m end ->
  u_add_principal_role st p r t ns s m = Ok st' ->
  adds st (fun a => a = TRow p r (ut_id c) n (default "" s) (match m with [] => true | b :: _ => b end)) st'.
Proof.
  intros Hc Hn. unfold u_add_principal_role. rewrite Hc, rbind_ok. intros (n' & Hn' & [= <-]).
  assert (n' = n) as ->.
  { destruct ns as [l|]; [|by simplify_eq]. destruct Hn as (x & Hx & ->). rewrite Hx in Hn'. by simplify_eq. }
  split; [done|]. intros x. simpl. rewrite elem_of_union, elem_of_singleton. split.
  - intros [->|?]; [right; by eexists|by left].
  - intros [?|(? & -> & ->)]; [by right|by left].
Qed.
Lemma adds_t_principal_role st c' p r t c ns n s m st' : u_tenants st !! t = Some c ->
  match ns with None => n = "" | Some l => exists m, u_nss st !! l = Some m /\ n = un_id m end ->
  ut_add_principal_role st c' p r t ns s m = Ok st' ->
  adds st (fun a => a = TRow p r (ut_id c) n (default "" s) (match m with [] => true | b :: _ => b end)) st'.
Proof. intros Hc Hn. unfold ut_add_principal_role. destruct (ut_managed c'); [by apply adds_principal_role|done]. Qed.
Lemma base_tenants st st1 : same_base st st1 -> u_tenants st1 = u_tenants st.
Proof. by intros ->. Qed.
Lemma base_nss st st1 : same_base st st1 -> u_nss st1 = u_nss st.
Proof. by intros ->. Qed.

Lemma adds_default st0 st t c p r s st' : same_base st0 st -> u_wf st0 -> u_tenants st0 !! t = Some c ->
  (let! st1 := ut_add_principal_role st c p r t None s [] in
   match ut_default c with
   | None => Ok st1
   | Some l => ut_add_principal_role st1 c p r t (Some l) s []
   end) = Ok st' ->
  adds st (fun a => exists n, in_default st0 c n /\ a = TRow p r (ut_id c) n (default "" s) true) st'.
Proof.
  intros Hb W Hc. rewrite rbind_ok. intros (st1 & H1 & H2).
  assert (Hc1 : u_tenants st !! t = Some c) by by rewrite (base_tenants _ _ Hb).
  apply (adds_t_principal_role _ _ _ _ _ c None "") in H1; [|done|done].
  destruct (ut_default c) as [l|] eqn:El.
  - destruct (uwf_default _ W _ _ _ Hc El) as (m & Hm).
    assert (Hb1 : same_base st st1) by by eapply adds_base.
    apply (adds_t_principal_role _ _ _ _ _ c (Some l) (un_id m)) in H2;
      [|by rewrite (base_tenants _ _ Hb1)|exists m; split; [|done]; by rewrite (base_nss _ _ Hb1), (base_nss _ _ Hb)].
    eapply adds_ext; [|by eapply adds_trans]. intros a. unfold in_default. split.
    + intros [->| ->]; eexists; (split; [|done]); [by left|right; exists l, m; done].
    + intros (n & [->|(l' & m' & ? & ? & ->)] & ->); [by left|right]. by simplify_eq.
  - injection H2 as <-. eapply adds_ext; [|exact H1]. intros a. unfold in_default. split.
    + intros ->. eexists. split; [by left|done].
    + intros (n & [->|(l' & m' & ? & _)] & ->); [done|congruence].
Qed.

Lemma add_principal_adds st t c p rs st' : u_wf st -> u_tenants st !! t = Some c ->
  ut_add_principal st t p rs = Ok st' ->
  adds st (fun a => exists r, r ∈ rs /\ r ∈ ut_roles c /\ exists n, in_default st c n /\ a = TRow p r (ut_id c) n "" true) st'.
Proof.
  intros W Hc H. unfold ut_add_principal in H.
  apply (adds_each _ (fun r a => r ∈ ut_roles c /\ exists n, in_default st c n /\ a = TRow p r (ut_id c) n "" true)) in H; [done|].
  clear H. intros st1 r st2 Hb H. cbv beta in H. rewrite (base_tenants _ _ Hb), Hc in H.
  case_bool_decide as Hr.
  - apply (adds_default st) in H; [|done|done|done]. eapply adds_ext; [|exact H]. intros a. tauto.
  - injection H as <-. eapply adds_ext; [|apply adds_none]. intros a. tauto.
Qed.
Lemma add_principal_in_namespace_adds o st t c p ns l m rs st' : u_wf st -> u_tenants st !! t = Some c ->
  ut_namespaces c !! ns = Some l -> u_nss st !! l = Some m ->
  ut_add_principal_in_namespace o st t p ns rs = Ok st' ->
  adds st (fun a => exists r, a = TRow p r (ut_id c) (un_id m) "" true /\
      match rs with
      | [] => r = "" \/ exists b, member st p (ut_id c) b /\ tp_ns b <> "" /\ tp_ns b <> ns /\ tp_role b = r
      | _ => r ∈ rs /\ r ∈ ut_roles c
      end) st'.
Proof.
  intros W Hc Hl Hm. unfold ut_add_principal_in_namespace. rewrite Hc, Hl. destruct rs as [|r0 rs].
  - destruct (ut_managed c) eqn:Hmg; [|done]. destruct (tenant_roles_ok o st (ut_id c) W) as (urs & -> & Hin). simpl.
    rewrite rbind_ok. intros (st1 & H1 & H2).
    apply (adds_each _ (fun ur a => a = TRow p (tp_role ur) (ut_id c) (un_id m) "" true)) in H1.
    2: { cbv beta. intros sa ur sb Hb H. eapply (adds_t_principal_role _ _ _ _ _ c (Some l)) in H; [exact H| |].
         - by rewrite (base_tenants _ _ Hb).
         - exists m. by rewrite (base_nss _ _ Hb). }
    pose proof (adds_base _ _ _ H1) as Hb.
    eapply (adds_t_principal_role _ _ _ _ _ c (Some l)) in H2;
      [|by rewrite (base_tenants _ _ Hb)|exists m; by rewrite (base_nss _ _ Hb)].
    eapply adds_ext; [|by eapply adds_trans]. intros a. simpl. split.
    + intros [(ur & Hur & ->)| ->]; [|exists ""; split; [done|by left]].
      apply elem_of_list_filter in Hur as [(? & ? & ?) Hur]. apply Hin in Hur as [? ?].
      exists (tp_role ur). split; [done|]. right. by exists ur.
    + intros (r & -> & [->|(b & (? & ? & ?) & ? & ? & <-)]); [by right|left].
      exists b. split; [|done]. apply elem_of_list_filter. split; [done|]. by apply Hin.
  - intros H. apply (adds_each _ (fun r a => r ∈ ut_roles c /\ a = TRow p r (ut_id c) (un_id m) "" true)) in H.
    2: { clear H. intros sa r sb Hb H. cbv beta in H. case_bool_decide as Hr.
         - eapply (adds_t_principal_role _ _ _ _ _ c (Some l)) in H;
             [|by rewrite (base_tenants _ _ Hb)|exists m; by rewrite (base_nss _ _ Hb)].
           eapply adds_ext; [|exact H]. intros a. simpl. tauto.
         - injection H as <-. eapply adds_ext; [|apply adds_none]. intros a. tauto. }
    eapply adds_ext; [|exact H]. intros a. split.
    + intros (r & ? & ? & ->). by exists r.
    + intros (r & -> & ? & ?). by exists r.
Qed.
Lemma assign_scopes_adds o st t c p ss st' : u_wf st -> u_tenants st !! t = Some c ->
  ut_assign_scopes o st t p ss = Ok st' ->
  adds st (fun a => exists b, member st p (ut_id c) b /\ exists s, s ∈ ss /\ s ∈ ut_scopes c /\
      (a = TRow p "" (ut_id c) "" s true
       \/ exists n, in_default st c n /\ a = TRow p (tp_role b) (ut_id c) n s true)) st'.
Proof.
  intros W Hc. unfold ut_assign_scopes. rewrite Hc. destruct (ut_managed c) eqn:Hmg; [|done].
  destruct (principal_roles_ok o st (ut_id c) p W) as (prs & -> & Hin). cbn [rbind].
  destruct prs as [|b0 prs].
  - intros [= <-]. eapply adds_ext; [|apply adds_none]. intros a. split; [done|].
    intros (b & Hb & _). by apply Hin, elem_of_nil in Hb.
  - intros H.
    apply (adds_each _ (fun s a => s ∈ ut_scopes c /\
      (a = TRow p "" (ut_id c) "" s true
       \/ exists b n, b ∈ b0 :: prs /\ in_default st c n /\ a = TRow p (tp_role b) (ut_id c) n s true))) in H.
    2: { clear H. intros sa s sb Hb H. cbv beta in H. case_bool_decide as Hs.
         2: { injection H as <-. eapply adds_ext; [|apply adds_none]. intros a. tauto. }
         apply rbind_ok in H as (sc & H1 & H2).
         apply (adds_each _ (fun b a => exists n, in_default st c n /\ a = TRow p (tp_role b) (ut_id c) n s true)) in H1.
         2: { intros sx b sy Hbx Hx. cbv beta in Hx. apply (adds_default st) in Hx; [done| |done|done].
              by eapply same_base_trans. }
         pose proof (same_base_trans _ _ _ Hb (adds_base _ _ _ H1)) as Hbc.
         eapply (adds_t_principal_role _ _ _ _ _ c None "") in H2; [|by rewrite (base_tenants _ _ Hbc)|done].
         eapply adds_ext; [|by eapply adds_trans]. intros a. simpl. split.
         - intros [(b & Hb' & n & Hn & ->)| ->]; (split; [done|]); [right; by exists b, n|by left].
         - intros [_ [->|(b & n & Hb' & Hn & ->)]]; [by right|left]. exists b. split; [done|]. by exists n. }
    eapply adds_ext; [|exact H]. intros a. split.
    + intros (s & Hs & Hsc & [->|(b & n & Hb & Hn & ->)]).
      * exists b0. split; [apply Hin; by left|]. exists s. split_and!; [done|done|by left].
      * exists b. split; [by apply Hin|]. exists s. split_and!; [done|done|right; by exists n].
    + intros (b & Hb & s & Hs & Hsc & [->|(n & Hn & ->)]); exists s; (split_and!; [done|done|]); [by left|].
      right. exists b, n. split; [by apply Hin|done].
Qed.
Lemma assign_scopes_with_role_adds o st t c p r ss st' : u_wf st -> u_tenants st !! t = Some c ->
  ut_assign_scopes_with_role o st t p r ss = Ok st' ->
  adds st (fun a => (exists b, member st p (ut_id c) b) /\ r ∈ ut_roles c /\ exists s, s ∈ ss /\ s ∈ ut_scopes c /\
      exists n, in_default st c n /\ a = TRow p r (ut_id c) n s true) st'.
Proof.
  intros W Hc. unfold ut_assign_scopes_with_role. destruct ss as [|s0 ss].
  { intros [= <-]. eapply adds_ext; [|apply adds_none]. intros a. split; [done|]. by intros (_ & _ & s & ?%elem_of_nil & _). }
  rewrite Hc. destruct (ut_managed c) eqn:Hmg; [|done].
  destruct (principal_roles_ok o st (ut_id c) p W) as (prs & -> & Hin). cbn [rbind].
  destruct prs as [|b0 prs].
  { intros [= <-]. eapply adds_ext; [|apply adds_none]. intros a. split; [done|].
    intros ((b & Hb) & _). by apply Hin, elem_of_nil in Hb. }
  case_bool_decide as Hr.
  2: { intros [= <-]. eapply adds_ext; [|apply adds_none]. intros a. tauto. }
  intros H. apply (adds_each _ (fun s a => s ∈ ut_scopes c /\ exists n, in_default st c n /\ a = TRow p r (ut_id c) n s true)) in H.
  2: { clear H. intros sa s sb Hb H. cbv beta in H. case_bool_decide as Hs.
       - apply (adds_default st) in H; [|done|done|done]. eapply adds_ext; [|exact H]. intros a. tauto.
       - injection H as <-. eapply adds_ext; [|apply adds_none]. intros a. tauto. }
  eapply adds_ext; [|exact H]. intros a. split.
  - intros (s & ? & ? & ?). split_and!; [exists b0; apply Hin; by left|done|by exists s].
  - intros (_ & _ & s & ? & ? & ?). by exists s.
Qed.

(** C44 *)
Lemma add_principal_role_adds st p r t c ns n s m st' : u_tenants st !! t = Some c ->
  match ns with None => n = "" | Some l => exists m, u_nss st !! l = Some m /\ n = un_id m end ->
  u_add_principal_role st p r t ns s m = Ok st' -> forall b,
  assigned st' b <-> assigned st b \/ read_back (TRow p r (ut_id c) n (default "" s) (match m with [] => true | b :: _ => b end)) b.
Proof.
  intros Hc Hn H b. rewrite (adds_assigned _ _ _ _ (adds_principal_role _ _ _ _ _ _ _ _ _ _ Hc Hn H)).
  split; (intros [?|Hx]; [by left|right]); [by destruct Hx as (x & -> & ?)|by eexists].
Qed.
Lemma read_back_exact x b : read_back x b -> (b = x <-> clean_row x).
Proof.
  intros H. split; [intros ->; by eapply reads_clean|]. intros Hc. by apply (reads_string_clean x b Hc).
Qed.
Lemma read_back_total x : exists b, read_back x b.
Proof. destruct (row_parse_total x) as (b & H). exists b. by apply row_parse_ok. Qed.
Lemma read_back_principal x q rest : clean q -> tp_principal x = under q rest -> forall b, read_back x b -> tp_principal b = q.
Proof.
  intros Hq Hx b Hb.
  destruct (clean_head (tp_principal x) (under (tp_role x) (under (tp_tenant x) (under (tp_ns x) (under (tp_scope x) (bool_word (tp_manage x)))))))
    as (q' & rest' & Hq' & Hx' & Hfun).
  { rewrite Hx, bytes_under. apply elem_of_app. right. by left. }
  rewrite (Hfun _ _ Hb eq_refl).
  assert (E : split_under (bytes (under q rest)) = split_under (bytes (under q' rest'))) by congruence.
  rewrite !bytes_under, !split_app in E by done. injection E as E _. by apply bytes_inj.
Qed.
