(** The v2 properties in the form in which they are stated, and small examples. *)
From Verif Require Export V2Ex.

(** ** C27 to C29 *)
Lemma vw_dag_id st : vw_dag st (w_dag st) = st.
Proof. by destruct st. Qed.
Lemma c27_rejected o st p cs st' e :
  vstep o st (VAddChildRole p cs) = Ok (st', WErr (Some e)) -> st' = st.
Proof.
  simpl. intros ([d err] & H & E)%rbind_inv. simpl in E. injection E as <- ->.
  apply dag_add_child_error in H as ->. apply vw_dag_id.
Qed.
Lemma c27_accepted o st p cs st' :
  vstep o st (VAddChildRole p cs) = Ok (st', WErr None) ->
  d_edges (w_dag st') = with_children (d_edges (w_dag st)) p cs.
Proof.
  simpl. intros ([d err] & H & E)%rbind_inv. simpl in E. injection E as <- ->.
  unfold dag_add_child in H. apply rbind_inv in H as ([e|] & _ & H); [done|]. injection H as <-. done.
Qed.
Lemma c27_cycle o st p cs c :
  vreachable st -> c ∈ cs -> rtc (child (d_edges (w_dag st))) c p ->
  exists e, vstep o st (VAddChildRole p cs) = Ok (st, WErr (Some e)).
Proof.
  intros Hr Hc Hp. destruct (dag_add_child_cycle (w_dag st) p cs c) as [e He]; [by apply vreachable_acyclic|done..|].
  exists e. simpl. rewrite He. simpl. by rewrite vw_dag_id.
Qed.
Lemma c28_exact o st p cs :
  vreachable st ->
  ((exists st', vstep o st (VAddChildRole p cs) = Ok (st', WErr None)) <->
     exists l, listing (d_edges (w_dag st)) cs l /\ NoDup (p :: l)) /\
  ((exists st' e, vstep o st (VAddChildRole p cs) = Ok (st', WErr (Some e))) <->
     exists l, listing (d_edges (w_dag st)) cs l /\ ~ NoDup (p :: l)).
Proof.
  intros Hr. split.
  - rewrite <- dag_add_child_accepts. split.
    + intros (st' & H). simpl in H. apply rbind_inv in H as ([d e] & H & E). simpl in E. injection E as <- ->. by exists d.
    + intros (d & H). simpl. rewrite H. simpl. by eexists.
  - rewrite <- dag_add_child_rejects by by apply vreachable_acyclic. split.
    + intros (st' & e & H). simpl in H. apply rbind_inv in H as ([d e'] & H & E). simpl in E. injection E as <- ->.
      pose proof (dag_add_child_error _ _ _ _ _ H) as ->. by exists e.
    + intros (e & H). simpl. rewrite H. simpl. by eexists _, _.
Qed.
Lemma c27_ex : exists st st1 st2 e, vreachable st /\
  vstep id_oracle st (VAddChildRole "c" ["d"]) = Ok (st1, WErr None) /\
  vstep id_oracle st (VAddChildRole "c" ["a"]) = Ok (st2, WErr (Some e)).
Proof.
  set (ops := [VAddChildRole "a" ["b"]; VAddChildRole "b" ["c"]]).
  exists (vops_state ops), (vfinal (vstep id_oracle (vops_state ops) (VAddChildRole "c" ["d"]))),
    (vfinal (vstep id_oracle (vops_state ops) (VAddChildRole "c" ["a"]))), (err_circular "c" "a").
  unfold ops. split; [reach_vops [VAddChildRole "a" ["b"]; VAddChildRole "b" ["c"]]|]. split; vanswered.
Qed.
Lemma c28_ex : exists st st' l, vreachable st /\ listing (d_edges (w_dag st)) ["b"; "x"] l /\ NoDup ("a" :: l) /\
  length l = 4 /\ vstep id_oracle st (VAddChildRole "a" ["b"; "x"]) = Ok (st', WErr None).
Proof.
  set (ops := [VAddChildRole "b" ["c"; "d"]]).
  exists (vops_state ops), (vfinal (vstep id_oracle (vops_state ops) (VAddChildRole "a" ["b"; "x"]))), ["b"; "c"; "d"; "x"].
  unfold ops. split; [reach_vops [VAddChildRole "b" ["c"; "d"]]|].
  assert (forall e r, e !! r = None -> listing e (default [] (e !! r)) []) as Hleaf by (intros e r ->; constructor).
  split; [|split; [|split; [done|vanswered]]].
  - apply (listing_cons _ "b" ["x"] ["c"; "d"] ["x"]).
    + assert (default [] (d_edges (w_dag (vops_state [VAddChildRole "b" ["c"; "d"]])) !! "b") = ["c"; "d"]) as -> by (vm_compute; reflexivity).
      apply (listing_cons _ "c" ["d"] [] ["d"]); [apply Hleaf; vm_compute; reflexivity|].
      apply (listing_cons _ "d" [] [] []); [apply Hleaf; vm_compute; reflexivity|constructor].
    + apply (listing_cons _ "x" [] [] []); [apply Hleaf; vm_compute; reflexivity|constructor].
  - apply (bool_decide_unpack _). vm_compute. exact I.
Qed.
Lemma c29_permissions h d name d' s :
  d_resolved d !! name = None -> resolve_permissions h d name = Ok (d', s) ->
  forall p, p ∈ s <-> confers h d name p.
Proof.
  intros Hn H. apply resolve_first in H as [_ H]; [|done]. intros p. rewrite H. unfold confers. naive_solver.
Qed.
Lemma c29_names h d name d' s :
  d_resolved d !! name = None -> resolve_child_roles h d name = Ok (d', s) ->
  forall x, x ∈ s <-> includes h d name x.
Proof.
  intros Hn H. apply resolve_first in H as [_ H]; [|done]. intros p. rewrite H. unfold includes, name_of.
  setoid_rewrite elem_of_singleton. naive_solver.
Qed.
Lemma c29_later contrib h d name d' s h' :
  resolve contrib h d name = Ok (d', s) -> resolve contrib h' d' name = Ok (d', s).
Proof.
  unfold resolve. destruct (d_resolved d !! name) eqn:E.
  - intros [= <- <-]. by rewrite E.
  - intros (s' & _ & [= <- <-])%rbind_inv. simpl. by rewrite lookup_insert.
Qed.
Lemma c29_ex :
  let h := [VRole "a" {["p"]}; VRole "b" {["q"]}; VRole "z" {["r"]}] in
  let d := Dag {["a" := 0; "b" := 1; "z" := 2]} {["a" := ["b"; "ghost"]; "b" := ["a"]; "ghost" := ["z"]]} ∅ in
  dag_wf h d /\
  match resolve_permissions h d "a" with Ok (_, s) => elements s = ["p"; "q"] \/ elements s = ["q"; "p"] | _ => False end /\
  match resolve_child_roles h d "b" with Ok (_, s) => elements s = ["a"; "b"] \/ elements s = ["b"; "a"] | _ => False end.
Proof.
  split; [|split; vm_compute; tauto].
  intros n l H. simpl in H. apply lookup_insert_Some in H as [[<- <-]|[_ H]]; [by eexists|].
  apply lookup_insert_Some in H as [[<- <-]|[_ H]]; [by eexists|].
  apply lookup_singleton_Some in H as [<- <-]. by eexists.
Qed.

(** ** C31, C32, C40 *)
Lemma c31_exact o st now q st' b :
  vreachable st -> distinct_ids st -> v2_authorize o st now q = Ok (st', b) ->
  b = true <-> v2_allowed st now q.
Proof. intros Hr%vreachable_wf Hd H. by apply (v2_authorize_exact o st now q st' b). Qed.
(** A query leaves everything but the memory of resolved roles alone, and that it only fills in. *)
Lemma c31_effect o st now q st' b :
  vreachable st -> v2_authorize o st now q = Ok (st', b) ->
  exists d', st' = vw_dag st d' /\ d_roles d' = d_roles (w_dag st) /\ d_edges d' = d_edges (w_dag st) /\
    forall r p, role_perm st' r p <-> role_perm st r p.
Proof.
  intros Hr%vreachable_wf H. apply v2_authorize_sound in H as [(d & -> & Hd1) _]; [|done].
  exists d. split; [done|]. split; [apply Hd1|]. split; [apply Hd1|].
  intros r p. unfold role_perm at 1. simpl.
  destruct (d_resolved d !! r) as [s|] eqn:Hs.
  - rewrite (ext_view _ _ _ Hd1 _ _ Hs p). by rewrite role_view_perm.
  - unfold role_perm. rewrite (ext_old _ _ _ Hd1 _ Hs).
    unfold confers. split; intros (n & r' & Hb & Hreg & Hp); exists n, r'.
    + split; [eapply rtc_below_ext; [| |exact Hb]; apply Hd1|].
      split; [|done]. eapply registered_ext; [|exact Hreg]. apply Hd1.
    + split; [eapply rtc_below_ext; [| |exact Hb]; symmetry; apply Hd1|].
      split; [|done]. eapply registered_ext; [|exact Hreg]. symmetry. apply Hd1.
Qed.
Lemma c31_returns o st now q :
  vreachable st -> ~ broken st -> no_loop st now q -> exists st' b, v2_authorize o st now q = Ok (st', b).
Proof. intros Hr%vreachable_wf. by apply v2_authorize_returns. Qed.
Lemma c32_exact o st now q roles st' b :
  vreachable st -> distinct_ids st -> v2_can o st now q roles = Ok (st', b) ->
  b = true <-> v2_can_allowed st now q roles.
Proof. intros Hr%vreachable_wf Hd H. by apply (v2_can_exact o st now q roles st' b). Qed.
Lemma c32_returns o st now q roles :
  vreachable st -> ~ broken st -> exists st' b, v2_can o st now q roles = Ok (st', b).
Proof. intros Hr%vreachable_wf. by apply v2_can_returns. Qed.
Lemma c32_sound o st now q roles st' :
  vreachable st -> v2_can o st now q roles = Ok (st', true) -> v2_can_allowed st now q roles.
Proof. intros Hr%vreachable_wf H. apply v2_can_sound in H as [_ H]; [by apply H|done]. Qed.
Lemma c40_not_broken o st now q roles :
  vreachable st -> ~ broken st -> v2_authorize o st now q <> Panic /\ v2_can o st now q roles <> Panic.
Proof.
  intros Hr%vreachable_wf Hb. split; [by apply v2_authorize_not_panic|].
  destruct (v2_can_returns o st now q roles) as (st' & b & ->); done.
Qed.
Lemma vstep_assign o st x st' out :
  vstep o st x = Ok (st', out) ->
  (exists t, x = VRemovePR t) \/ exists ls, w_assign st' = w_assign st ++ (Some <$> ls).
Proof.
  assert (forall s : vstate, w_assign s = w_assign st -> exists ls, w_assign s = w_assign st ++ (Some <$> ls)) as Hk.
  { intros s ->. exists []. by rewrite app_nil_r. }
  destruct x; simpl.
  1,2,3,13: intros [= <- <-]; right; by apply Hk.
  - intros (st1 & (r' & Hr' & ->)%upd_role_inv & [= <- <-])%rbind_inv. right. by apply Hk.
  - intros (st1 & (r' & Hr' & ->)%upd_role_inv & [= <- <-])%rbind_inv. right. by apply Hk.
  - intros (d & Hda & [= <- <-])%rbind_inv. right. by apply Hk.
  - intros ([d e] & Hda & [= <- <-])%rbind_inv. right. by apply Hk.
  - intros (st1 & (c & Hc & ->)%upd_tenant_inv & [= <- <-])%rbind_inv. right. by apply Hk.
  - destruct (w_tenants st !! t) as [c|] eqn:Hc; [|done]. intros [= <- <-]. right. by apply Hk.
  - destruct (w_tenants st !! t) as [c|] eqn:Hc; [|done].
    intros (c' & Hc' & [= <- <-])%rbind_inv. right. by apply Hk.
  - intros (st1 & (c & Hc & ->)%upd_tenant_inv & [= <- <-])%rbind_inv. right. by apply Hk.
  - unfold v2_add_tenant. intros (st1 & H & [= <- <-])%rbind_inv.
    destruct (w_tenants st !! t) as [c|] eqn:Hc; [|done]. apply rbind_inv in H as (ps & _ & [= <-]). right. by apply Hk.
  - intros (st1 & H & [= <- <-])%rbind_inv. right. exists prs. apply v2_add_principal_role_inv in H. tauto.
  - intros _. left. by eexists.
  - intros ([st1 e1] & (p & Hp & -> & _)%upd_pr_inv & [= <- <-])%rbind_inv. right. by apply Hk.
  - intros ([st1 e1] & (p & Hp & -> & _)%upd_pr_inv & [= <- <-])%rbind_inv. right. by apply Hk.
  - intros ([st1 e1] & (p & Hp & -> & _)%upd_pr_inv & [= <- <-])%rbind_inv. right. by apply Hk.
  - unfold v2_authorize. intros ([st1 b] & H & [= <- <-])%rbind_inv. right.
    apply rbind_inv in H as ([ts|] & _ & H); [|injection H as <- <-; by apply Hk].
    apply rbind_inv in H as ([d b'] & _ & [= <- <-]). by apply Hk.
  - unfold v2_can. intros ([st1 b] & H & [= <- <-])%rbind_inv. right.
    apply rbind_inv in H as ([ts|] & _ & H); [|injection H as <- <-; by apply Hk].
    apply rbind_inv in H as ([d b'] & _ & [= <- <-]). by apply Hk.
Qed.
Lemma c40_no_removal o ops st outs :
  vrun o 0 v2_init ops = Ok (st, outs) -> (forall t, VRemovePR t ∉ ops) -> ~ broken st.
Proof.
  intros H Hno.
  assert (forall i st0, ~ broken st0 -> vrun o i st0 ops = Ok (st, outs) -> ~ broken st) as Hgen.
  { clear H. revert outs. induction ops as [|x ops IH]; intros outs i st0 Hb H; simpl in H.
    - by injection H as <- <-.
    - apply rbind_inv in H as ([st1 o1] & H1 & H). apply rbind_inv in H as ([st2 o2] & H2 & H). injection H as <- <-.
      eapply IH; [| |exact H2]. { intros t Ht. apply (Hno t). by right. }
      destruct (vstep_assign _ _ _ _ _ H1) as [(t & ->)|(ls & Hls)]; [destruct (Hno t); left|].
      unfold broken in *. simpl. rewrite Hls, elem_of_app. intros [?|(? & ? & _)%elem_of_list_fmap]; done. }
  eapply Hgen; [|exact H]. by intros ?%elem_of_nil.
Qed.
Lemma c40_exact o st now q roles :
  vreachable st -> broken st ->
  let looks := nameless st q \/
    exists name t c n, names st q name /\ w_reg st !! name = Some t /\ tenant_at st t c /\ uses_namespace c q n in
  (v2_authorize o st now q = Panic <-> looks) /\ (v2_can o st now q roles = Panic <-> looks).
Proof.
  intros Hr%vreachable_wf Hb. split; [by apply v2_authorize_panics|by apply v2_can_panics].
Qed.
Lemma c31_ex : exists st st1 st2 st3, vreachable st /\ distinct_ids st /\ ~ broken st /\
  v2_authorize rev_oracle st 0 (Req "ann" "acme" "" "s" "/doc" "GET") = Ok (st1, true) /\
  v2_authorize rev_oracle st 0 (Req "ann" "acme" "" "" "/doc" "GET") = Ok (st2, false) /\
  v2_authorize rev_oracle st 0 (Req "bob" "acme" "" "s" "/doc" "GET") = Ok (st3, false).
Proof.
  set (ops := [VNewRole "reader"; VRoleAdd 0 [("/doc", "GET")]; VAddRoles [0];
    VNewTenant "acme" (Some "ns"); VTenantScopes 0 "ns" ["s"]; VAddTenant 0;
    VNewPR (PRole "ann" "acme" "s" "ns" "reader" (Some 3%Z) false); VAddPR [0]]).
  exists (vops_state ops), (vfinal (v2_authorize rev_oracle (vops_state ops) 0 (Req "ann" "acme" "" "s" "/doc" "GET"))),
    (vfinal (v2_authorize rev_oracle (vops_state ops) 0 (Req "ann" "acme" "" "" "/doc" "GET"))),
    (vfinal (v2_authorize rev_oracle (vops_state ops) 0 (Req "bob" "acme" "" "s" "/doc" "GET"))).
  split; [reach_vops ops|]. split; [unfold ops; distinct|]. split.
  { apply (c40_no_removal id_oracle ops _ (vops_outs ops)); [apply vrun_vruns; vm_compute; reflexivity|].
    intros t H. unfold ops in H. repeat (apply elem_of_cons in H as [H|H]; [discriminate|]). by apply elem_of_nil in H. }
  unfold ops. split_and!; vanswered.
Qed.
Lemma c32_ex : exists st st1 st2 st3, vreachable st /\ distinct_ids st /\
  v2_can rev_oracle st 0 q_doc ["writer"; "reader"] = Ok (st1, true) /\
  v2_can rev_oracle st 0 q_doc ["writer"] = Ok (st2, false) /\
  v2_can rev_oracle st 0 q_doc ["lead"] = Ok (st3, true).
Proof.
  exists (vops_state w33), (vfinal (v2_can rev_oracle (vops_state w33) 0 q_doc ["writer"; "reader"])),
    (vfinal (v2_can rev_oracle (vops_state w33) 0 q_doc ["writer"])),
    (vfinal (v2_can rev_oracle (vops_state w33) 0 q_doc ["lead"])).
  split; [reach_vops w33|]. split; [distinct|]. split_and!; vanswered.
Qed.

(** ** C36 to C38 *)
Lemma c36_returns st tg :
  vreachable st -> ~ broken st -> exists st' e, v2_remove_principal_role st tg = Ok (st', e).
Proof. intros Hr%vreachable_wf. by apply remove_returns. Qed.
Lemma c36_error st tg st' e :
  vreachable st -> ~ broken st -> v2_remove_principal_role st tg = Ok (st', e) ->
  (e <> None <-> forall pr, assigned st pr -> ~ meets tg pr) /\ (e <> None -> st' = st).
Proof. intros Hr%vreachable_wf. by apply remove_error. Qed.
Lemma c36_success st tg st' ls ks :
  vreachable st -> list_is st ls -> remains st tg ls ks -> v2_remove_principal_role st tg = Ok (st', None) ->
  length (w_assign st') = length ks /\
  (go_last st tg ls -> list_is st' ks) /\ (~ go_last st tg ls -> broken st').
Proof.
  intros Hr%vreachable_wf Hl Hk H. split; [by eapply remove_length|by eapply remove_success].
Qed.
Lemma c38_no_manager o st now q name t st' :
  vreachable st -> distinct_ids st -> names st q name -> w_reg st !! name = Some t ->
  (forall pr, assigned st pr -> pr_principal pr = q_principal q -> pr_tenant pr = name -> pr_manage pr = false) ->
  v2_authorize o st now q = Ok (st', true) ->
  exists pr p, assigned st pr /\ pr_principal pr = q_principal q /\ pr_tenant pr = name /\ ~ expired now pr /\
    role_perm st (pr_role pr) p /\ matches_perm q p.
Proof.
  intros Hr Hd Hn Hreg Hnm H. pose proof (vreachable_wf _ Hr) as Hwf.
  destruct (c31_exact _ _ _ _ _ _ Hr Hd H) as [Hall _]. destruct (Hall eq_refl) as (t1 & c & n & p & Ht & Hc & Hu & He & Hm).
  assert (t1 = t) as ->. { pose proof (named_target _ _ _ _ Hn Ht). congruence. }
  destruct (wf_reg st Hwf _ _ Hreg) as (c0 & Hc0 & Hid). unfold tenant_at in *. assert (c0 = c) as -> by congruence.
  assert (exists pr, counts st now (q_principal q) t n pr /\ role_perm st (pr_role pr) p) as (pr & (Ha & Hp & Hx & _ & t' & c' & Hrt & Hc' & Htn) & Hrp).
  { destruct He as [(pr & ? & _ & ?)|[(pr & ? & _ & _ & ?) _]]; by exists pr. }
  assert (t' = t) as ->.
  { inversion Hrt as [|? y ? (_ & c1 & prm & Hc1 & Ham & Hpm & Htm & Hmm) _]; [done|]. exfalso.
    unfold tenant_at in Hc1. assert (c1 = c) as -> by congruence.
    rewrite Hid in Htm. rewrite (Hnm prm Ham Hpm Htm) in Hmm. done. }
  assert (c' = c) as -> by (unfold tenant_at in *; congruence).
  exists pr, p. rewrite Htn, Hid. done.
Qed.

(** ** C42, C43, C55 *)
Lemma c42_refuted :
  exists pr : prole, set_expiry_duration 0 pr (DString None) = (pr, None) /\
    (set_expiry_duration 0 pr DOther).2 = None /\ expired 1 (set_expiry_duration 0 pr DOther).1 /\ ~ expired 1 pr.
Proof.
  exists (PRole "ann" "acme" "" "" "reader" None false). split; [done|]. split; [done|].
  split; [exists 0%Z; split; [done|lia]|]. by intros (e & ? & _).
Qed.
Lemma c43_index st : vreachable st -> broken st \/ index_agrees st.
Proof. intros Hr. by apply vreachable_index. Qed.
Lemma c55_authorize o1 o2 st now q st1 st2 b1 b2 :
  vreachable st -> distinct_ids st ->
  v2_authorize o1 st now q = Ok (st1, b1) -> v2_authorize o2 st now q = Ok (st2, b2) -> b1 = b2.
Proof. intros Hr Hd. by eapply authorize_agree. Qed.
Lemma c55_can o1 o2 st now q roles st1 st2 b1 b2 :
  vreachable st -> distinct_ids st ->
  v2_can o1 st now q roles = Ok (st1, b1) -> v2_can o2 st now q roles = Ok (st2, b2) -> b1 = b2.
Proof. intros Hr Hd. by eapply can_agree. Qed.

(** ** C39 *)
Definition w39 : list vop :=
  [VNewRole "reader"; VRoleAdd 0 [("/doc", "GET")]; VAddRoles [0];
   VNewTenant "acme" (Some "ns"); VNewTenant "other" (Some "ns"); VAddTenant 0; VAddTenant 1;
   VNewPR (PRole "ann" "acme" "" "" "reader" None false);
   VNewPR (PRole "bob" "acme" "" "" "reader" None true);
   VNewPR (PRole "ann" "other" "" "" "reader" None true)].
Lemma c39_ex : exists st1 st2 st1' st2' st1'' st2'', vreachable st1 /\ vreachable st2 /\ distinct_ids st1 /\
  same_setup st1 st2 /\ names st1 q_doc "acme" /\ w_reg st1 !! "acme" = Some 0 /\
  w_assign st1 = [Some 0] /\ w_assign st2 = [Some 2; Some 1; Some 0] /\
  v2_authorize id_oracle st1 0 q_doc = Ok (st1', true) /\ v2_authorize id_oracle st2 0 q_doc = Ok (st2', true) /\
  v2_authorize id_oracle st1 0 q_bob = Ok (st1'', false) /\ v2_authorize id_oracle st2 0 q_bob = Ok (st2'', true).
Proof.
  exists (vops_state (w39 ++ [VAddPR [0]])), (vops_state (w39 ++ [VAddPR [2; 1; 0]])),
    (vfinal (v2_authorize id_oracle (vops_state (w39 ++ [VAddPR [0]])) 0 q_doc)),
    (vfinal (v2_authorize id_oracle (vops_state (w39 ++ [VAddPR [2; 1; 0]])) 0 q_doc)),
    (vfinal (v2_authorize id_oracle (vops_state (w39 ++ [VAddPR [0]])) 0 q_bob)),
    (vfinal (v2_authorize id_oracle (vops_state (w39 ++ [VAddPR [2; 1; 0]])) 0 q_bob)).
  split; [reach_vops (w39 ++ [VAddPR [0]])|]. split; [reach_vops (w39 ++ [VAddPR [2; 1; 0]])|]. split; [distinct|].
  split; [apply setup_pair; vm_compute; reflexivity|]. split; [split; [done|by left]|].
  split; [vm_compute; reflexivity|]. split; [vm_compute; reflexivity|]. split; [vm_compute; reflexivity|].
  split_and!; vanswered.
Qed.
