(** Concrete cases for requests that leave something out. *)
From Verif Require Export V2OmitProofs V2ShrinkEx.
From Verif Require Import EditEx.
Local Open Scope string_scope.

(** ** Reading a computed state *)
Definition tenant_named (st : vstate) (id : string) : option vtenant :=
  match w_reg st !! id with Some l => w_tenants st !! l | None => None end.
Definition is_active (st : vstate) (id : string) : bool :=
  match tenant_named st id with Some c => match vt_status c with TActive => true | _ => false end | None => false end.
Lemma is_active_active st id : is_active st id = true -> active st id.
Proof.
  unfold is_active, tenant_named, active, tenant_at. destruct (w_reg st !! id) as [l|]; [|done].
  destruct (w_tenants st !! l) as [c|] eqn:E; [|done]. intros H. exists l, c. split; [done|]. split; [done|]. by destruct (vt_status c).
Qed.
Definition has_default (st : vstate) (q : request) (n s : string) : bool :=
  match tenant_named st (q_tenant q) with
  | Some c => bool_decide (vt_default c = n) && negb (bool_decide (n = ""))
      && match vt_namespaces c !! n with Some scopes => bool_decide (s = "") || bool_decide (s ∈ scopes) | None => false end
  | None => false
  end.
Lemma has_default_about st q n s : has_default st q n s = true -> q_tenant q <> "" -> q_namespace q = "" ->
  exists c, about st q c /\ own_namespace c n /\ (s <> "" -> has_scope c q s).
Proof.
  unfold has_default, tenant_named. intros H Hq Hn. destruct (w_reg st !! q_tenant q) as [l|] eqn:El; [|done].
  destruct (w_tenants st !! l) as [c|] eqn:Ec; [|done]. exists c.
  apply andb_true_iff in H as [[H1%bool_decide_eq_true H2%negb_true_iff%bool_decide_eq_false]%andb_true_iff H3].
  assert (own_namespace c n) as Ho by (by left). split; [|split; [done|]].
  - exists (q_tenant q), l. split; [|done]. split; [done|by left].
  - intros Hs m scopes [[Hm Hm']|[_ Hm]] E; [congruence|]. rewrite <- (own_namespace_one c n m Ho Hm) in E. rewrite E in H3.
    apply orb_true_iff in H3 as [H3|H3]; by apply bool_decide_eq_true in H3.
Qed.
Lemma answers_differ (st : vstate) q q' b b' : vanswer (v2_authorize id_oracle st 0 q) = Some b -> vanswer (v2_authorize id_oracle st 0 q') = Some b' ->
  exists s s', v2_authorize id_oracle st 0 q = Ok (s, b) /\ v2_authorize id_oracle st 0 q' = Ok (s', b').
Proof. intros H1%vanswer_ok H2%vanswer_ok. eauto. Qed.

(** ** Refutations *)
(** "acme" is banned; whoever names it is let in. *)
Lemma c130_inactive_refuted : exists st q t, vreachable st /\ distinct_ids st /\ nameless st q /\ exists s s',
  v2_authorize id_oracle st 0 q = Ok (s, false) /\ v2_authorize id_oracle st 0 (in_tenant q t) = Ok (s', true).
Proof.
  exists (vops_state w37), q_nameless, "acme". split; [reach_vops w37|]. split; [distinct|]. split; [by split; computed|].
  apply answers_differ; computed.
Qed.
(** "corp" is the default tenant, in which "ann" has nothing. *)
Definition w130_default : list vop := w125 ++ [VSetDefault "corp"].
Lemma c130_default_refuted : exists st q t, vreachable st /\ distinct_ids st /\ q_tenant q = "" /\ active st t /\ exists s s',
  v2_authorize id_oracle st 0 q = Ok (s, false) /\ v2_authorize id_oracle st 0 (in_tenant q t) = Ok (s', true).
Proof.
  exists (vops_state w130_default), q_nameless, "acme". split; [reach_vops w130_default|]. split; [distinct|]. split; [done|].
  split; [apply is_active_active; computed|]. apply answers_differ; computed.
Qed.
(** Naming a scope of the namespace loses what is allowed without. *)
Lemma c130_scope_refuted : exists st q s c, vreachable st /\ distinct_ids st /\ about st q c /\ has_scope c q s /\ exists s1 s2,
  v2_authorize id_oracle st 0 (in_scope q "") = Ok (s1, true) /\ v2_authorize id_oracle st 0 (in_scope q s) = Ok (s2, false).
Proof.
  destruct (has_default_about (vops_state w129) q_doc "ns" "s") as (c & Ha & _ & Hs); [computed|done|done|].
  exists (vops_state w129), q_doc, "s", c. split; [reach_vops w129|]. split; [distinct|]. split; [done|]. split; [by apply Hs|].
  apply answers_differ; computed.
Qed.

(** ** Concrete cases *)
(** "ann" has the role in "acme" and in "corp", only the second is active. *)
Definition w130 : list vop := w125 ++ [VNewPR (PRole "ann" "corp" "" "" "reader" None false); VAddPR [2]; VTenantStatus 0 TBanned].
Lemma c130_ex : let st := vops_state w130 in
  vreachable st /\ distinct_ids st /\ nameless st q_nameless /\ active st "corp"
  /\ vanswer (v2_authorize id_oracle st 0 q_nameless) = Some true /\ vanswer (v2_authorize id_oracle st 0 (in_tenant q_nameless "corp")) = Some true
  /\ vanswer (v2_can id_oracle st 0 q_nameless ["reader"]) = Some true /\ vanswer (v2_can id_oracle st 0 (in_tenant q_nameless "corp") ["reader"]) = Some true
  /\ vanswer (v2_can id_oracle st 0 q_nameless ["writer"]) = Some false.
Proof.
  split; [reach_vops w130|]. split; [distinct|]. split; [by split; computed|]. split; [apply is_active_active; computed|]. split_and!; computed.
Qed.
Definition w130_acme : list vop := w125 ++ [VSetDefault "acme"].
Lemma c130_default_ex : let st := vops_state w130_acme in vreachable st /\ q_tenant q_nameless = "" /\ w_default st = "acme"
  /\ vanswer (v2_authorize id_oracle st 0 q_nameless) = Some true /\ vanswer (v2_can id_oracle st 0 q_nameless ["reader"]) = Some true.
Proof. split; [reach_vops w130_acme|]. split; [done|]. split_and!; computed. Qed.
(** In "acme" the namespace "ns" is used; in "open", with two namespaces and no default, none. *)
Definition w130_open : list vop := w125 ++
  [VNewTenant "open" None; VTenantNamespace 2 "a" false; VTenantNamespace 2 "b" false; VAddTenant 2;
   VNewPR (PRole "ann" "open" "" "" "reader" None false); VAddPR [2]].
Definition q_open : request := Req "ann" "open" "" "" "/doc" "GET".
Definition open_tenant (st : vstate) : bool :=
  match tenant_named st "open" with
  | Some c => bool_decide (vt_default c = "") && negb (Nat.eqb (size (vt_namespaces c)) 1)
  | None => false
  end.
Lemma open_none st q : open_tenant st = true -> q_tenant q = "open" -> exists c, about st q c /\ forall n, ~ own_namespace c n.
Proof.
  unfold open_tenant, tenant_named. intros H Hq. destruct (w_reg st !! "open") as [l|] eqn:El; [|done].
  destruct (w_tenants st !! l) as [c|] eqn:Ec; [|done]. exists c.
  apply andb_true_iff in H as [H1%bool_decide_eq_true H2%negb_true_iff%Nat.eqb_neq]. split.
  - exists "open", l. split; [|done]. split; [done|by left].
  - intros n [[? ?]|[_ Hd]]; [congruence|]. apply H2. rewrite <- (size_dom (D := gset string)), Hd. apply size_singleton.
Qed.
Lemma c130_namespace_ex : let st := vops_state w130_open in vreachable st /\ q_namespace q_doc = ""
  /\ (exists c, about st q_doc c /\ own_namespace c "ns") /\ (exists c, about st q_open c /\ forall n, ~ own_namespace c n)
  /\ vanswer (v2_authorize id_oracle st 0 q_doc) = Some true /\ vanswer (v2_authorize id_oracle st 0 (in_namespace q_doc "ns")) = Some true
  /\ vanswer (v2_authorize id_oracle st 0 q_open) = Some false /\ vanswer (v2_authorize id_oracle st 0 (in_namespace q_open "a")) = Some true
  /\ vanswer (v2_can id_oracle st 0 q_open ["reader"]) = Some false /\ vanswer (v2_can id_oracle st 0 (in_namespace q_open "a") ["reader"]) = Some true.
Proof.
  split; [reach_vops w130_open|]. split; [done|].
  split. { destruct (has_default_about (vops_state w130_open) q_doc "ns" "") as (c & Ha & Ho & _); [computed|done|done|]. by exists c. }
  split; [apply open_none; [computed|done]|]. split_and!; computed.
Qed.
Lemma no_scope_list st user scope : Forall (fun p => match p with Some l => match w_prs st !! l with Some pr => pr_scope pr <> scope | None => True end | None => True end) (w_assign st) ->
  forall pr, assigned st pr -> pr_principal pr = user -> pr_scope pr <> scope.
Proof. intros H pr (l & Hl & Hp) _. rewrite Forall_forall in H. specialize (H _ Hl). simpl in H. by rewrite Hp in H. Qed.
Definition w130_scope : list vop := w127_full.
Lemma c130_scope_ex : let st := vops_state w130_scope in vreachable st /\ distinct_ids st
  /\ (exists c, about st q_doc c /\ has_scope c q_doc "s") /\ no_scope_given st (in_scope q_doc "s")
  /\ vanswer (v2_authorize id_oracle st 0 (in_scope q_doc "")) = Some true /\ vanswer (v2_authorize id_oracle st 0 (in_scope q_doc "s")) = Some true
  /\ vanswer (v2_authorize id_oracle st 0 (in_scope q_doc "t")) = Some false
  /\ vanswer (v2_can id_oracle st 0 (in_scope q_doc "s") ["reader"]) = Some true.
Proof.
  split; [reach_vops w130_scope|]. split; [distinct|].
  split. { destruct (has_default_about (vops_state w130_scope) q_doc "ns" "s") as (c & Ha & _ & Hs); [computed|done|done|]. exists c. split; [done|by apply Hs]. }
  split; [right; apply no_scope_list; vm_compute; repeat constructor; discriminate|]. split_and!; computed.
Qed.
