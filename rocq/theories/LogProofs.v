(** Proofs about the audit log. *)
From Verif Require Import V2Auth V2Trav LogModel LogSpec.

(** ** The log does not change the decision *)
Lemma authorize_logged_same on o st now q ts : forall i d, (authorize_logged on o i st now q d ts).2 = authorize_loop o i st now q d ts.
Proof.
  induction ts as [|t ts IH]; intros i d; [done|]. cbn [authorize_logged authorize_loop]. destruct (w_tenants st !! t) as [c|]; [|done].
  destruct (target_namespace c q) as [n|]; [|apply IH].
  destruct (resolve_principal_permissions _ _ _ _ _ _ _ _) as [[d1 [ps|]]| |]; cbn [rbind fst snd]; [|apply IH|done|done].
  destruct (perms_match _ _ _) as [[]| |]; cbn [rbind]; first [apply IH|done].
Qed.
Lemma v2_authorize_logged_same on o st now q : (v2_authorize_logged on o st now q).2 = v2_authorize o st now q.
Proof.
  unfold v2_authorize_logged, v2_authorize. destruct (find_target_tenants (sub o 0) st q) as [[ts|]| |]; cbn [rbind fst snd]; try done.
  by rewrite authorize_logged_same.
Qed.
Lemma can_logged_same on o st now q roles ts : forall i d, (can_logged on o i st now q roles d ts).2 = can_loop o i st now q roles d ts.
Proof.
  induction ts as [|t ts IH]; intros i d; [done|]. cbn [can_logged can_loop]. destruct (w_tenants st !! t) as [c|]; [|done].
  destruct (target_namespace c q) as [n|]; [|apply IH].
  destruct (resolve_principal_roles _ _ _ _ _ _ _) as [[d1 [rs|]]| |]; cbn [rbind fst snd]; [|apply IH|done|done].
  destruct (existsb _ _); first [apply IH|done].
Qed.
Lemma v2_can_logged_same on o st now q roles : (v2_can_logged on o st now q roles).2 = v2_can o st now q roles.
Proof.
  unfold v2_can_logged, v2_can. destruct (find_target_tenants (sub o 0) st q) as [[ts|]| |]; cbn [rbind fst snd]; try done.
  by rewrite can_logged_same.
Qed.
Lemma authorize_silent o st now q ts : forall i d, (authorize_logged false o i st now q d ts).1 = [].
Proof.
  induction ts as [|t ts IH]; intros i d; [done|]. cbn [authorize_logged]. destruct (w_tenants st !! t) as [c|]; [|done].
  destruct (target_namespace c q) as [n|]; [|apply IH].
  destruct (resolve_principal_permissions _ _ _ _ _ _ _ _) as [[d1 [ps|]]| |]; [|apply IH|done|done].
  destruct (perms_match _ _ _) as [[]| |]; first [apply IH|done].
Qed.

(** ** Its shape *)
Definition closing {A} (q : request) (r : res (A * bool)) : list entry :=
  match r with
  | Ok (_, true) => [Entry (log_attrs q) "Authorization granted"]
  | Ok (_, false) => [Entry (log_attrs q) "Authorization failed"]
  | _ => []
  end.
Lemma authorize_logged_shape o st now q ts : forall i d, exists k, (authorize_logged true o i st now q d ts).1 =
  replicate k (Entry (log_attrs q) "Failed to resolve permissions for authorization") ++ closing q (authorize_loop o i st now q d ts).
Proof.
  induction ts as [|t ts IH]; intros i d; [by exists 0|]. cbn [authorize_logged authorize_loop]. destruct (w_tenants st !! t) as [c|]; [|by exists 0].
  destruct (target_namespace c q) as [n|]; [|apply IH].
  destruct (resolve_principal_permissions _ _ _ _ _ _ _ _) as [[d1 [ps|]]| |]; cbn [rbind fst snd].
  - destruct (perms_match _ _ _) as [[]| |]; cbn [rbind]; [by exists 0|apply IH|by exists 0|by exists 0].
  - destruct (IH (S i) d1) as [k Hk]. exists (S k). cbn. by rewrite Hk.
  - by exists 0.
  - by exists 0.
Qed.
Lemma can_logged_shape o st now q roles ts : forall i d, exists k, (can_logged true o i st now q roles d ts).1 =
  replicate k (Entry (log_attrs q) "Failed to resolve roles for authorization") ++ closing q (can_loop o i st now q roles d ts).
Proof.
  induction ts as [|t ts IH]; intros i d; [by exists 0|]. cbn [can_logged can_loop]. destruct (w_tenants st !! t) as [c|]; [|by exists 0].
  destruct (target_namespace c q) as [n|]; [|apply IH].
  destruct (resolve_principal_roles _ _ _ _ _ _ _) as [[d1 [rs|]]| |]; cbn [rbind fst snd].
  - destruct (existsb _ _); [by exists 0|apply IH].
  - destruct (IH (S i) d1) as [k Hk]. exists (S k). cbn. by rewrite Hk.
  - by exists 0.
  - by exists 0.
Qed.
Lemma find_unknown o st q ts : find_target_tenants o st q = Ok ts -> ts = None <-> unknown_tenant st q.
Proof.
  unfold find_target_tenants, unknown_tenant, names. set (tn := if bool_decide (q_tenant q = "") then w_default st else q_tenant q).
  assert (Htn : forall name, name <> "" -> (q_tenant q = name \/ q_tenant q = "" /\ w_default st = name) <-> tn = name).
  { intros name Hn. unfold tn. case_bool_decide; naive_solver. }
  case_bool_decide as Hb.
  - intros (l & Hl & [= <-])%rbind_inv. split; [discriminate|]. intros (name & (Hn & H) & _). apply Htn in H; [|done]. congruence.
  - intros [= <-]. split.
    + destruct (w_reg st !! tn) eqn:E; [discriminate|]. intros _. exists tn. split; [|done]. split; [done|]. by apply Htn.
    + intros (name & (Hn & H) & Hr). apply Htn in H; [|done]. subst name. by rewrite Hr.
Qed.
Lemma not_verdict k q msg e : ~ is_verdict msg -> e ∈ replicate k (Entry (log_attrs q) msg) -> en_attrs e = log_attrs q /\ ~ is_verdict (en_msg e).
Proof. intros Hm [-> _]%elem_of_replicate. done. Qed.
Lemma resolve_not_verdict : ~ is_verdict "Failed to resolve permissions for authorization" /\ ~ is_verdict "Failed to resolve roles for authorization".
Proof. unfold is_verdict. rewrite !elem_of_cons, !elem_of_nil. split; intros [H|[H|[H|H]]]; first [discriminate H|exact H]. Qed.
Lemma closing_tells {A} st q (a : A) b k msg : ~ unknown_tenant st q -> ~ is_verdict msg ->
  tells st q b (replicate k (Entry (log_attrs q) msg) ++ closing q (Ok (a, b))).
Proof.
  intros Hu Hm. exists (replicate k (Entry (log_attrs q) msg)), (if b then "Authorization granted" else "Authorization failed").
  split; [by destruct b|]. split; [|intros e; by apply not_verdict]. unfold says_verdict. destruct b; [by left|right; right; done].
Qed.
Lemma invalid_tells st q : unknown_tenant st q -> tells st q false (log true q "Failed authorization due to invalid tenant").
Proof.
  intros Hu. exists [], "Failed authorization due to invalid tenant". split; [done|]. split; [right; left; done|]. by intros e ?%elem_of_nil.
Qed.
Lemma authorize_tells o st now q es st' b : v2_authorize_logged true o st now q = (es, Ok (st', b)) -> tells st q b es.
Proof.
  unfold v2_authorize_logged. destruct (find_target_tenants (sub o 0) st q) as [[ts|]| |] eqn:Hf; try done.
  - intros [= <- H]. rewrite authorize_logged_same in H. apply rbind_inv in H as ([d' b'] & Hl & [= <- <-]).
    destruct (authorize_logged_shape (sub o 1) st now q ts 0 (w_dag st)) as [k ->]. rewrite Hl. cbn [snd]. apply closing_tells; [|apply resolve_not_verdict].
    intros Hu. apply (find_unknown _ _ _ _ Hf) in Hu. discriminate Hu.
  - intros [= <- <- <-]. apply invalid_tells. by apply (find_unknown _ _ _ _ Hf).
Qed.
Lemma can_tells o st now q roles es st' b : v2_can_logged true o st now q roles = (es, Ok (st', b)) -> tells st q b es.
Proof.
  unfold v2_can_logged. destruct (find_target_tenants (sub o 0) st q) as [[ts|]| |] eqn:Hf; try done.
  - intros [= <- H]. rewrite can_logged_same in H. apply rbind_inv in H as ([d' b'] & Hl & [= <- <-]).
    destruct (can_logged_shape (sub o 1) st now q roles ts 0 (w_dag st)) as [k ->]. rewrite Hl. cbn [snd]. apply closing_tells; [|apply resolve_not_verdict].
    intros Hu. apply (find_unknown _ _ _ _ Hf) in Hu. discriminate Hu.
  - intros [= <- <- <-]. apply invalid_tells. by apply (find_unknown _ _ _ _ Hf).
Qed.
(** A call that does not return has not logged a verdict. *)
Lemma closing_none {A} q (r : res (A * bool)) : (forall x, r <> Ok x) -> closing q r = [].
Proof. intros H. destruct r as [[a b]| |]; [by destruct (H (a, b))|done|done]. Qed.
Lemma authorize_no_verdict o st now q es r e : v2_authorize_logged true o st now q = (es, r) -> (forall x, r <> Ok x) -> e ∈ es -> ~ is_verdict (en_msg e).
Proof.
  unfold v2_authorize_logged. destruct (find_target_tenants (sub o 0) st q) as [[ts|]| |] eqn:Hf.
  - intros [= <- <-] Hr. destruct (authorize_logged_shape (sub o 1) st now q ts 0 (w_dag st)) as [k ->]. rewrite closing_none, app_nil_r.
    + intros He. eapply not_verdict; [apply (proj1 resolve_not_verdict)|exact He].
    + intros [d b] E. rewrite authorize_logged_same, E in Hr. by apply (Hr (vw_dag st d, b)).
  - intros [= <- <-] Hr. by destruct (Hr (st, false)).
  - intros [= <- <-] _ ?%elem_of_nil. done.
  - intros [= <- <-] _ ?%elem_of_nil. done.
Qed.
Lemma can_no_verdict o st now q roles es r e : v2_can_logged true o st now q roles = (es, r) -> (forall x, r <> Ok x) -> e ∈ es -> ~ is_verdict (en_msg e).
Proof.
  unfold v2_can_logged. destruct (find_target_tenants (sub o 0) st q) as [[ts|]| |] eqn:Hf.
  - intros [= <- <-] Hr. destruct (can_logged_shape (sub o 1) st now q roles ts 0 (w_dag st)) as [k ->]. rewrite closing_none, app_nil_r.
    + intros He. eapply not_verdict; [apply (proj2 resolve_not_verdict)|exact He].
    + intros [d b] E. rewrite can_logged_same, E in Hr. by apply (Hr (vw_dag st d, b)).
  - intros [= <- <-] Hr. by destruct (Hr (st, false)).
  - intros [= <- <-] _ ?%elem_of_nil. done.
  - intros [= <- <-] _ ?%elem_of_nil. done.
Qed.

(** ** When nothing is held *)
Section warned.
  Variables (st : vstate) (now : Z) (q : request).
  Hypothesis Hwf : v2_wf st.
  Hypothesis Hdi : distinct_ids st.
  Definition nothing_at (t : nat) : Prop :=
    exists c n, tenant_at st t c /\ uses_namespace c q n /\ forall p, ~ effective st now (q_principal q) t n (q_scope q) p.
  Definition no_role_at (t : nat) : Prop :=
    exists c n, tenant_at st t c /\ uses_namespace c q n /\ forall x, ~ holds_role st now (q_principal q) t n x.
  Definition warn_perm := Entry (log_attrs q) "Failed to resolve permissions for authorization".
  Definition warn_role := Entry (log_attrs q) "Failed to resolve roles for authorization".
  Lemma rpp_some o d user tid n scope d' ps : resolve_principal_permissions o st now d user tid n scope = Ok (d', Some ps) -> ps <> ∅.
  Proof.
    unfold resolve_principal_permissions. destruct (w_reg st !! tid); [|done]. intros ([d1 [sc gl]] & _ & H)%rbind_inv. cbn in H.
    case_bool_decide as H1; [by injection H as <- <-|]. case_bool_decide as H2; [by injection H as <- <-|discriminate H].
  Qed.
  Lemma rpr_some o d user tid n d' rs : resolve_principal_roles o st now d user tid n = Ok (d', Some rs) -> rs <> ∅.
  Proof.
    unfold resolve_principal_roles. destruct (w_reg st !! tid); [|done]. intros ([d1 s] & _ & H)%rbind_inv. cbn in H.
    case_bool_decide as H1; [by injection H as <- <-|discriminate H].
  Qed.
  Lemma authorize_warned o i d ts d' b : extends st vr_perms d ->
    (forall t, t ∈ ts -> exists c, tenant_at st t c /\ w_reg st !! vt_id c = Some t) ->
    authorize_loop o i st now q d ts = Ok (d', b) ->
    (warn_perm ∈ (authorize_logged true o i st now q d ts).1 -> exists t, t ∈ ts /\ nothing_at t)
    /\ (b = false -> (exists t, t ∈ ts /\ nothing_at t) -> warn_perm ∈ (authorize_logged true o i st now q d ts).1).
  Proof.
    revert i d. induction ts as [|t ts IH]; intros i d Hd Hts Hl.
    { split; [|intros _ (t & Ht & _); by apply elem_of_nil in Ht]. cbn. intros H%elem_of_list_singleton. discriminate H. }
    destruct (Hts t) as (c & Hc & Hreg); [left|].
    assert (Hts' : forall t, t ∈ ts -> exists c, tenant_at st t c /\ w_reg st !! vt_id c = Some t) by (intros t' Ht'; apply Hts; by right).
    assert (Hgo : forall d1, extends st vr_perms d1 -> authorize_loop o (S i) st now q d1 ts = Ok (d', b) -> ~ nothing_at t ->
      (warn_perm ∈ (authorize_logged true o (S i) st now q d1 ts).1 -> exists t', t' ∈ t :: ts /\ nothing_at t')
      /\ (b = false -> (exists t', t' ∈ t :: ts /\ nothing_at t') -> warn_perm ∈ (authorize_logged true o (S i) st now q d1 ts).1)).
    { intros d1 Hd1 Hl1 Hno. destruct (IH _ _ Hd1 Hts' Hl1) as [H1 H2]. split.
      - intros (t' & ? & ?)%H1. exists t'. split; [by right|done].
      - intros Hb (t' & [->|Ht']%elem_of_cons & Hn); [done|]. apply H2; [done|]. by exists t'. }
    cbn [authorize_logged authorize_loop] in *. pose proof Hc as Hc0. unfold tenant_at in Hc0. rewrite Hc0 in *.
    destruct (target_namespace c q) as [n|] eqn:Hn.
    2:{ apply Hgo; [done|done|]. intros (c' & n' & Hc' & Hn' & _). unfold tenant_at in Hc'. apply target_namespace_exact in Hn'. congruence. }
    apply rbind_inv in Hl as ([d1 ps] & Hp & Hl). rewrite Hp. cbn [fst snd] in Hl.
    destruct (rpp_exact _ _ _ _ _ _ _ _ _ _ _ Hwf Hdi Hd Hreg Hp) as [Hd1 Heff].
    apply target_namespace_exact in Hn.
    assert (Hat : nothing_at t <-> ps = None).
    { split.
      - intros (c' & n' & Hc' & Hn' & Hno). assert (c' = c) as -> by (unfold tenant_at in Hc'; congruence).
        assert (n' = n) as -> by (apply target_namespace_exact in Hn, Hn'; congruence).
        destruct ps as [s|]; [|done]. apply rpp_some in Hp. apply set_choose_L in Hp as [p Hps]. destruct (Hno p). apply Heff. by exists s.
      - intros ->. exists c, n. split; [done|]. split; [done|]. intros p (s & Hs & _)%Heff. discriminate Hs. }
    destruct ps as [s|].
    - apply rbind_inv in Hl as (b1 & Hb1 & Hl). rewrite Hb1. destruct b1.
      + injection Hl as <- <-. split; [|discriminate]. cbn. intros H%elem_of_list_singleton. discriminate H.
      + apply Hgo; [done|done|]. rewrite Hat. discriminate.
    - split; [|intros _ _; cbn; left]. intros _. exists t. split; [left|]. by apply Hat.
  Qed.
  Lemma can_warned o i roles d ts d' b : extends st name_of d ->
    (forall t, t ∈ ts -> exists c, tenant_at st t c /\ w_reg st !! vt_id c = Some t) ->
    can_loop o i st now q roles d ts = Ok (d', b) ->
    (warn_role ∈ (can_logged true o i st now q roles d ts).1 -> exists t, t ∈ ts /\ no_role_at t)
    /\ (b = false -> (exists t, t ∈ ts /\ no_role_at t) -> warn_role ∈ (can_logged true o i st now q roles d ts).1).
  Proof.
    revert i d. induction ts as [|t ts IH]; intros i d Hd Hts Hl.
    { split; [|intros _ (t & Ht & _); by apply elem_of_nil in Ht]. cbn. intros H%elem_of_list_singleton. discriminate H. }
    destruct (Hts t) as (c & Hc & Hreg); [left|].
    assert (Hts' : forall t, t ∈ ts -> exists c, tenant_at st t c /\ w_reg st !! vt_id c = Some t) by (intros t' Ht'; apply Hts; by right).
    assert (Hgo : forall d1, extends st name_of d1 -> can_loop o (S i) st now q roles d1 ts = Ok (d', b) -> ~ no_role_at t ->
      (warn_role ∈ (can_logged true o (S i) st now q roles d1 ts).1 -> exists t', t' ∈ t :: ts /\ no_role_at t')
      /\ (b = false -> (exists t', t' ∈ t :: ts /\ no_role_at t') -> warn_role ∈ (can_logged true o (S i) st now q roles d1 ts).1)).
    { intros d1 Hd1 Hl1 Hno. destruct (IH _ _ Hd1 Hts' Hl1) as [H1 H2]. split.
      - intros (t' & ? & ?)%H1. exists t'. split; [by right|done].
      - intros Hb (t' & [->|Ht']%elem_of_cons & Hn); [done|]. apply H2; [done|]. by exists t'. }
    cbn [can_logged can_loop] in *. pose proof Hc as Hc0. unfold tenant_at in Hc0. rewrite Hc0 in *.
    destruct (target_namespace c q) as [n|] eqn:Hn.
    2:{ apply Hgo; [done|done|]. intros (c' & n' & Hc' & Hn' & _). unfold tenant_at in Hc'. apply target_namespace_exact in Hn'. congruence. }
    apply rbind_inv in Hl as ([d1 rs] & Hp & Hl). rewrite Hp. cbn [fst snd] in Hl.
    destruct (rpr_exact _ _ _ _ _ _ _ _ _ _ Hwf Hdi Hd Hreg Hp) as [Hd1 Heff].
    apply target_namespace_exact in Hn.
    assert (Hat : no_role_at t <-> rs = None).
    { split.
      - intros (c' & n' & Hc' & Hn' & Hno). assert (c' = c) as -> by (unfold tenant_at in Hc'; congruence).
        assert (n' = n) as -> by (apply target_namespace_exact in Hn, Hn'; congruence).
        destruct rs as [s|]; [|done]. apply rpr_some in Hp. apply set_choose_L in Hp as [p Hps]. destruct (Hno p). apply Heff. by exists s.
      - intros ->. exists c, n. split; [done|]. split; [done|]. intros p (s & Hs & _)%Heff. discriminate Hs. }
    destruct rs as [s|].
    - destruct (existsb _ _) eqn:He.
      + injection Hl as <- <-. split; [|discriminate]. cbn. intros H%elem_of_list_singleton. discriminate H.
      + apply Hgo; [done|done|]. rewrite Hat. discriminate.
    - split; [|intros _ _; cbn; left]. intros _. exists t. split; [left|]. by apply Hat.
  Qed.
  Lemma v2_authorize_warned o es st' b : v2_authorize_logged true o st now q = (es, Ok (st', b)) ->
    (warn_perm ∈ es -> holds_nothing st now q) /\ (b = false -> holds_nothing st now q -> warn_perm ∈ es).
  Proof.
    unfold v2_authorize_logged. destruct (find_target_tenants (sub o 0) st q) as [[ts|]| |] eqn:Hf; try done.
    - intros [= <- H]. rewrite authorize_logged_same in H. apply rbind_inv in H as ([d' b'] & Hl & [= <- <-]). cbn [snd].
      pose proof (find_target_exact _ _ _ _ Hf) as Htg.
      destruct (authorize_warned (sub o 1) 0 (w_dag st) ts d' b' (extends_refl st vr_perms)
        (fun t Ht => find_target_reg _ _ _ _ _ t Hwf Hf eq_refl Ht) Hl) as [H1 H2]. split.
      + intros (t & Ht & c & n & Hn)%H1. exists t, c, n. split; [apply Htg; by exists ts|done].
      + intros Hb (t & c & n & Ht & Hn). apply (H2 Hb). apply Htg in Ht as (l & [= <-] & Ht). exists t. split; [done|]. by exists c, n.
    - intros [= <- <- <-]. split.
      + cbn. intros H%elem_of_list_singleton. discriminate H.
      + intros _ (t & c & n & Ht & _). apply (find_target_exact _ _ _ _ Hf) in Ht as (l & Hl & _). discriminate Hl.
  Qed.
  Lemma v2_can_warned o roles es st' b : v2_can_logged true o st now q roles = (es, Ok (st', b)) ->
    (warn_role ∈ es -> holds_no_role st now q) /\ (b = false -> holds_no_role st now q -> warn_role ∈ es).
  Proof.
    unfold v2_can_logged. destruct (find_target_tenants (sub o 0) st q) as [[ts|]| |] eqn:Hf; try done.
    - intros [= <- H]. rewrite can_logged_same in H. apply rbind_inv in H as ([d' b'] & Hl & [= <- <-]). cbn [snd].
      pose proof (find_target_exact _ _ _ _ Hf) as Htg.
      destruct (can_warned (sub o 1) 0 roles (w_dag st) ts d' b' (extends_refl st name_of)
        (fun t Ht => find_target_reg _ _ _ _ _ t Hwf Hf eq_refl Ht) Hl) as [H1 H2]. split.
      + intros (t & Ht & c & n & Hn)%H1. exists t, c, n. split; [apply Htg; by exists ts|done].
      + intros Hb (t & c & n & Ht & Hn). apply (H2 Hb). apply Htg in Ht as (l & [= <-] & Ht). exists t. split; [done|]. by exists c, n.
    - intros [= <- <- <-]. split.
      + cbn. intros H%elem_of_list_singleton. discriminate H.
      + intros _ (t & c & n & Ht & _). apply (find_target_exact _ _ _ _ Hf) in Ht as (l & Hl & _). discriminate Hl.
  Qed.
End warned.

(** ** What an entry says about the request *)
Definition attr_get (k : string) (l : list (string * string)) : string :=
  match list_find (fun kv => kv.1 = k) l with Some (_, kv) => kv.2 | None => "" end.
Lemma attr_get_log q : attr_get "principal" (log_attrs q) = q_principal q /\ attr_get "tenant" (log_attrs q) = q_tenant q
  /\ attr_get "namespace" (log_attrs q) = q_namespace q /\ attr_get "scope" (log_attrs q) = q_scope q
  /\ attr_get "resource" (log_attrs q) = q_resource q /\ attr_get "action" (log_attrs q) = q_action q.
Proof.
  destruct q as [p t n s r a]. unfold log_attrs, attr_of, attr_get. cbn [q_principal q_tenant q_namespace q_scope q_resource q_action].
  repeat case_bool_decide; subst; cbn; done.
Qed.
Lemma log_attrs_inj q q' : log_attrs q = log_attrs q' -> q = q'.
Proof.
  intros H. destruct (attr_get_log q) as (A1 & A2 & A3 & A4 & A5 & A6), (attr_get_log q') as (B1 & B2 & B3 & B4 & B5 & B6).
  rewrite H in *. destruct q, q'. cbn in *. congruence.
Qed.
Lemma tenant_in_log q msg t : tenant_named (Entry (log_attrs q) msg) t <-> q_tenant q = t /\ t <> "".
Proof.
  destruct q as [p t' n s r a]. unfold tenant_named, log_attrs, attr_of. cbn [en_attrs q_principal q_tenant q_namespace q_scope q_resource q_action].
  rewrite !elem_of_app.
  assert (H : forall k v, k <> "tenant" -> ~ ("tenant", t) ∈ (if bool_decide (v = "") then [] else [(k, v)])).
  { intros k v Hk. case_bool_decide; [by intros ?%elem_of_nil|]. intros E%elem_of_list_singleton. congruence. }
  split.
  - intros [?|[Ht|[?|[?|[?|?]]]]]; try (exfalso; eapply H; [|eassumption]; discriminate).
    case_bool_decide; [by apply elem_of_nil in Ht|]. apply elem_of_list_singleton in Ht. by injection Ht as ->.
  - intros [-> Ht]. right; left. rewrite bool_decide_false by done. left.
Qed.
Lemma granted_in st q b es : tells st q b es -> Entry (log_attrs q) "Authorization granted" ∈ es <-> b = true.
Proof.
  intros (es1 & msg & -> & Hs & Hno). rewrite elem_of_app, elem_of_list_singleton. split.
  - intros [He|[= <-]].
    + destruct (Hno _ He) as [_ Hv]. destruct Hv. left.
    + destruct Hs as [[? _]|[(_ & _ & H)|(_ & _ & H)]]; [done|discriminate H|discriminate H].
  - intros ->. right. destruct Hs as [[_ ->]|[(H & _)|(H & _)]]; [done|discriminate H|discriminate H].
Qed.
Lemma attrs_in st q b es e : tells st q b es -> e ∈ es -> en_attrs e = log_attrs q.
Proof. intros (es1 & msg & -> & _ & Hno) He. apply elem_of_app in He as [He|He]; [by apply Hno|]. apply elem_of_list_singleton in He. by subst e. Qed.
Lemma authorize_grant_allowed o st now q es st' b q' : v2_wf st -> distinct_ids st ->
  v2_authorize_logged true o st now q = (es, Ok (st', b)) -> Entry (log_attrs q') "Authorization granted" ∈ es -> v2_allowed st now q'.
Proof.
  intros Hw Hd Ha He. pose proof (authorize_tells _ _ _ _ _ _ _ Ha) as Ht.
  assert (q' = q) as -> by (symmetry; apply log_attrs_inj; symmetry; exact (attrs_in _ _ _ _ _ Ht He)).
  apply (granted_in _ _ _ _ Ht) in He. pose proof (v2_authorize_logged_same true o st now q) as H. rewrite Ha in H. cbn in H.
  symmetry in H. by apply (v2_authorize_exact _ _ _ _ _ _ Hw Hd H).
Qed.
Lemma can_grant_holds o st now q roles es st' b q' : v2_wf st -> distinct_ids st ->
  v2_can_logged true o st now q roles = (es, Ok (st', b)) -> Entry (log_attrs q') "Authorization granted" ∈ es -> v2_can_allowed st now q' roles.
Proof.
  intros Hw Hd Ha He. pose proof (can_tells _ _ _ _ _ _ _ _ Ha) as Ht.
  assert (q' = q) as -> by (symmetry; apply log_attrs_inj; symmetry; exact (attrs_in _ _ _ _ _ Ht He)).
  apply (granted_in _ _ _ _ Ht) in He. pose proof (v2_can_logged_same true o st now q roles) as H. rewrite Ha in H. cbn in H.
  symmetry in H. by apply (v2_can_exact _ _ _ _ _ _ _ Hw Hd H).
Qed.
(** The entries about a default tenant do not name it. *)
Lemma default_unnamed st q b es e t : tells st q b es -> e ∈ es -> q_tenant q = "" -> ~ tenant_named e t.
Proof.
  intros Ht He Hq H. pose proof (attrs_in _ _ _ _ _ Ht He) as Ha. destruct e as [at_ msg]. cbn in Ha. subst at_.
  apply tenant_in_log in H as [H1 H2]. congruence.
Qed.
