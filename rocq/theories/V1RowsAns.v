(** Calls that ask and assign on one v1 manager at the same time: what a question is answered. *)
From Verif Require Import RoleProofs V1Code V1Dec.
From Verif Require Export V1RowsInv.

(** ** What the ranges of a question met *)
Fixpoint replay {A} (lo hi : gset string) (c : jcode A) (r : res A) : Prop :=
  match c with
  | JRet r' => r' = r
  | JScan k => exists s, lo ⊆ s /\ s ⊆ hi /\ replay lo hi (k s) r
  | _ => False
  end.
(** [c] has come to [c'] while the rows grew from [lo] to [hi]. *)
Fixpoint came {A} (lo hi : gset string) (c c' : jcode A) : Prop :=
  c' = c \/
  match c with
  | JScan k => (exists m s, lo ⊆ m /\ m ⊆ hi /\ s ⊆ hi /\ c' = JNext m s k) \/ exists s, lo ⊆ s /\ s ⊆ hi /\ came lo hi (k s) c'
  | _ => False
  end.
Lemma came_self {A} lo hi (c : jcode A) : came lo hi c c.
Proof. destruct c; left; reflexivity. Qed.
Lemma came_mono {A} lo hi hi' (c c' : jcode A) : hi ⊆ hi' -> came lo hi c c' -> came lo hi' c c'.
Proof.
  intros Hh. induction c as [r|k IH|m s k IH|h k IH|h k IH|h k IH]; cbn [came]; (intros [H|H]; [left; exact H|]); try exact (False_ind _ H).
  right. destruct H as [(m & s & H1 & H2 & H3 & H4)|(s & H1 & H2 & H3)]; [left; exists m, s|right; exists s].
  - split; [exact H1|]. split; [set_solver|]. split; [set_solver|exact H4].
  - split; [exact H1|]. split; [set_solver|]. exact (IH s H3).
Qed.
Lemma came_step lo v w pick (c c1 : jcode jout) v' w' c' : only (fun _ => False) c -> lo ⊆ v -> came lo v c c1 -> jcode_step v w pick c1 = Some (inr (v', w', c')) -> came lo v' c c'.
Proof.
  intros Ho Hlo Hc E. assert (G := rows_grow _ _ _ _ _ _ _ E). induction c as [r|k IH|m s k IH|h k IH|h k IH|h k IH]; cbn [only] in Ho.
  - destruct Hc as [->|[]]. discriminate E.
  - cbn [came] in Hc. destruct Hc as [->|[(m & s & H1 & H2 & H3 & ->)|(s & H1 & H2 & H3)]].
    + cbn [jcode_step] in E. injection E as <- <- <-. destruct (decide (v = ∅)) as [->|N].
      * rewrite bool_decide_eq_true_2 by reflexivity. right. right. exists ∅. split; [exact Hlo|]. split; [reflexivity|apply came_self].
      * rewrite bool_decide_eq_false_2 by exact N. right. left. exists v, ∅. split; [exact Hlo|]. split; [reflexivity|]. split; [set_solver|reflexivity].
    + cbn [jcode_step] in E. destruct w; [discriminate E|]. destruct pick as [h|].
      * destruct (decide (h ∈ v)) as [Hh|Hh]; [rewrite bool_decide_eq_true_2 in E by exact Hh|rewrite bool_decide_eq_false_2 in E by exact Hh; discriminate E]. destruct (negb _); [|discriminate E]. injection E as <- <- <-. right. left. exists m, ({[h]} ∪ s). split; [exact H1|]. split; [exact H2|]. split; [set_solver|reflexivity].
      * destruct (decide (m ⊆ s)) as [Hm|Hm]; [rewrite bool_decide_eq_true_2 in E by exact Hm|rewrite bool_decide_eq_false_2 in E by exact Hm; discriminate E]. injection E as <- <- <-. right. right. exists s. split; [set_solver|]. split; [exact H3|apply came_self].
    + right. right. exists s. split; [exact H1|]. split; [set_solver|]. exact (IH s (Ho s) H3).
  - destruct Ho.
  - destruct (proj1 Ho).
  - destruct Ho.
  - destruct Ho.
Qed.
Lemma came_ret {A} lo hi (c : jcode A) r : came lo hi c (JRet r) -> replay lo hi c r.
Proof.
  induction c as [r'|k IH|m s k IH|h k IH|h k IH|h k IH]; cbn [came replay].
  - intros [H|[]]. injection H as ->. reflexivity.
  - intros [H|[H|H]]; [discriminate H| |].
    + destruct H as (m & s & _ & _ & _ & H). discriminate H.
    + destruct H as (s & H1 & H2 & H3). exists s. split; [exact H1|]. split; [exact H2|]. exact (IH s H3).
  - intros [H|[]]. discriminate H.
  - intros [H|[]]. discriminate H.
  - intros [H|[]]. discriminate H.
  - intros [H|[]]. discriminate H.
Qed.
Lemma met_replay st cs M i c r : j_met st cs M -> cs !! i = Some c -> j_asks c -> j_returned M i r -> replay (u_rows st) (j_rows M) (j_code st c) r.
Proof.
  intros HM Hc Ha Hr. apply came_ret.
  assert (H : u_rows st ⊆ j_rows M /\ forall d, cs !! i = Some d -> j_asks d -> came (u_rows st) (j_rows M) (j_code st d) (JRet r)); [|exact (proj2 H c Hc Ha)].
  refine (thread_pres (fun v i c1 => u_rows st ⊆ v /\ forall d, cs !! i = Some d -> j_asks d -> came (u_rows st) v (j_code st d) c1) st cs M i (JRet r) _ _ _ HM Hr).
  - intros v v' j x Hv [H1 H2]. split; [set_solver|]. intros d Hd Had. exact (came_mono _ _ _ _ _ Hv (H2 d Hd Had)).
  - intros v w pick j x v' w' x' E [H1 H2]. pose proof (rows_grow _ _ _ _ _ _ _ E). split; [set_solver|]. intros d Hd Had. exact (came_step _ _ _ _ _ _ _ _ _ (only_asks st _ d Had) H1 (H2 d Hd Had) E).
  - intros j d Hd. split; [reflexivity|]. intros d' Hd' _. rewrite Hd in Hd'. injection Hd' as <-. apply came_self.
Qed.
Lemma exec_replay {A} (c : jcode A) v : only (fun _ => False) c -> exists r, replay v v c r /\ jexec v c = let! a := r in Ok (v, a).
Proof.
  intros Ho. induction c as [r|k IH|m s k IH|h k IH|h k IH|h k IH]; cbn [only replay jexec] in *; [| |destruct Ho|destruct (proj1 Ho)|destruct Ho|destruct Ho].
  - exists r. split; reflexivity.
  - destruct (IH v (Ho v)) as (r & H1 & H2). exists r. split; [|exact H2]. exists v. split; [reflexivity|]. split; [reflexivity|exact H1].
Qed.
Lemma replay_bind {A B} lo hi (c : jcode A) (f : A -> jcode B) r : replay lo hi (jbind c f) r -> exists r1, replay lo hi c r1 /\ match r1 with Ok a => replay lo hi (f a) r | Panic => r = Panic | Hang => r = Hang end.
Proof.
  induction c as [r'|k IH|m s k IH|h k IH|h k IH|h k IH]; cbn [jbind replay]; intros H; [| |destruct H..].
  - exists r'. split; [reflexivity|]. destruct r' as [a| |]; [exact H|symmetry; exact H..].
  - destruct H as (x & H1 & H2 & H3). destruct (IH x H3) as (r1 & H4 & H5). exists r1. split; [|exact H5]. exists x. split; [exact H1|]. split; [exact H2|exact H4].
Qed.
Lemma replay_once {A} lo hi st (f : ustate -> res A) r : replay lo hi (j_once st f) r -> exists s, lo ⊆ s /\ s ⊆ hi /\ f (uw_rows st s) = r.
Proof. intros H. exact H. Qed.
Lemma replay_map {A} lo hi (f : A -> jout) c r : replay lo hi (j_map f c) r -> exists r1, replay lo hi c r1 /\ r = let! a := r1 in Ok (f a).
Proof. intros H. apply replay_bind in H as (r1 & H1 & H2). exists r1. split; [exact H1|]. destruct r1 as [a| |]; [symmetry; exact H2|exact H2..]. Qed.

(** ** Requests for a place *)
Definition good_rows (v : gset string) : Prop := forall h, h ∈ v -> exists a, h = row_string a.
Lemma wf_with st v : u_wf st -> good_rows v -> u_wf (uw_rows st v).
Proof. intros W H. destruct W as [W1 W2 W3 W4 W5 W6 W7 W8 W9]. split; assumption. Qed.
Lemma met_good st cs M : u_wf st -> j_met st cs M -> good_rows (j_rows M).
Proof. intros W HM h Hh. destruct (met_rows st cs M h HM Hh) as [H|(d & _ & p & t & _ & a & H & _)]; [exact (uwf_rows _ W h H)|exists a; exact H]. Qed.
Lemma good_sub v w : v ⊆ w -> good_rows w -> good_rows v.
Proof. intros H G h Hh. exact (G h (H h Hh)). Qed.
Lemma assigned_sub st v w a : v ⊆ w -> assigned (uw_rows st v) a -> assigned (uw_rows st w) a.
Proof. intros H (s & Hs & Ha). exists s. split; [exact (H s Hs)|exact Ha]. Qed.
Lemma member_sub st v w p t a : v ⊆ w -> member (uw_rows st v) p t a -> member (uw_rows st w) p t a.
Proof. intros H [Ha Hb]. split; [exact (assigned_sub st v w a H Ha)|exact Hb]. Qed.
Section place.
  Variables (st : ustate) (lo hi : gset string).
  Hypothesis W : u_wf st.
  Hypothesis G : good_rows hi.
  (** The answer is yes if it is on [lo], and only if it is on [hi]. *)
  Definition bounded (P : gset string -> Prop) (r : res bool) : Prop := exists b, r = Ok b /\ (P lo -> b = true) /\ (b = true -> P hi).
  Lemma wf_in s : s ⊆ hi -> u_wf (uw_rows st s).
  Proof. intros H. apply wf_with; [exact W|exact (good_sub s hi H G)]. Qed.
  Lemma bounded_once (P : gset string -> Prop) (f : ustate -> res bool) r : (forall v w, v ⊆ w -> P v -> P w) -> (forall s, s ⊆ hi -> exists b, f (uw_rows st s) = Ok b /\ (b = true <-> P s)) ->
    replay lo hi (j_once st f) r -> bounded P r.
  Proof.
    intros HP Hf H. apply replay_once in H as (s & H1 & H2 & <-). destruct (Hf s H2) as (b & E & Hb). exists b. split; [exact E|]. split; [intros HL; apply Hb, (HP lo s H1 HL)|intros Eb; apply (HP s hi H2), Hb, Eb].
  Qed.
  Lemma tenants_between o p r : replay lo hi (j_once st (fun s => get_tenants_for_principal o s p)) r -> exists ts, r = Ok ts /\ (forall t a, member (uw_rows st lo) p t a -> t ∈ ts) /\ forall t, t ∈ ts -> exists a, member (uw_rows st hi) p t a.
  Proof.
    intros H. apply replay_once in H as (s & H1 & H2 & <-). destruct (tenants_for_ok o (uw_rows st s) p (wf_in s H2)) as (ts & E & Hin). exists ts. split; [exact E|]. split.
    - intros t a Ha. apply Hin. exists a. exact (member_sub st lo s p t a H1 Ha).
    - intros t Ht. apply Hin in Ht as (a & Ha). exists a. exact (member_sub st s hi p t a H2 Ha).
  Qed.
  Lemma row_loop_between o p f (P : trow -> Prop) ts : (forall a, f a = true <-> P a) -> forall i r, replay lo hi (j_row_loop st o i p f ts) r ->
    exists b, r = Ok b /\ (forall t a, t ∈ ts -> member (uw_rows st lo) p t a -> P a -> b = true) /\ (b = true -> exists t a, t ∈ ts /\ member (uw_rows st hi) p t a /\ P a).
  Proof.
    intros Hf. induction ts as [|t ts IH]; intros i r H; cbn [j_row_loop] in H.
    - exists false. split; [symmetry; exact H|]. split; [|discriminate]. intros t a N. destruct (not_elem_of_nil _ N).
    - apply replay_bind in H as (r1 & H1 & H2). apply replay_once in H1 as (s & S1 & S2 & <-). destruct (some_row_ok (sub o i) (uw_rows st s) t p f P (wf_in s S2) Hf) as (b & E & Hb). rewrite E in H2. destruct b.
      + exists true. split; [symmetry; exact H2|]. split; [reflexivity|]. intros _. destruct (proj1 Hb eq_refl) as (a & Ha & Pa). exists t, a. split; [left|]. split; [exact (member_sub st s hi p t a S2 Ha)|exact Pa].
      + destruct (IH (S i) r H2) as (b & -> & B1 & B2). exists b. split; [reflexivity|]. split.
        * intros t' a Ht Ha Pa. apply elem_of_cons in Ht as [->|Ht]; [|exact (B1 t' a Ht Ha Pa)]. discriminate (proj2 Hb (ex_intro _ a (conj (member_sub st lo s p t a S1 Ha) Pa))).
        * intros Eb. destruct (B2 Eb) as (t' & a & Ht & Ha). exists t', a. split; [right; exact Ht|exact Ha].
  Qed.
  Lemma scope_loop_between o p sc ts : forall i r, replay lo hi (j_scope_loop st o i p sc ts) r ->
    exists b, r = Ok b /\ (forall t c a, t ∈ ts -> utenant_is st t c -> sc ∈ ut_scopes c -> member (uw_rows st lo) p t a -> tp_scope a = sc -> b = true)
      /\ (b = true -> exists t c a, t ∈ ts /\ utenant_is st t c /\ sc ∈ ut_scopes c /\ member (uw_rows st hi) p t a /\ tp_scope a = sc).
  Proof.
    induction ts as [|t ts IH]; intros i r H; cbn [j_scope_loop] in H.
    - exists false. split; [symmetry; exact H|]. split; [|discriminate]. intros t c a N. destruct (not_elem_of_nil _ N).
    - assert (HI : replay lo hi (j_scope_loop st o (S i) p sc ts) r -> (forall c a, utenant_is st t c -> sc ∈ ut_scopes c -> member (uw_rows st lo) p t a -> tp_scope a = sc -> False) ->
        exists b, r = Ok b /\ (forall t' c a, t' ∈ t :: ts -> utenant_is st t' c -> sc ∈ ut_scopes c -> member (uw_rows st lo) p t' a -> tp_scope a = sc -> b = true)
        /\ (b = true -> exists t' c a, t' ∈ t :: ts /\ utenant_is st t' c /\ sc ∈ ut_scopes c /\ member (uw_rows st hi) p t' a /\ tp_scope a = sc)).
      { intros HR HN. destruct (IH (S i) r HR) as (b & -> & B1 & B2). exists b. split; [reflexivity|]. split.
        - intros t' c a Ht Hc Hs Ha Es. apply elem_of_cons in Ht as [->|Ht]; [destruct (HN c a Hc Hs Ha Es)|exact (B1 t' c a Ht Hc Hs Ha Es)].
        - intros Eb. destruct (B2 Eb) as (t' & c & a & Ht & Hx). exists t', c, a. split; [right; exact Ht|exact Hx]. }
      destruct (u_tenant st t) as [c|] eqn:E.
      + pose proof (proj1 (u_tenant_is st t c) E) as Ec. destruct (decide (sc ∈ ut_scopes c)) as [Hs|Hs]; [rewrite bool_decide_eq_true_2 in H by exact Hs|rewrite bool_decide_eq_false_2 in H by exact Hs].
        * rewrite (utenant_id st t c W Ec) in H. apply replay_bind in H as (r1 & H1 & H2). apply replay_once in H1 as (s & S1 & S2 & <-). destruct (principal_roles_ok (sub o i) (uw_rows st s) t p (wf_in s S2)) as (prs & E1 & Hin). rewrite E1 in H2.
          pose proof (existsb_bd (fun a => bool_decide (tp_scope a = sc)) (fun a => tp_scope a = sc) prs (fun a => bool_decide_eq_true _)) as Hex. destruct (existsb _ prs).
          -- exists true. split; [symmetry; exact H2|]. split; [reflexivity|]. intros _. destruct (proj1 Hex eq_refl) as (a & Ha & Es). exists t, c, a. split; [left|]. split; [exact Ec|]. split; [exact Hs|]. split; [|exact Es]. apply (member_sub st s hi p t a S2), Hin, Ha.
          -- apply HI; [exact H2|]. intros c' a _ _ Ha Es. assert (N : a ∈ prs) by (apply Hin; exact (member_sub st lo s p t a S1 Ha)). discriminate (proj2 Hex (ex_intro _ a (conj N Es))).
        * apply HI; [exact H|]. intros c' a Hc' Hs' _ _. apply u_tenant_is in Hc'. rewrite E in Hc'. injection Hc' as <-. exact (Hs Hs').
      + apply HI; [exact H|]. intros c' a Hc' _ _ _. apply u_tenant_is in Hc'. rewrite E in Hc'. discriminate Hc'.
  Qed.
  Lemma plain_between o p q r : j_plain q -> replay lo hi (j_authorize st o p q) r -> exists P : gset string -> Prop, (forall v w, v ⊆ w -> P v -> P w) /\ bounded P r /\
      forall s, s ⊆ hi -> exists b, u_authorize o (uw_rows st s) p q = Ok b /\ (b = true <-> P s).
  Proof.
    intros HQ H. unfold j_authorize in H. destruct (decide (p ∈ u_principals st)) as [Hp|Hp].
    2:{ rewrite bool_decide_eq_false_2 in H by exact Hp. exists (fun _ => False). split; [intros v w _ []|]. split; [exists false; split; [symmetry; exact H|split; [intros []|discriminate]]|]. intros s _. exists false. split; [apply unknown_denied; exact Hp|split; [discriminate|intros []]]. }
    rewrite bool_decide_eq_true_2 in H by exact Hp. assert (K : forall s, known (uw_rows st s) p) by (intros s; exact Hp).
    destruct q as [t n sc g a]. destruct HQ as (Eg & Ea & HQ). cbn [uo_tenant uo_namespace uo_scope uo_group uo_activity] in *. subst g a. change (is_nil ANil) with true in H.
    assert (NN : forall x : any, is_nil x = true -> x = ANil) by (intros x; destruct x; [reflexivity|discriminate..]). assert (NF : forall x : any, is_nil x = false -> x <> ANil) by (intros x; destruct x; [discriminate|discriminate..]).
    destruct (is_nil t) eqn:Et, (is_nil n) eqn:En, (is_nil sc) eqn:Es; first [apply NN in Et; subst t|apply NF in Et]; first [apply NN in En; subst n|apply NF in En]; first [apply NN in Es; subst sc|apply NF in Es].
    - exfalso. destruct HQ as [N|[N|N]]; exact (N eq_refl).
    - exists (fun v => exists t c a, member (uw_rows st v) p t a /\ tp_scope a = to_string sc /\ utenant_is st t c /\ to_string sc ∈ ut_scopes c).
      split; [intros v w Hv (t & c & a & Ha & Hx); exists t, c, a; split; [exact (member_sub st v w p t a Hv Ha)|exact Hx]|]. split; [|intros s Hs; exact (only_scope o (uw_rows st s) p sc (K s) Es (wf_in s Hs))].
      apply replay_bind in H as (r1 & H1 & H2). destruct (tenants_between _ _ _ H1) as (ts & -> & T1 & T2). destruct (scope_loop_between _ _ _ _ _ _ H2) as (b & -> & B1 & B2). exists b. split; [reflexivity|]. split.
      + intros (t & c & a & Ha & E1 & E2 & E3). exact (B1 t c a (T1 t a Ha) E2 E3 Ha E1).
      + intros Eb. destruct (B2 Eb) as (t & c & a & _ & E1 & E2 & E3 & E4). exists t, c, a. split; [exact E3|]. split; [exact E4|]. split; [exact E1|exact E2].
    - exists (fun v => exists t c m a, member (uw_rows st v) p t a /\ utenant_is st t c /\ has_namespace st c (to_string n) m).
      assert (HS : forall s, s ⊆ hi -> exists b, u_authorize o (uw_rows st s) p (UOpts ANil n ANil ANil ANil) = Ok b /\ (b = true <-> exists t c m a, member (uw_rows st s) p t a /\ utenant_is st t c /\ has_namespace st c (to_string n) m)) by (intros s Hs; exact (only_namespace o (uw_rows st s) p n (K s) En (wf_in s Hs))).
      assert (HP : forall v w, v ⊆ w -> (exists t c m a, member (uw_rows st v) p t a /\ utenant_is st t c /\ has_namespace st c (to_string n) m) -> exists t c m a, member (uw_rows st w) p t a /\ utenant_is st t c /\ has_namespace st c (to_string n) m) by (intros v w Hv (t & c & m & a & Ha & Hx); exists t, c, m, a; split; [exact (member_sub st v w p t a Hv Ha)|exact Hx]).
      split; [exact HP|]. split; [|exact HS]. refine (bounded_once _ _ _ HP _ H). intros s Hs. destruct (HS s Hs) as (b & E & Hb). exists b. split; [|exact Hb]. unfold u_authorize in E. rewrite (bool_decide_eq_true_2 _ (K s)) in E. destruct n; [destruct (En eq_refl)|exact E..].
    - exists (fun v => exists a, assigned (uw_rows st v) a /\ tp_principal a = p /\ tp_ns a = to_string n /\ tp_scope a = to_string sc).
      split; [intros v w Hv (a & Ha & Hx); exists a; split; [exact (assigned_sub st v w a Hv Ha)|exact Hx]|]. split; [|intros s Hs; exact (namespace_scope o (uw_rows st s) p n sc (K s) En Es (wf_in s Hs))].
      apply replay_bind in H as (r1 & H1 & H2). destruct (tenants_between _ _ _ H1) as (ts & -> & T1 & T2). destruct (row_loop_between _ _ _ _ _ (two_fields (to_string n) (to_string sc)) _ _ H2) as (b & -> & B1 & B2). exists b. split; [reflexivity|]. split.
      + intros (a & Ha & E1 & E2 & E3). assert (Hm : member (uw_rows st lo) p (tp_tenant a) a) by (split; [exact Ha|split; [exact E1|reflexivity]]). exact (B1 (tp_tenant a) a (T1 _ a Hm) Hm (conj E2 E3)).
      + intros Eb. destruct (B2 Eb) as (t & a & _ & (Ha & E1 & _) & E2 & E3). exists a. split; [exact Ha|]. split; [exact E1|]. split; [exact E2|exact E3].
    - exists (fun _ => exists c, utenant_is st (to_string t) c). split; [intros v w _ Hx; exact Hx|]. cbn [replay] in H. subst r. split.
      + eexists. split; [reflexivity|]. rewrite bool_decide_eq_true, (registered_is st (to_string t) W). split; intros Hx; exact Hx.
      + intros s Hs. exact (only_tenant o (uw_rows st s) p t (K s) Et (wf_in s Hs)).
    - exists (fun v => exists a, member (uw_rows st v) p (to_string t) a /\ tp_scope a = to_string sc).
      assert (HP : forall v w, v ⊆ w -> (exists a, member (uw_rows st v) p (to_string t) a /\ tp_scope a = to_string sc) -> exists a, member (uw_rows st w) p (to_string t) a /\ tp_scope a = to_string sc) by (intros v w Hv (a & Ha & Hx); exists a; split; [exact (member_sub st v w p _ a Hv Ha)|exact Hx]).
      split; [exact HP|]. split; [|intros s Hs; exact (tenant_scope o (uw_rows st s) p t sc (K s) Et Es (wf_in s Hs))]. refine (bounded_once _ _ _ HP _ H). intros s Hs. apply some_row_ok; [exact (wf_in s Hs)|]. intros a. apply bool_decide_eq_true.
    - exists (fun v => exists a, member (uw_rows st v) p (to_string t) a /\ tp_ns a = to_string n).
      assert (HP : forall v w, v ⊆ w -> (exists a, member (uw_rows st v) p (to_string t) a /\ tp_ns a = to_string n) -> exists a, member (uw_rows st w) p (to_string t) a /\ tp_ns a = to_string n) by (intros v w Hv (a & Ha & Hx); exists a; split; [exact (member_sub st v w p _ a Hv Ha)|exact Hx]).
      split; [exact HP|]. split; [|intros s Hs; exact (tenant_namespace o (uw_rows st s) p t n (K s) Et En (wf_in s Hs))]. refine (bounded_once _ _ _ HP _ H). intros s Hs. apply some_row_ok; [exact (wf_in s Hs)|]. intros a. apply bool_decide_eq_true.
    - exists (fun v => exists a, assigned (uw_rows st v) a /\ tp_tenant a = to_string t /\ tp_ns a = to_string n /\ tp_scope a = to_string sc).
      split; [intros v w Hv (a & Ha & Hx); exists a; split; [exact (assigned_sub st v w a Hv Ha)|exact Hx]|]. split; [|intros s Hs; exact (tenant_namespace_scope o (uw_rows st s) p t n sc (K s) Et En Es (wf_in s Hs))].
      unfold j_three in H. apply replay_bind in H as (r1 & H1 & H2). apply replay_once in H1 as (s & S1 & S2 & <-). destruct (some_row_ok (sub o 0) (uw_rows st s) (to_string t) p _ _ (wf_in s S2) (two_fields (to_string n) (to_string sc))) as (b & E & Hb). rewrite E in H2. destruct b.
      + exists true. split; [symmetry; exact H2|]. split; [reflexivity|]. intros _. destruct (proj1 Hb eq_refl) as (a & (Ha & _ & E1) & E2 & E3). exists a. split; [exact (assigned_sub st s hi a S2 Ha)|]. split; [exact E1|]. split; [exact E2|exact E3].
      + apply replay_bind in H2 as (r2 & H2 & H3). apply replay_once in H2 as (s2 & U1 & U2 & <-). destruct (tenant_roles_ok (sub o 1) (uw_rows st s2) (to_string t) (wf_in s2 U2)) as (rs & E1 & Hin). rewrite E1 in H3.
        pose proof (existsb_bd _ _ rs (two_fields (to_string n) (to_string sc))) as Hex. eexists. split; [symmetry; exact H3|]. split.
        * intros (a & Ha & E2 & E3). apply Hex. exists a. split; [apply Hin; split; [exact (assigned_sub st lo s2 a U1 Ha)|exact E2]|exact E3].
        * intros Eb. apply Hex in Eb as (a & Ha & E2 & E3). apply Hin in Ha as [Ha E4]. exists a. split; [exact (assigned_sub st s2 hi a U2 Ha)|]. split; [exact E4|]. split; [exact E2|exact E3].
  Qed.
End place.
Lemma plain_answer st cs M i o p q r : u_wf st -> j_met st cs M -> cs !! i = Some (JAuthorize o p q) -> j_plain q -> j_returned M i r ->
  exists b, r = Ok (JBool b) /\ (u_authorize o st p q = Ok true -> b = true) /\ (b = true -> u_authorize o (uw_rows st (j_rows M)) p q = Ok true).
Proof.
  intros W HM Hc HQ Hr. pose proof (met_replay st cs M i _ r HM Hc I Hr) as HR. cbn [j_code] in HR. apply replay_map in HR as (r1 & HR & ->). pose proof (met_good st cs M W HM) as G.
  assert (L : u_rows st ⊆ j_rows M) by (exact (proj1 (met_running st cs M i _ HM Hr))).
  destruct (plain_between st (u_rows st) (j_rows M) W G o p q r1 HQ HR) as (P & _ & (b & -> & B1 & B2) & HS). exists b. split; [reflexivity|]. split.
  - intros E. apply B1. destruct (HS (u_rows st) L) as (b' & E' & Hb). rewrite rows_self, E in E'. injection E' as <-. apply Hb. reflexivity.
  - intros Eb. destruct (HS (j_rows M) ltac:(reflexivity)) as (b' & E' & Hb). rewrite E'. f_equal. apply Hb, B2, Eb.
Qed.
(** A question that ranges once is answered for rows between those at the start and those at the end. *)
Lemma asked_rows {A} st v (f : A -> jout) x : (let! a := x in Ok (f a)) = let! r := j_asked (uw_rows st v) f x in Ok r.2.
Proof. destruct x as [a| |]; reflexivity. Qed.
Lemma lists_answer st cs M i c r : j_met st cs M -> cs !! i = Some c -> j_lists c -> j_returned M i r -> exists v, u_rows st ⊆ v /\ v ⊆ j_rows M /\ r = j_answer (uw_rows st v) c.
Proof.
  intros HM Hc HL Hr. assert (Ha : j_asks c) by (destruct c; first [exact I|exact HL]). pose proof (met_replay st cs M i c r HM Hc Ha Hr) as HR.
  assert (L : u_rows st ⊆ j_rows M) by exact (proj1 (met_running st cs M i _ HM Hr)).
  destruct c; try (destruct HL); cbn [j_code] in HR; apply replay_map in HR as (r1 & HR & ->).
  - apply replay_once in HR as (v & H1 & H2 & <-). exists v. split; [exact H1|]. split; [exact H2|]. apply asked_rows.
  - apply replay_once in HR as (v & H1 & H2 & <-). exists v. split; [exact H1|]. split; [exact H2|]. apply asked_rows.
  - apply replay_once in HR as (v & H1 & H2 & <-). exists v. split; [exact H1|]. split; [exact H2|]. apply asked_rows.
  - unfold j_scopes in HR. destruct (decide (p ∈ u_principals st)) as [E|E]; [rewrite bool_decide_eq_true_2 in HR by exact E|rewrite bool_decide_eq_false_2 in HR by exact E].
    + apply replay_once in HR as (v & H1 & H2 & <-). exists v. split; [exact H1|]. split; [exact H2|]. apply asked_rows.
    + cbn [replay] in HR. subst r1. exists (u_rows st). split; [reflexivity|]. split; [exact L|]. unfold j_answer. cbn [j_seq]. rewrite <-asked_rows. unfold get_scopes_for_principal. rewrite bool_decide_eq_false_2 by exact E. reflexivity.
  - unfold j_tenant_scopes in HR. destruct (decide (p ∈ u_principals st)) as [E|E]; [rewrite bool_decide_eq_true_2 in HR by exact E|rewrite bool_decide_eq_false_2 in HR by exact E].
    + destruct (u_reg st !! t) as [l|] eqn:Et.
      * apply replay_once in HR as (v & H1 & H2 & <-). exists v. split; [exact H1|]. split; [exact H2|]. apply asked_rows.
      * cbn [replay] in HR. subst r1. exists (u_rows st). split; [reflexivity|]. split; [exact L|]. unfold j_answer. cbn [j_seq]. rewrite <-asked_rows. unfold get_tenant_scopes_for_principal. rewrite bool_decide_eq_true_2 by exact E. cbn [u_reg uw_rows]. rewrite Et. reflexivity.
    + cbn [replay] in HR. subst r1. exists (u_rows st). split; [reflexivity|]. split; [exact L|]. unfold j_answer. cbn [j_seq]. rewrite <-asked_rows. unfold get_tenant_scopes_for_principal. rewrite bool_decide_eq_false_2 by exact E. reflexivity.
  - apply replay_once in HR as (v & H1 & H2 & <-). exists v. split; [exact H1|]. split; [exact H2|]. apply asked_rows.
Qed.
