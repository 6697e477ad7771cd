(** Which requests to package v1 are refused, told from the calls made. *)
From Verif Require Import V1Code V1Inv V1Setup V1Dec V1OrdProofs RoleRefuse.
From Verif Require Export V1CallsRet.
From Verif Require Import V1CallsSpec V1RetSpec.

Lemma any_has_false o i h grp act al ls : wf_heap h -> (forall l, l ∈ ls -> is_Some (h_roles h !! l)) ->
  any_has o i h grp act al ls = Ok false <-> forall l, l ∈ ls -> ~ permits h l grp act al /\ searchable h l grp act al.
Proof.
  intros W. revert i. induction ls as [|l ls IH]; intros i V; cbn [any_has].
  - split; [intros _ l H; destruct (not_elem_of_nil _ H)|reflexivity].
  - assert (V' : forall l, l ∈ ls -> is_Some (h_roles h !! l)) by (intros l' H; apply V; right; exact H). pose proof (V l (elem_of_list_here l ls)) as Vl. rewrite rbind_ok. split.
    + intros (b & Hb & H). destruct b; [discriminate|]. apply role_has_false in Hb; [|exact W|exact Vl]. pose proof (proj1 (IH (S i) V') H) as H'. intros l' [->|Hl']%elem_of_cons; [exact Hb|exact (H' l' Hl')].
    + intros H. exists false. split; [apply role_has_false; [exact W|exact Vl|]; apply H; left|]. apply (IH (S i) V'). intros l' Hl'. apply H. right. exact Hl'.
Qed.
(** The search in the registered role [r], in terms of the state *)
Definition role_ends (st : ustate) (r grp act : string) (adm : string -> Prop) : Prop :=
  forall l g, u_roles st !! r = Some l -> owns (u_heap st) l grp g -> ~ cyclic_from (u_heap st) l /\ ~ stalls g act
    /\ forall d gd id, descends (u_heap st) l d -> has_id (u_heap st) d id -> (forall x, ~ adm x) \/ adm id -> owns (u_heap st) d grp gd -> ~ stalls gd act.
Lemma ends_searchable st r l grp act al (adm : string -> Prop) : u_roles st !! r = Some l -> (forall x, x ∈ al <-> adm x) ->
  role_ends st r grp act adm <-> searchable (u_heap st) l grp act al.
Proof.
  intros Hl Hal. split.
  - intros E g Hg. destruct (E l g Hl Hg) as (C & S & D). split; [exact C|split; [exact S|]]. intros d gd Hd Ha Hgd. pose proof Hgd as (rd & gl & Hrd & _).
    destruct Ha as [->|(id & Hid & Hin)].
    + apply (D d gd (r_id rd) Hd); [exists rd; split; [exact Hrd|reflexivity]| |exact Hgd]. left. intros x Hx. apply Hal in Hx. exact (not_elem_of_nil _ Hx).
    + apply (D d gd id Hd Hid); [|exact Hgd]. right. apply Hal. exact Hin.
  - intros E l' g Hl' Hg. rewrite Hl in Hl'. injection Hl' as <-. destruct (E g Hg) as (C & S & D). split; [exact C|split; [exact S|]]. intros d gd id Hd Hid Ha Hgd.
    apply (D d gd Hd); [|exact Hgd]. destruct Ha as [N|Ha]; [left|right; exists id; split; [exact Hid|apply Hal; exact Ha]].
    destruct al as [|x al]; [reflexivity|]. destruct (N x). apply Hal. left.
Qed.
Lemma complex_refused o st p q : u_wf st -> known st p -> complex_request q ->
  u_authorize o st p q = Ok false <-> ~ complex_of q st p
    /\ forall c a, utenant_is st (to_string (uo_tenant q)) c -> place_exists st c (to_string (uo_namespace q)) (to_string (uo_scope q)) -> member st p (to_string (uo_tenant q)) a ->
         role_ends st (tp_role a) (to_string (uo_group q)) (to_string (uo_activity q)) (allowed_role st c p (to_string (uo_tenant q)) (to_string (uo_namespace q)) (to_string (uo_scope q))).
Proof.
  intros W K Hq. rewrite (complex_request_dispatch o st p q K Hq).
  destruct (complex_steps o st q p W) as [[-> Hno]|(c & prs & al & ls & Hc & Hpl & Hin & Hal & Hls & ->)].
  - split; [|reflexivity]. intros _. split; [intros (c & Hc & Hp & a & Ha & _); apply Hno; exists c, a; exact (conj Hc (conj Hp Ha))|].
    intros c a Hc Hp Ha. destruct Hno. exists c, a. exact (conj Hc (conj Hp Ha)).
  - assert (U : forall c', utenant_is st (to_string (uo_tenant q)) c' -> c' = c).
    { intros c' Hc'. apply u_tenant_is in Hc, Hc'. rewrite Hc in Hc'. injection Hc' as <-. reflexivity. }
    rewrite any_has_false; [|exact (uwf_heap _ W)|].
    2: { intros l Hl. apply Hls in Hl as (a & Ha & Hl). destruct (uwf_roles _ W _ _ Hl) as (r & Hr & _). exists r. exact Hr. }
    split.
    + intros H. split.
      * intros (c' & Hc' & _ & a & Ha & Hg). rewrite (U c' Hc') in Hg. destruct (grants_permits _ _ _ _ _ _ Hal Hg) as (l & Hl & Hper).
        apply (proj1 (H l (proj2 (Hls l) (ex_intro _ a (conj (proj2 (Hin a) Ha) Hl))))). exact Hper.
      * intros c' a Hc' _ Ha l g Hl. rewrite (U c' Hc'). revert l g Hl. change (role_ends st (tp_role a) (to_string (uo_group q)) (to_string (uo_activity q))
          (allowed_role st c p (to_string (uo_tenant q)) (to_string (uo_namespace q)) (to_string (uo_scope q)))).
        destruct (u_roles st !! tp_role a) as [l|] eqn:Hl; [|intros l g Hl'; rewrite Hl in Hl'; discriminate].
        apply (ends_searchable st (tp_role a) l _ _ al _ Hl Hal). apply H, Hls. exists a. split; [apply Hin; exact Ha|exact Hl].
    + intros [N E] l Hl. apply Hls in Hl as (a & Ha & Hl). apply Hin in Ha. split.
      * intros Hper. apply N. exists c. split; [exact Hc|split; [exact Hpl|]]. exists a. split; [exact Ha|]. exact (permits_grants _ _ _ _ _ _ _ Hl Hal Hper).
      * apply (ends_searchable st (tp_role a) l _ _ al _ Hl Hal). exact (E c a Hc Hpl Ha).
Qed.
Lemma activity_refused o st p act : u_wf st -> known st p -> act <> ANil ->
  u_authorize o st p (UOpts ANil ANil ANil ANil act) = Ok false <-> ~ activity_grants st p (to_string act) /\ ~ (exists a, stray st p a)
    /\ forall r, somewhere_allowed st p r -> role_ends st r "" (to_string act) (somewhere_allowed st p).
Proof.
  intros W K Ha. destruct (activity_steps o st p act W K Ha) as [[S ->]|(Hno & al & ls & Hal & Hls & ->)]; [split; [discriminate|intros (_ & N & _); destruct (N S)]|].
  rewrite any_has_false; [|exact (uwf_heap _ W)|].
  2: { intros l Hl. apply Hls in Hl as (r & _ & Hl). destruct (uwf_roles _ W _ _ Hl) as (r' & Hr & _). exists r'. exact Hr. }
  split.
  - intros H. split; [|split; [intros (a & S); exact (Hno a S)|]].
    + intros (r & Hr & Hg). destruct (grants_permits _ _ _ _ _ _ Hal Hg) as (l & Hl & Hper). apply (proj1 (H l (proj2 (Hls l) (ex_intro _ r (conj Hr Hl))))). exact Hper.
    + intros r Hr. destruct (u_roles st !! r) as [l|] eqn:Hl; [|intros l g Hl'; rewrite Hl in Hl'; discriminate].
      apply (ends_searchable st r l _ _ al _ Hl Hal). apply H, Hls. exists r. split; [exact Hr|exact Hl].
  - intros (N & _ & E) l Hl. apply Hls in Hl as (r & Hr & Hl). split.
    + intros Hper. apply N. exists r. split; [exact Hr|]. exact (permits_grants _ _ _ _ _ _ _ Hl Hal Hper).
    + apply (ends_searchable st r l _ _ al _ Hl Hal). exact (E r Hr).
Qed.

Section refused.
  Context (h : log) (st : ustate) (T : tells h st).
  Let W : u_wf st := tl_wf _ _ T.
  Lemma told_cyclic l : cyclic_from (u_heap st) l <-> role_circle h l.
  Proof.
    split; [exact (told_circle _ _ T l)|]. intros (m & Hr & Hm). exists m. split; [|apply (told_descends _ _ T); exact Hm].
    revert Hr. apply rtc_impl. intros a b. apply (told_edge _ _ T).
  Qed.
  Lemma told_stalls l grp act g : owns (u_heap st) l grp g -> stalls g act <-> exists a, role_attr h l grp a /\ StrLoops (attr_string a) act.
  Proof.
    intros Ho. split.
    - intros (k & a & Hk & L). destruct (proj1 (told_attr _ _ T _ _ _ k Ho) (mk_is_Some _ _ Hk)) as (a' & <- & Ha). exists a'. split; assumption.
    - intros (a & Ha & L). destruct (proj2 (told_attr _ _ T _ _ _ (attr_string a) Ho)) as [b Hb]; [exists a; split; [reflexivity|exact Ha]|]. exists (attr_string a), b. split; assumption.
  Qed.
  Lemma attr_store l grp a : role_attr h l grp a -> exists w, store_of h l grp w.
  Proof. intros [[H _]|(gl & H & _)]; eexists; exact H. Qed.
  Lemma told_ends r grp act (adm adm' : string -> Prop) : (forall x, adm x <-> adm' x) -> role_ends st r grp act adm <-> search_ends h r grp act adm'.
  Proof.
    intros A. split.
    - intros E l w Hl Hw. apply (tl_rreg _ _ T) in Hl. destruct (proj1 (told_store _ _ T l grp) (ex_intro _ w Hw)) as (g & Hg). destruct (E l g Hl Hg) as (C & S & D). split; [|split].
      + intros N. apply C, told_cyclic, N.
      + intros a Ha L. apply S, (told_stalls _ _ _ _ Hg). exists a. split; assumption.
      + intros d id a Hd Hid Had Ha L. destruct (proj1 (told_store _ _ T d grp) (attr_store _ _ _ Ha)) as (gd & Hgd).
        apply (D d gd id); [apply (told_descends _ _ T); exact Hd|apply (th_role _ _ (tl_roles _ _ T)); exact Hid| |exact Hgd|apply (told_stalls _ _ _ _ Hgd); exists a; split; assumption].
        destruct Had as [N|Had]; [left; intros x Hx; apply (N x), A, Hx|right; apply A; exact Had].
    - intros E l g Hl Hg. apply (tl_rreg _ _ T) in Hl. destruct (proj2 (told_store _ _ T l grp) (ex_intro _ g Hg)) as (w & Hw). destruct (E l w Hl Hw) as (C & S & D). split; [|split].
      + intros N. apply C, told_cyclic, N.
      + intros (a & Ha & L)%(told_stalls _ _ _ _ Hg). exact (S a Ha L).
      + intros d gd id Hd Hid Had Hgd (a & Ha & L)%(told_stalls _ _ _ _ Hgd). refine (D d id a _ _ _ Ha L).
        * apply (told_descends _ _ T). exact Hd.
        * apply (th_role _ _ (tl_roles _ _ T)). exact Hid.
        * destruct Had as [N|Had]; [left; intros x Hx; apply (N x), A, Hx|right; apply A; exact Had].
  Qed.
  Lemma told_complex_ends p id n s grp act :
    (forall c a, utenant_is st id c -> place_exists st c n s -> member st p id a -> role_ends st (tp_role a) grp act (allowed_role st c p id n s))
    <-> forall t r n' s', tenant_at h id t -> place_known h t n s -> has_row h p r id n' s' -> search_ends h r grp act (usable h t id p n s).
  Proof.
    split.
    - intros E t r n' s' Ht Hp (m & Hm). destruct (told_at _ _ T _ _ Ht) as (c & Hc & Hi).
      apply (told_ends r grp act (allowed_role st c p id n s)); [intros x; exact (told_allowed _ _ T t c p id n s x Hc)|].
      apply (E c (TRow p r id n' s' m) Hi); [apply (told_place _ _ T t c n s Hc); exact Hp|]. apply (told_member _ _ _ _ _ T). split; [exact Hm|split; reflexivity].
    - intros E c a Hi Hp Ha. apply (told_registered _ _ T) in Hi as (t & Ht & Hc). apply (told_place _ _ T t c n s Hc) in Hp. apply (told_member _ _ _ _ _ T) in Ha as (Hm & <- & <-).
      destruct a as [p r i n' s' m]. cbn [tp_principal tp_tenant tp_role] in *. apply (told_ends r grp act _ (usable h t i p n s)); [intros x; exact (told_allowed _ _ T t c p i n s x Hc)|].
      exact (E t r n' s' Ht Hp (ex_intro _ m Hm)).
  Qed.
  Lemma told_activity_ends p act :
    (forall r, somewhere_allowed st p r -> role_ends st r "" act (somewhere_allowed st p)) <-> forall r, anywhere h p r -> search_ends h r "" act (anywhere h p).
  Proof. split; intros E r Hr; (apply (told_ends r "" act (somewhere_allowed st p) (anywhere h p)); [intros x; apply (told_anywhere _ _ T)|]); apply E, (told_anywhere _ _ T), Hr. Qed.
  Lemma told_refused o p q : u_authorize o st p q = Ok false <-> ~ granted h p q /\ ~ lost h p q /\ request_ends h p q.
  Proof.
    assert (B : u_authorize o st p q = Ok false -> ~ granted h p q /\ ~ lost h p q).
    { intros H. split; [intros G; apply (told_decision _ _ T o p q false H) in G; discriminate|]. intros L. apply (told_lost _ _ T o p q) in L. rewrite H in L. discriminate. }
    assert (S : request_ends h p q -> (u_authorize o st p q = Ok false -> request_ends h p q)) by (intros R _; exact R).
    assert (Y : (exists b, u_authorize o st p q = Ok b) -> ~ granted h p q -> u_authorize o st p q = Ok false).
    { intros ([] & H) N; [|exact H]. destruct N. apply (told_decision _ _ T o p q true H). reflexivity. }
    destruct (decide (p ∈ u_principals st)) as [K|K].
    2: { rewrite (unknown_denied o st p q K) in *. split; [|reflexivity]. intros _. destruct (B eq_refl) as [B1 B2]. split; [exact B1|split; [exact B2|]]. intros C. apply (tl_prin _ _ T) in C. contradiction. }
    assert (KC : called h (UAddPrincipal p)) by (apply (tl_prin _ _ T); exact K).
    assert (C : complex_request q -> (u_authorize o st p q = Ok false <-> ~ granted h p q /\ ~ lost h p q /\
       forall t r n' s', tenant_at h (to_string (uo_tenant q)) t -> place_known h t (to_string (uo_namespace q)) (to_string (uo_scope q)) -> has_row h p r (to_string (uo_tenant q)) n' s' ->
         search_ends h r (to_string (uo_group q)) (to_string (uo_activity q)) (usable h t (to_string (uo_tenant q)) p (to_string (uo_namespace q)) (to_string (uo_scope q))))).
    { intros Hq. split.
      - intros H. split; [exact (proj1 (B H))|split; [exact (proj2 (B H))|]]. apply told_complex_ends. apply (complex_refused o st p q W K Hq). exact H.
      - intros (N & _ & E). apply (complex_refused o st p q W K Hq). split; [|apply told_complex_ends; exact E]. intros G. apply N. apply (told_complex _ _ T) in G.
        unfold granted. split; [exact KC|]. destruct q as [t n s g a]. unfold complex_request in Hq. cbn [uo_tenant uo_namespace uo_scope uo_group uo_activity] in *.
        destruct t, n, s, g, a; try exact G; exfalso; destruct Hq as [Hq|[[Hq [Hq'|[Hq'|Hq']]]|(Hq & Hq1 & Hq2 & Hq3)]]; try discriminate; try (apply Hq; reflexivity); try (apply Hq'; reflexivity). }
    assert (F : (exists b, u_authorize o st p q = Ok b) -> request_ends h p q -> u_authorize o st p q = Ok false <-> ~ granted h p q /\ ~ lost h p q /\ request_ends h p q).
    { intros E R. split; [intros H; destruct (B H); auto|]. intros (N & _). exact (Y E N). }
    unfold request_ends in *. destruct q as [t n s g a]. cbn [uo_tenant uo_namespace uo_scope uo_group uo_activity] in *. cbv zeta in *.
    destruct (asked g) eqn:Eg.
    { assert (G : g <> ANil) by (intros ->; discriminate). rewrite (C (or_introl G)). destruct (asked t), (asked n), (asked s), (asked a); tauto. }
    assert (g = ANil) as -> by (destruct g; [reflexivity|discriminate..]). clear Eg.
    destruct (asked a) eqn:Ea.
    { assert (A : a <> ANil) by (intros ->; discriminate). destruct (asked t) eqn:Et; [|destruct (asked n) eqn:En; [|destruct (asked s) eqn:Es]].
      - rewrite C; [destruct (asked n), (asked s); tauto|]. right. left. split; [exact A|left; intros E0; cbn in E0; subst; discriminate].
      - rewrite C; [destruct (asked s); tauto|]. right. left. split; [exact A|right; left; intros E0; cbn in E0; subst; discriminate].
      - rewrite C; [tauto|]. right. left. split; [exact A|right; right; intros E0; cbn in E0; subst; discriminate].
      - assert (t = ANil) as -> by (destruct t; [reflexivity|discriminate..]). assert (n = ANil) as -> by (destruct n; [reflexivity|discriminate..]). assert (s = ANil) as -> by (destruct s; [reflexivity|discriminate..]).
        split.
        + intros H. split; [exact (proj1 (B H))|split; [exact (proj2 (B H))|]]. intros _. apply told_activity_ends. apply (activity_refused o st p a W K A). exact H.
        + intros (N & L & E). apply (activity_refused o st p a W K A). split; [|split].
          * intros G. apply N. unfold granted. cbn [uo_tenant uo_namespace uo_scope uo_group uo_activity]. rewrite Ea. cbn [asked]. split; [exact KC|]. apply (told_activity _ _ T). exact G.
          * intros G. apply L. split; [exact KC|split; [reflexivity|split; [exact A|]]]. apply (told_stray _ _ T). exact G.
          * apply told_activity_ends. exact (E KC). }
    assert (a = ANil) as -> by (destruct a; [reflexivity|discriminate..]). clear Ea.
    destruct (asked t) eqn:Et, (asked n) eqn:En, (asked s) eqn:Es;
      try (assert (t = ANil) as -> by (destruct t; [reflexivity|discriminate..]); clear Et);
      try (assert (n = ANil) as -> by (destruct n; [reflexivity|discriminate..]); clear En);
      try (assert (s = ANil) as -> by (destruct s; [reflexivity|discriminate..]); clear Es);
      try (assert (Nt : t <> ANil) by (intros ->; discriminate)); try (assert (Nn : n <> ANil) by (intros ->; discriminate)); try (assert (Ns : s <> ANil) by (intros ->; discriminate)).
    - apply F; [|exact (fun _ => I)]. destruct (tenant_namespace_scope o st p t n s K Nt Nn Ns W) as (b & E & _). exists b. exact E.
    - apply F; [|exact (fun _ => I)]. destruct (tenant_namespace o st p t n K Nt Nn W) as (b & E & _). exists b. exact E.
    - apply F; [|exact (fun _ => I)]. destruct (tenant_scope o st p t s K Nt Ns W) as (b & E & _). exists b. exact E.
    - apply F; [|exact (fun _ => I)]. destruct (only_tenant o st p t K Nt W) as (b & E & _). exists b. exact E.
    - apply F; [|exact (fun _ => I)]. destruct (namespace_scope o st p n s K Nn Ns W) as (b & E & _). exists b. exact E.
    - apply F; [|exact (fun _ => I)]. destruct (only_namespace o st p n K Nn W) as (b & E & _). exists b. exact E.
    - apply F; [|exact (fun _ => I)]. destruct (only_scope o st p s K Ns W) as (b & E & _). exists b. exact E.
    - rewrite C; [tauto|]. right. right. split; [reflexivity|split; [reflexivity|split; reflexivity]].
  Qed.
End refused.
Lemma c115_refused o ops st outs o' p q : urun o 0 u_init ops = Ok (st, outs) -> Forall plain_names ops -> groups_made (log_of ops outs) ->
  u_authorize o' st p q = Ok false <-> ~ granted (log_of ops outs) p q /\ ~ lost (log_of ops outs) p q /\ request_ends (log_of ops outs) p q.
Proof. intros H P GM. exact (told_refused _ _ (tells_all _ _ _ _ H P GM) o' p q). Qed.
Lemma c115_endless o ops st outs o' p q : urun o 0 u_init ops = Ok (st, outs) -> Forall plain_names ops -> groups_made (log_of ops outs) ->
  ~ granted (log_of ops outs) p q -> u_authorize o' st p q = Hang <-> ~ lost (log_of ops outs) p q /\ ~ request_ends (log_of ops outs) p q.
Proof.
  intros H P GM N. pose proof (tells_all _ _ _ _ H P GM) as T. pose proof (told_refused _ _ T o' p q) as R. pose proof (told_lost _ _ T o' p q) as L. split.
  - intros E. split; [intros X; apply L in X; rewrite E in X; discriminate|]. intros X.
    assert (F : u_authorize o' st p q = Ok false); [|rewrite E in F; discriminate]. apply R. split; [exact N|split; [|exact X]]. intros Y. apply L in Y. rewrite E in Y. discriminate.
  - intros [NL NE]. destruct (u_authorize o' st p q) as [b| |] eqn:E; [exfalso|exfalso|reflexivity].
    + destruct b; [apply N, (told_decision _ _ T o' p q true E); reflexivity|]. apply NE. apply R. reflexivity.
    + apply NL, L. reflexivity.
Qed.
