(** Requests to package v1 that name less. *)
From Verif Require Import V1Ex.
From Verif Require Export V1OmitSpec.
Local Open Scope string_scope.

Lemma exact_true (x : res bool) (P : Prop) : (exists b, x = Ok b /\ (b = true <-> P)) -> P -> x = Ok true.
Proof. intros (b & -> & H) HP. by rewrite (proj2 H HP). Qed.
Lemma true_exact (x : res bool) (P : Prop) : (exists b, x = Ok b /\ (b = true <-> P)) -> x = Ok true -> P.
Proof. intros (b & -> & H) [= ->]. by apply H. Qed.

(** ** Places *)
Lemma c132_somewhere o st p n s : ureachable st -> known st p -> n <> ANil -> s <> ANil ->
  u_authorize o st p (UOpts ANil n s ANil ANil) = Ok true ->
  exists t, forall o', u_authorize o' st p (UOpts (AStr t) n s ANil ANil) = Ok true
    /\ u_authorize o' st p (UOpts (AStr t) n ANil ANil ANil) = Ok true
    /\ u_authorize o' st p (UOpts (AStr t) ANil s ANil ANil) = Ok true.
Proof.
  intros R K Hn Hs H. pose proof (ureachable_wf st R) as W.
  apply (true_exact _ _ (namespace_scope o st p n s K Hn Hs W)) in H as (a & Ha & Hp & H1 & H2).
  exists (tp_tenant a). intros o'. split_and!.
  - apply (exact_true _ _ (tenant_namespace_scope o' st p (AStr (tp_tenant a)) n s K ltac:(done) Hn Hs W)). by exists a.
  - apply (exact_true _ _ (tenant_namespace o' st p (AStr (tp_tenant a)) n K ltac:(done) Hn W)). by exists a.
  - apply (exact_true _ _ (tenant_scope o' st p (AStr (tp_tenant a)) s K ltac:(done) Hs W)). by exists a.
Qed.

(** ** Activities *)
Lemma less_place st c q q' : names_less q q' ->
  place_exists st c (to_string (uo_namespace q)) (to_string (uo_scope q)) ->
  place_exists st c (to_string (uo_namespace q')) (to_string (uo_scope q')).
Proof. intros (_ & _ & _ & [->| ->] & [->| ->]) [H1 H2]; by split. Qed.
Lemma flat_grants st r grp act adm adm' : (forall l d, u_roles st !! r = Some l -> ~ descends (u_heap st) l d) ->
  role_grants st r grp act adm -> role_grants st r grp act adm'.
Proof.
  intros F (l & g & Hl & Hg & [H|(d & gd & id & Hd & _)]); [|by destruct (F l d Hl)].
  exists l, g. split_and!; [done|done|by left].
Qed.
Lemma c132_activity o o' st p q q' b : ureachable st -> known st p -> uo_group q <> ANil -> names_less q q' ->
  flat st p (to_string (uo_tenant q)) ->
  u_authorize o st p q = Ok true -> u_authorize o' st p q' = Ok b -> b = true.
Proof.
  intros R K G L F H H'. pose proof (ureachable_wf st R) as W.
  assert (G' : uo_group q' <> ANil) by (destruct L as (_ & -> & _); done).
  apply (complex_exact o' st p q' b W K (or_introl G') H').
  pose proof (proj1 (complex_exact o st p q true W K (or_introl G) H) eq_refl) as X.
  destruct X as (c & Hc & Hpl & a & Ha & Hg). pose proof (less_place st c q q' L Hpl) as Hpl'.
  destruct L as (Et & Eg & Ea & _). unfold complex_of, complex_grants. rewrite Et, Eg, Ea.
  exists c. split_and!; [done|by rewrite <- ?Et|]. exists a. split; [done|].
  eapply flat_grants; [|exact Hg]. intros l d Hl. exact (F a l d Ha Hl).
Qed.
Lemma c132_hole o o' st p q q' : ureachable st -> known st p -> uo_group q <> ANil -> names_less q q' ->
  u_authorize o st p q = Ok true -> u_authorize o' st p q' = Ok false ->
  exists c a, utenant_is st (to_string (uo_tenant q)) c /\ member st p (to_string (uo_tenant q)) a
    /\ by_descendant st (tp_role a) (to_string (uo_group q)) (to_string (uo_activity q))
         (fun id => let adm := allowed_role st c p (to_string (uo_tenant q)) (to_string (uo_namespace q')) (to_string (uo_scope q')) in
                    ~ adm id /\ ~ (forall r, ~ adm r)).
Proof.
  intros R K G L H H'. pose proof (ureachable_wf st R) as W.
  assert (G' : uo_group q' <> ANil) by (destruct L as (_ & -> & _); done).
  pose proof (proj1 (complex_exact o st p q true W K (or_introl G) H) eq_refl) as (c & Hc & Hpl & a & Ha & l & g & Hl & Hg & Hof).
  assert (N : ~ complex_of q' st p).
  { intros X. by apply (complex_exact o' st p q' false W K (or_introl G') H') in X. }
  pose proof (less_place st c q q' L Hpl) as Hpl'.
  destruct L as (Et & Eg & Ea & _). unfold complex_of, complex_grants in N. rewrite Et, Eg, Ea in N.
  assert (N' : ~ role_grants st (tp_role a) (to_string (uo_group q)) (to_string (uo_activity q))
    (allowed_role st c p (to_string (uo_tenant q)) (to_string (uo_namespace q')) (to_string (uo_scope q')))).
  { intros X. apply N. exists c. split_and!; [done|done|]. by exists a. }
  exists c, a. split_and!; [done|done|]. destruct Hof as [Hof|(d & gd & id & Hd & Hid & _ & Hgd & Hof)].
  { destruct N'. exists l, g. split_and!; [done|done|by left]. }
  exists l, d, gd, id. do 5 (split; [done|]). cbv zeta. split.
  - intros X. apply N'. exists l, g. split_and!; [done|done|]. right. exists d, gd, id. split_and!; try done. by right.
  - intros X. apply N'. exists l, g. split_and!; [done|done|]. right. exists d, gd, id. split_and!; try done. by left.
Qed.
