(** When Role.Has refuses: exactly the searches that come to an end without a hit. *)
From Verif Require Export RoleHas.

(** What Has looks through before it refuses: the group of the role and those of the admitted descendants can be compared to the end, and there is no circle. *)
Definition searchable (h : rheap) (l : nat) (grp perm : string) (allowed : list string) : Prop :=
  forall g, owns h l grp g -> ~ cyclic_from h l /\ ~ stalls g perm
    /\ forall d gd, descends h l d -> admitted h allowed d -> owns h d grp gd -> ~ stalls gd perm.
Lemma owns_fun h l grp g g' : owns h l grp g -> owns h l grp g' -> g' = g.
Proof. intros (r & gl & H1 & H2 & H3) (r' & gl' & H1' & H2' & H3'). rewrite H1 in H1'. injection H1' as <-. rewrite H2 in H2'. injection H2' as <-. rewrite H3 in H3'. injection H3' as <-. reflexivity. Qed.
Lemma any_match_ended v ps : any_match v ps = Ok false -> forall p, p ∈ ps -> ~ StrLoops p v.
Proof.
  induction ps as [|p' ps IH]; cbn [any_match]; [intros _ p H; destruct (not_elem_of_nil _ H)|].
  destruct (match_resource v p') as [[]| |] eqn:E; try discriminate. cbn [rbind]. intros H p [->|Hp]%elem_of_cons; [|exact (IH H p Hp)].
  intros L. apply match_resource_hang in L. rewrite L in E. discriminate.
Qed.
Lemma has_false_steps n o h l grp perm allowed g : has_fuel n o h l grp perm allowed = Ok false -> owns h l grp g ->
  ~ stalls g perm /\ exists n' ds, get_descendant_roles (sub o 1) h l = Ok ds /\ forall d, d ∈ ds -> admitted h allowed d -> exists o', has_fuel n' o' h d grp perm allowed = Ok false.
Proof.
  destruct n as [|n]; [discriminate|]. cbn [has_fuel]. intros H (r & gl & Hl & Hg & Hgl). rewrite Hl, Hg, Hgl in H.
  destruct (g_perms g !! perm) eqn:Hp; [discriminate|]. apply rbind_ok in H as (m & Hm & H). destruct m; [discriminate|]. split.
  - intros (k & a & Hk & L). revert L. apply (any_match_ended _ _ Hm). apply elem_of_perm_keys. exists a. exact Hk.
  - apply rbind_ok in H as (ds & Hds & H). exists n, ds. split; [exact Hds|]. apply has_loop_ok in H. intros d Hd Ha. destruct (H d Hd Ha) as [j Hj]. exists (sub (sub o 2) j). exact Hj.
Qed.
Lemma role_has_false o h l grp perm allowed : wf_heap h -> is_Some (h_roles h !! l) ->
  role_has o h l grp perm allowed = Ok false <-> ~ permits h l grp perm allowed /\ searchable h l grp perm allowed.
Proof.
  intros W Hl. split.
  - intros H. split; [intros N; apply (role_has_ok _ _ _ _ _ _ _ H) in N; discriminate|]. intros g Hg.
    destruct (has_false_steps _ _ _ _ _ _ _ _ H Hg) as (S & n' & ds & Hds & Hin). split; [|split; [exact S|]].
    + destruct (descendant_roles_exact (sub o 1) h l W Hl) as [[_ ?]|[E _]]; [assumption|]. rewrite Hds in E. discriminate.
    + intros d gd Hd Ha Hgd. apply (descendant_roles_elem _ _ _ _ Hds) in Hd. destruct (Hin d Hd Ha) as (o' & Ho'). exact (proj1 (has_false_steps _ _ _ _ _ _ _ _ Ho' Hgd)).
  - intros [N S]. destruct (role_has o h l grp perm allowed) as [b| |] eqn:E.
    + destruct b; [|reflexivity]. destruct N. apply (role_has_ok _ _ _ _ _ _ _ E). reflexivity.
    + exfalso. exact (has_fuel_no_panic _ _ _ _ _ _ _ W Hl E).
    + exfalso. assert (O : exists g, owns h l grp g).
      { revert E. unfold role_has. cbn [has_fuel]. destruct Hl as [r Hl]. rewrite Hl. destruct (r_perms r !! grp) as [gl|] eqn:Hg; [|discriminate].
        destruct (h_groups h !! gl) as [g|] eqn:Hgl; [|discriminate]. intros _. exists g, r, gl. split; [exact Hl|split; assumption]. }
      destruct O as [g Hg]. destruct (S g Hg) as (C & S1 & S2). apply role_has_hang in E as [?|[(g' & Hg' & ?)|(d & g' & ? & ? & ? & ?)]]; [contradiction| | |exact W|exact Hl].
      * rewrite (owns_fun _ _ _ _ _ Hg Hg') in *. contradiction.
      * exact (S2 d g' H H0 H1 H2).
Qed.
