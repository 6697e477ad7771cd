(** Witnesses about Intersection, Union and ToInt64. *)
From Coq Require Import ZArith.
From stdpp Require Import gmap.
From Verif Require Import StrProofs StrSpec.

(** Two different values of one struct type with fields A and B that have one text *)
Definition pair_of (a b : string) : item := IStruct [Field "A" true a; Field "B" true b].
Definition s70 : item := pair_of "x|B:y" "".
Definition t70 : item := pair_of "x" "y|B:".
Definition answer70 (r : res (list item)) (l : list item) : bool := match r with Ok l' => bool_decide (l' = l) | _ => false end.
Lemma answer70_ok (r : res (list item)) (l : list item) : answer70 r l = true -> r = Ok l.
Proof. destruct r as [l'| |]; cbn; [|discriminate..]. intros H. apply bool_decide_eq_true in H. rewrite H. reflexivity. Qed.
Lemma c70_struct (o : oracle) : exists a b names, Forall (of_struct_type names) (a ++ b)
  /\ intersection o a b = Ok b /\ common a b = [] /\ union_of o a b = Ok a /\ b ≠ [] /\ missing a b = b.
Proof.
  exists [s70], [t70], ["A"; "B"]. split_and!.
  - cbn. repeat (constructor; try (split; [reflexivity|repeat constructor])).
  - apply answer70_ok. vm_compute. reflexivity.
  - vm_compute. reflexivity.
  - apply answer70_ok. vm_compute. reflexivity.
  - discriminate.
  - vm_compute. reflexivity.
Qed.
(** The second call of Serialize meets the keys in the other order. *)
Program Definition turn_oracle : oracle := Oracle (fun p A l => if decide (p = [1%nat]) then reverse l else l) _.
Next Obligation. intros p A l. cbn. destruct (decide (p = [1%nat])); [rewrite reverse_Permutation|]; reflexivity. Qed.
Definition m70 : item := IMapInt {[ 1%Z := "x"; 2%Z := "y" ]}.
Lemma c70_int : exists (o : oracle) (i : item), (exists m, i = IMapInt m) /\ intersection o [i] [i] = Ok [] /\ union_of o [i] [i] = Ok [i; i].
Proof.
  exists turn_oracle, m70. split_and!; [eexists; reflexivity| |]; apply answer70_ok; vm_compute; reflexivity.
Qed.
Lemma c70_twice (o : oracle) : exists a b l, separable (a ++ b) /\ union_of o a b = Ok l /\ ~ NoDup l.
Proof.
  exists [], [pair_of "x" "y"; pair_of "x" "y"], [pair_of "x" "y"; pair_of "x" "y"]. split_and!.
  - split.
    + cbn. repeat constructor; cbn; intuition discriminate.
    + left. exists ["A"; "B"]. cbn. repeat (constructor; try (split; [reflexivity|repeat constructor])).
  - apply answer70_ok. vm_compute. reflexivity.
  - intros H. apply NoDup_cons in H as [H _]. apply H. left.
Qed.
Definition d70 (a b : string) : item := IMapStr {[ "id" := a; "name" := b ]}.
Lemma c70_ex : separable ([pair_of "x" "y"; pair_of "u" "v"] ++ [pair_of "u" "v"; pair_of "x" "z"])
  /\ separable ([d70 "1" "ann"] ++ [d70 "2" "ann"; d70 "1" "ann"])
  /\ intersection id_oracle [pair_of "x" "y"; pair_of "u" "v"] [pair_of "u" "v"; pair_of "x" "z"] = Ok [pair_of "u" "v"]
  /\ union_of id_oracle [d70 "1" "ann"] [d70 "2" "ann"; d70 "1" "ann"] = Ok [d70 "1" "ann"; d70 "2" "ann"].
Proof.
  split_and!.
  - split.
    + cbn. repeat constructor; cbn; intuition discriminate.
    + left. exists ["A"; "B"]. cbn. repeat (constructor; try (split; [reflexivity|repeat constructor])).
  - split; [|right; cbn; repeat constructor].
    assert (G : forall a b, ~ mentions "|" a -> ~ mentions "|" b -> no_bar (d70 a b)).
    { intros a b Ha Hb. cbn. intros k v H. apply lookup_insert_Some in H as [[<- <-]|[_ H]]; [split; [cbn; intuition discriminate|exact Ha]|].
      apply lookup_singleton_Some in H as [<- <-]. split; [cbn; intuition discriminate|exact Hb]. }
    rewrite Forall_forall. intros i Hi. apply elem_of_list_In in Hi. cbn in Hi.
    destruct Hi as [<-|[<-|[<-|[]]]]; apply G; cbn; intuition discriminate.
  - apply answer70_ok. vm_compute. reflexivity.
  - apply answer70_ok. vm_compute. reflexivity.
Qed.
Definition panics (r : res (list item)) : bool := match r with Panic => true | _ => false end.
Lemma c70_panic_ex : intersection id_oracle [pair_of "x" "y"] [IOther] = Panic
  /\ union_of id_oracle [IStruct [Field "A" true "x"; Field "b" false "y"]] [] = Panic /\ union_of id_oracle [] [] = Ok [].
Proof. split_and!; vm_compute; reflexivity. Qed.

(** A string whose number is 0: another zero byte leaves it so. *)
Definition w71 : string :=
  string_of_list_ascii (ascii_of_nat <$> [146; 6; 119; 76; 224; 47; 137; 42; 210])%nat.
Lemma c71_refuted : exists s t, s ≠ t /\ to_int64 s = to_int64 t.
Proof. exists w71, (w71 ++ String "000" "")%string. split; [discriminate|vm_compute; reflexivity]. Qed.
Lemma c71_ex : to_int64 "user" ≠ to_int64 "uses" /\ to_int64 "" = 14695981039346656037%Z /\ to_int64 "a" = 12638153115695167422%Z.
Proof. split_and!; [vm_compute; discriminate|vm_compute; reflexivity..]. Qed.
