(** Properties of package v1: requests that name less. *)
From Verif Require Import V1OmitEx.
Local Open Scope string_scope.

(** ** C132: naming more never allows more *)
(** Refuted: with tenant, namespace and scope anybody's row counts, with less only one's own. *)
Theorem C132_row_refuted : exists st p t n s, ureachable st /\ known st p
  /\ u_authorize id_oracle st p (UOpts (AStr t) (AStr n) (AStr s) ANil ANil) = Ok true
  /\ u_authorize id_oracle st p (UOpts (AStr t) (AStr n) ANil ANil ANil) = Ok false
  /\ u_authorize id_oracle st p (UOpts (AStr t) ANil (AStr s) ANil ANil) = Ok false.
Proof. exact c132_row_refuted. Qed.
Print Assumptions C132_row_refuted.
(** Refuted: a namespace is allowed in a tenant which alone is refused. *)
Theorem C132_tenant_refuted : exists st p t n, ureachable st /\ known st p
  /\ u_authorize id_oracle st p (UOpts (AStr t) (AStr n) ANil ANil ANil) = Ok true
  /\ u_authorize id_oracle st p (UOpts (AStr t) ANil ANil ANil ANil) = Ok false.
Proof. exact c132_tenant_refuted. Qed.
Print Assumptions C132_tenant_refuted.
(** Refuted for activities: naming a namespace that is not open lets every descendant count. *)
Theorem C132_activity_refuted : exists st p q q', ureachable st /\ known st p /\ uo_group q <> ANil /\ names_less q q'
  /\ u_authorize id_oracle st p q = Ok true /\ u_authorize id_oracle st p q' = Ok false.
Proof. exact c132_activity_refuted. Qed.
Print Assumptions C132_activity_refuted.
(** What holds.  A namespace and scope allowed without a tenant are allowed, together and each
    alone, in some tenant ... *)
Theorem C132_somewhere_partial (o : oracle) (st : ustate) (p : string) (n s : any) :
  ureachable st -> known st p -> n <> ANil -> s <> ANil -> u_authorize o st p (UOpts ANil n s ANil ANil) = Ok true ->
  exists t, forall o', u_authorize o' st p (UOpts (AStr t) n s ANil ANil) = Ok true
    /\ u_authorize o' st p (UOpts (AStr t) n ANil ANil ANil) = Ok true
    /\ u_authorize o' st p (UOpts (AStr t) ANil s ANil ANil) = Ok true.
Proof. exact (c132_somewhere o st p n s). Qed.
Print Assumptions C132_somewhere_partial.
Example C132_membership_example : exists st, ureachable st /\ known st "ann"
  /\ u_authorize id_oracle st "ann" (UOpts ANil (AStr "eng") (AStr "s1") ANil ANil) = Ok true.
Proof. exact c132_somewhere_ex. Qed.
(** ... and when the roles of the principal in the tenant have no descendants, what is allowed with
    a group is allowed with namespace and scope left out. *)
Theorem C132_activity_partial (o o' : oracle) (st : ustate) (p : string) (q q' : uopts) (b : bool) :
  ureachable st -> known st p -> uo_group q <> ANil -> names_less q q' -> flat st p (to_string (uo_tenant q)) ->
  u_authorize o st p q = Ok true -> u_authorize o' st p q' = Ok b -> b = true.
Proof. exact (c132_activity o o' st p q q' b). Qed.
Print Assumptions C132_activity_partial.
Example C132_example : exists st p q q', ureachable st /\ known st p /\ uo_group q <> ANil /\ names_less q q' /\ q' <> q
  /\ flat st p (to_string (uo_tenant q))
  /\ u_authorize id_oracle st p q = Ok true /\ u_authorize id_oracle st p q' = Ok true.
Proof. exact c132_activity_ex. Qed.
(** Otherwise the only way: the permission comes from a descendant of a role of the principal, and
    with less named some role is admitted, but not that descendant. *)
Theorem C132_hole (o o' : oracle) (st : ustate) (p : string) (q q' : uopts) :
  ureachable st -> known st p -> uo_group q <> ANil -> names_less q q' ->
  u_authorize o st p q = Ok true -> u_authorize o' st p q' = Ok false ->
  exists c a, utenant_is st (to_string (uo_tenant q)) c /\ member st p (to_string (uo_tenant q)) a
    /\ by_descendant st (tp_role a) (to_string (uo_group q)) (to_string (uo_activity q))
         (fun id => let adm := allowed_role st c p (to_string (uo_tenant q)) (to_string (uo_namespace q')) (to_string (uo_scope q')) in
                    ~ adm id /\ ~ (forall r, ~ adm r)).
Proof. exact (c132_hole o o' st p q q'). Qed.
Print Assumptions C132_hole.
