(** Property C126: the set-up shown in TestAuthorize of package v1 grants what it announces. *)
From Verif Require Import V1DocProofs V1DocEx V1CallsEx V1Ex V1DocSpec.
Local Open Scope string_scope.

(** C126.  Refuted for roles put above other roles, as in README.md: a principal given the upper role may not do what the lower role permits, though no call was refused … *)
Theorem C126_inherited_refuted : exists ops st outs t id p r l d r' grp a act,
  urun id_oracle 0 u_init ops = Ok (st, outs) /\ Forall plain_names ops /\ groups_made (log_of ops outs)
  /\ given_role (log_of ops outs) t id p r /\ role_at (log_of ops outs) r l /\ put_above (log_of ops outs) l d /\ given_permission (log_of ops outs) d r' grp a /\ covers a act
  /\ u_authorize id_oracle st p (UOpts (AStr id) ANil ANil (AStr grp) (AStr act)) = Ok false.
Proof. exact c126_inherited. Qed.
Print Assumptions C126_inherited_refuted.
(** … and for another order of the calls: scopes assigned before the role is given are lost without an error. *)
Theorem C126_order_refuted : exists ops st outs t id p r s,
  urun id_oracle 0 u_init ops = Ok (st, outs) /\ Forall plain_names ops /\ groups_made (log_of ops outs)
  /\ given_role (log_of ops outs) t id p r /\ (UTAssignScopes t p [s], YUnit) ∈ log_of ops outs /\ scope_in (log_of ops outs) t s
  /\ u_authorize id_oracle st p (UOpts (AStr id) ANil (AStr s) ANil ANil) = Ok false.
Proof. exact c126_order. Qed.
Print Assumptions C126_order_refuted.
(** What holds, among whatever other calls.  A principal given a role in a tenant may do there what was added to the role, in the tenant as a whole and in each of its namespaces and scopes; … *)
Theorem C126_activity_partial (o : oracle) (ops : list uop) (st : ustate) (outs : list uout) (t l : nat) (id p r grp : string) (a : attr) (act : string) (ns sc : any) (o' : oracle) (b : bool) :
  urun o 0 u_init ops = Ok (st, outs) -> Forall plain_names ops -> groups_made (log_of ops outs) ->
  given_role (log_of ops outs) t id p r -> given_permission (log_of ops outs) l r grp a -> covers a act -> place_known (log_of ops outs) t (to_string ns) (to_string sc) ->
  u_authorize o' st p (UOpts (AStr id) ns sc (AStr grp) (AStr act)) = Ok b -> b = true.
Proof. exact (fun R P G => doc_activity o ops st outs R P G o' p b t l id r grp a act ns sc). Qed.
Print Assumptions C126_activity_partial.
(** … a principal added to a namespace may enter it; … *)
Theorem C126_namespace_partial (o : oracle) (ops : list uop) (st : ustate) (outs : list uout) (t : nat) (id p n : string) (o' : oracle) (b : bool) :
  urun o 0 u_init ops = Ok (st, outs) -> Forall plain_names ops -> groups_made (log_of ops outs) ->
  called (log_of ops outs) (UAddPrincipal p) -> given_namespace (log_of ops outs) t id p n ->
  u_authorize o' st p (UOpts (AStr id) (AStr n) ANil ANil ANil) = Ok b -> b = true.
Proof. exact (fun R P G => doc_namespace o ops st outs R P G o' p b t id n). Qed.
Print Assumptions C126_namespace_partial.
(** … a principal with a role in the tenant may enter the scopes assigned afterwards; … *)
Theorem C126_scope_partial (o : oracle) (ops : list uop) (st : ustate) (outs : list uout) (t : nat) (id p r s : string) (o' : oracle) (b : bool) :
  urun o 0 u_init ops = Ok (st, outs) -> Forall plain_names ops -> groups_made (log_of ops outs) ->
  called (log_of ops outs) (UAddPrincipal p) -> given_scope (log_of ops outs) t id p r s ->
  u_authorize o' st p (UOpts (AStr id) ANil (AStr s) ANil ANil) = Ok b -> b = true.
Proof. exact (fun R P G => doc_scope o ops st outs R P G o' p b t id r s). Qed.
Print Assumptions C126_scope_partial.
(** … and a scope put into a namespace can be entered there (by every registered principal, see C49). *)
Theorem C126_place_partial (o : oracle) (ops : list uop) (st : ustate) (outs : list uout) (t : nat) (id p n s : string) (o' : oracle) (b : bool) :
  urun o 0 u_init ops = Ok (st, outs) -> Forall plain_names ops -> groups_made (log_of ops outs) ->
  called (log_of ops outs) (UAddPrincipal p) -> scope_placed (log_of ops outs) t id n s ->
  u_authorize o' st p (UOpts (AStr id) (AStr n) (AStr s) ANil ANil) = Ok b -> b = true.
Proof. exact (fun R P G => doc_place o ops st outs R P G o' p b t id n s). Qed.
Print Assumptions C126_place_partial.
(** TestAuthorize, with its request and three more *)
Example C126_example : urun id_oracle 0 u_init w126_ops = Ok (uops_state w126_ops, uops_outs w126_ops) /\ Forall plain_names w126_ops /\ groups_made w126_log
  /\ given_role w126_log 0 "TenantA" "principalA" "coder" /\ given_permission w126_log 0 "coder" "backend" (Attr "/coding/:wid/open" "GET")
  /\ place_known w126_log 0 "NamespaceA" "29" /\ given_namespace w126_log 0 "TenantA" "principalA" "NamespaceA"
  /\ given_scope w126_log 0 "TenantA" "principalA" "coder" "29" /\ scope_placed w126_log 0 "TenantA" "NamespaceA" "29"
  /\ Forall (fun pqb => u_authorize rev_oracle (uops_state w126_ops) pqb.1.1 pqb.1.2 = Ok pqb.2) w126_requests.
Proof. exact c126_ex. Qed.
