(** Orders of v1 grants: vocabulary. *)
From Verif Require Export V1Spec.

(** A call that only gives somebody roles or scopes *)
Definition grant (x : uop) : Prop :=
  match x with
  | UAddPrincipalRole _ _ _ _ _ _ | UTAddPrincipal _ _ _ | UTAddPrincipalInNamespace _ _ _ _ | UTAssignScopes _ _ _
  | UTAssignScopesWithRole _ _ _ _ => True
  | _ => False
  end.
(** ... and names the roles itself, without looking at what the principal has. *)
Definition plain_grant (x : uop) : Prop :=
  match x with
  | UAddPrincipalRole _ _ _ _ _ _ | UTAddPrincipal _ _ _ | UTAddPrincipalInNamespace _ _ _ (_ :: _) => True
  | _ => False
  end.
(** The principal and the id of the tenant it is about *)
Definition whose (st : ustate) (x : uop) : option (string * string) :=
  match x with
  | UAddPrincipalRole p _ t _ _ _ | UTAddPrincipal t p _ | UTAddPrincipalInNamespace t p _ _ | UTAssignScopes t p _
  | UTAssignScopesWithRole t p _ _ => c ← u_tenants st !! t; Some (p, ut_id c)
  | _ => None
  end.
Definition named_roles (x : uop) : list string :=
  match x with
  | UAddPrincipalRole _ r _ _ _ _ | UTAssignScopesWithRole _ _ r _ => [r]
  | UTAddPrincipal _ _ rs | UTAddPrincipalInNamespace _ _ _ rs => rs
  | _ => []
  end.
(** No underscores in the principal, the tenant id or the roles *)
Definition tidy (st : ustate) (x : uop) : Prop :=
  Forall clean (named_roles x) /\ exists p id, whose st x = Some (p, id) /\ clean p /\ clean id.
(** Calls about the same principal and tenant come in the same order. *)
Definition same_turns (st : ustate) (ops ops' : list uop) : Prop :=
  forall k, filter (fun x => whose st x = Some k) ops = filter (fun x => whose st x = Some k) ops'.
