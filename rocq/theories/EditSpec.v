(** Specification of writes to the objects of package v2. *)
From Verif Require Export EditModel V2Spec.

(** Ids of tenants are left alone. *)
Definition keeps_ids (x : eop) : Prop :=
  match x with
  | EWrite (ETenantID _ _) => False
  | _ => True
  end.
(** The states a program can reach from NewAuthorizer() by calls and such writes *)
Definition ereachable (st : vstate) : Prop :=
  exists o ops outs, Forall keeps_ids ops /\ erun o 0 v2_init ops = Ok (st, outs).
(** Nothing is taken back. *)
Definition no_removal (x : eop) : Prop := match x with ECall (VRemovePR _) => False | _ => True end.

(** Two authorizers that differ in userRoleMap at most *)
Definition but_for_index (st1 st2 : vstate) : Prop := st2 = vw_index st1 (w_index st2).
(** Two runs that end alike: with the same answers, or not at all *)
Definition alike_but_index {A} (x y : res (vstate * A)) : Prop :=
  match x, y with
  | Ok (st1, a), Ok (st2, b) => but_for_index st1 st2 /\ a = b
  | Panic, Panic | Hang, Hang => True
  | _, _ => False
  end.
