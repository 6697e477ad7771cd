(** What it means to take things back in package v2 without adding any. *)
From Verif Require Export V2GrowSpec.
Local Open Scope string_scope.

(** The call only takes something back: permissions, assignments, an active status, time. *)
Definition removal (st : vstate) (x : vop) : Prop :=
  match x with
  | VRoleRemove _ _ | VRemovePR _ => True
  | VTenantStatus _ s => s <> TActive
  | VSetExpiry _ l e => forall pr e0, w_prs st !! l = Some pr -> pr_expiry pr = Some e0 -> (e <= e0)%Z
  | _ => False
  end.
(** [st'] comes after [st] by taking something back or by a question of the kind [ask]. *)
Definition comes_down (ask : vop -> Prop) (st st' : vstate) : Prop :=
  exists o x y, (removal st x \/ ask x) /\ vstep o st x = Ok (st', y).
