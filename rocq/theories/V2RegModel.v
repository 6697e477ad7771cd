(** Lookups of package v2: v2/init.go, v2/v2.go:177-182, v2/entities.go:52-64. *)
From Verif Require Export V2Model.

(** v2/init.go:12-15 GetRole: the location of the role object, [None] for (nil, false) *)
Definition v2_get_role (st : vstate) (name : string) : option nat := d_roles (w_dag st) !! name.
(** v2/init.go:37-42 GetTenant *)
Definition v2_get_tenant (st : vstate) (id : string) : option nat := w_reg st !! id.
(** v2/v2.go:177-182 GetDefaultTenant *)
Definition v2_get_default_tenant (st : vstate) : option nat :=
  if negb (bool_decide (w_default st = "")) then v2_get_tenant st (w_default st) else None.
(** v2/entities.go:54-56 TenantStatus.String: an index into an array of five; other values panic *)
Definition status_string (n : Z) : res string :=
  if bool_decide (n < 0)%Z then Panic
  else match ["active"; "inactive"; "pending"; "blocked"; "banned"] !! Z.to_nat n with
       | Some s => Ok s
       | None => Panic
       end.
(** v2/entities.go:58-64 the constants *)
Definition status_code (s : tstatus) : Z :=
  match s with TActive => 0 | TInactive => 1 | TPending => 2 | TBlocked => 3 | TBanned => 4 end.
(** v2/init.go:21-25 AddTenants *)
Fixpoint v2_add_tenants (o : oracle) (i : nat) (st : vstate) (ts : list nat) : res vstate :=
  match ts with
  | [] => Ok st
  | t :: ts' => let! st' := v2_add_tenant (sub o i) st t in v2_add_tenants o (S i) st' ts'
  end.
