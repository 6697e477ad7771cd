(** Requests to the root package that name less. *)
From Verif Require Export AuthSpec RootSpec.

(** The request without its namespace, without its scope, without both. *)
Definition without_namespace (q : opts) : opts := Opts (o_tenant q) ANil (o_scope q) (o_group q) (o_activity q).
Definition without_scope (q : opts) : opts := Opts (o_tenant q) (o_namespace q) ANil (o_group q) (o_activity q).
Definition tenant_alone (q : opts) : opts := Opts (o_tenant q) ANil ANil (o_group q) (o_activity q).
(** Every role given to [p] is given in some tenant (only AddData stores other rows). *)
Definition given_somewhere (st : state) (p : string) : Prop :=
  forall d, stored st d -> principal d = AStr p -> role d <> ANil -> exists t, tenant d = AStr t.
Definition without_tenant (q : opts) : opts := Opts ANil (o_namespace q) (o_scope q) (o_group q) (o_activity q).
