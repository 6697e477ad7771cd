(** What a user of the root package may rely on who keeps the names of different kinds of things apart, and the set-up shown in examples/main.go. *)
From Verif Require Export TenSpec.

(** Kinds of named things that columns of rows stand for *)
Inductive sort : Type := ATenant | ANamespace | AScope | APrincipal | ARole.
(** Unset, or a name of that sort *)
Definition of_sort (sort_of : string -> sort) (k : sort) (v : any) : Prop := v = ANil \/ exists s, v = AStr s /\ sort_of s = k.
(** Every column of the row holds a name of its own sort. *)
Definition well_named (sort_of : string -> sort) (d : data) : Prop :=
  of_sort sort_of ATenant (tenant d) /\ of_sort sort_of ANamespace (namespace d) /\ of_sort sort_of AScope (scope d)
  /\ of_sort sort_of APrincipal (principal d) /\ of_sort sort_of ARole (role d) /\ (manage d = ANil \/ exists b, manage d = ABool b).
(** The call uses names for nothing but things of their sort. *)
Definition names_kept (sort_of : string -> sort) (x : op) : Prop :=
  match x with
  | ONewRole id => sort_of id = ARole
  | ONewTenant id => sort_of id = ATenant
  | OAddData d => well_named sort_of d
  | OTenantAddNamespaces _ ns => Forall (fun n => sort_of n = ANamespace) ns
  | OTenantAddScopesToNamespace _ n s => sort_of n = ANamespace /\ sort_of s = AScope
  | OTenantSetDefault _ n => sort_of n = ANamespace
  | OTenantAddPrincipalInNamespace _ p n r => sort_of p = APrincipal /\ sort_of n = ANamespace /\ sort_of r = ARole
  | OTenantAddScopes _ ss => Forall (fun s => sort_of s = AScope) ss
  | OTenantAddPrincipal _ p _ rs => sort_of p = APrincipal /\ Forall (fun r => sort_of r = ARole) rs
  | OTenantAssignScopes _ p _ ss => sort_of p = APrincipal /\ Forall (fun s => sort_of s = AScope) ss
  | _ => True
  end.
(** A program that keeps names apart: there is a way to tell the sort of a name that all its calls agree with. *)
Definition keeps_names_apart (ops : list op) : Prop := exists sort_of, Forall (names_kept sort_of) ops.

(** ** The set-up of examples/main.go *)
(** The call [x] was made and returned [r]. *)
Definition made (ops : list op) (outs : list out) (x : op) (r : out) : Prop := (x, r) ∈ zip ops outs.
Definition called (st : state) (t : nat) (id : string) : Prop := t_id <$> s_tenants st !! t = Some id.
(** [p] was given the role [r] in the tenant [id]. *)
Definition given_role (ops : list op) (outs : list out) (st : state) (p r id : string) : Prop :=
  exists t md rs, called st t id /\ made ops outs (OTenantAddPrincipal t p md rs) (RErr None) /\ r ∈ rs.
(** The role [r] was given a permission of the group [g] that is, or accepts, [act]. *)
Definition given_permission (ops : list op) (outs : list out) (r g act : string) : Prop :=
  exists attrs a, made ops outs (OAddPermissionsToRole r g attrs) (RErr None) /\ a ∈ attrs /\ (attr_string a = act \/ StrMatches (attr_string a) act).
(** The tenant [id] was given the namespace [n]. *)
Definition given_namespace (ops : list op) (st : state) (id n : string) : Prop :=
  exists t ns, called st t id /\ OTenantAddNamespaces t ns ∈ ops /\ n ∈ ns.
(** The tenant [id] was given the scope [s], for all of it or in the namespace [n]. *)
Definition given_scope (ops : list op) (st : state) (id n s : string) : Prop :=
  exists t, called st t id /\ (OTenantAddScopesToNamespace t n s ∈ ops \/ exists ss, OTenantAddScopes t ss ∈ ops /\ s ∈ ss).
(** A tenant of this id was given to AddTenant. *)
Definition added_tenant (ops : list op) (st : state) (id : string) : Prop := exists t, called st t id /\ OAddTenant t ∈ ops.
(** The things named in the request have been registered. *)
Definition known_things (ops : list op) (st : state) (q : opts) : Prop :=
  (o_tenant q = ANil \/ exists t, o_tenant q = AStr t /\ added_tenant ops st t)
  /\ (o_namespace q = ANil \/ exists n, o_namespace q = AStr n /\ OAddNamespace n ∈ ops)
  /\ (o_scope q = ANil \/ exists s, o_scope q = AStr s /\ OAddScope s ∈ ops).
(** What the request names besides the tenant has been made part of the tenant [id]. *)
Definition part_of (ops : list op) (st : state) (id : string) (q : opts) : Prop :=
  match shape_of q with
  | FT => True
  | FTN => exists n, o_namespace q = AStr n /\ given_namespace ops st id n
  | FTS => exists n s, o_scope q = AStr s /\ given_scope ops st id n s
  | FTNS | FNS => exists n s, o_namespace q = AStr n /\ o_scope q = AStr s /\ given_scope ops st id n s
  | FNone => False
  end.
