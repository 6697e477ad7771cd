(** What package v1 should decide, told from the calls a program has made (not from any state). *)
From Verif Require Export CallsSpec V1Model MatchSpec.

(** The calls made, each with what it returned, the latest first *)
Definition log : Type := list (uop * uout).
Definition called (h : log) (x : uop) : Prop := x ∈ h.*1.
(** ** Objects: the pointer a constructor returned *)
Definition tenant_named (h : log) (t : nat) (id : string) : Prop := (UNewTenant id, YLoc t) ∈ h.
Definition namespace_named (h : log) (l : nat) (id : string) : Prop := (UNewNamespace id, YLoc l) ∈ h.
Definition role_named (h : log) (l : nat) (id : string) : Prop := (UNewRole id, YLoc l) ∈ h.
Definition group_named (h : log) (gl : nat) (id : string) : Prop := (UNewGroup id, YLoc gl) ∈ h.

(** ** The manager: the first object registered under an id *)
Definition tenant_at (h : log) (id : string) : nat -> Prop := first_of (fun h e t => e.1 = UAddTenant t /\ tenant_named h t id) h.
Definition role_at (h : log) (id : string) : nat -> Prop := first_of (fun h e l => e.1 = UAddRole l /\ role_named h l id) h.

(** ** Tenants and namespaces *)
Definition ns_in (h : log) (t : nat) (n : string) : nat -> Prop :=
  first_of (fun h e l => exists ls, e.1 = UTAddNamespace t ls /\ first_in (fun l' => namespace_named h l' n) ls l) h.
Definition role_in (h : log) (t : nat) (r : string) : Prop := ever (fun h e => exists ls l, e.1 = UTAddRole t ls /\ l ∈ ls /\ role_named h l r) h.
Definition scope_in (h : log) (t : nat) (s : string) : Prop := exists ss, called h (UTAddScopes t ss) /\ s ∈ ss.
(** The default namespace: the last one chosen that the tenant had *)
Definition default_of (h : log) (t : nat) : nat -> Prop := last_of (fun h e l => exists n, e.1 = UTSetDefault t n /\ ns_in h t n l) h.
(** The namespace [l] was given the scope: itself, as the default one of a tenant, or through the tenant. *)
Definition ns_scope (h : log) (l : nat) (s : string) : Prop :=
  ever (fun h e => match e.1 with
    | UNAddScopes l' ss => l' = l /\ s ∈ ss
    | UTAddScopes t ss => default_of h t l /\ s ∈ ss
    | UTAddScopesToNamespace t n ss => ns_in h t n l /\ reached (scope_in h t) ss s
    | _ => False
    end) h.
Definition ns_role (h : log) (l : nat) (r : string) : Prop :=
  ever (fun h e => match e.1 with
    | UNAddRoles l' ls => l' = l /\ exists x, x ∈ ls /\ role_named h x r
    | UTAddRolesToNamespace t n rs => ns_in h t n l /\ reached (role_in h t) rs r
    | _ => False
    end) h.

(** ** Roles *)
(** The descendant of the id [id] that the role [l] accepted first *)
Definition sub_named (h : log) (l : nat) (id : string) : nat -> Prop :=
  first_of (fun h e d => exists ds, e = (URoleAddDescendent l ds, YErr None) /\ first_in (fun d' => role_named h d' id) ds d) h.
Definition sub_role (h : log) (l d : nat) : Prop := exists id, sub_named h l id d.
(** The attributes were accepted for the role [l], under the group [grp]. *)
Definition accepts (h : log) (e : uop * uout) (l : nat) (grp : string) (attrs : list attr) : Prop :=
  e = (URoleAddPermission l grp attrs, YErr None)
  \/ exists r, e = (UAddPermissionsToRole r grp attrs, YErr None) /\ role_at h r l.
(** Where a role keeps the permissions of a group: by itself, or in a group handed to it *)
Inductive store : Type := Own | Handed (gl : nat).
Definition store_of (h : log) (l : nat) (grp : string) : store -> Prop :=
  first_of (fun h e w => (w = Own /\ exists attrs, accepts h e l grp attrs)
    \/ exists gl, w = Handed gl /\ e = (URoleAddGroup l gl, YErr None) /\ group_named h gl grp) h.
Definition given (h : log) (l : nat) (grp : string) (a : attr) : Prop :=
  ever (fun h e => exists attrs, accepts h e l grp attrs /\ a ∈ attrs) h.
(** A group handed out gets what it is given itself and what the roles keeping it are given. *)
Definition handed (h : log) (gl : nat) (a : attr) : Prop :=
  (exists attrs, called h (UGroupAdd gl attrs) /\ a ∈ attrs)
  \/ exists l grp, store_of h l grp (Handed gl) /\ given h l grp a.
Definition role_attr (h : log) (l : nat) (grp : string) (a : attr) : Prop :=
  store_of h l grp Own /\ given h l grp a \/ exists gl, store_of h l grp (Handed gl) /\ handed h gl a.
Definition role_offers (h : log) (l : nat) (grp act : string) : Prop :=
  exists a, role_attr h l grp a /\ (attr_string a = act \/ StrMatches (attr_string a) act).
(** The role registered as [r] allows [act] on [grp]; descendants count if [adm] admits them, or nothing is admitted. *)
Definition role_allows (h : log) (r grp act : string) (adm : string -> Prop) : Prop :=
  exists l, role_at h r l /\ (exists w, store_of h l grp w) /\
    (role_offers h l grp act
     \/ exists d id, tc (sub_role h) l d /\ role_named h d id /\ ((forall x, ~ adm x) \/ adm id) /\ role_offers h d grp act).

(** ** Assignments *)
(** No namespace, and the default one *)
Definition here (h : log) (t : nat) (n : string) : Prop := n = "" \/ exists l, default_of h t l /\ namespace_named h l n.
Definition manage_flag (m : list bool) : bool := match m with [] => true | b :: _ => b end.
(** What the call [x], made after [h], assigns, [before] being what was assigned before *)
Definition assigns (before : trow -> Prop) (h : log) (x : uop) (row : trow) : Prop :=
  match x with
  | UAddPrincipalRole p r t ns s m =>
      exists id n, tenant_named h t id /\ match ns with None => n = "" | Some l => namespace_named h l n end
        /\ row = TRow p r id n (default "" s) (manage_flag m)
  | UTAddScopesToNamespace t n ss =>
      exists id l s, tenant_named h t id /\ ns_in h t n l /\ reached (scope_in h t) ss s /\ row = TRow "" "" id n s true
  | UTAddPrincipal t p rs =>
      exists id r n, tenant_named h t id /\ r ∈ rs /\ role_in h t r /\ here h t n /\ row = TRow p r id n "" true
  | UTAddPrincipalInNamespace t p n rs =>
      exists id l r, tenant_named h t id /\ ns_in h t n l /\ row = TRow p r id n "" true
        /\ (r ∈ rs /\ role_in h t r
            \/ rs = [] /\ (r = "" \/ exists b, before b /\ tp_principal b = p /\ tp_tenant b = id /\ tp_ns b <> "" /\ tp_ns b <> n /\ tp_role b = r))
  | UTAssignScopes t p ss =>
      exists id s b, tenant_named h t id /\ s ∈ ss /\ scope_in h t s /\ before b /\ tp_principal b = p /\ tp_tenant b = id
        /\ (row = TRow p "" id "" s true \/ exists n, here h t n /\ row = TRow p (tp_role b) id n s true)
  | UTAssignScopesWithRole t p r ss =>
      exists id s b n, tenant_named h t id /\ s ∈ ss /\ scope_in h t s /\ role_in h t r /\ before b /\ tp_principal b = p /\ tp_tenant b = id
        /\ here h t n /\ row = TRow p r id n s true
  | _ => False
  end.
Fixpoint row_made (h : log) (row : trow) : Prop :=
  match h with [] => False | e :: h' => row_made h' row \/ assigns (row_made h') h' e.1 row end.
Definition has_row (h : log) (p r id n s : string) : Prop := exists m, row_made h (TRow p r id n s m).

(** ** Decisions *)
(** The roles to consider for [p] in the tenant [t] of the id [id], namespace [n] and scope [s] *)
Definition restricts (h : log) (t : nat) (n : string) : Prop := exists l r, ns_in h t n l /\ ns_role h l r.
Definition considered (h : log) (t : nat) (id p n s r : string) : Prop :=
  (exists l, ns_in h t n l /\ ns_role h l r)
  \/ ~ restricts h t n /\ has_row h p r id "" ""
  \/ n <> "" /\ s <> "" /\ has_row h p r id n s.
Definition place_known (h : log) (t : nat) (n s : string) : Prop :=
  (n <> "" -> exists l, ns_in h t n l) /\ (s <> "" -> scope_in h t s).
Definition place_free (h : log) (t : nat) (id p n s : string) : Prop :=
  place_known h t n s
  /\ (s <> "" /\ (exists r n', has_row h p r id n' s) \/ exists r, has_row h p r id "" "")
  /\ (forall l s', ns_in h t n l -> ns_scope h l s' -> ns_scope h l s)
  /\ (forall r, considered h t id p n s r -> role_in h t r).
Definition usable (h : log) (t : nat) (id p n s r : string) : Prop := place_free h t id p n s /\ considered h t id p n s r.
(** With a group, or an activity and a place: a role assigned anywhere in the tenant allows it. *)
Definition allowed_in (h : log) (p id n s grp act : string) : Prop :=
  exists t, tenant_at h id t /\ place_known h t n s
    /\ exists r n' s', has_row h p r id n' s' /\ role_allows h r grp act (usable h t id p n s).
(** With an activity alone: a role usable in some tenant as a whole allows it on the group "". *)
Definition anywhere (h : log) (p r : string) : Prop :=
  exists id t r' n s, has_row h p r' id n s /\ tenant_at h id t /\ usable h t id p "" "" r.
Definition allowed_anywhere (h : log) (p act : string) : Prop :=
  exists r, anywhere h p r /\ role_allows h r "" act (anywhere h p).
Definition asked (a : any) : bool := match a with ANil => false | _ => true end.
Definition granted (h : log) (p : string) (q : uopts) : Prop :=
  let id := to_string (uo_tenant q) in
  let n := to_string (uo_namespace q) in
  let s := to_string (uo_scope q) in
  called h (UAddPrincipal p) /\
  match asked (uo_tenant q), asked (uo_namespace q), asked (uo_scope q), asked (uo_group q), asked (uo_activity q) with
  | true, false, false, false, false => exists t, tenant_at h id t
  | false, true, false, false, false => exists r id n' s' t l, has_row h p r id n' s' /\ tenant_at h id t /\ ns_in h t n l
  | false, false, true, false, false => exists r id n' t, has_row h p r id n' s /\ tenant_at h id t /\ scope_in h t s
  | true, true, false, false, false => exists r s', has_row h p r id n s'
  | true, false, true, false, false => exists r n', has_row h p r id n' s
  | false, true, true, false, false => exists r id, has_row h p r id n s
  | true, true, true, false, false => exists p' r, has_row h p' r id n s
  | false, false, false, false, true => allowed_anywhere h p (to_string (uo_activity q))
  | _, _, _, _, _ => allowed_in h p id n s (to_string (uo_group q)) (to_string (uo_activity q))
  end.

(** An activity alone was asked for, and the caller has something assigned in a tenant that was never registered. *)
Definition lost (h : log) (p : string) (q : uopts) : Prop :=
  called h (UAddPrincipal p) /\ q = UOpts ANil ANil ANil ANil (uo_activity q) /\ uo_activity q <> ANil
  /\ exists r id n s, has_row h p r id n s /\ forall t, ~ tenant_at h id t.

(** ** The programs: no underscores in ids, and only groups made by NewAttributeGroup are changed or handed out. *)
Definition no_under (s : string) : Prop := ch_under ∉ bytes s.
Definition plain_names (x : uop) : Prop :=
  match x with
  | UNewTenant id | UNewNamespace id | UNewRole id => no_under id
  | UTAddScopes _ ss => Forall no_under ss
  | UAddPrincipalRole p r _ _ s _ => no_under p /\ no_under r /\ no_under (default "" s)
  | UTAddPrincipal _ p _ | UTAddPrincipalInNamespace _ p _ _ | UTAssignScopes _ p _ | UTAssignScopesWithRole _ p _ _ => no_under p
  | _ => True
  end.
Definition groups_made (h : log) : Prop :=
  always (fun h e => match e.1 with UGroupAdd gl _ | URoleAddGroup _ gl => exists id, group_named h gl id | _ => True end) h.
Definition log_of (ops : list uop) (outs : list uout) : log := reverse (zip ops outs).
