(** Specification vocabulary for package v1. *)
From Verif Require Export V1Model RoleSpec.

(** ** Stored assignments *)

(** No underscore in the identifier. *)
Definition clean (s : string) : Prop := ch_under ∉ bytes s.
Fixpoint join_under (ps : list string) : string :=
  match ps with
  | [] => ""
  | [p] => p
  | p :: ps' => under p (join_under ps')
  end.
(** The stored string [s] is read as the assignment [a]: [s] is a list of underscore-free
    fields joined by underscores, and the first six of them are those of [a]. *)
Definition reads_as (s : string) (a : trow) : Prop :=
  exists m rest,
    Forall clean (tp_principal a :: tp_role a :: tp_tenant a :: tp_ns a :: tp_scope a :: m :: rest)
    /\ s = join_under (tp_principal a :: tp_role a :: tp_tenant a :: tp_ns a :: tp_scope a :: m :: rest)
    /\ (tp_manage a = true <-> m = "true").
(** The five identifiers of an assignment are underscore-free. *)
Definition clean_row (a : trow) : Prop :=
  clean (tp_principal a) /\ clean (tp_role a) /\ clean (tp_tenant a) /\ clean (tp_ns a) /\ clean (tp_scope a).
(** The manager's store contains an assignment that reads as [a]. *)
Definition assigned (st : ustate) (a : trow) : Prop := exists s, s ∈ u_rows st /\ reads_as s a.
(** ... of principal [p] in tenant [t]. *)
Definition member (st : ustate) (p t : string) (a : trow) : Prop :=
  assigned st a /\ tp_principal a = p /\ tp_tenant a = t.

(** ** Tenants *)
(** [c] is the tenant registered under [t]. *)
Definition utenant_is (st : ustate) (t : string) (c : utenant) : Prop :=
  exists l, u_reg st !! t = Some l /\ u_tenants st !! l = Some c.
(** Tenant [c] has a namespace [n], which is the object [m]. *)
Definition has_namespace (st : ustate) (c : utenant) (n : string) (m : unamespace) : Prop :=
  exists l, ut_namespaces c !! n = Some l /\ u_nss st !! l = Some m.

(** ** What GetAllowedRoles computes for the assignments of principal [p] in tenant [t]
    (registered as [c]), namespace [n] and scope [s] *)

(** The namespace restricts roles. *)
Definition ns_restricts (st : ustate) (c : utenant) (n : string) : Prop :=
  exists m r, has_namespace st c n m /\ r ∈ un_roles m.
(** A role considered: the namespace's roles if it has any, otherwise the principal's roles for
    the whole tenant; and the principal's roles for exactly this namespace and scope. *)
Definition candidate (st : ustate) (c : utenant) (p t n s r : string) : Prop :=
  (exists m, has_namespace st c n m /\ r ∈ un_roles m)
  \/ (~ ns_restricts st c n /\ exists a, member st p t a /\ tp_ns a = "" /\ tp_scope a = "" /\ tp_role a = r)
  \/ (n <> "" /\ s <> "" /\ exists a, member st p t a /\ tp_ns a = n /\ tp_scope a = s /\ tp_role a = r).
(** The namespace and the scope, if given, are the tenant's. *)
Definition place_exists (st : ustate) (c : utenant) (n s : string) : Prop :=
  (n <> "" -> exists m, has_namespace st c n m) /\ (s <> "" -> s ∈ ut_scopes c).
(** The namespace and scope are open to the principal. *)
Definition place_open (st : ustate) (c : utenant) (p t n s : string) : Prop :=
  place_exists st c n s
  /\ ((s <> "" /\ exists a, member st p t a /\ tp_scope a = s)
      \/ exists a, member st p t a /\ tp_ns a = "" /\ tp_scope a = "")
  /\ (forall m s', has_namespace st c n m -> s' ∈ un_scopes m -> s ∈ un_scopes m)
  /\ (forall r, candidate st c p t n s r -> r ∈ ut_roles c).
Definition allowed_role (st : ustate) (c : utenant) (p t n s r : string) : Prop :=
  place_open st c p t n s /\ candidate st c p t n s r.

(** The registered role [r] grants [act] on [grp], its descendants counting when [adm] admits
    them (or when nothing is admitted at all). *)
Definition role_grants (st : ustate) (r grp act : string) (adm : string -> Prop) : Prop :=
  exists l g, u_roles st !! r = Some l /\ owns (u_heap st) l grp g /\
    (offers g act \/
     exists d gd id, descends (u_heap st) l d /\ has_id (u_heap st) d id
       /\ ((forall x, ~ adm x) \/ adm id) /\ owns (u_heap st) d grp gd /\ offers gd act).

(** ** Invariant of reachable states *)
Record u_wf (st : ustate) : Prop := {
  uwf_heap : wf_heap (u_heap st);
  uwf_roles : forall k l, u_roles st !! k = Some l -> has_id (u_heap st) l k;
  uwf_groups : forall k l, u_groups st !! k = Some l -> exists g, h_groups (u_heap st) !! l = Some g /\ g_id g = k;
  uwf_reg : forall k l, u_reg st !! k = Some l -> exists c, u_tenants st !! l = Some c /\ ut_id c = k;
  uwf_regns : forall k l, u_regns st !! k = Some l -> exists n, u_nss st !! l = Some n /\ un_id n = k;
  uwf_ns : forall t c k l, u_tenants st !! t = Some c -> ut_namespaces c !! k = Some l ->
    exists n, u_nss st !! l = Some n /\ un_id n = k;
  uwf_default : forall t c l, u_tenants st !! t = Some c -> ut_default c = Some l -> is_Some (u_nss st !! l);
  uwf_desc : forall t c k l, u_tenants st !! t = Some c -> ut_desc c !! k = Some l ->
    exists d, u_tenants st !! l = Some d /\ ut_id d = k;
  uwf_rows : forall s : string, s ∈ u_rows st -> exists a, s = row_string a
}.

(** Registered with AddPrincipal. *)
Definition known (st : ustate) (p : string) : Prop := p ∈ u_principals st.

(** ** What Authorize decides with a group or an activity *)

(** A request that names a tenant (or nothing): namespace and scope must be the tenant's, and a
    role assigned to the principal anywhere in the tenant must grant the activity. *)
Definition complex_grants (st : ustate) (p t n s grp act : string) : Prop :=
  exists c, utenant_is st t c /\ place_exists st c n s
    /\ exists a, member st p t a /\ role_grants st (tp_role a) grp act (allowed_role st c p t n s).
Definition complex_of (q : uopts) (st : ustate) (p : string) : Prop :=
  complex_grants st p (to_string (uo_tenant q)) (to_string (uo_namespace q)) (to_string (uo_scope q))
    (to_string (uo_group q)) (to_string (uo_activity q)).
(** Roles allowed for the principal in some tenant as a whole. *)
Definition somewhere_allowed (st : ustate) (p r : string) : Prop :=
  exists t c a, member st p t a /\ utenant_is st t c /\ allowed_role st c p t "" "" r.
(** A request with only an activity: some role allowed somewhere grants it on the group "". *)
Definition activity_grants (st : ustate) (p act : string) : Prop :=
  exists r, somewhere_allowed st p r /\ role_grants st r "" act (somewhere_allowed st p).
(** An assignment of [p] in a tenant that is not registered. *)
Definition stray (st : ustate) (p : string) (a : trow) : Prop :=
  assigned st a /\ tp_principal a = p /\ u_reg st !! tp_tenant a = None.
(** Has does not run forever on the registered role [r]. *)
Definition terminating (st : ustate) (r grp act : string) : Prop :=
  forall l, u_roles st !! r = Some l -> ~ cyclic_from (u_heap st) l
    /\ forall d g, rtc (role_edge (u_heap st)) l d -> owns (u_heap st) d grp g -> ~ stalls g act.

(** The option combinations Authorize treats by authorizeComplex. *)
Definition complex_request (q : uopts) : Prop :=
  (uo_group q <> ANil)
  \/ (uo_activity q <> ANil /\ (uo_tenant q <> ANil \/ uo_namespace q <> ANil \/ uo_scope q <> ANil))
  \/ (uo_activity q = ANil /\ uo_tenant q = ANil /\ uo_namespace q = ANil /\ uo_scope q = ANil).

(** ** Effects of the writers *)

(** Writing [x] makes [b] readable. *)
Definition read_back (x b : trow) : Prop := reads_as (row_string x) b.
(** [st'] differs from [st] only in its assignments, and those are the old ones and the [X]. *)
Definition adds (st : ustate) (X : trow -> Prop) (st' : ustate) : Prop :=
  st' = uw_rows st (u_rows st') /\
  forall s : string, s ∈ u_rows st' <-> s ∈ u_rows st \/ exists x, X x /\ s = row_string x.
(** The assignment AddPrincipalRole is asked to store. *)
Definition row_for (st : ustate) (p r : string) (t : nat) (ns : option nat) (s : option string) (m : list bool)
    (x : trow) : Prop :=
  exists c n, u_tenants st !! t = Some c
    /\ match ns with None => n = "" | Some l => exists o, u_nss st !! l = Some o /\ n = un_id o end
    /\ x = TRow p r (ut_id c) n (default "" s) (match m with [] => true | b :: _ => b end).
(** The call returns a list with exactly the elements satisfying [P], in any order and number. *)
Definition gives {A} (x : res (list A)) (P : A -> Prop) : Prop := exists l, x = Ok l /\ forall a, a ∈ l <-> P a.
(** The namespace a writer may use besides none: the tenant's default one. *)
Definition in_default (st : ustate) (c : utenant) (n : string) : Prop :=
  n = "" \/ exists l m, ut_default c = Some l /\ u_nss st !! l = Some m /\ n = un_id m.
