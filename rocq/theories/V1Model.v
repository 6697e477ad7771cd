(** Model of package v1: v1/role_manager.go, v1/tenant.go, v1/permission.go, v1/options.go.
    v1/role.go is modelled by RoleModel (same code as role.go).

    Simplifications: scopes and principals have only an id, and the values of the role maps of
    tenants and namespaces are never looked at except for their id, which is the key; so these
    maps are sets of ids.  One manager.  Registered pointers are never nil because AddTenant and
    AddRole read the id first.  After a panic the history ends.  The slices GetAllowedRoles takes
    from pools are modelled in V1Slice. *)
From Verif Require Export RoleModel.

(** v1/role_manager.go:24-31 TenantPrincipal *)
Record trow : Type := TRow {
  tp_principal : string;
  tp_role : string;
  tp_tenant : string;
  tp_ns : string;
  tp_scope : string;
  tp_manage : bool
}.
Global Instance trow_eq_dec : EqDecision trow.
Proof. solve_decision. Defined.

(** ** Assignments are stored as strings *)
Definition bool_word (b : bool) : string := if b then "true" else "false".
Definition under (a b : string) : string := String.append a (String.append "_" b).
(** v1/role_manager.go:295: fmt.Sprintf("%s_%s_%s_%s_%s_%v", ...) *)
Definition row_string (a : trow) : string :=
  under (tp_principal a) (under (tp_role a) (under (tp_tenant a)
    (under (tp_ns a) (under (tp_scope a) (bool_word (tp_manage a)))))).
Definition ch_under : ascii := "_"%char.
(** strings.Split(s, "_") of the Go library *)
Fixpoint split_under (s : list ascii) : list (list ascii) :=
  match s with
  | [] => [[]]
  | c :: s' => if decide (c = ch_under) then [] :: split_under s'
               else match split_under s' with
                    | p :: ps => (c :: p) :: ps
                    | [] => [[c]]
                    end
  end.
(** v1/role_manager.go:274-288 getTenantPrincipals; parts[5] of a shorter slice panics *)
Definition row_parse (hash : string) : res trow :=
  match of_bytes <$> split_under (bytes hash) with
  | p0 :: p1 :: p2 :: p3 :: p4 :: p5 :: _ => Ok (TRow p0 p1 p2 p3 p4 (bool_decide (p5 = "true")))
  | _ => Panic
  end.

(** ** State *)

(** v1/tenant.go:185-189 Namespace *)
Record unamespace : Type := UNamespace { un_id : string; un_roles : gset string; un_scopes : gset string }.
(** v1/tenant.go:7-15 Tenant; [ut_managed]: the manager field is not nil *)
Record utenant : Type := UTenant {
  ut_id : string;
  ut_namespaces : gmap string nat;
  ut_roles : gset string;
  ut_scopes : gset string;
  ut_desc : gmap string nat;
  ut_default : option nat;
  ut_managed : bool
}.
(** v1/role_manager.go:33-42 RoleManager, with all objects that exist *)
Record ustate : Type := UState {
  u_heap : rheap;                 (* roles and attribute groups *)
  u_tenants : list utenant;
  u_nss : list unamespace;
  u_reg : gmap string nat;        (* u.tenants *)
  u_regns : gmap string nat;      (* u.namespaces *)
  u_regscopes : gset string;
  u_principals : gset string;
  u_roles : gmap string nat;
  u_attrs : gmap string attr;
  u_groups : gmap string nat;
  u_rows : gset string            (* u.tenantPrincipals *)
}.
(** v1/role_manager.go:44-55 New *)
Definition u_init : ustate := UState (RHeap [] []) [] [] ∅ ∅ ∅ ∅ ∅ ∅ ∅ ∅.

Definition uw_heap (st : ustate) (h : rheap) : ustate :=
  UState h (u_tenants st) (u_nss st) (u_reg st) (u_regns st) (u_regscopes st) (u_principals st)
    (u_roles st) (u_attrs st) (u_groups st) (u_rows st).
Definition uw_tenants (st : ustate) (ts : list utenant) : ustate :=
  UState (u_heap st) ts (u_nss st) (u_reg st) (u_regns st) (u_regscopes st) (u_principals st)
    (u_roles st) (u_attrs st) (u_groups st) (u_rows st).
Definition uw_nss (st : ustate) (ns : list unamespace) : ustate :=
  UState (u_heap st) (u_tenants st) ns (u_reg st) (u_regns st) (u_regscopes st) (u_principals st)
    (u_roles st) (u_attrs st) (u_groups st) (u_rows st).
Definition uw_reg (st : ustate) (m : gmap string nat) : ustate :=
  UState (u_heap st) (u_tenants st) (u_nss st) m (u_regns st) (u_regscopes st) (u_principals st)
    (u_roles st) (u_attrs st) (u_groups st) (u_rows st).
Definition uw_regns (st : ustate) (m : gmap string nat) : ustate :=
  UState (u_heap st) (u_tenants st) (u_nss st) (u_reg st) m (u_regscopes st) (u_principals st)
    (u_roles st) (u_attrs st) (u_groups st) (u_rows st).
Definition uw_regscopes (st : ustate) (s : gset string) : ustate :=
  UState (u_heap st) (u_tenants st) (u_nss st) (u_reg st) (u_regns st) s (u_principals st)
    (u_roles st) (u_attrs st) (u_groups st) (u_rows st).
Definition uw_principals (st : ustate) (s : gset string) : ustate :=
  UState (u_heap st) (u_tenants st) (u_nss st) (u_reg st) (u_regns st) (u_regscopes st) s
    (u_roles st) (u_attrs st) (u_groups st) (u_rows st).
Definition uw_roles (st : ustate) (m : gmap string nat) : ustate :=
  UState (u_heap st) (u_tenants st) (u_nss st) (u_reg st) (u_regns st) (u_regscopes st) (u_principals st)
    m (u_attrs st) (u_groups st) (u_rows st).
Definition uw_attrs (st : ustate) (m : gmap string attr) : ustate :=
  UState (u_heap st) (u_tenants st) (u_nss st) (u_reg st) (u_regns st) (u_regscopes st) (u_principals st)
    (u_roles st) m (u_groups st) (u_rows st).
Definition uw_groups (st : ustate) (m : gmap string nat) : ustate :=
  UState (u_heap st) (u_tenants st) (u_nss st) (u_reg st) (u_regns st) (u_regscopes st) (u_principals st)
    (u_roles st) (u_attrs st) m (u_rows st).
Definition uw_rows (st : ustate) (s : gset string) : ustate :=
  UState (u_heap st) (u_tenants st) (u_nss st) (u_reg st) (u_regns st) (u_regscopes st) (u_principals st)
    (u_roles st) (u_attrs st) (u_groups st) s.

(** ** Constructors and registration *)

(** v1/permission.go:7-15 NewTenant, 16-22 NewNamespace *)
Definition u_new_tenant (st : ustate) (id : string) : ustate * nat :=
  (uw_tenants st (u_tenants st ++ [UTenant id ∅ ∅ ∅ ∅ None false]), length (u_tenants st)).
Definition u_new_namespace (st : ustate) (id : string) : ustate * nat :=
  (uw_nss st (u_nss st ++ [UNamespace id ∅ ∅]), length (u_nss st)).
(** v1/role_manager.go:155-162 AddTenant: returns the tenant registered under the id *)
Definition u_add_tenant (st : ustate) (t : nat) : res (ustate * nat) :=
  match u_tenants st !! t with
  | None => Panic
  | Some c =>
      let st := uw_tenants st (<[t := UTenant (ut_id c) (ut_namespaces c) (ut_roles c) (ut_scopes c)
                                        (ut_desc c) (ut_default c) true]> (u_tenants st)) in
      match u_reg st !! ut_id c with
      | Some t' => Ok (st, t')
      | None => Ok (uw_reg st (<[ut_id c := t]> (u_reg st)), t)
      end
  end.
(** v1/role_manager.go:182-188 AddNamespace *)
Definition u_add_namespace (st : ustate) (n : nat) : res (ustate * nat) :=
  match u_nss st !! n with
  | None => Panic
  | Some c => match u_regns st !! un_id c with
              | Some n' => Ok (st, n')
              | None => Ok (uw_regns st (<[un_id c := n]> (u_regns st)), n)
              end
  end.
(** v1/role_manager.go:129-135 AddRole *)
Definition u_add_role (st : ustate) (l : nat) : res (ustate * nat) :=
  match h_roles (u_heap st) !! l with
  | None => Panic
  | Some r => match u_roles st !! r_id r with
              | Some l' => Ok (st, l')
              | None => Ok (uw_roles st (<[r_id r := l]> (u_roles st)), l)
              end
  end.
(** v1/role_manager.go:79-85 AddAttributeGroup *)
Definition u_add_group (st : ustate) (gl : nat) : res (ustate * nat) :=
  match h_groups (u_heap st) !! gl with
  | None => Panic
  | Some g => match u_groups st !! g_id g with
              | Some gl' => Ok (st, gl')
              | None => Ok (uw_groups st (<[g_id g := gl]> (u_groups st)), gl)
              end
  end.
(** v1/role_manager.go:57-63 AddAttribute *)
Definition u_add_attribute (st : ustate) (a : attr) : ustate * attr :=
  match u_attrs st !! attr_string a with
  | Some a' => (st, a')
  | None => (uw_attrs st (<[attr_string a := a]> (u_attrs st)), a)
  end.

(** v1/role_manager.go:392-396 *)
Fixpoint u_check_attrs (g : group) (gid : string) (attrs : list attr) : goerr :=
  match attrs with
  | [] => None
  | a :: attrs' => match g_perms g !! attr_string a with
                   | None => Some ("attribute '" ++ attr_string a ++ "' not associated to the group '" ++ gid ++ "'")%string
                   | Some _ => u_check_attrs g gid attrs'
                   end
  end.
(** v1/role_manager.go:383-398 AddPermissionsToRole *)
Definition u_add_permissions_to_role (st : ustate) (role grp : string) (attrs : list attr) : res (ustate * goerr) :=
  match u_roles st !! role with
  | None => Ok (st, Some "no role available")
  | Some l =>
      match u_groups st !! grp with
      | None => Ok (st, Some "no attribute group available")
      | Some gl =>
          match h_groups (u_heap st) !! gl with
          | None => Panic
          | Some g =>
              match u_check_attrs g grp attrs with
              | Some e => Ok (st, Some e)
              | None => let! he := role_add_permission (u_heap st) l grp attrs in Ok (uw_heap st he.1, he.2)
              end
          end
      end
  end.

(** ** Writing assignments *)

(** v1/role_manager.go:290-299 AddPrincipalRole; a namespace or scope that is nil is [None] *)
Definition u_add_principal_role (st : ustate) (principal role : string) (t : nat) (ns : option nat)
    (scope : option string) (manage : list bool) : res ustate :=
  let m := match manage with [] => true | b :: _ => b end in
  match u_tenants st !! t with
  | None => Panic
  | Some c =>
      let! n := match ns with
                | None => Ok ""
                | Some l => match u_nss st !! l with None => Panic | Some n => Ok (un_id n) end
                end in
      Ok (uw_rows st ({[row_string (TRow principal role (ut_id c) n (default "" scope) m)]} ∪ u_rows st))
  end.
(** v1/tenant.go:107-109 Tenant.AddPrincipalRole: panics without a manager *)
Definition ut_add_principal_role (st : ustate) (c : utenant) (principal role : string) (t : nat) (ns : option nat)
    (scope : option string) (manage : list bool) : res ustate :=
  if ut_managed c then u_add_principal_role st principal role t ns scope manage else Panic.

(** ** Tenants and namespaces *)
Definition u_set_tenant (st : ustate) (t : nat) (c : utenant) : ustate := uw_tenants st (<[t := c]> (u_tenants st)).
Definition u_set_ns (st : ustate) (l : nat) (n : unamespace) : ustate := uw_nss st (<[l := n]> (u_nss st)).
(** Runs [f] for every element (for loops without early exit). *)
Fixpoint u_each {A} (f : ustate -> A -> res ustate) (st : ustate) (xs : list A) : res ustate :=
  match xs with
  | [] => Ok st
  | x :: xs' => let! st' := f st x in u_each f st' xs'
  end.
(** The same with early return: [f] gives [None] to leave the loop. *)
Fixpoint u_while {A} (f : ustate -> A -> res (option ustate)) (st : ustate) (xs : list A) : res ustate :=
  match xs with
  | [] => Ok st
  | x :: xs' => let! r := f st x in
                match r with None => Ok st | Some st' => u_while f st' xs' end
  end.
(** v1/tenant.go:32-39 AddDescendent *)
Definition ut_add_descendent (st : ustate) (t : nat) (ds : list nat) : res ustate :=
  u_each (fun st d =>
    match u_tenants st !! t, u_tenants st !! d with
    | Some c, Some dc =>
        match ut_desc c !! ut_id dc with
        | Some _ => Ok st
        | None => Ok (u_set_tenant st t (UTenant (ut_id c) (ut_namespaces c) (ut_roles c) (ut_scopes c)
                        (<[ut_id dc := d]> (ut_desc c)) (ut_default c) (ut_managed c)))
        end
    | _, _ => Panic
    end) st ds.
(** v1/tenant.go:41-45 SetDefaultNamespace *)
Definition ut_set_default (st : ustate) (t : nat) (ns : string) : res ustate :=
  match u_tenants st !! t with
  | None => Panic
  | Some c => match ut_namespaces c !! ns with
              | None => Ok st
              | Some l => Ok (u_set_tenant st t (UTenant (ut_id c) (ut_namespaces c) (ut_roles c) (ut_scopes c)
                                (ut_desc c) (Some l) (ut_managed c)))
              end
  end.
(** v1/tenant.go:47-53 AddNamespace *)
Definition ut_add_namespace (st : ustate) (t : nat) (ns : list nat) : res ustate :=
  u_each (fun st l =>
    match u_tenants st !! t, u_nss st !! l with
    | Some c, Some n =>
        match ut_namespaces c !! un_id n with
        | Some _ => Ok st
        | None => Ok (u_set_tenant st t (UTenant (ut_id c) (<[un_id n := l]> (ut_namespaces c)) (ut_roles c)
                        (ut_scopes c) (ut_desc c) (ut_default c) (ut_managed c)))
        end
    | _, _ => Panic
    end) st ns.
(** v1/tenant.go:55-61 AddRole *)
Definition ut_add_role (st : ustate) (t : nat) (rs : list nat) : res ustate :=
  u_each (fun st l =>
    match u_tenants st !! t, h_roles (u_heap st) !! l with
    | Some c, Some r =>
        Ok (u_set_tenant st t (UTenant (ut_id c) (ut_namespaces c) ({[r_id r]} ∪ ut_roles c)
              (ut_scopes c) (ut_desc c) (ut_default c) (ut_managed c)))
    | _, _ => Panic
    end) st rs.
Definition un_add_scope (st : ustate) (l : nat) (s : string) : res ustate :=
  match u_nss st !! l with
  | None => Panic
  | Some n => Ok (u_set_ns st l (UNamespace (un_id n) (un_roles n) ({[s]} ∪ un_scopes n)))
  end.
Definition un_add_role (st : ustate) (l : nat) (r : string) : res ustate :=
  match u_nss st !! l with
  | None => Panic
  | Some n => Ok (u_set_ns st l (UNamespace (un_id n) ({[r]} ∪ un_roles n) (un_scopes n)))
  end.
(** v1/tenant.go:63-74 AddScopes: also into the default namespace *)
Definition ut_add_scopes (st : ustate) (t : nat) (ss : list string) : res ustate :=
  u_each (fun st s =>
    match u_tenants st !! t with
    | None => Panic
    | Some c =>
        let st := u_set_tenant st t (UTenant (ut_id c) (ut_namespaces c) (ut_roles c) ({[s]} ∪ ut_scopes c)
                    (ut_desc c) (ut_default c) (ut_managed c)) in
        match ut_default c with None => Ok st | Some l => un_add_scope st l s end
    end) st ss.
(** v1/tenant.go:76-89 AddScopesToNamespace: stops at an unknown scope; records the link as an
    assignment of the principal "" *)
Definition ut_add_scopes_to_namespace (st : ustate) (t : nat) (ns : string) (ss : list string) : res ustate :=
  u_while (fun st s =>
    match u_tenants st !! t with
    | None => Panic
    | Some c =>
        if bool_decide (s ∈ ut_scopes c) then
          match ut_namespaces c !! ns with
          | None => Ok (Some st)
          | Some l => let! st1 := un_add_scope st l s in
                      let! st2 := ut_add_principal_role st1 c "" "" t (Some l) (Some s) [] in
                      Ok (Some st2)
          end
        else Ok None
    end) st ss.
(** v1/tenant.go:91-105 AddRolesToNamespace *)
Definition ut_add_roles_to_namespace (st : ustate) (t : nat) (ns : string) (rs : list string) : res ustate :=
  u_while (fun st r =>
    match u_tenants st !! t with
    | None => Panic
    | Some c =>
        if bool_decide (r ∈ ut_roles c) then
          match ut_namespaces c !! ns with
          | None => Ok None
          | Some l => let! st1 := un_add_role st l r in Ok (Some st1)
          end
        else Ok None
    end) st rs.
(** v1/tenant.go:111-120 AddPrincipal *)
Definition ut_add_principal (st : ustate) (t : nat) (p : string) (rs : list string) : res ustate :=
  u_each (fun st r =>
    match u_tenants st !! t with
    | None => Panic
    | Some c =>
        if bool_decide (r ∈ ut_roles c) then
          let! st1 := ut_add_principal_role st c p r t None None [] in
          match ut_default c with
          | None => Ok st1
          | Some l => ut_add_principal_role st1 c p r t (Some l) None []
          end
        else Ok st
    end) st rs.

(** ** Reading assignments *)
Fixpoint parse_rows (hs : list string) : res (list trow) :=
  match hs with
  | [] => Ok []
  | h :: hs' => let! a := row_parse h in let! rest := parse_rows hs' in Ok (a :: rest)
  end.
(** for tenantPrincipal := range u.tenantPrincipals { unmarshalled := getTenantPrincipals(...) *)
Definition read_rows (o : oracle) (st : ustate) : res (list trow) := parse_rows (ordered o (elements (u_rows st))).
(** v1/role_manager.go:301-310 GetTenantsForPrincipal *)
Definition get_tenants_for_principal (o : oracle) (st : ustate) (p : string) : res (list string) :=
  let! rs := read_rows o st in
  Ok (compact_adjacent (tp_tenant <$> filter (fun a => tp_principal a = p) rs)).
(** v1/role_manager.go:317-325 GetPrincipalRoles ([] is nil) *)
Definition get_principal_roles (o : oracle) (st : ustate) (t p : string) : res (list trow) :=
  let! rs := read_rows o st in Ok (filter (fun a => tp_principal a = p /\ tp_tenant a = t) rs).
(** v1/role_manager.go:327-335 GetTenantRoles and 373-381 GetPrincipalRolesByTenant *)
Definition get_tenant_roles (o : oracle) (st : ustate) (t : string) : res (list trow) :=
  let! rs := read_rows o st in Ok (filter (fun a => tp_tenant a = t) rs).
(** v1/role_manager.go:340-350: the direct descendants, every principal *)
Fixpoint implicit_rows (o : oracle) (i : nat) (st : ustate) (ids : list string) : res (list trow) :=
  match ids with
  | [] => Ok []
  | id :: ids' => let! rs := get_tenant_roles (sub o i) st id in
                  let! rest := implicit_rows o (S i) st ids' in Ok (rs ++ rest)
  end.
(** The tenant registered under an id *)
Definition u_tenant (st : ustate) (id : string) : option utenant := l ← u_reg st !! id; u_tenants st !! l.
(** v1/role_manager.go:337-353 GetImplicitPrincipalRoles *)
Definition get_implicit_principal_roles (o : oracle) (st : ustate) (t p : string) : res (list trow) :=
  let! own := get_principal_roles (sub o 0) st t p in
  match u_tenant st t with
  | None => Ok own
  | Some c => let! below := implicit_rows (sub o 1) 1 st (ordered (sub (sub o 1) 0) (map_to_list (ut_desc c)).*1) in
              Ok (own ++ below)
  end.
(** v1/role_manager.go:408-421 GetScopesForPrincipal; [None] is the error *)
Definition get_scopes_for_principal (o : oracle) (st : ustate) (p : string) : res (option (list string)) :=
  if bool_decide (p ∈ u_principals st) then
    let! rs := read_rows o st in
    Ok (Some (tp_scope <$> filter (fun a => tp_principal a = p /\ tp_scope a <> "") rs))
  else Ok None.
(** v1/role_manager.go:423-440 GetTenantScopesForPrincipal *)
Definition get_tenant_scopes_for_principal (o : oracle) (st : ustate) (t p : string) : res (option (list string)) :=
  if bool_decide (p ∈ u_principals st) then
    match u_reg st !! t with
    | None => Ok None
    | Some _ =>
        let! rs := read_rows o st in
        Ok (Some (tp_scope <$> filter (fun a => tp_principal a = p /\ tp_scope a <> "" /\ tp_tenant a = t) rs))
    end
  else Ok None.
(** v1/role_manager.go:355-371 GetPermissionsForPrincipal *)
Fixpoint permissions_of (o : oracle) (i : nat) (st : ustate) (rs : list trow) : res (list (trow * gmap string (list attr))) :=
  match rs with
  | [] => Ok []
  | a :: rs' =>
      if bool_decide (tp_role a = "") then permissions_of o (S i) st rs'
      else match u_roles st !! tp_role a with
           | None => permissions_of o (S i) st rs'
           | Some l => let! ps := get_permissions (sub o i) (u_heap st) l in
                       let! rest := permissions_of o (S i) st rs' in Ok ((a, ps) :: rest)
           end
  end.
Definition get_permissions_for_principal (o : oracle) (st : ustate) (t p : string)
    : res (list (trow * gmap string (list attr))) :=
  let! rs := get_principal_roles (sub o 0) st t p in permissions_of (sub o 1) 0 st rs.

(** v1/tenant.go:122-143 AddPrincipalInNamespace *)
Definition ut_add_principal_in_namespace (o : oracle) (st : ustate) (t : nat) (p ns : string) (rs : list string)
    : res ustate :=
  match u_tenants st !! t with
  | None => Panic
  | Some c =>
      match ut_namespaces c !! ns with
      | None => Ok st
      | Some l =>
          match rs with
          | _ :: _ =>
              u_each (fun st r => if bool_decide (r ∈ ut_roles c)
                                  then ut_add_principal_role st c p r t (Some l) None [] else Ok st) st rs
          | [] =>
              if ut_managed c then
                let! urs := get_tenant_roles o st (ut_id c) in
                let! st1 := u_each (fun st ur => ut_add_principal_role st c p (tp_role ur) t (Some l) None [])
                              st (filter (fun ur => tp_principal ur = p /\ tp_ns ur <> "" /\ tp_ns ur <> ns) urs) in
                ut_add_principal_role st1 c p "" t (Some l) None []
              else Panic
          end
      end
  end.
(** v1/tenant.go:145-161 AssignScopesToPrincipal *)
Definition ut_assign_scopes (o : oracle) (st : ustate) (t : nat) (p : string) (ss : list string) : res ustate :=
  match u_tenants st !! t with
  | None => Panic
  | Some c =>
      if ut_managed c then
        let! prs := get_principal_roles o st (ut_id c) p in
        match prs with
        | [] => Ok st
        | _ => u_each (fun st s =>
                 if bool_decide (s ∈ ut_scopes c) then
                   let! st1 := u_each (fun st a =>
                     let! st1 := ut_add_principal_role st c p (tp_role a) t None (Some s) [] in
                     match ut_default c with
                     | None => Ok st1
                     | Some l => ut_add_principal_role st1 c p (tp_role a) t (Some l) (Some s) []
                     end) st prs in
                   ut_add_principal_role st1 c p "" t None (Some s) []
                 else Ok st) st ss
        end
      else Panic
  end.
(** v1/tenant.go:163-183 AssignScopesWithRole *)
Definition ut_assign_scopes_with_role (o : oracle) (st : ustate) (t : nat) (p r : string) (ss : list string) : res ustate :=
  match ss with
  | [] => Ok st
  | _ =>
      match u_tenants st !! t with
      | None => Panic
      | Some c =>
          if ut_managed c then
            let! prs := get_principal_roles o st (ut_id c) p in
            match prs with
            | [] => Ok st
            | _ =>
                if bool_decide (r ∈ ut_roles c) then
                  u_each (fun st s =>
                    if bool_decide (s ∈ ut_scopes c) then
                      let! st1 := ut_add_principal_role st c p r t None (Some s) [] in
                      match ut_default c with
                      | None => Ok st1
                      | Some l => ut_add_principal_role st1 c p r t (Some l) (Some s) []
                      end
                    else Ok st) st ss
                else Ok st
            end
          else Panic
      end
  end.

(** ** Decisions *)

(** v1/role_manager.go:442-518 GetAllowedRoles; the argument is [None] when nil, the result is
    [None] when nil.  Sequentially the pooled slices are new empty slices. *)
Definition get_allowed_roles (o : oracle) (st : ustate) (prs : option (list trow)) (ns scope : string)
    : res (option (list string)) :=
  match prs with
  | None => Ok None                                                            (* 443-445 *)
  | Some [] => Panic                                                           (* 461 *)
  | Some ((first :: _) as rows) =>
      match u_tenant st (tp_tenant first) with
      | None => Panic                                                          (* 463 *)
      | Some c =>
          let md := ut_namespaces c !! ns in
          if (negb (bool_decide (scope = "")) && negb (bool_decide (scope ∈ ut_scopes c)))
             || (negb (bool_decide (ns = "")) && negb (bool_decide (is_Some md))) then Ok None   (* 465-467 *)
          else
            let! m := match md with
                      | None => Ok (UNamespace "" ∅ ∅)
                      | Some l => match u_nss st !! l with None => Panic | Some n => Ok n end
                      end in
            let ns_scopes := ordered (sub o 0) (elements (un_scopes m)) in     (* 469-472 *)
            let ns_roles := ordered (sub o 1) (elements (un_roles m)) in       (* 473-476 *)
            let scopes := tp_scope <$> filter (fun a => tp_scope a <> "") rows in
            let tenant_rows := filter (fun a => tp_ns a = "" /\ tp_scope a = "") rows in
            let both_rows := filter (fun a => tp_ns a <> "" /\ tp_scope a <> "") rows in
            let base := match ns_roles with [] => tp_role <$> tenant_rows | _ => ns_roles end in
            if (negb (contains scopes scope) && bool_decide (tenant_rows = []))
               || (bool_decide (ns_scopes <> []) && negb (contains ns_scopes scope)) then Ok None (* 498-502 *)
            else
              let allowed :=
                if negb (bool_decide (ns = "")) && negb (bool_decide (scope = "")) then
                  base ++ (tp_role <$> filter (fun a => tp_ns a = ns /\ tp_scope a = scope) both_rows)
                else base in
              if forallb (fun r => bool_decide (r ∈ ut_roles c)) allowed
              then Ok (Some (compact_adjacent allowed)) else Ok None           (* 512-517 *)
      end
  end.
(** v1/role_manager.go:732-743 getAllowedRoleIDs *)
Definition get_allowed_role_ids (o : oracle) (c : utenant) (roles : list string) : list string :=
  flat_map (fun r => filter (fun rt => rt = r) roles) (ordered o (elements (ut_roles c))).
(** A slice is nil when nothing was appended. *)
Definition nil_slice {A} (l : list A) : option (list A) := match l with [] => None | _ => Some l end.
(** v1/role_manager.go:680-684 and 723-727: the first role that has the permission *)
Fixpoint any_has (o : oracle) (i : nat) (h : rheap) (grp act : string) (allowed : list string) (ls : list nat) : res bool :=
  match ls with
  | [] => Ok false
  | l :: ls' => let! b := role_has (sub o i) h l grp act allowed in
                if b then Ok true else any_has o (S i) h grp act allowed ls'
  end.
(** v1/role_manager.go:674-679 and 715-720: the registered ones among the role ids *)
Definition registered_roles (st : ustate) (ids : list string) : gmap string nat :=
  foldl (fun m r => match u_roles st !! r with Some l => <[r := l]> m | None => m end) ∅ ids.

(** v1/role_manager.go:669-672 *)
Fixpoint collect_allowed (o : oracle) (i : nat) (st : ustate) (p : string) (ts : list string) : res (list string) :=
  match ts with
  | [] => Ok []
  | t :: ts' =>
      let! prs := get_principal_roles (sub (sub o i) 0) st t p in
      let! al := get_allowed_roles (sub (sub o i) 1) st (nil_slice prs) "" "" in
      let! rest := collect_allowed o (S i) st p ts' in
      Ok (default [] al ++ rest)
  end.
(** v1/role_manager.go:664-687 authorizeForActivity *)
Definition authorize_for_activity (o : oracle) (st : ustate) (p act : string) : res bool :=
  let! ts := get_tenants_for_principal (sub o 0) st p in
  let! ids := collect_allowed (sub o 1) 0 st p ts in
  let ids := compact_adjacent ids in
  any_has (sub o 2) 1 (u_heap st) "" act ids
    (ordered (sub (sub o 2) 0) (map_to_list (registered_roles st ids)).*2).

(** v1/options.go:3-9 Option *)
Record uopts : Type := UOpts {
  uo_tenant : any;
  uo_namespace : any;
  uo_scope : any;
  uo_group : any;
  uo_activity : any
}.
(** v1/role_manager.go:689-730 authorizeComplex *)
Definition authorize_complex (o : oracle) (st : ustate) (q : uopts) (p : string) : res bool :=
  let ns := to_string (uo_namespace q) in
  let scope := to_string (uo_scope q) in
  let t := to_string (uo_tenant q) in
  match u_tenant st t with
  | None => Ok false
  | Some c =>
      let! prs := get_principal_roles (sub o 0) st t p in
      match prs with
      | [] => Ok false
      | _ =>
          if (negb (bool_decide (ns = "")) && negb (bool_decide (is_Some (ut_namespaces c !! ns))))
             || (negb (bool_decide (scope = "")) && negb (bool_decide (scope ∈ ut_scopes c))) then Ok false
          else
            let! al := get_allowed_roles (sub o 1) st (Some prs) ns scope in
            let ids := get_allowed_role_ids (sub o 2) c (default [] al) in
            any_has (sub o 3) 1 (u_heap st) (to_string (uo_group q)) (to_string (uo_activity q)) ids
              (ordered (sub (sub o 3) 0) (map_to_list (registered_roles st (tp_role <$> prs))).*2)
      end
  end.

(** v1/role_manager.go:628-641 authorizeForNamespace *)
Definition authorize_for_namespace (o : oracle) (st : ustate) (p ns : string) : res bool :=
  let! ts := get_tenants_for_principal o st p in
  Ok (existsb (fun t => match u_tenant st t with
                        | Some c => bool_decide (is_Some (ut_namespaces c !! ns))
                        | None => false
                        end) ts).
(** v1/role_manager.go:648-660 *)
Fixpoint scope_loop (o : oracle) (i : nat) (st : ustate) (p scope : string) (ts : list string) : res bool :=
  match ts with
  | [] => Ok false
  | t :: ts' =>
      match u_tenant st t with
      | None => scope_loop o (S i) st p scope ts'
      | Some c =>
          if bool_decide (scope ∈ ut_scopes c) then
            let! prs := get_principal_roles (sub o i) st (ut_id c) p in
            if existsb (fun a => bool_decide (tp_scope a = scope)) prs then Ok true
            else scope_loop o (S i) st p scope ts'
          else scope_loop o (S i) st p scope ts'
      end
  end.
(** v1/role_manager.go:643-662 authorizeForScope *)
Definition authorize_for_scope (o : oracle) (st : ustate) (p scope : string) : res bool :=
  let! ts := get_tenants_for_principal (sub o 0) st p in scope_loop (sub o 1) 0 st p scope ts.
(** v1/role_manager.go:571-579, 581-589: a test on the principal's assignments in a tenant *)
Definition some_row (o : oracle) (st : ustate) (t p : string) (f : trow -> bool) : res bool :=
  let! prs := get_principal_roles o st t p in Ok (existsb f prs).
(** v1/role_manager.go:596-604 *)
Fixpoint some_row_loop (o : oracle) (i : nat) (st : ustate) (p : string) (f : trow -> bool) (ts : list string) : res bool :=
  match ts with
  | [] => Ok false
  | t :: ts' => let! b := some_row (sub o i) st t p f in
                if b then Ok true else some_row_loop o (S i) st p f ts'
  end.
(** v1/role_manager.go:591-605 authorizeForNamespaceAndScope *)
Definition authorize_for_namespace_and_scope (o : oracle) (st : ustate) (p ns scope : string) : res bool :=
  let! ts := get_tenants_for_principal (sub o 0) st p in
  some_row_loop (sub o 1) 0 st p (fun a => bool_decide (tp_ns a = ns) && bool_decide (tp_scope a = scope)) ts.
(** v1/role_manager.go:607-621 authorizeForTenantNamespaceAndScope *)
Definition authorize_for_tenant_namespace_and_scope (o : oracle) (st : ustate) (p t ns scope : string) : res bool :=
  let f a := bool_decide (tp_ns a = ns) && bool_decide (tp_scope a = scope) in
  let! b := some_row (sub o 0) st t p f in
  if b then Ok true
  else let! trs := get_tenant_roles (sub o 1) st t in Ok (existsb f trs).

(** v1/role_manager.go:519-569 Authorize *)
Definition u_authorize (o : oracle) (st : ustate) (p : string) (q : uopts) : res bool :=
  let t := to_string (uo_tenant q) in
  let n := to_string (uo_namespace q) in
  let s := to_string (uo_scope q) in
  if bool_decide (p ∈ u_principals st) then
    match is_nil (uo_tenant q), is_nil (uo_namespace q), is_nil (uo_scope q), is_nil (uo_group q), is_nil (uo_activity q) with
    | false, true, true, true, true => Ok (bool_decide (is_Some (u_reg st !! t)))               (* 529-531, 623-626 *)
    | true, false, true, true, true => authorize_for_namespace o st p n                         (* 534-536 *)
    | true, true, false, true, true => authorize_for_scope o st p s                             (* 539-541 *)
    | true, true, true, true, false => authorize_for_activity o st p (to_string (uo_activity q)) (* 544-546 *)
    | false, false, true, true, true => some_row o st t p (fun a => bool_decide (tp_ns a = n))  (* 548-550 *)
    | false, true, false, true, true => some_row o st t p (fun a => bool_decide (tp_scope a = s)) (* 553-555 *)
    | true, false, false, true, true => authorize_for_namespace_and_scope o st p n s            (* 558-560 *)
    | false, false, false, true, true => authorize_for_tenant_namespace_and_scope o st p t n s  (* 563-565 *)
    | _, _, _, _, _ => authorize_complex o st q p                                               (* 568 *)
    end
  else Ok false.

(** ** Histories *)
Inductive uop : Type :=
| UNewTenant (id : string)
| UNewNamespace (id : string)
| UNewRole (id : string)
| UNewGroup (id : string)
| UGroupAdd (g : nat) (attrs : list attr)
| ULock (r : nat)
| UUnlock (r : nat)
| URoleAddDescendent (r : nat) (ds : list nat)
| URoleAddPermission (r : nat) (grp : string) (attrs : list attr)
| URoleAddGroup (r g : nat)
| UAddTenant (t : nat)
| UAddNamespace (n : nat)
| UAddScope (s : string)
| UAddPrincipal (p : string)
| UAddRole (r : nat)
| UAddGroup (g : nat)
| UAddAttribute (a : attr)
| UAddPermissionsToRole (r g : string) (attrs : list attr)
| UAddPrincipalRole (p r : string) (t : nat) (ns : option nat) (scope : option string) (manage : list bool)
| UTAddDescendent (t : nat) (ds : list nat)
| UTSetDefault (t : nat) (ns : string)
| UTAddNamespace (t : nat) (ns : list nat)
| UTAddRole (t : nat) (rs : list nat)
| UTAddScopes (t : nat) (ss : list string)
| UTAddScopesToNamespace (t : nat) (ns : string) (ss : list string)
| UTAddRolesToNamespace (t : nat) (ns : string) (rs : list string)
| UTAddPrincipal (t : nat) (p : string) (rs : list string)
| UTAddPrincipalInNamespace (t : nat) (p ns : string) (rs : list string)
| UTAssignScopes (t : nat) (p : string) (ss : list string)
| UTAssignScopesWithRole (t : nat) (p r : string) (ss : list string)
| UNAddRoles (n : nat) (rs : list nat)
| UNAddScopes (n : nat) (ss : list string)
| UAuthorize (p : string) (q : uopts).
Inductive uout : Type :=
| YUnit
| YLoc (l : nat)
| YErr (e : goerr)
| YAttr (a : attr)
| YBool (b : bool).
Definition uret (x : res ustate) : res (ustate * uout) := let! st := x in Ok (st, YUnit).
Definition uret_loc (x : res (ustate * nat)) : res (ustate * uout) := let! r := x in Ok (r.1, YLoc r.2).
Definition uret_heap (st : ustate) (x : res (rheap * goerr)) : res (ustate * uout) :=
  let! r := x in Ok (uw_heap st r.1, YErr r.2).
Definition ustep (o : oracle) (st : ustate) (x : uop) : res (ustate * uout) :=
  match x with
  | UNewTenant id => let r := u_new_tenant st id in Ok (r.1, YLoc r.2)
  | UNewNamespace id => let r := u_new_namespace st id in Ok (r.1, YLoc r.2)
  | UNewRole id => let r := new_role (u_heap st) id in Ok (uw_heap st r.2, YLoc r.1)
  | UNewGroup id => let r := new_group (u_heap st) id in Ok (uw_heap st r.2, YLoc r.1)
  | UGroupAdd g attrs => let! h := add_attributes (u_heap st) g attrs in Ok (uw_heap st h, YUnit)
  | ULock r => let! h := role_set_lock (u_heap st) r true in Ok (uw_heap st h, YUnit)
  | UUnlock r => let! h := role_set_lock (u_heap st) r false in Ok (uw_heap st h, YUnit)
  | URoleAddDescendent r ds => uret_heap st (role_add_descendant (u_heap st) r ds)
  | URoleAddPermission r grp attrs => uret_heap st (role_add_permission (u_heap st) r grp attrs)
  | URoleAddGroup r g => uret_heap st (role_add_group (u_heap st) r g)
  | UAddTenant t => uret_loc (u_add_tenant st t)
  | UAddNamespace n => uret_loc (u_add_namespace st n)
  | UAddScope s => Ok (uw_regscopes st ({[s]} ∪ u_regscopes st), YUnit)          (* 234-240 *)
  | UAddPrincipal p => Ok (uw_principals st ({[p]} ∪ u_principals st), YUnit)    (* 208-214 *)
  | UAddRole r => uret_loc (u_add_role st r)
  | UAddGroup g => uret_loc (u_add_group st g)
  | UAddAttribute a => let r := u_add_attribute st a in Ok (r.1, YAttr r.2)
  | UAddPermissionsToRole r g attrs => let! x := u_add_permissions_to_role st r g attrs in Ok (x.1, YErr x.2)
  | UAddPrincipalRole p r t ns s m => uret (u_add_principal_role st p r t ns s m)
  | UTAddDescendent t ds => uret (ut_add_descendent st t ds)
  | UTSetDefault t ns => uret (ut_set_default st t ns)
  | UTAddNamespace t ns => uret (ut_add_namespace st t ns)
  | UTAddRole t rs => uret (ut_add_role st t rs)
  | UTAddScopes t ss => uret (ut_add_scopes st t ss)
  | UTAddScopesToNamespace t ns ss => uret (ut_add_scopes_to_namespace st t ns ss)
  | UTAddRolesToNamespace t ns rs => uret (ut_add_roles_to_namespace st t ns rs)
  | UTAddPrincipal t p rs => uret (ut_add_principal st t p rs)
  | UTAddPrincipalInNamespace t p ns rs => uret (ut_add_principal_in_namespace o st t p ns rs)
  | UTAssignScopes t p ss => uret (ut_assign_scopes o st t p ss)
  | UTAssignScopesWithRole t p r ss => uret (ut_assign_scopes_with_role o st t p r ss)
  | UNAddRoles n rs =>                                                           (* v1/tenant.go:195-199 *)
      uret (u_each (fun st l => match h_roles (u_heap st) !! l with
                                | None => Panic
                                | Some r => un_add_role st n (r_id r)
                                end) st rs)
  | UNAddScopes n ss => uret (u_each (fun st s => un_add_scope st n s) st ss)    (* v1/tenant.go:201-205 *)
  | UAuthorize p q => let! b := u_authorize o st p q in Ok (st, YBool b)
  end.
Fixpoint urun (o : oracle) (i : nat) (st : ustate) (ops : list uop) : res (ustate * list uout) :=
  match ops with
  | [] => Ok (st, [])
  | x :: ops' =>
      let! s1 := ustep (sub o i) st x in
      let! s2 := urun o (S i) s1.1 ops' in
      Ok (s2.1, s1.2 :: s2.2)
  end.
Definition ureachable (st : ustate) : Prop := exists o ops outs, urun o 0 u_init ops = Ok (st, outs).
