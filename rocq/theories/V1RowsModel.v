(** Model of several goroutines that ask and assign on one v1 manager at the same time (v1/role_manager.go:290-371, 408-440, 519-730;
    v1/tenant.go:107-183).  The assignments are kept in u.tenantPrincipals, a plain Go map (v1/role_manager.go:41): every range over it,
    every look-up and every write is a step of its own, and Go's runtime ends the program when it meets a map that is being written
    (runtime/map.go of Go 1.22: mapaccess2_faststr, mapassign_faststr, mapiternext; the flag hashWriting).
    A range meets every row that was there when it started and any rows that are added before it ends (Go specification, "For range").
    Simplifications: a write of the flag is seen by everybody at once; the other maps do not change meanwhile (calls that write them are not
    made); the slices of the pools are private (V1PoolModel has them); the order in which a range meets its rows is the oracle's. *)
From Verif Require Export V1Model.

(** ** Programs *)
Inductive jcode (A : Type) : Type :=
| JRet (r : res A)
| JScan (k : gset string -> jcode A)                    (* for h := range u.tenantPrincipals: the rows met *)
| JNext (must seen : gset string) (k : gset string -> jcode A)   (* within the range: the rows that were there, those met *)
| JPut (h : string) (k : jcode A)                       (* if _, exists := u.tenantPrincipals[h]; !exists { *)
| JBegin (h : string) (k : jcode A)                     (* u.tenantPrincipals[h] = struct{}{} *)
| JEnd (h : string) (k : jcode A).                      (* ... within it: the flag is set *)
Arguments JRet {A} r.
Arguments JScan {A} k.
Arguments JNext {A} must seen k.
Arguments JPut {A} h k.
Arguments JBegin {A} h k.
Arguments JEnd {A} h k.
Fixpoint jbind {A B : Type} (c : jcode A) (f : A -> jcode B) : jcode B :=
  match c with
  | JRet (Ok a) => f a
  | JRet Panic => JRet Panic
  | JRet Hang => JRet Hang
  | JScan k => JScan (fun v => jbind (k v) f)
  | JNext m s k => JNext m s (fun v => jbind (k v) f)
  | JPut h k => JPut h (jbind k f)
  | JBegin h k => JBegin h (jbind k f)
  | JEnd h k => JEnd h (jbind k f)
  end.

(** ** Calls; [st] supplies everything but the assignments *)
Section calls.
  Variable st : ustate.

  (** A function of the sequential model that ranges over the assignments once *)
  Definition j_once {A : Type} (f : ustate -> res A) : jcode A := JScan (fun v => JRet (f (uw_rows st v))).

  (** v1/role_manager.go:340-350 *)
  Fixpoint j_implicit (o : oracle) (i : nat) (ids : list string) : jcode (list trow) :=
    match ids with
    | [] => JRet (Ok [])
    | id :: ids' => jbind (j_once (fun s => get_tenant_roles (sub o i) s id)) (fun rs =>
                    jbind (j_implicit o (S i) ids') (fun rest => JRet (Ok (rs ++ rest))))
    end.
  (** v1/role_manager.go:337-353 GetImplicitPrincipalRoles *)
  Definition j_implicit_roles (o : oracle) (t p : string) : jcode (list trow) :=
    jbind (j_once (fun s => get_principal_roles (sub o 0) s t p)) (fun own =>
    match u_tenant st t with
    | None => JRet (Ok own)
    | Some c => jbind (j_implicit (sub o 1) 1 (ordered (sub (sub o 1) 0) (map_to_list (ut_desc c)).*1)) (fun below =>
                JRet (Ok (own ++ below)))
    end).
  (** v1/role_manager.go:408-440 *)
  Definition j_scopes (o : oracle) (p : string) : jcode (option (list string)) :=
    if bool_decide (p ∈ u_principals st) then j_once (fun s => get_scopes_for_principal o s p) else JRet (Ok None).
  Definition j_tenant_scopes (o : oracle) (t p : string) : jcode (option (list string)) :=
    if bool_decide (p ∈ u_principals st) then
      match u_reg st !! t with None => JRet (Ok None) | Some _ => j_once (fun s => get_tenant_scopes_for_principal o s t p) end
    else JRet (Ok None).

  (** v1/role_manager.go:669-672 *)
  Fixpoint j_collect (o : oracle) (i : nat) (p : string) (ts : list string) : jcode (list string) :=
    match ts with
    | [] => JRet (Ok [])
    | t :: ts' =>
        jbind (j_once (fun s => get_principal_roles (sub (sub o i) 0) s t p)) (fun prs =>
        jbind (JRet (get_allowed_roles (sub (sub o i) 1) st (nil_slice prs) "" "")) (fun al =>
        jbind (j_collect o (S i) p ts') (fun rest => JRet (Ok (default [] al ++ rest)))))
    end.
  (** v1/role_manager.go:664-687 authorizeForActivity *)
  Definition j_activity (o : oracle) (p act : string) : jcode bool :=
    jbind (j_once (fun s => get_tenants_for_principal (sub o 0) s p)) (fun ts =>
    jbind (j_collect (sub o 1) 0 p ts) (fun ids =>
    let ids := compact_adjacent ids in
    JRet (any_has (sub o 2) 1 (u_heap st) "" act ids (ordered (sub (sub o 2) 0) (map_to_list (registered_roles st ids)).*2)))).
  (** v1/role_manager.go:689-730 authorizeComplex *)
  Definition j_complex (o : oracle) (q : uopts) (p : string) : jcode bool :=
    match u_tenant st (to_string (uo_tenant q)) with
    | None => JRet (Ok false)
    | Some _ => j_once (fun s => authorize_complex o s q p)
    end.
  (** v1/role_manager.go:648-660 *)
  Fixpoint j_scope_loop (o : oracle) (i : nat) (p scope : string) (ts : list string) : jcode bool :=
    match ts with
    | [] => JRet (Ok false)
    | t :: ts' =>
        match u_tenant st t with
        | None => j_scope_loop o (S i) p scope ts'
        | Some c =>
            if bool_decide (scope ∈ ut_scopes c) then
              jbind (j_once (fun s => get_principal_roles (sub o i) s (ut_id c) p)) (fun prs =>
              if existsb (fun a => bool_decide (tp_scope a = scope)) prs then JRet (Ok true)
              else j_scope_loop o (S i) p scope ts')
            else j_scope_loop o (S i) p scope ts'
        end
    end.
  (** v1/role_manager.go:596-604 *)
  Fixpoint j_row_loop (o : oracle) (i : nat) (p : string) (f : trow -> bool) (ts : list string) : jcode bool :=
    match ts with
    | [] => JRet (Ok false)
    | t :: ts' => jbind (j_once (fun s => some_row (sub o i) s t p f)) (fun b =>
                  if b : bool then JRet (Ok true) else j_row_loop o (S i) p f ts')
    end.
  (** v1/role_manager.go:607-621 *)
  Definition j_three (o : oracle) (p t ns scope : string) : jcode bool :=
    let f a := bool_decide (tp_ns a = ns) && bool_decide (tp_scope a = scope) in
    jbind (j_once (fun s => some_row (sub o 0) s t p f)) (fun b =>
    if b : bool then JRet (Ok true) else jbind (j_once (fun s => get_tenant_roles (sub o 1) s t)) (fun trs => JRet (Ok (existsb f trs)))).
  (** v1/role_manager.go:519-569 Authorize *)
  Definition j_authorize (o : oracle) (p : string) (q : uopts) : jcode bool :=
    let t := to_string (uo_tenant q) in
    let n := to_string (uo_namespace q) in
    let s := to_string (uo_scope q) in
    if bool_decide (p ∈ u_principals st) then
      match is_nil (uo_tenant q), is_nil (uo_namespace q), is_nil (uo_scope q), is_nil (uo_group q), is_nil (uo_activity q) with
      | false, true, true, true, true => JRet (Ok (bool_decide (is_Some (u_reg st !! t))))
      | true, false, true, true, true => j_once (fun s => authorize_for_namespace o s p n)
      | true, true, false, true, true => jbind (j_once (fun s => get_tenants_for_principal (sub o 0) s p)) (j_scope_loop (sub o 1) 0 p s)
      | true, true, true, true, false => j_activity o p (to_string (uo_activity q))
      | false, false, true, true, true => j_once (fun s => some_row o s t p (fun a => bool_decide (tp_ns a = n)))
      | false, true, false, true, true => j_once (fun s' => some_row o s' t p (fun a => bool_decide (tp_scope a = s)))
      | true, false, false, true, true =>
          jbind (j_once (fun s => get_tenants_for_principal (sub o 0) s p))
            (j_row_loop (sub o 1) 0 p (fun a => bool_decide (tp_ns a = n) && bool_decide (tp_scope a = s)))
      | false, false, false, true, true => j_three o p t n s
      | _, _, _, _, _ => j_complex o q p
      end
    else JRet (Ok false).

  (** v1/role_manager.go:290-299 AddPrincipalRole *)
  Definition j_add_role (principal role : string) (t : nat) (ns : option nat) (scope : option string) (manage : list bool) : jcode unit :=
    let m := match manage with [] => true | b :: _ => b end in
    match u_tenants st !! t with
    | None => JRet Panic
    | Some c =>
        match ns with
        | None => JPut (row_string (TRow principal role (ut_id c) "" (default "" scope) m)) (JRet (Ok tt))
        | Some l =>
            match u_nss st !! l with
            | None => JRet Panic
            | Some n => JPut (row_string (TRow principal role (ut_id c) (un_id n) (default "" scope) m)) (JRet (Ok tt))
            end
        end
    end.
  (** v1/tenant.go:107-109 *)
  Definition j_tenant_add (c : utenant) (principal role : string) (t : nat) (ns : option nat) (scope : option string) : jcode unit :=
    if ut_managed c then j_add_role principal role t ns scope [] else JRet Panic.
  (** for loops *)
  Fixpoint j_each {A : Type} (f : A -> jcode unit) (xs : list A) : jcode unit :=
    match xs with
    | [] => JRet (Ok tt)
    | x :: xs' => jbind (f x) (fun _ => j_each f xs')
    end.
  (** ... once without a namespace and, if there is a default namespace, once with it (v1/tenant.go:114-117, 153-156, 177-180) *)
  Definition j_add_both (c : utenant) (p r : string) (t : nat) (scope : option string) : jcode unit :=
    jbind (j_tenant_add c p r t None scope) (fun _ =>
    match ut_default c with
    | None => JRet (Ok tt)
    | Some l => j_tenant_add c p r t (Some l) scope
    end).
  (** v1/tenant.go:111-120 AddPrincipal *)
  Definition j_add_principal (t : nat) (p : string) (rs : list string) : jcode unit :=
    j_each (fun r => match u_tenants st !! t with
                     | None => JRet Panic
                     | Some c => if bool_decide (r ∈ ut_roles c) then j_add_both c p r t None else JRet (Ok tt)
                     end) rs.
  (** v1/tenant.go:122-143 AddPrincipalInNamespace *)
  Definition j_add_in_namespace (o : oracle) (t : nat) (p ns : string) (rs : list string) : jcode unit :=
    match u_tenants st !! t with
    | None => JRet Panic
    | Some c =>
        match ut_namespaces c !! ns with
        | None => JRet (Ok tt)
        | Some l =>
            match rs with
            | _ :: _ => j_each (fun r => if bool_decide (r ∈ ut_roles c) then j_tenant_add c p r t (Some l) None else JRet (Ok tt)) rs
            | [] =>
                if ut_managed c then
                  jbind (j_once (fun s => get_tenant_roles o s (ut_id c))) (fun urs =>
                  jbind (j_each (fun ur => j_tenant_add c p (tp_role ur) t (Some l) None)
                          (filter (fun ur => tp_principal ur = p /\ tp_ns ur <> "" /\ tp_ns ur <> ns) urs)) (fun _ =>
                  j_tenant_add c p "" t (Some l) None))
                else JRet Panic
            end
        end
    end.
  (** v1/tenant.go:145-161 AssignScopesToPrincipal *)
  Definition j_assign_scopes (o : oracle) (t : nat) (p : string) (ss : list string) : jcode unit :=
    match u_tenants st !! t with
    | None => JRet Panic
    | Some c =>
        if ut_managed c then
          jbind (j_once (fun s => get_principal_roles o s (ut_id c) p)) (fun prs =>
          match prs with
          | [] => JRet (Ok tt)
          | _ => j_each (fun s =>
                   if bool_decide (s ∈ ut_scopes c) then
                     jbind (j_each (fun a => j_add_both c p (tp_role a) t (Some s)) prs) (fun _ => j_tenant_add c p "" t None (Some s))
                   else JRet (Ok tt)) ss
          end)
        else JRet Panic
    end.
  (** v1/tenant.go:163-183 AssignScopesWithRole *)
  Definition j_assign_with_role (o : oracle) (t : nat) (p r : string) (ss : list string) : jcode unit :=
    match ss with
    | [] => JRet (Ok tt)
    | _ =>
        match u_tenants st !! t with
        | None => JRet Panic
        | Some c =>
            if ut_managed c then
              jbind (j_once (fun s => get_principal_roles o s (ut_id c) p)) (fun prs =>
              match prs with
              | [] => JRet (Ok tt)
              | _ => if bool_decide (r ∈ ut_roles c) then
                       j_each (fun s => if bool_decide (s ∈ ut_scopes c) then j_add_both c p r t (Some s) else JRet (Ok tt)) ss
                     else JRet (Ok tt)
              end)
            else JRet Panic
        end
    end.
End calls.

Inductive jcall : Type :=
| JAuthorize (o : oracle) (p : string) (q : uopts)
| JTenants (o : oracle) (p : string)                    (* GetTenantsForPrincipal *)
| JRoles (o : oracle) (t p : string)                    (* GetPrincipalRoles *)
| JTenantRoles (o : oracle) (t : string)                (* GetTenantRoles, GetPrincipalRolesByTenant *)
| JImplicit (o : oracle) (t p : string)                 (* GetImplicitPrincipalRoles *)
| JScopes (o : oracle) (p : string)                     (* GetScopesForPrincipal *)
| JTenantScopes (o : oracle) (t p : string)             (* GetTenantScopesForPrincipal *)
| JPermissions (o : oracle) (t p : string)              (* GetPermissionsForPrincipal *)
| JAddRole (p r : string) (t : nat) (ns : option nat) (scope : option string) (manage : list bool)
| JAddPrincipal (t : nat) (p : string) (rs : list string)
| JAddInNamespace (o : oracle) (t : nat) (p ns : string) (rs : list string)
| JAssignScopes (o : oracle) (t : nat) (p : string) (ss : list string)
| JAssignWithRole (o : oracle) (t : nat) (p r : string) (ss : list string).
Inductive jout : Type :=
| JDone
| JBool (b : bool)
| JStrings (l : list string)
| JRows (l : list trow)
| JMaybe (l : option (list string))
| JPerms (l : list (trow * gmap string (list attr))).
Definition j_map {A B : Type} (f : A -> B) (c : jcode A) : jcode B := jbind c (fun a => JRet (Ok (f a))).
Definition j_code (st : ustate) (c : jcall) : jcode jout :=
  match c with
  | JAuthorize o p q => j_map JBool (j_authorize st o p q)
  | JTenants o p => j_map JStrings (j_once st (fun s => get_tenants_for_principal o s p))
  | JRoles o t p => j_map JRows (j_once st (fun s => get_principal_roles o s t p))
  | JTenantRoles o t => j_map JRows (j_once st (fun s => get_tenant_roles o s t))
  | JImplicit o t p => j_map JRows (j_implicit_roles st o t p)
  | JScopes o p => j_map JMaybe (j_scopes st o p)
  | JTenantScopes o t p => j_map JMaybe (j_tenant_scopes st o t p)
  | JPermissions o t p => j_map JPerms (j_once st (fun s => get_permissions_for_principal o s t p))
  | JAddRole p r t ns s m => j_map (fun _ => JDone) (j_add_role st p r t ns s m)
  | JAddPrincipal t p rs => j_map (fun _ => JDone) (j_add_principal st t p rs)
  | JAddInNamespace o t p ns rs => j_map (fun _ => JDone) (j_add_in_namespace st o t p ns rs)
  | JAssignScopes o t p ss => j_map (fun _ => JDone) (j_assign_scopes st o t p ss)
  | JAssignWithRole o t p r ss => j_map (fun _ => JDone) (j_assign_with_role st o t p r ss)
  end.

(** ** Steps *)
Record jmachine : Type := JM { j_rows : gset string; j_writing : bool; j_dead : bool; j_codes : list (jcode jout) }.
(** One step; [pick] is the next row a range meets, none when it ends.  [inl]: the runtime ends the program.  In an empty map the runtime
    neither iterates nor looks up, and so does not look at the flag. *)
Definition jcode_step (v : gset string) (w : bool) (pick : option string) (c : jcode jout) : option (unit + gset string * bool * jcode jout) :=
  match c with
  | JRet _ => None
  | JScan k => Some (inr (v, w, if bool_decide (v = ∅) then k ∅ else JNext v ∅ k))
  | JNext must seen k =>
      if w then Some (inl tt)
      else match pick with
           | Some h => if bool_decide (h ∈ v) && negb (bool_decide (h ∈ seen)) then Some (inr (v, w, JNext must ({[h]} ∪ seen) k)) else None
           | None => if bool_decide (must ⊆ seen) then Some (inr (v, w, k seen)) else None
           end
  | JPut h k => if w && negb (bool_decide (v = ∅)) then Some (inl tt) else Some (inr (v, w, if bool_decide (h ∈ v) then k else JBegin h k))
  | JBegin h k => if w then Some (inl tt) else Some (inr (v, true, JEnd h k))
  | JEnd h k => Some (inr ({[h]} ∪ v, false, k))
  end.
Definition jstep (M : jmachine) (x : nat * option string) : option jmachine :=
  if j_dead M then None
  else
    c ← j_codes M !! x.1;
    r ← jcode_step (j_rows M) (j_writing M) x.2 c;
    match r with
    | inl _ => Some (JM (j_rows M) (j_writing M) true (j_codes M))
    | inr (v, w, c') => Some (JM v w false (<[x.1 := c']> (j_codes M)))
    end.
(** A schedule: who moves, step by step *)
Fixpoint jrun (M : jmachine) (xs : list (nat * option string)) : option jmachine :=
  match xs with
  | [] => Some M
  | x :: xs' => M1 ← jstep M x; jrun M1 xs'
  end.
Definition jstart (st : ustate) (cs : list jcall) : jmachine := JM (u_rows st) false false (j_code st <$> cs).
