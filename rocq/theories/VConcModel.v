(** Model of concurrent calls on one v2 authorizer (v2/v2.go, v2/init.go:21-42, v2/role.go:28-59): the decisions Authorize
    and Can, the set-up calls on the authorizer and on its tenants, and the expiry methods of an assignment.  A call is a
    tree of atomic steps; a step reads or writes one shared variable, resolves a role, or takes or releases a lock.  The
    locks are a.m and the lock t.m of every tenant; calls interleave arbitrarily.
    Simplifications: a resolution of a role (ResolvePermissions, ResolveChildRoles) is one step (CDagModel has their
    inside; calls that change the role graph are not made meanwhile); a loop over a map or a slice takes what it ranges
    over in one step; no tenant or assignment object is created meanwhile; one reading of the clock per call; the maps
    from the pools are private (PoolModel); the audit log is omitted. *)
From Verif Require Export V2Model CAssignModel.
From Verif Require Import RoleModel.

(** ** Shared variables and locks *)

(** a.defaultTenant, a.userRoles, a.userRoleMap, a.tenants, a.parentCache (v2/v2.go:73-82); of a tenant: the map
    Namespaces, the map Scopes of one of them, DefaultNS, Status, the map ChildTenants (v2/entities.go:66-73); of an
    assignment: Expiry (v2/v2.go:20) *)
Inductive kvar : Type :=
| GDefault | GAssign | GIndex | GReg | GParents
| GNames (t : nat) | GScopes (t : nat) (n : string) | GDefNs (t : nat) | GStatus (t : nat) | GKids (t : nat)
| GExpiry (l : nat).
Global Instance kvar_eq_dec : EqDecision kvar.
Proof. solve_decision. Defined.
Definition val (x : kvar) : Type :=
  match x with
  | GDefault => string
  | GAssign => list (option nat)
  | GIndex => gmap string (gmap string (list nat))
  | GReg => gmap string nat
  | GParents => gmap string nat
  | GNames _ => gset string
  | GScopes _ _ => gset string
  | GDefNs _ => string
  | GStatus _ => tstatus
  | GKids _ => gmap string nat
  | GExpiry _ => option Z
  end.
Definition blank_tenant : vtenant := new_vtenant "" None.
(** The tenant object at [t]; the programs below never touch one that is not there. *)
Definition kten (st : vstate) (t : nat) : vtenant := default blank_tenant (w_tenants st !! t).
Definition names_at (c : vtenant) : gset string := dom (vt_namespaces c).
Definition scopes_at (c : vtenant) (n : string) : gset string := default ∅ (vt_namespaces c !! n).
Definition get_var (st : vstate) (x : kvar) : val x :=
  match x with
  | GDefault => w_default st
  | GAssign => w_assign st
  | GIndex => w_index st
  | GReg => w_reg st
  | GParents => w_parents st
  | GNames t => names_at (kten st t)
  | GScopes t n => scopes_at (kten st t) n
  | GDefNs t => vt_default (kten st t)
  | GStatus t => vt_status (kten st t)
  | GKids t => vt_children (kten st t)
  | GExpiry l => w_prs st !! l ≫= pr_expiry
  end.
Definition alter_tenant (st : vstate) (t : nat) (f : vtenant -> vtenant) : vstate := vw_tenants st (alter f t (w_tenants st)).
(** A namespace that is new in the map gets a new object, without scopes; the others stay (names are only added). *)
Definition put_names (v : gset string) (c : vtenant) : vtenant :=
  VTenant (vt_id c) (vt_namespaces c ∪ set_to_map (fun n => (n, ∅)) v) (vt_default c) (vt_status c) (vt_children c).
Definition put_scopes (n : string) (v : gset string) (c : vtenant) : vtenant :=
  VTenant (vt_id c) (<[n := v]> (vt_namespaces c)) (vt_default c) (vt_status c) (vt_children c).
Definition put_default (v : string) (c : vtenant) : vtenant :=
  VTenant (vt_id c) (vt_namespaces c) v (vt_status c) (vt_children c).
Definition put_kids (v : gmap string nat) (c : vtenant) : vtenant :=
  VTenant (vt_id c) (vt_namespaces c) (vt_default c) (vt_status c) v.
Definition put_var (st : vstate) (x : kvar) : val x -> vstate :=
  match x return val x -> vstate with
  | GDefault => fun v => vw_default st v
  | GAssign => fun v => vw_assign st v
  | GIndex => fun v => vw_index st v
  | GReg => fun v => vw_reg st v (w_parents st)
  | GParents => fun v => vw_reg st (w_reg st) v
  | GNames t => fun v => alter_tenant st t (put_names v)
  | GScopes t n => fun v => alter_tenant st t (put_scopes n v)
  | GDefNs t => fun v => alter_tenant st t (put_default v)
  | GStatus t => fun v => alter_tenant st t (set_status v)
  | GKids t => fun v => alter_tenant st t (put_kids v)
  | GExpiry l => fun v => vw_prs st (alter (fun pr => with_expiry pr v) l (w_prs st))
  end.
(** a.m, and t.m of a tenant *)
Inductive mutex : Type := LAuth | LTenant (t : nat).
Global Instance mutex_eq_dec : EqDecision mutex.
Proof. solve_decision. Defined.

(** ** Programs *)

(** [KResolve true] is ResolvePermissions, [KResolve false] ResolveChildRoles.  A [KUpd] writes (an assignment, or an
    entry of a map). *)
Inductive code (A : Type) : Type :=
| KRet (r : res A)
| KRead (x : kvar) (k : val x -> code A)
| KUpd (x : kvar) (f : val x -> val x) (k : code A)
| KResolve (b : bool) (name : string) (k : gset string -> code A)
| KLock (m : mutex) (k : code A)
| KUnlock (m : mutex) (k : code A).
Arguments KRet {A} r.
Arguments KRead {A} x k.
Arguments KUpd {A} x f k.
Arguments KResolve {A} b name k.
Arguments KLock {A} m k.
Arguments KUnlock {A} m k.
Fixpoint kbind {A B : Type} (c : code A) (f : A -> code B) : code B :=
  match c with
  | KRet (Ok a) => f a
  | KRet Panic => KRet Panic
  | KRet Hang => KRet Hang
  | KRead x k => KRead x (fun v => kbind (k v) f)
  | KUpd x g k => KUpd x g (kbind k f)
  | KResolve b name k => KResolve b name (fun v => kbind (k v) f)
  | KLock m k => KLock m (kbind k f)
  | KUnlock m k => KUnlock m (kbind k f)
  end.
Definition set_to {x : kvar} (v : val x) : val x -> val x := fun _ => v.

(** ** Decisions; [fr] supplies the objects' fields that no call assigns *)
Section decisions.
  Variable fr : vstate.
  Variable now : Z.

  (** v2/v2.go:24-29 IsExpired: the pointer is read for the comparison with nil and read again for its target *)
  Definition k_expired (l : nat) : code bool :=
    KRead (GExpiry l) (fun e : option Z => match e with
      | None => KRet (Ok false)
      | Some _ => KRead (GExpiry l) (fun e' : option Z => match e' with
          | None => KRet Panic
          | Some t => KRet (Ok (bool_decide (t < now)%Z))
          end)
      end).

  Section traverse.
    Context {A : Type}.
    Variable row : A -> prole -> code A.
    Variable user : string.
    (** v2/v2.go:206-225 and 268-281 *)
    Fixpoint k_rows (tid : string) (acc : A) (ps : list (option nat)) : code A :=
      match ps with
      | [] => KRet (Ok acc)
      | None :: _ => KRet Panic
      | Some l :: ps' =>
          match w_prs fr !! l with
          | None => KRet Panic
          | Some pr =>
              if bool_decide (pr_principal pr = user) && bool_decide (pr_tenant pr = tid) then
                kbind (k_expired l) (fun e => if e : bool then k_rows tid acc ps'
                  else kbind (row acc pr) (fun acc' => k_rows tid acc' ps'))
              else k_rows tid acc ps'
          end
      end.
    (** 228-232 *)
    Fixpoint k_kids (rec : oracle -> nat -> gset string -> A -> code (gset string * A))
        (o : oracle) (i : nat) (cs : list nat) (checked : gset string) (acc : A) : code (gset string * A) :=
      match cs with
      | [] => KRet (Ok (checked, acc))
      | c :: cs' => kbind (rec (sub o i) c checked acc) (fun s => k_kids rec o (S i) cs' s.1 s.2)
      end.
    (** 226-234 and 282-290 *)
    Fixpoint k_manage (rec : oracle -> nat -> gset string -> A -> code (gset string * A))
        (o : oracle) (i : nat) (t : nat) (tid : string) (ps : list (option nat)) (checked : gset string) (acc : A)
        : code (gset string * A) :=
      match ps with
      | [] => KRet (Ok (checked, acc))
      | None :: _ => KRet Panic
      | Some l :: ps' =>
          match w_prs fr !! l with
          | None => KRet Panic
          | Some pr =>
              if bool_decide (pr_principal pr = user) && bool_decide (pr_tenant pr = tid) && pr_manage pr then
                KRead (GKids t) (fun kids : gmap string nat =>
                  kbind (k_kids rec (sub o i) 1 (ordered (sub (sub o i) 0) (map_to_list kids).*2) checked acc)
                    (fun s => k_manage rec o (S i) t tid ps' s.1 s.2))
              else k_manage rec o (S i) t tid ps' checked acc
          end
      end.
    (** 201-236 and 263-292 traverse *)
    Fixpoint k_traverse (fuel : nat) (o : oracle) (t : nat) (checked : gset string) (acc : A) : code (gset string * A) :=
      match fuel with
      | 0 => KRet Hang
      | S fuel' =>
          match w_tenants fr !! t with
          | None => KRet Panic
          | Some c =>
              if bool_decide (vt_id c ∈ checked) then KRet (Ok (checked, acc))
              else KRead GAssign (fun us : list (option nat) => kbind (k_rows (vt_id c) acc us) (fun acc' =>
                     KRead GAssign (fun us' : list (option nat) => k_manage (k_traverse fuel') o 0 t (vt_id c) us' ({[vt_id c]} ∪ checked) acc')))
          end
      end.
    Definition k_traverse_all (o : oracle) (t : nat) (acc : A) : code A :=
      kbind (k_traverse (S (length (w_tenants fr))) o t ∅ acc) (fun s => KRet (Ok s.2)).
  End traverse.

  (** 213-224 *)
  Definition k_perm_row (ns scope : string) (acc : gset string * gset string) (pr : prole) : code (gset string * gset string) :=
    if bool_decide (pr_namespace pr = "") || bool_decide (pr_namespace pr = ns) then
      KResolve true (pr_role pr) (fun s =>
        KRet (Ok (if bool_decide (pr_scope pr = scope) then (s ∪ acc.1, acc.2)
                  else if bool_decide (pr_scope pr = "") then (acc.1, s ∪ acc.2) else acc)))
    else KRet (Ok acc).
  (** v2/v2.go:184-247 resolvePrincipalPermissions *)
  Definition k_permissions (o : oracle) (user tid ns scope : string) : code (option (gset string)) :=
    KRead GReg (fun reg : gmap string nat => match reg !! tid with
      | None => KRet (Ok None)
      | Some t => kbind (k_traverse_all (k_perm_row ns scope) user o t (∅, ∅)) (fun acc =>
          KRet (Ok (if bool_decide (acc.1 <> ∅) then Some acc.1 else if bool_decide (acc.2 <> ∅) then Some acc.2 else None)))
      end).
  (** 275-280 *)
  Definition k_role_row (ns : string) (acc : gset string) (pr : prole) : code (gset string) :=
    if (bool_decide (pr_namespace pr = "") || bool_decide (pr_namespace pr = ns)) && negb (bool_decide (pr_role pr = "")) then
      KResolve false (pr_role pr) (fun s => KRet (Ok (s ∪ ({[pr_role pr]} ∪ acc))))
    else KRet (Ok acc).
  (** v2/v2.go:249-300 resolvePrincipalRoles *)
  Definition k_roles (o : oracle) (user tid ns : string) : code (option (gset string)) :=
    KRead GReg (fun reg : gmap string nat => match reg !! tid with
      | None => KRet (Ok None)
      | Some t => kbind (k_traverse_all (k_role_row ns) user o t ∅) (fun acc =>
          KRet (Ok (if bool_decide (acc <> ∅) then Some acc else None)))
      end).

  (** v2/v2.go:448-456 *)
  Fixpoint k_own_tenants (user : string) (acc : gmap string nat) (ps : list (option nat)) : code (gmap string nat) :=
    match ps with
    | [] => KRet (Ok acc)
    | None :: _ => KRet Panic
    | Some l :: ps' =>
        match w_prs fr !! l with
        | None => KRet Panic
        | Some pr =>
            if bool_decide (pr_principal pr = user) && negb (bool_decide (pr_tenant pr = "")) then
              KRead GReg (fun reg : gmap string nat => match reg !! pr_tenant pr with
                | None => k_own_tenants user acc ps'
                | Some t =>
                    match w_tenants fr !! t with
                    | None => KRet Panic
                    | Some _ => KRead (GStatus t) (fun s : tstatus =>
                        k_own_tenants user (if bool_decide (s = TActive) then <[pr_tenant pr := t]> acc else acc) ps')
                    end
                end)
            else k_own_tenants user acc ps'
        end
    end.
  (** v2/v2.go:446-464 findPrincipalTenants; 447 reads the length of the list *)
  Definition k_find_own (o : oracle) (user : string) : code (list nat) :=
    KRead GAssign (fun _ : list (option nat) => KRead GAssign (fun us : list (option nat) =>
      kbind (k_own_tenants user ∅ us) (fun m => KRet (Ok (ordered o (map_to_list m).*2))))).
  (** v2/v2.go:327-353 findTargetTenants; the variable defaultTenant is read at 328 and again at 329 *)
  Definition k_find_targets (o : oracle) (q : request) : code (option (list nat)) :=
    let by_name tn :=
      if bool_decide (tn = "") then kbind (k_find_own o (q_principal q)) (fun ts => KRet (Ok (Some ts)))
      else KRead GReg (fun reg : gmap string nat => KRet (Ok (match reg !! tn with None => None | Some t => Some [t] end))) in
    if bool_decide (q_tenant q = "") then
      KRead GDefault (fun d : string => if bool_decide (d = "") then by_name "" else KRead GDefault by_name)
    else by_name (q_tenant q).
  (** v2/v2.go:405-424 and 362-381: the namespace to use in tenant [t] *)
  Definition k_namespace (o : oracle) (t : nat) (q : request) : code (option string) :=
    let lookup n :=
      KRead (GNames t) (fun names : gset string =>
        if bool_decide (n ∈ names) then
          if bool_decide (q_scope q = "") then KRet (Ok (Some n))
          else KRead (GScopes t n) (fun ss : gset string => KRet (Ok (if bool_decide (q_scope q ∈ ss) then Some n else None)))
        else KRet (Ok None)) in
    if negb (bool_decide (q_namespace q = "")) then lookup (q_namespace q)
    else KRead (GDefNs t) (fun d : string =>
      if negb (bool_decide (d = "")) then KRead (GDefNs t) lookup
      else KRead (GNames t) (fun names : gset string =>
        if bool_decide (size names = 1) then
          KRead (GNames t) (fun names' : gset string => match ordered o (elements names') with n :: _ => lookup n | [] => lookup "" end)
        else KRet (Ok None))).
  (** v2/v2.go:404-436 *)
  Fixpoint k_authorize_loop (o : oracle) (i : nat) (q : request) (ts : list nat) : code bool :=
    match ts with
    | [] => KRet (Ok false)
    | t :: ts' =>
        match w_tenants fr !! t with
        | None => KRet Panic
        | Some c =>
            kbind (k_namespace (sub (sub o i) 2) t q) (fun n => match n with
              | None => k_authorize_loop o (S i) q ts'
              | Some n =>
                  kbind (k_permissions (sub (sub o i) 0) (q_principal q) (vt_id c) n (q_scope q)) (fun ps => match ps with
                    | None => k_authorize_loop o (S i) q ts'
                    | Some ps => kbind (KRet (perms_match (sub (sub o i) 1) q ps)) (fun b =>
                        if b : bool then KRet (Ok true) else k_authorize_loop o (S i) q ts')
                    end)
              end)
        end
    end.
  (** v2/v2.go:398-439 Authorize *)
  Definition k_authorize (o : oracle) (q : request) : code bool :=
    kbind (k_find_targets (sub o 0) q) (fun ts => match ts with
      | None => KRet (Ok false)
      | Some ts => k_authorize_loop (sub o 1) 0 q ts
      end).
  (** v2/v2.go:361-393 *)
  Fixpoint k_can_loop (o : oracle) (i : nat) (q : request) (roles : list string) (ts : list nat) : code bool :=
    match ts with
    | [] => KRet (Ok false)
    | t :: ts' =>
        match w_tenants fr !! t with
        | None => KRet Panic
        | Some c =>
            kbind (k_namespace (sub (sub o i) 2) t q) (fun n => match n with
              | None => k_can_loop o (S i) q roles ts'
              | Some n =>
                  kbind (k_roles (sub o i) (q_principal q) (vt_id c) n) (fun rs => match rs with
                    | None => k_can_loop o (S i) q roles ts'
                    | Some rs => if existsb (contains roles) (elements rs) then KRet (Ok true)
                                 else k_can_loop o (S i) q roles ts'
                    end)
              end)
        end
    end.
  (** v2/v2.go:355-396 Can *)
  Definition k_can (o : oracle) (q : request) (roles : list string) : code bool :=
    kbind (k_find_targets (sub o 0) q) (fun ts => match ts with
      | None => KRet (Ok false)
      | Some ts => k_can_loop (sub o 1) 0 q roles ts
      end).
End decisions.

(** ** Calls *)
Inductive kcall : Type :=
| KAuthorize (o : oracle) (now : Z) (q : request)
| KCan (o : oracle) (now : Z) (q : request) (roles : list string)
| KGetTenant (id : string)
| KGetDefault
| KSetDefault (id : string)
| KAddTenant (o : oracle) (t : nat)
| KAddPR (ls : list nat)
| KRemovePR (target : prole)
| KAddNamespace (t : nat) (n : string) (is_default : bool)
| KAddScopes (t : nat) (n : string) (ss : list string)
| KAddChildren (t : nat) (cs : list nat)
| KSetStatus (t : nat) (s : tstatus)                  (* tenant.Status = s *)
| KSetExpiry (now : Z) (l : nat) (e : Z)
| KSetDuration (now : Z) (l : nat) (a : dur_arg)
| KClearExpiry (l : nat).
Inductive kout : Type :=
| TUnit
| TErr (e : option string)
| TBool (b : bool)
| TGot (t : option nat).

Section setup.
  Variable fr : vstate.
  (** v2/init.go:37-42 GetTenant *)
  Definition k_get_tenant (id : string) : code kout :=
    KLock LAuth (KRead GReg (fun reg : gmap string nat => KUnlock LAuth (KRet (Ok (TGot (reg !! id)))))).
  (** v2/v2.go:177-182 GetDefaultTenant *)
  Definition k_get_default : code kout :=
    KRead GDefault (fun d : string => if bool_decide (d = "") then KRet (Ok (TGot None)) else KRead GDefault k_get_tenant).
  (** v2/init.go:31-33 *)
  Fixpoint k_parents (t : nat) (cs : list nat) : code kout :=
    match cs with
    | [] => KUnlock LAuth (KRet (Ok TUnit))
    | c :: cs' => match w_tenants fr !! c with
                  | None => KRet Panic
                  | Some ct => KUpd GParents (fun m : gmap string nat => <[vt_id ct := t]> m) (k_parents t cs')
                  end
    end.
  (** v2/init.go:27-35 AddTenant *)
  Definition k_add_tenant (o : oracle) (t : nat) : code kout :=
    match w_tenants fr !! t with
    | None => KRet Panic
    | Some c => KLock LAuth (KUpd GReg (fun m : gmap string nat => <[vt_id c := t]> m)
                  (KRead (GKids t) (fun kids : gmap string nat => k_parents t (ordered o (map_to_list kids).*2))))
    end.
  (** v2/v2.go:105-111 *)
  Fixpoint k_add_rows (ls : list nat) : code kout :=
    match ls with
    | [] => KUnlock LAuth (KRet (Ok TUnit))
    | l :: ls' =>
        match w_prs fr !! l with
        | None => KRet Panic
        | Some pr => KRead GAssign (fun us : list (option nat) => KUpd GAssign (set_to (x := GAssign) (us ++ [Some l]))
                       (KUpd GIndex (fun ix : gmap string (gmap string (list nat)) => index_add ix pr l) (k_add_rows ls')))
        end
    end.
  (** v2/v2.go:114-169 RemovePrincipalRole: no lock; a.userRoles is read at 115 and 136 and written at 148 *)
  Definition k_remove (target : prole) : code kout :=
    KRead GAssign (fun us : list (option nat) => KRead GAssign (fun us' : list (option nat) =>
      match remove_into (w_prs fr) target (length us) us' with
      | Panic => KRet Panic
      | Hang => KRet Hang
      | Ok None => KRet (Ok (TErr (Some err_no_match)))
      | Ok (Some new) =>
          KUpd GAssign (set_to (x := GAssign) new)
            (KUpd GIndex (fun ix : gmap string (gmap string (list nat)) => omap (index_tenants (w_prs fr) target) ix)
              (KRet (Ok (TErr None))))
      end)).
  (** v2/role.go:28-37 AddNamespace *)
  Definition k_add_namespace (t : nat) (n : string) (is_default : bool) : code kout :=
    let rest := (if is_default then KUpd (GDefNs t) (set_to (x := GDefNs t) n) else id) (KUnlock (LTenant t) (KRet (Ok TUnit))) in
    match w_tenants fr !! t with
    | None => KRet Panic
    | Some _ => KLock (LTenant t) (KRead (GNames t) (fun names : gset string =>
        if bool_decide (n ∈ names) then rest
        else KUpd (GNames t) (fun ns : gset string => {[n]} ∪ ns) rest))
    end.
  (** v2/role.go:46-48 *)
  Fixpoint k_scopes (t : nat) (n : string) (ss : list string) (k : code kout) : code kout :=
    match ss with
    | [] => k
    | s :: ss' => KUpd (GScopes t n) (fun v : gset string => {[s]} ∪ v) (k_scopes t n ss' k)
    end.
  (** v2/role.go:39-51 AddScopeToNamespace; 49 writes the map of namespaces, storing the same object *)
  Definition k_add_scopes (t : nat) (n : string) (ss : list string) : code kout :=
    match w_tenants fr !! t with
    | None => KRet Panic
    | Some c => KLock (LTenant t) (KRead (GNames t) (fun names : gset string =>
        if bool_decide (n ∈ names) then
          k_scopes t n ss (KUpd (GNames t) (fun ns : gset string => ns) (KUnlock (LTenant t) (KRet (Ok (TErr None)))))
        else KUnlock (LTenant t) (KRet (Ok (TErr (Some (err_no_namespace n (vt_id c))))))))
    end.
  (** v2/role.go:56-58 *)
  Fixpoint k_children (t : nat) (cs : list nat) : code kout :=
    match cs with
    | [] => KUnlock (LTenant t) (KRet (Ok TUnit))
    | c :: cs' => match w_tenants fr !! c with
                  | None => KRet Panic
                  | Some ct => KUpd (GKids t) (fun m : gmap string nat => <[vt_id ct := c]> m) (k_children t cs')
                  end
    end.
  (** v2/role.go:53-59 AddChildTenant *)
  Definition k_add_children (t : nat) (cs : list nat) : code kout :=
    match w_tenants fr !! t with
    | None => KRet Panic
    | Some _ => KLock (LTenant t) (k_children t cs)
    end.
  (** v2/v2.go:31-37 SetExpiry *)
  Definition k_set_expiry (now : Z) (l : nat) (e : Z) : code kout :=
    match w_prs fr !! l with
    | None => KRet Panic
    | Some _ => if bool_decide (e < now)%Z then KRet (Ok (TErr (Some "expiry time has to be in future")))
                else KUpd (GExpiry l) (set_to (x := GExpiry l) (Some e)) (KRet (Ok (TErr None)))
    end.
  (** v2/v2.go:39-54 SetExpiryDuration: a string that is no duration changes nothing *)
  Definition k_set_duration (now : Z) (l : nat) (a : dur_arg) : code kout :=
    match w_prs fr !! l with
    | None => KRet Panic
    | Some pr => match a with
                 | DString None => KRet (Ok (TErr None))
                 | _ => KUpd (GExpiry l) (set_to (x := GExpiry l) (pr_expiry (set_expiry_duration now pr a).1)) (KRet (Ok (TErr None)))
                 end
    end.
  (** v2/v2.go:56-58 ClearExpiry *)
  Definition k_clear_expiry (l : nat) : code kout :=
    match w_prs fr !! l with
    | None => KRet Panic
    | Some _ => KUpd (GExpiry l) (set_to (x := GExpiry l) None) (KRet (Ok TUnit))
    end.
  Definition code_of (c : kcall) : code kout :=
    match c with
    | KAuthorize o now q => kbind (k_authorize fr now o q) (fun b => KRet (Ok (TBool b)))
    | KCan o now q roles => kbind (k_can fr now o q roles) (fun b => KRet (Ok (TBool b)))
    | KGetTenant id => k_get_tenant id
    | KGetDefault => k_get_default
    | KSetDefault id => KUpd GDefault (set_to (x := GDefault) id) (KRet (Ok TUnit))    (* v2/v2.go:98-100 *)
    | KAddTenant o t => k_add_tenant o t
    | KAddPR ls => KLock LAuth (k_add_rows ls)                                         (* v2/v2.go:102-112 *)
    | KRemovePR target => k_remove target
    | KAddNamespace t n b => k_add_namespace t n b
    | KAddScopes t n ss => k_add_scopes t n ss
    | KAddChildren t cs => k_add_children t cs
    | KSetStatus t s => match w_tenants fr !! t with
                        | None => KRet Panic
                        | Some _ => KUpd (GStatus t) (set_to (x := GStatus t) s) (KRet (Ok TUnit))
                        end
    | KSetExpiry now l e => k_set_expiry now l e
    | KSetDuration now l a => k_set_duration now l a
    | KClearExpiry l => k_clear_expiry l
    end.
End setup.

(** ** Steps *)

(** The authorizer with its objects; who holds which lock *)
Record ksh : Type := KSh { k_st : vstate; k_held : list (mutex * nat) }.
(** [KResolve]: look into the cache, or compute and remember *)
Definition resolve_step (b : bool) (st : vstate) (name : string) : res (vstate * gset string) :=
  let! r := (if b then resolve_permissions else resolve_child_roles) (w_roles st) (w_dag st) name in
  Ok (vw_dag st r.1, r.2).
Definition free (h : list (mutex * nat)) (m : mutex) : bool := bool_decide (m ∉ h.*1).
(** One atomic step of goroutine [i]; [None] when it has returned or waits. *)
Definition code_step {A : Type} (i : nat) (s : ksh) (c : code A) : option (ksh * code A) :=
  let '(KSh st h) := s in
  match c with
  | KRet _ => None
  | KRead x k => Some (s, k (get_var st x))
  | KUpd x f k => Some (KSh (put_var st x (f (get_var st x))) h, k)
  | KResolve b name k => match resolve_step b st name with
                         | Ok (st', v) => Some (KSh st' h, k v)
                         | Panic => Some (s, KRet Panic)
                         | Hang => Some (s, KRet Hang)
                         end
  | KLock m k => if free h m then Some (KSh st ((m, i) :: h), k) else None
  | KUnlock m k => Some (KSh st (filter (fun mi : mutex * nat => mi.1 <> m) h), k)
  end.
(** The schedule names, step by step, the goroutine that moves. *)
Definition tstep (s : ksh * list (code kout)) (i : nat) : option (ksh * list (code kout)) :=
  c ← s.2 !! i; '(s', c') ← code_step i s.1 c; Some (s', <[i := c']> s.2).
Fixpoint trun (s : ksh * list (code kout)) (sched : list nat) : option (ksh * list (code kout)) :=
  match sched with
  | [] => Some s
  | i :: sched' => s' ← tstep s i; trun s' sched'
  end.
Definition tstart (st : vstate) (calls : list kcall) : ksh * list (code kout) := (KSh st [], code_of st <$> calls).
