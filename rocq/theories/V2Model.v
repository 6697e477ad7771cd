(** Model of package v2: v2/v2.go, v2/init.go, v2/entities.go and the rest of v2/role.go. *)
From Verif Require Export DagModel MatchModel UtilsModel.
From Verif Require Import RoleModel.

(** v2/v2.go:14-22 PrincipalRole.  Instants are integers (nanoseconds); the expiry pointer is
    taken by value. *)
Record prole : Type := PRole {
  pr_principal : string;
  pr_tenant : string;
  pr_scope : string;
  pr_namespace : string;
  pr_role : string;
  pr_expiry : option Z;
  pr_manage : bool
}.
Global Instance prole_eq_dec : EqDecision prole.
Proof. solve_decision. Defined.
Definition with_expiry (pr : prole) (e : option Z) : prole :=
  PRole (pr_principal pr) (pr_tenant pr) (pr_scope pr) (pr_namespace pr) (pr_role pr) e (pr_manage pr).

(** v2/v2.go:24-29 IsExpired at the instant [now] *)
Definition is_expired (now : Z) (pr : prole) : bool :=
  match pr_expiry pr with
  | None => false
  | Some e => bool_decide (e < now)%Z
  end.
(** v2/v2.go:31-37 SetExpiry *)
Definition set_expiry (now : Z) (pr : prole) (e : Z) : prole * option string :=
  if bool_decide (e < now)%Z then (pr, Some "expiry time has to be in future")
  else (with_expiry pr (Some e), None).
(** The dynamic type of the argument of SetExpiryDuration.  A string is represented by the
    outcome of time.ParseDuration on it ([None]: it is rejected). *)
Inductive dur_arg : Type :=
| DString (parsed : option Z)
| DDuration (d : Z)
| DOther.
(** v2/v2.go:39-54 SetExpiryDuration (the sum is not wrapped to 64 bits) *)
Definition set_expiry_duration (now : Z) (pr : prole) (a : dur_arg) : prole * option string :=
  match a with
  | DString None => (pr, None)                                        (* 45-47: return nil *)
  | DString (Some d) | DDuration d => (with_expiry pr (Some (now + d)%Z), None)
  | DOther => (with_expiry pr (Some now), None)                       (* duration stays 0 *)
  end.
(** v2/v2.go:56-58 ClearExpiry *)
Definition clear_expiry (pr : prole) : prole := with_expiry pr None.

(** v2/entities.go:52-64 TenantStatus *)
Inductive tstatus : Type := TActive | TInactive | TPending | TBlocked | TBanned.
Global Instance tstatus_eq_dec : EqDecision tstatus.
Proof. solve_decision. Defined.

(** v2/entities.go:66-73 Tenant.  A namespace (43-50) is the set of its scope ids, kept under
    its own id; child tenants are pointers into the tenant heap, kept under their ids. *)
Record vtenant : Type := VTenant {
  vt_id : string;
  vt_namespaces : gmap string (gset string);
  vt_default : string;
  vt_status : tstatus;
  vt_children : gmap string nat
}.
(** v2/entities.go:75-88 NewTenant *)
Definition new_vtenant (id : string) (def : option string) : vtenant :=
  match def with
  | None => VTenant id ∅ "" TActive ∅
  | Some n => VTenant id {[n := ∅]} n TActive ∅
  end.
(** v2/role.go:28-37 AddNamespace *)
Definition vt_add_namespace (t : vtenant) (n : string) (is_default : bool) : vtenant :=
  VTenant (vt_id t)
    (match vt_namespaces t !! n with Some _ => vt_namespaces t | None => <[n := ∅]> (vt_namespaces t) end)
    (if is_default then n else vt_default t) (vt_status t) (vt_children t).
(** v2/role.go:39-51 AddScopeToNamespace *)
Definition err_no_namespace (n t : string) : string :=
  String.append "namespace " (String.append n (String.append " does not exist in tenant " t)).
Definition vt_add_scopes (t : vtenant) (n : string) (ss : list string) : vtenant * option string :=
  match vt_namespaces t !! n with
  | None => (t, Some (err_no_namespace n (vt_id t)))
  | Some scopes => (VTenant (vt_id t) (<[n := list_to_set ss ∪ scopes]> (vt_namespaces t)) (vt_default t)
                      (vt_status t) (vt_children t), None)
  end.

(** v2/v2.go:73-82 Authorizer, together with the heaps of role, tenant and assignment objects.
    [w_assign] is userRoles: a [None] is a nil pointer.  [w_index] is userRoleMap.  The audit
    log is omitted. *)
Record vstate : Type := VState {
  w_roles : list vrole;
  w_tenants : list vtenant;
  w_prs : list prole;
  w_dag : dag;
  w_assign : list (option nat);
  w_index : gmap string (gmap string (list nat));
  w_reg : gmap string nat;
  w_parents : gmap string nat;
  w_default : string
}.
(** v2/v2.go:84-96 NewAuthorizer *)
Definition v2_init : vstate := VState [] [] [] new_dag [] ∅ ∅ ∅ "".

Definition vw_roles (st : vstate) (x : list vrole) : vstate :=
  VState x (w_tenants st) (w_prs st) (w_dag st) (w_assign st) (w_index st) (w_reg st) (w_parents st) (w_default st).
Definition vw_tenants (st : vstate) (x : list vtenant) : vstate :=
  VState (w_roles st) x (w_prs st) (w_dag st) (w_assign st) (w_index st) (w_reg st) (w_parents st) (w_default st).
Definition vw_prs (st : vstate) (x : list prole) : vstate :=
  VState (w_roles st) (w_tenants st) x (w_dag st) (w_assign st) (w_index st) (w_reg st) (w_parents st) (w_default st).
Definition vw_dag (st : vstate) (x : dag) : vstate :=
  VState (w_roles st) (w_tenants st) (w_prs st) x (w_assign st) (w_index st) (w_reg st) (w_parents st) (w_default st).
Definition vw_assign (st : vstate) (x : list (option nat)) : vstate :=
  VState (w_roles st) (w_tenants st) (w_prs st) (w_dag st) x (w_index st) (w_reg st) (w_parents st) (w_default st).
Definition vw_index (st : vstate) (x : gmap string (gmap string (list nat))) : vstate :=
  VState (w_roles st) (w_tenants st) (w_prs st) (w_dag st) (w_assign st) x (w_reg st) (w_parents st) (w_default st).
Definition vw_reg (st : vstate) (x y : gmap string nat) : vstate :=
  VState (w_roles st) (w_tenants st) (w_prs st) (w_dag st) (w_assign st) (w_index st) x y (w_default st).
Definition vw_default (st : vstate) (x : string) : vstate :=
  VState (w_roles st) (w_tenants st) (w_prs st) (w_dag st) (w_assign st) (w_index st) (w_reg st) (w_parents st) x.

(** ** Set-up operations *)

(** v2/role.go:8-10 Permission.String, 12-18 AddPermission, 20-26 RemovePermission; permissions
    are given by (resource, action) *)
Definition perm_string (p : string * string) : string := String.append p.1 (String.append " " p.2).
Definition vrole_add (r : vrole) (ps : list (string * string)) : vrole :=
  VRole (vr_name r) (list_to_set (perm_string <$> ps) ∪ vr_perms r).
Definition vrole_remove (r : vrole) (ps : list (string * string)) : vrole :=
  VRole (vr_name r) (vr_perms r ∖ list_to_set (perm_string <$> ps)).

(** v2/role.go:53-59 AddChildTenant *)
Fixpoint vt_add_children (ts : list vtenant) (t : vtenant) (cs : list nat) : res vtenant :=
  match cs with
  | [] => Ok t
  | c :: cs' =>
      match ts !! c with
      | None => Panic
      | Some ct => vt_add_children ts
                     (VTenant (vt_id t) (vt_namespaces t) (vt_default t) (vt_status t)
                        (<[vt_id ct := c]> (vt_children t))) cs'
      end
  end.

(** v2/init.go:31-33: the loop of AddTenant over the child tenants *)
Fixpoint add_parents (ts : list vtenant) (t : nat) (parents : gmap string nat) (cs : list nat)
    : res (gmap string nat) :=
  match cs with
  | [] => Ok parents
  | c :: cs' => match ts !! c with
                | None => Panic
                | Some ct => add_parents ts t (<[vt_id ct := t]> parents) cs'
                end
  end.
(** v2/init.go:27-35 AddTenant: a later tenant replaces an earlier one of the same id *)
Definition v2_add_tenant (o : oracle) (st : vstate) (t : nat) : res vstate :=
  match w_tenants st !! t with
  | None => Panic
  | Some c =>
      let! parents := add_parents (w_tenants st) t (w_parents st)
                        (ordered o (map_to_list (vt_children c)).*2) in
      Ok (vw_reg st (<[vt_id c := t]> (w_reg st)) parents)
  end.

(** v2/v2.go:107-110: one more entry in userRoleMap[principal][tenant] *)
Definition index_add (ix : gmap string (gmap string (list nat))) (pr : prole) (l : nat)
    : gmap string (gmap string (list nat)) :=
  let ts := default ∅ (ix !! pr_principal pr) in
  <[pr_principal pr := <[pr_tenant pr := default [] (ts !! pr_tenant pr) ++ [l]]> ts]> ix.
(** v2/v2.go:102-112 AddPrincipalRole (a nil argument panics; the entry it leaves behind in
    userRoles is not modelled, a panic ends the history) *)
Fixpoint v2_add_principal_role (st : vstate) (ls : list nat) : res vstate :=
  match ls with
  | [] => Ok st
  | l :: ls' =>
      match w_prs st !! l with
      | None => Panic
      | Some pr => v2_add_principal_role
                     (vw_index (vw_assign st (w_assign st ++ [Some l])) (index_add (w_index st) pr l)) ls'
      end
  end.

(** v2/v2.go:117-134 matches *)
Definition field_matches (want have : string) : bool := bool_decide (want = "") || bool_decide (have = want).
Definition pr_matches (target pr : prole) : bool :=
  field_matches (pr_principal target) (pr_principal pr) &&
  field_matches (pr_tenant target) (pr_tenant pr) &&
  field_matches (pr_namespace target) (pr_namespace pr) &&
  field_matches (pr_scope target) (pr_scope pr) &&
  field_matches (pr_role target) (pr_role pr).
(** A target all of whose compared fields are empty matches without touching the assignment. *)
Definition blank (target : prole) : bool :=
  bool_decide (pr_principal target = "") && bool_decide (pr_tenant target = "") &&
  bool_decide (pr_namespace target = "") && bool_decide (pr_scope target = "") &&
  bool_decide (pr_role target = "").
(** matches applied to a pointer: nil is dereferenced unless the target is blank *)
Definition ptr_matches (prs : list prole) (target : prole) (p : option nat) : res bool :=
  if blank target then Ok true
  else match p with
       | None => Panic
       | Some l => match prs !! l with
                   | None => Panic
                   | Some pr => Ok (pr_matches target pr)
                   end
       end.
(** v2/v2.go:135-143: the new array (same length, nil where an entry matched) and the number [j]
    of entries kept *)
Fixpoint remove_loop (prs : list prole) (target : prole) (ps : list (option nat))
    : res (list (option nat) * nat) :=
  match ps with
  | [] => Ok ([], 0)
  | p :: ps' =>
      let! m := ptr_matches prs target p in
      let! rest := remove_loop prs target ps' in
      Ok (if m then (None :: rest.1, rest.2) else (p :: rest.1, S rest.2))
  end.
(** v2/v2.go:149-167: one bucket; an emptied bucket is deleted *)
Definition index_keep (prs : list prole) (target : prole) (l : nat) : bool :=
  match prs !! l with
  | Some pr => negb (pr_matches target pr)
  | None => true                            (* never: the index holds no nil pointers *)
  end.
Definition index_bucket (prs : list prole) (target : prole) (ls : list nat) : option (list nat) :=
  match filter (fun l => Is_true (index_keep prs target l)) ls with
  | [] => None
  | ls' => Some ls'
  end.
Definition index_tenants (prs : list prole) (target : prole) (ts : gmap string (list nat))
    : option (gmap string (list nat)) :=
  let ts' := omap (index_bucket prs target) ts in
  if bool_decide (ts' = ∅) then None else Some ts'.
(** v2/v2.go:114-169 RemovePrincipalRole *)
Definition err_no_match : string := "no matching roles found for the provided criteria".
Definition v2_remove_principal_role (st : vstate) (target : prole) : res (vstate * option string) :=
  let! uj := remove_loop (w_prs st) target (w_assign st) in
  if bool_decide (uj.2 = length (w_assign st)) then Ok (st, Some err_no_match)      (* 145-147 *)
  else Ok (vw_index (vw_assign st (take uj.2 uj.1))                                 (* 144, 148 *)
             (omap (index_tenants (w_prs st) target) (w_index st)), None).

(** ** Decisions *)

(** v2/v2.go:60-67 Request *)
Record request : Type := Req {
  q_principal : string;
  q_tenant : string;
  q_namespace : string;
  q_scope : string;
  q_resource : string;
  q_action : string
}.

Section traverse.
  (** The traversals of resolvePrincipalPermissions (v2/v2.go:200-236) and resolvePrincipalRoles
      (262-292) differ only in what one assignment contributes: [row], given the role graph (whose
      cache it may extend) and the maps filled so far. *)
  Context {A : Type}.
  Variable row : dag -> A -> prole -> res (dag * A).
  Variable st : vstate.
  Variable now : Z.
  Variable user : string.

  (** 206-225 and 268-281 *)
  Fixpoint rows_loop (tid : string) (d : dag) (acc : A) (ps : list (option nat)) : res (dag * A) :=
    match ps with
    | [] => Ok (d, acc)
    | p :: ps' =>
        match p ≫= (fun l => w_prs st !! l) with
        | None => Panic
        | Some pr =>
            if bool_decide (pr_principal pr = user) && bool_decide (pr_tenant pr = tid)
               && negb (is_expired now pr)
            then let! da := row d acc pr in rows_loop tid da.1 da.2 ps'
            else rows_loop tid d acc ps'
        end
    end.
  (** 228-232: the children of one tenant *)
  Fixpoint kids_loop (rec : oracle -> nat -> gset string -> dag -> A -> res (gset string * dag * A))
      (o : oracle) (i : nat) (cs : list nat) (checked : gset string) (d : dag) (acc : A)
      : res (gset string * dag * A) :=
    match cs with
    | [] => Ok (checked, d, acc)
    | c :: cs' => let! s := rec (sub o i) c checked d acc in
                  kids_loop rec o (S i) cs' s.1.1 s.1.2 s.2
    end.
  (** 226-234 and 282-290: once per managing assignment *)
  Fixpoint manage_loop (rec : oracle -> nat -> gset string -> dag -> A -> res (gset string * dag * A))
      (o : oracle) (i : nat) (t : vtenant) (ps : list (option nat)) (checked : gset string) (d : dag) (acc : A)
      : res (gset string * dag * A) :=
    match ps with
    | [] => Ok (checked, d, acc)
    | p :: ps' =>
        match p ≫= (fun l => w_prs st !! l) with
        | None => Panic
        | Some pr =>
            if bool_decide (pr_principal pr = user) && bool_decide (pr_tenant pr = vt_id t) && pr_manage pr
            then let! s := kids_loop rec (sub o i) 1 (ordered (sub (sub o i) 0) (map_to_list (vt_children t)).*2)
                             checked d acc in
                 manage_loop rec o (S i) t ps' s.1.1 s.1.2 s.2
            else manage_loop rec o (S i) t ps' checked d acc
        end
    end.
  (** 201-236 and 263-292 traverse.  It ends because checkedTenants grows; the fuel is justified
      in V2Trav (it never runs out). *)
  Fixpoint traverse (fuel : nat) (o : oracle) (t : nat) (checked : gset string) (d : dag) (acc : A)
      : res (gset string * dag * A) :=
    match fuel with
    | 0 => Hang
    | S fuel' =>
        match w_tenants st !! t with
        | None => Panic
        | Some c =>
            if bool_decide (vt_id c ∈ checked) then Ok (checked, d, acc)
            else
              let! da := rows_loop (vt_id c) d acc (w_assign st) in
              manage_loop (traverse fuel') o 0 c (w_assign st) ({[vt_id c]} ∪ checked) da.1 da.2
        end
    end.
  Definition traverse_all (o : oracle) (t : nat) (d : dag) (acc : A) : res (dag * A) :=
    let! s := traverse (S (length (w_tenants st))) o t ∅ d acc in Ok (s.1.2, s.2).
End traverse.

(** 213-224: what an assignment adds to (scopedPermissions, globalPermissions) *)
Definition perm_row (st : vstate) (ns scope : string) (d : dag) (acc : gset string * gset string) (pr : prole)
    : res (dag * (gset string * gset string)) :=
  if bool_decide (pr_namespace pr = "") || bool_decide (pr_namespace pr = ns) then
    let! ds := resolve_permissions (w_roles st) d (pr_role pr) in
    Ok (ds.1, if bool_decide (pr_scope pr = scope) then (ds.2 ∪ acc.1, acc.2)
              else if bool_decide (pr_scope pr = "") then (acc.1, ds.2 ∪ acc.2)
              else acc)
  else Ok (d, acc).
(** v2/v2.go:184-247 resolvePrincipalPermissions; [None] is the error result.  The maps come from
    pools and are cleared first, so sequentially they are new empty maps (see PoolModel for the
    concurrent case). *)
Definition resolve_principal_permissions (o : oracle) (st : vstate) (now : Z) (d : dag)
    (user tid ns scope : string) : res (dag * option (gset string)) :=
  match w_reg st !! tid with
  | None => Ok (d, None)
  | Some t =>
      let! da := traverse_all (perm_row st ns scope) st now user o t d (∅, ∅) in
      Ok (da.1, if bool_decide (da.2.1 <> ∅) then Some da.2.1
                else if bool_decide (da.2.2 <> ∅) then Some da.2.2
                else None)
  end.
(** 275-280: what an assignment adds to scopedRoles *)
Definition role_row (st : vstate) (ns : string) (d : dag) (acc : gset string) (pr : prole)
    : res (dag * gset string) :=
  if (bool_decide (pr_namespace pr = "") || bool_decide (pr_namespace pr = ns))
     && negb (bool_decide (pr_role pr = "")) then
    let! ds := resolve_child_roles (w_roles st) d (pr_role pr) in
    Ok (ds.1, ds.2 ∪ ({[pr_role pr]} ∪ acc))
  else Ok (d, acc).
(** v2/v2.go:249-300 resolvePrincipalRoles *)
Definition resolve_principal_roles (o : oracle) (st : vstate) (now : Z) (d : dag)
    (user tid ns : string) : res (dag * option (gset string)) :=
  match w_reg st !! tid with
  | None => Ok (d, None)
  | Some t =>
      let! da := traverse_all (role_row st ns) st now user o t d ∅ in
      Ok (da.1, if bool_decide (da.2 <> ∅) then Some da.2 else None)
  end.

(** v2/v2.go:447-456 *)
Fixpoint principal_tenants (st : vstate) (user : string) (acc : gmap string nat) (ps : list (option nat))
    : res (gmap string nat) :=
  match ps with
  | [] => Ok acc
  | p :: ps' =>
      match p ≫= (fun l => w_prs st !! l) with
      | None => Panic
      | Some pr =>
          if bool_decide (pr_principal pr = user) && negb (bool_decide (pr_tenant pr = "")) then
            match w_reg st !! pr_tenant pr with
            | None => principal_tenants st user acc ps'
            | Some t =>
                match w_tenants st !! t with
                | None => Panic
                | Some c => principal_tenants st user
                              (if bool_decide (vt_status c = TActive) then <[pr_tenant pr := t]> acc else acc) ps'
                end
            end
          else principal_tenants st user acc ps'
      end
  end.
(** v2/v2.go:446-464 findPrincipalTenants *)
Definition find_principal_tenants (o : oracle) (st : vstate) (user : string) : res (list nat) :=
  let! m := principal_tenants st user ∅ (w_assign st) in
  Ok (ordered o (map_to_list m).*2).
(** v2/v2.go:327-353 findTargetTenants; [None] when the tenant does not exist *)
Definition find_target_tenants (o : oracle) (st : vstate) (q : request) : res (option (list nat)) :=
  let tn := if bool_decide (q_tenant q = "") then w_default st else q_tenant q in
  if bool_decide (tn = "") then
    let! ts := find_principal_tenants o st (q_principal q) in Ok (Some ts)
  else Ok (match w_reg st !! tn with None => None | Some t => Some [t] end).
(** v2/v2.go:405-424 (and 362-381): the namespace to use in a tenant, [None] if the tenant is
    skipped.  With exactly one namespace the order of the range at 410 does not matter. *)
Definition target_namespace (t : vtenant) (q : request) : option string :=
  let n := if negb (bool_decide (q_namespace q = "")) then Some (q_namespace q)
           else if negb (bool_decide (vt_default t = "")) then Some (vt_default t)
           else match map_to_list (vt_namespaces t) with
                | [(n, _)] => Some n
                | _ => None
                end in
  match n with
  | None => None
  | Some n =>
      match vt_namespaces t !! n with
      | None => None
      | Some scopes =>
          if bool_decide (q_scope q = "") || bool_decide (q_scope q ∈ scopes) then Some n else None
      end
  end.

(** v2/v2.go:69-71 Request.String *)
Definition request_string (q : request) : string := perm_string (q_resource q, q_action q).
(** v2/v2.go:430-435 with matchPermission (466-472) *)
Definition perms_match (o : oracle) (q : request) (ps : gset string) : res bool :=
  if bool_decide (q_resource q = "") && bool_decide (q_action q = "") then Ok false
  else any_match (request_string q) (ordered o (elements ps)).
(** v2/v2.go:404-436 *)
Fixpoint authorize_loop (o : oracle) (i : nat) (st : vstate) (now : Z) (q : request) (d : dag) (ts : list nat)
    : res (dag * bool) :=
  match ts with
  | [] => Ok (d, false)
  | t :: ts' =>
      match w_tenants st !! t with
      | None => Panic
      | Some c =>
          match target_namespace c q with
          | None => authorize_loop o (S i) st now q d ts'
          | Some n =>
              let! dp := resolve_principal_permissions (sub (sub o i) 0) st now d (q_principal q) (vt_id c) n (q_scope q) in
              match dp.2 with
              | None => authorize_loop o (S i) st now q dp.1 ts'
              | Some ps =>
                  let! b := perms_match (sub (sub o i) 1) q ps in
                  if b then Ok (dp.1, true) else authorize_loop o (S i) st now q dp.1 ts'
              end
          end
      end
  end.
(** v2/v2.go:398-439 Authorize at the instant [now] (simplification: one reading of the clock per
    call) *)
Definition v2_authorize (o : oracle) (st : vstate) (now : Z) (q : request) : res (vstate * bool) :=
  let! ts := find_target_tenants (sub o 0) st q in
  match ts with
  | None => Ok (st, false)
  | Some ts => let! db := authorize_loop (sub o 1) 0 st now q (w_dag st) ts in
               Ok (vw_dag st db.1, db.2)
  end.
(** v2/v2.go:361-393 *)
Fixpoint can_loop (o : oracle) (i : nat) (st : vstate) (now : Z) (q : request) (roles : list string)
    (d : dag) (ts : list nat) : res (dag * bool) :=
  match ts with
  | [] => Ok (d, false)
  | t :: ts' =>
      match w_tenants st !! t with
      | None => Panic
      | Some c =>
          match target_namespace c q with
          | None => can_loop o (S i) st now q roles d ts'
          | Some n =>
              let! dr := resolve_principal_roles (sub o i) st now d (q_principal q) (vt_id c) n in
              match dr.2 with
              | None => can_loop o (S i) st now q roles dr.1 ts'
              | Some rs =>
                  if existsb (contains roles) (elements rs) then Ok (dr.1, true)
                  else can_loop o (S i) st now q roles dr.1 ts'
              end
          end
      end
  end.
(** v2/v2.go:355-396 Can *)
Definition v2_can (o : oracle) (st : vstate) (now : Z) (q : request) (roles : list string)
    : res (vstate * bool) :=
  let! ts := find_target_tenants (sub o 0) st q in
  match ts with
  | None => Ok (st, false)
  | Some ts => let! db := can_loop (sub o 1) 0 st now q roles (w_dag st) ts in
               Ok (vw_dag st db.1, db.2)
  end.

(** ** Histories *)
Inductive vop : Type :=
| VNewRole (name : string)
| VNewTenant (id : string) (def : option string)
| VNewPR (pr : prole)                                  (* &PrincipalRole{...} *)
| VRoleAdd (r : nat) (ps : list (string * string))
| VRoleRemove (r : nat) (ps : list (string * string))
| VAddRoles (rs : list nat)
| VAddChildRole (parent : string) (cs : list string)
| VTenantNamespace (t : nat) (n : string) (is_default : bool)
| VTenantScopes (t : nat) (n : string) (ss : list string)
| VTenantChildren (t : nat) (cs : list nat)
| VTenantStatus (t : nat) (s : tstatus)                (* tenant.Status = s *)
| VAddTenant (t : nat)
| VSetDefault (t : string)
| VAddPR (prs : list nat)
| VRemovePR (target : prole)
| VSetExpiry (now : Z) (pr : nat) (e : Z)
| VSetExpiryDuration (now : Z) (pr : nat) (a : dur_arg)
| VClearExpiry (pr : nat)
| VAuthorize (now : Z) (q : request)
| VCan (now : Z) (q : request) (roles : list string).

Inductive vout : Type :=
| WUnit
| WLoc (l : nat)
| WErr (e : option string)
| WBool (b : bool).

Definition upd_role (st : vstate) (l : nat) (f : vrole -> vrole) : res vstate :=
  match w_roles st !! l with
  | None => Panic
  | Some r => Ok (vw_roles st (<[l := f r]> (w_roles st)))
  end.
Definition upd_tenant (st : vstate) (l : nat) (f : vtenant -> vtenant) : res vstate :=
  match w_tenants st !! l with
  | None => Panic
  | Some t => Ok (vw_tenants st (<[l := f t]> (w_tenants st)))
  end.
Definition upd_pr (st : vstate) (l : nat) (f : prole -> prole * option string)
    : res (vstate * option string) :=
  match w_prs st !! l with
  | None => Panic
  | Some pr => Ok (vw_prs st (<[l := (f pr).1]> (w_prs st)), (f pr).2)
  end.
Definition set_status (s : tstatus) (t : vtenant) : vtenant :=
  VTenant (vt_id t) (vt_namespaces t) (vt_default t) s (vt_children t).

Definition wunit (x : res vstate) : res (vstate * vout) := let! st := x in Ok (st, WUnit).
Definition werr (x : res (vstate * option string)) : res (vstate * vout) :=
  let! r := x in Ok (r.1, WErr r.2).
Definition wbool (x : res (vstate * bool)) : res (vstate * vout) := let! r := x in Ok (r.1, WBool r.2).

Definition vstep (o : oracle) (st : vstate) (x : vop) : res (vstate * vout) :=
  match x with
  | VNewRole name => Ok (vw_roles st (w_roles st ++ [VRole name ∅]), WLoc (length (w_roles st)))
  | VNewTenant id def =>
      Ok (vw_tenants st (w_tenants st ++ [new_vtenant id def]), WLoc (length (w_tenants st)))
  | VNewPR pr => Ok (vw_prs st (w_prs st ++ [pr]), WLoc (length (w_prs st)))
  | VRoleAdd r ps => wunit (upd_role st r (fun r => vrole_add r ps))
  | VRoleRemove r ps => wunit (upd_role st r (fun r => vrole_remove r ps))
  | VAddRoles rs => let! d := dag_add_roles (w_roles st) (w_dag st) rs in Ok (vw_dag st d, WUnit)
  | VAddChildRole p cs => let! r := dag_add_child (w_dag st) p cs in Ok (vw_dag st r.1, WErr r.2)
  | VTenantNamespace t n b => wunit (upd_tenant st t (fun c => vt_add_namespace c n b))
  | VTenantScopes t n ss =>
      match w_tenants st !! t with
      | None => Panic
      | Some c => let r := vt_add_scopes c n ss in Ok (vw_tenants st (<[t := r.1]> (w_tenants st)), WErr r.2)
      end
  | VTenantChildren t cs =>
      match w_tenants st !! t with
      | None => Panic
      | Some c => let! c' := vt_add_children (w_tenants st) c cs in
                  Ok (vw_tenants st (<[t := c']> (w_tenants st)), WUnit)
      end
  | VTenantStatus t s => wunit (upd_tenant st t (set_status s))
  | VAddTenant t => wunit (v2_add_tenant o st t)
  | VSetDefault t => Ok (vw_default st t, WUnit)
  | VAddPR ls => wunit (v2_add_principal_role st ls)
  | VRemovePR target => werr (v2_remove_principal_role st target)
  | VSetExpiry now l e => werr (upd_pr st l (fun pr => set_expiry now pr e))
  | VSetExpiryDuration now l a => werr (upd_pr st l (fun pr => set_expiry_duration now pr a))
  | VClearExpiry l => werr (upd_pr st l (fun pr => (clear_expiry pr, None)))
  | VAuthorize now q => wbool (v2_authorize o st now q)
  | VCan now q roles => wbool (v2_can o st now q roles)
  end.
Fixpoint vrun (o : oracle) (i : nat) (st : vstate) (ops : list vop) : res (vstate * list vout) :=
  match ops with
  | [] => Ok (st, [])
  | x :: ops' =>
      let! s1 := vstep (sub o i) st x in
      let! s2 := vrun o (S i) s1.1 ops' in
      Ok (s2.1, s1.2 :: s2.2)
  end.
(** The states a program can reach from NewAuthorizer(). *)
Definition vreachable (st : vstate) : Prop :=
  exists o ops outs, vrun o 0 v2_init ops = Ok (st, outs).
