(** Model of a v2 decision during which time passes.  IsExpired reads the clock anew for every assignment it is asked about
    that has an expiry (v2/v2.go:24-29, called at 210 and 272).  [clock k] is the [k]-th reading during the call.  The
    functions are those of V2Model, with a counter of readings beside what they collect.  Everything else of the authorizer
    stays as it is in [st]. *)
From Verif Require Export V2Model.

Section tick.
  Variable clock : nat -> Z.
  Variable st : vstate.

  (** v2/v2.go:24-29 IsExpired as the [k]-th reader of the clock: the number of readings so far, and the answer *)
  Definition expired_at (k : nat) (pr : prole) : nat * bool :=
    match pr_expiry pr with
    | None => (k, false)
    | Some e => (S k, bool_decide (e < clock k)%Z)
    end.

  Section traverse.
    Context {A : Type}.
    Variable row : dag -> A -> prole -> res (dag * A).
    Variable user : string.
    (** v2/v2.go:206-225 and 268-281: the assignments of [user] in the tenant [tid] *)
    Fixpoint t_rows (tid : string) (d : dag) (ka : nat * A) (ps : list (option nat)) : res (dag * (nat * A)) :=
      match ps with
      | [] => Ok (d, ka)
      | p :: ps' =>
          match p ≫= (fun l => w_prs st !! l) with
          | None => Panic
          | Some pr =>
              if bool_decide (pr_principal pr = user) && bool_decide (pr_tenant pr = tid) then
                let (k, e) := expired_at ka.1 pr in
                if e then t_rows tid d (k, ka.2) ps'
                else let! da := row d ka.2 pr in t_rows tid da.1 (k, da.2) ps'
              else t_rows tid d ka ps'
          end
      end.
    (** v2/v2.go:201-236 and 263-292 traverse; the second loop asks nothing about expiry (226-234, 282-290) *)
    Fixpoint t_traverse (fuel : nat) (o : oracle) (t : nat) (checked : gset string) (d : dag) (ka : nat * A)
        : res (gset string * dag * (nat * A)) :=
      match fuel with
      | 0 => Hang
      | S fuel' =>
          match w_tenants st !! t with
          | None => Panic
          | Some c =>
              if bool_decide (vt_id c ∈ checked) then Ok (checked, d, ka)
              else
                let! da := t_rows (vt_id c) d ka (w_assign st) in
                manage_loop st user (t_traverse fuel') o 0 c (w_assign st) ({[vt_id c]} ∪ checked) da.1 da.2
          end
      end.
    Definition t_traverse_all (o : oracle) (t : nat) (d : dag) (ka : nat * A) : res (dag * (nat * A)) :=
      let! s := t_traverse (S (length (w_tenants st))) o t ∅ d ka in Ok (s.1.2, s.2).
  End traverse.

  (** v2/v2.go:184-247 resolvePrincipalPermissions *)
  Definition t_principal_permissions (o : oracle) (d : dag) (k : nat) (user tid ns scope : string)
      : res (dag * (nat * option (gset string))) :=
    match w_reg st !! tid with
    | None => Ok (d, (k, None))
    | Some t =>
        let! da := t_traverse_all (perm_row st ns scope) user o t d (k, (∅, ∅)) in
        Ok (da.1, (da.2.1, if bool_decide (da.2.2.1 <> ∅) then Some da.2.2.1
                           else if bool_decide (da.2.2.2 <> ∅) then Some da.2.2.2
                           else None))
    end.
  (** v2/v2.go:249-300 resolvePrincipalRoles *)
  Definition t_principal_roles (o : oracle) (d : dag) (k : nat) (user tid ns : string)
      : res (dag * (nat * option (gset string))) :=
    match w_reg st !! tid with
    | None => Ok (d, (k, None))
    | Some t =>
        let! da := t_traverse_all (role_row st ns) user o t d (k, ∅) in
        Ok (da.1, (da.2.1, if bool_decide (da.2.2 <> ∅) then Some da.2.2 else None))
    end.
  (** v2/v2.go:404-436 *)
  Fixpoint t_authorize_loop (o : oracle) (i : nat) (q : request) (d : dag) (k : nat) (ts : list nat) : res (dag * bool) :=
    match ts with
    | [] => Ok (d, false)
    | t :: ts' =>
        match w_tenants st !! t with
        | None => Panic
        | Some c =>
            match target_namespace c q with
            | None => t_authorize_loop o (S i) q d k ts'
            | Some n =>
                let! dp := t_principal_permissions (sub (sub o i) 0) d k (q_principal q) (vt_id c) n (q_scope q) in
                match dp.2.2 with
                | None => t_authorize_loop o (S i) q dp.1 dp.2.1 ts'
                | Some ps =>
                    let! b := perms_match (sub (sub o i) 1) q ps in
                    if b then Ok (dp.1, true) else t_authorize_loop o (S i) q dp.1 dp.2.1 ts'
                end
            end
        end
    end.
  (** v2/v2.go:361-393 *)
  Fixpoint t_can_loop (o : oracle) (i : nat) (q : request) (roles : list string) (d : dag) (k : nat) (ts : list nat)
      : res (dag * bool) :=
    match ts with
    | [] => Ok (d, false)
    | t :: ts' =>
        match w_tenants st !! t with
        | None => Panic
        | Some c =>
            match target_namespace c q with
            | None => t_can_loop o (S i) q roles d k ts'
            | Some n =>
                let! dr := t_principal_roles (sub o i) d k (q_principal q) (vt_id c) n in
                match dr.2.2 with
                | None => t_can_loop o (S i) q roles dr.1 dr.2.1 ts'
                | Some rs =>
                    if existsb (contains roles) (elements rs) then Ok (dr.1, true)
                    else t_can_loop o (S i) q roles dr.1 dr.2.1 ts'
                end
            end
        end
    end.
  (** v2/v2.go:398-439 Authorize (findPrincipalTenants, 441-459, asks nothing about expiry) *)
  Definition t_authorize (o : oracle) (q : request) : res (vstate * bool) :=
    let! ts := find_target_tenants (sub o 0) st q in
    match ts with
    | None => Ok (st, false)
    | Some ts => let! db := t_authorize_loop (sub o 1) 0 q (w_dag st) 0 ts in Ok (vw_dag st db.1, db.2)
    end.
  (** v2/v2.go:355-396 Can *)
  Definition t_can (o : oracle) (q : request) (roles : list string) : res (vstate * bool) :=
    let! ts := find_target_tenants (sub o 0) st q in
    match ts with
    | None => Ok (st, false)
    | Some ts => let! db := t_can_loop (sub o 1) 0 q roles (w_dag st) 0 ts in Ok (vw_dag st db.1, db.2)
    end.
End tick.
