(** Model of a v2 decision that runs while other goroutines change the list of assignments.  Authorize and Can take no
    lock; every [range a.userRoles] (v2/v2.go:206, 226, 268, 282, 448) takes the list as it is at that moment.
    [views k] is the list at the [k]-th of these readings.  Everything else of the authorizer stays as it is in [st].
    The functions are those of V2Model, with a counter of readings beside what they collect. *)
From Verif Require Export V2Model.

Section watch.
  Variable views : nat -> list (option nat).
  Variable st : vstate.
  Variable now : Z.

  Section traverse.
    Context {A : Type}.
    Variable row : dag -> A -> prole -> res (dag * A).
    Variable user : string.
    (** [row], carrying the counter along (v2/v2.go:213-224, 275-280) *)
    Definition count_row (d : dag) (ka : nat * A) (pr : prole) : res (dag * (nat * A)) :=
      let! da := row d ka.2 pr in Ok (da.1, (ka.1, da.2)).
    (** v2/v2.go:201-236 and 263-292 traverse: two readings per tenant *)
    Fixpoint w_traverse (fuel : nat) (o : oracle) (t : nat) (checked : gset string) (d : dag) (ka : nat * A)
        : res (gset string * dag * (nat * A)) :=
      match fuel with
      | 0 => Hang
      | S fuel' =>
          match w_tenants st !! t with
          | None => Panic
          | Some c =>
              if bool_decide (vt_id c ∈ checked) then Ok (checked, d, ka)
              else
                let! da := rows_loop count_row st now user (vt_id c) d ka (views ka.1) in
                manage_loop st user (w_traverse fuel') o 0 c (views (S ka.1)) ({[vt_id c]} ∪ checked) da.1 (S (S ka.1), da.2.2)
          end
      end.
    Definition w_traverse_all (o : oracle) (t : nat) (d : dag) (ka : nat * A) : res (dag * (nat * A)) :=
      let! s := w_traverse (S (length (w_tenants st))) o t ∅ d ka in Ok (s.1.2, s.2).
  End traverse.

  (** v2/v2.go:184-247 resolvePrincipalPermissions *)
  Definition w_principal_permissions (o : oracle) (d : dag) (k : nat) (user tid ns scope : string)
      : res (dag * (nat * option (gset string))) :=
    match w_reg st !! tid with
    | None => Ok (d, (k, None))
    | Some t =>
        let! da := w_traverse_all (perm_row st ns scope) user o t d (k, (∅, ∅)) in
        Ok (da.1, (da.2.1, if bool_decide (da.2.2.1 <> ∅) then Some da.2.2.1
                           else if bool_decide (da.2.2.2 <> ∅) then Some da.2.2.2
                           else None))
    end.
  (** v2/v2.go:249-300 resolvePrincipalRoles *)
  Definition w_principal_roles (o : oracle) (d : dag) (k : nat) (user tid ns : string)
      : res (dag * (nat * option (gset string))) :=
    match w_reg st !! tid with
    | None => Ok (d, (k, None))
    | Some t =>
        let! da := w_traverse_all (role_row st ns) user o t d (k, ∅) in
        Ok (da.1, (da.2.1, if bool_decide (da.2.2 <> ∅) then Some da.2.2 else None))
    end.
  (** v2/v2.go:404-436 *)
  Fixpoint w_authorize_loop (o : oracle) (i : nat) (q : request) (d : dag) (k : nat) (ts : list nat) : res (dag * bool) :=
    match ts with
    | [] => Ok (d, false)
    | t :: ts' =>
        match w_tenants st !! t with
        | None => Panic
        | Some c =>
            match target_namespace c q with
            | None => w_authorize_loop o (S i) q d k ts'
            | Some n =>
                let! dp := w_principal_permissions (sub (sub o i) 0) d k (q_principal q) (vt_id c) n (q_scope q) in
                match dp.2.2 with
                | None => w_authorize_loop o (S i) q dp.1 dp.2.1 ts'
                | Some ps =>
                    let! b := perms_match (sub (sub o i) 1) q ps in
                    if b then Ok (dp.1, true) else w_authorize_loop o (S i) q dp.1 dp.2.1 ts'
                end
            end
        end
    end.
  (** v2/v2.go:361-393 *)
  Fixpoint w_can_loop (o : oracle) (i : nat) (q : request) (roles : list string) (d : dag) (k : nat) (ts : list nat)
      : res (dag * bool) :=
    match ts with
    | [] => Ok (d, false)
    | t :: ts' =>
        match w_tenants st !! t with
        | None => Panic
        | Some c =>
            match target_namespace c q with
            | None => w_can_loop o (S i) q roles d k ts'
            | Some n =>
                let! dr := w_principal_roles (sub o i) d k (q_principal q) (vt_id c) n in
                match dr.2.2 with
                | None => w_can_loop o (S i) q roles dr.1 dr.2.1 ts'
                | Some rs =>
                    if existsb (contains roles) (elements rs) then Ok (dr.1, true)
                    else w_can_loop o (S i) q roles dr.1 dr.2.1 ts'
                end
            end
        end
    end.
  (** v2/v2.go:398-439 Authorize; the first reading is the one of findPrincipalTenants (448), which a request for a
      named tenant does not make (then [views 0] is not used) *)
  Definition w_authorize (o : oracle) (q : request) : res bool :=
    let! ts := find_target_tenants (sub o 0) (vw_assign st (views 0)) q in
    match ts with
    | None => Ok false
    | Some ts => let! db := w_authorize_loop (sub o 1) 0 q (w_dag st) 1 ts in Ok db.2
    end.
  (** v2/v2.go:355-396 Can *)
  Definition w_can (o : oracle) (q : request) (roles : list string) : res bool :=
    let! ts := find_target_tenants (sub o 0) (vw_assign st (views 0)) q in
    match ts with
    | None => Ok false
    | Some ts => let! db := w_can_loop (sub o 1) 0 q roles (w_dag st) 1 ts in Ok db.2
    end.
End watch.
