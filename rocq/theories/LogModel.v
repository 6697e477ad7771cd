(** Model of the audit log of package v2: Authorize and Can once more, with the entries they write. *)
From Verif Require Export V2Model.

(** An entry: the attributes and the message handed to slog.  Not modelled: the time stamp (v2/v2.go:304), the level, which is
    always slog.LevelWarn, and what the logger makes of the entry. *)
Record entry : Type := Entry { en_attrs : list (string * string); en_msg : string }.
Definition attr_of (k v : string) : list (string * string) := if bool_decide (v = "") then [] else [(k, v)].
(** v2/v2.go:304-322 *)
Definition log_attrs (q : request) : list (string * string) :=
  attr_of "principal" (q_principal q) ++ attr_of "tenant" (q_tenant q) ++ attr_of "namespace" (q_namespace q)
  ++ attr_of "scope" (q_scope q) ++ attr_of "resource" (q_resource q) ++ attr_of "action" (q_action q).
(** v2/v2.go:302-325 Log; [on]: the authorizer has a logger (303; v2/v2.go:84-88) *)
Definition log (on : bool) (q : request) (msg : string) : list entry := if on then [Entry (log_attrs q) msg] else [].

(** What a call has written when it returns, panics, or hangs *)
Definition logged (A : Type) : Type := list entry * res A.
Definition after {A} (es : list entry) (x : logged A) : logged A := (es ++ x.1, x.2).

(** v2/v2.go:404-438: authorize_loop and the entries at 427, 432 and 437 *)
Fixpoint authorize_logged (on : bool) (o : oracle) (i : nat) (st : vstate) (now : Z) (q : request) (d : dag) (ts : list nat)
    : logged (dag * bool) :=
  match ts with
  | [] => (log on q "Authorization failed", Ok (d, false))
  | t :: ts' =>
      match w_tenants st !! t with
      | None => ([], Panic)
      | Some c =>
          match target_namespace c q with
          | None => authorize_logged on o (S i) st now q d ts'
          | Some n =>
              match resolve_principal_permissions (sub (sub o i) 0) st now d (q_principal q) (vt_id c) n (q_scope q) with
              | Panic => ([], Panic)
              | Hang => ([], Hang)
              | Ok (d1, None) => after (log on q "Failed to resolve permissions for authorization")
                                   (authorize_logged on o (S i) st now q d1 ts')
              | Ok (d1, Some ps) =>
                  match perms_match (sub (sub o i) 1) q ps with
                  | Panic => ([], Panic)
                  | Hang => ([], Hang)
                  | Ok true => (log on q "Authorization granted", Ok (d1, true))
                  | Ok false => authorize_logged on o (S i) st now q d1 ts'
                  end
              end
          end
      end
  end.
(** v2/v2.go:398-439 Authorize *)
Definition v2_authorize_logged (on : bool) (o : oracle) (st : vstate) (now : Z) (q : request) : logged (vstate * bool) :=
  match find_target_tenants (sub o 0) st q with
  | Panic => ([], Panic)
  | Hang => ([], Hang)
  | Ok None => (log on q "Failed authorization due to invalid tenant", Ok (st, false))
  | Ok (Some ts) =>
      let x := authorize_logged on (sub o 1) 0 st now q (w_dag st) ts in
      (x.1, let! db := x.2 in Ok (vw_dag st db.1, db.2))
  end.
(** v2/v2.go:361-395: can_loop and the entries at 384, 389 and 394 *)
Fixpoint can_logged (on : bool) (o : oracle) (i : nat) (st : vstate) (now : Z) (q : request) (roles : list string)
    (d : dag) (ts : list nat) : logged (dag * bool) :=
  match ts with
  | [] => (log on q "Authorization failed", Ok (d, false))
  | t :: ts' =>
      match w_tenants st !! t with
      | None => ([], Panic)
      | Some c =>
          match target_namespace c q with
          | None => can_logged on o (S i) st now q roles d ts'
          | Some n =>
              match resolve_principal_roles (sub o i) st now d (q_principal q) (vt_id c) n with
              | Panic => ([], Panic)
              | Hang => ([], Hang)
              | Ok (d1, None) => after (log on q "Failed to resolve roles for authorization") (can_logged on o (S i) st now q roles d1 ts')
              | Ok (d1, Some rs) =>
                  if existsb (contains roles) (elements rs) then (log on q "Authorization granted", Ok (d1, true))
                  else can_logged on o (S i) st now q roles d1 ts'
              end
          end
      end
  end.
(** v2/v2.go:355-396 Can *)
Definition v2_can_logged (on : bool) (o : oracle) (st : vstate) (now : Z) (q : request) (roles : list string) : logged (vstate * bool) :=
  match find_target_tenants (sub o 0) st q with
  | Panic => ([], Panic)
  | Hang => ([], Hang)
  | Ok None => (log on q "Failed authorization due to invalid tenant", Ok (st, false))
  | Ok (Some ts) =>
      let x := can_logged on (sub o 1) 0 st now q roles (w_dag st) ts in
      (x.1, let! db := x.2 in Ok (vw_dag st db.1, db.2))
  end.
