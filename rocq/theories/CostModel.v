(** Role.Has with a count of the calls made to it (role.go:57-92; v1/role.go:56-91 is the same function).  The answer is that of [role_has] in RoleModel;
    the number says how often Has was entered, the first call included. *)
From Verif Require Export RoleModel.

(** role.go:78-90: the loop over the descendants *)
Fixpoint counted_loop (rec : oracle -> nat -> res (bool * nat)) (h : rheap) (allowed : list string)
    (o : oracle) (i : nat) (ds : list nat) : res (bool * nat) :=
  match ds with
  | [] => Ok (false, 0)
  | d :: ds' =>
      match h_roles h !! d with
      | None => Panic
      | Some r =>
          if Nat.ltb 0 (length allowed) && negb (contains allowed (r_id r)) then
            counted_loop rec h allowed o (S i) ds'
          else
            let! b := rec (sub o i) d in
            if b.1 then Ok b
            else let! rest := counted_loop rec h allowed o (S i) ds' in Ok (rest.1, b.2 + rest.2)
      end
  end.
(** role.go:57-92 Has *)
Fixpoint counted_fuel (fuel : nat) (o : oracle) (h : rheap) (l : nat) (grp perm : string)
    (allowed : list string) : res (bool * nat) :=
  match fuel with
  | 0 => Hang
  | S fuel' =>
      match h_roles h !! l with
      | None => Panic
      | Some r =>
          match r_perms r !! grp with
          | None => Ok (false, 1)                                        (* 58-61 *)
          | Some gl =>
              match h_groups h !! gl with
              | None => Panic
              | Some g =>
                  match g_perms g !! perm with
                  | Some _ => Ok (true, 1)                               (* 62-64 *)
                  | None =>
                      let! m := any_match perm (ordered (sub o 0) (map_to_list (g_perms g)).*1) in
                      if m then Ok (true, 1)                             (* 65-75 *)
                      else
                        let! ds := get_descendant_roles (sub o 1) h l in
                        let! rest := counted_loop (fun o' d => counted_fuel fuel' o' h d grp perm allowed)
                          h allowed (sub o 2) 0 ds in                    (* 76-91 *)
                        Ok (rest.1, S rest.2)
                  end
              end
          end
      end
  end.
Definition counted_has (o : oracle) (h : rheap) (l : nat) (grp perm : string)
    (allowed : list string) : res (bool * nat) :=
  counted_fuel (S (length (h_roles h))) o h l grp perm allowed.
