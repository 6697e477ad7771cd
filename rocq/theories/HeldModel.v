(** Model of the caller's hold on the two caches of the root manager: GetImplicitTenants returns the map it keeps, and
    TenantChildren the slice it keeps, so that a caller who changes the answer changes the cache. *)
From Verif Require Export AuthModel.

(** query.go:39-62: the map returned is the one kept (41-43 and 60-61).  What a caller does who holds the answer for [p] and
    makes its keys [s], by [m[k] = struct{}{}], [delete] and [clear].  [None]: nobody holds a map for [p]. *)
Definition edit_tenants (st : state) (p : string) (s : gset string) : option state :=
  _ ← m_cache st !! p; Some (with_cache st (<[p := s]> (m_cache st))).
(** role_manager.go:124-135: from the second call on the slice returned is the one kept (125-127; the first call returns
    another one, 132-134).  What a caller does who holds it and writes [ds] into its elements; the length cannot be changed. *)
Definition edit_children (st : state) (t : string) (ds : list any) : option state :=
  ds0 ← m_hierarchy st !! t;
  if bool_decide (length ds = length ds0) then Some (with_hierarchy st (<[t := ds]> (m_hierarchy st))) else None.
