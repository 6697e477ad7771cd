(** Properties C27 to C40, C42, C43 and C55: package v2. *)
From Verif Require Import V2PropSpec V2Final.

(** C27: no reachable role graph has a cycle; a rejected AddChildRole changes nothing, an accepted one adds exactly
    the children given, and one that would close a cycle is rejected. *)
Theorem C27_acyclic (st : vstate) :
  vreachable st -> acyclic (d_edges (w_dag st)).
Proof. exact (vreachable_acyclic st). Qed.
Print Assumptions C27_acyclic.
Theorem C27_rejected (o : oracle) (st : vstate) (p : string) (cs : list string) (st' : vstate) (e : string) :
  vstep o st (VAddChildRole p cs) = Ok (st', WErr (Some e)) -> st' = st.
Proof. exact (c27_rejected o st p cs st' e). Qed.
Print Assumptions C27_rejected.
Theorem C27_accepted (o : oracle) (st : vstate) (p : string) (cs : list string) (st' : vstate) :
  vstep o st (VAddChildRole p cs) = Ok (st', WErr None) ->
  d_edges (w_dag st') = with_children (d_edges (w_dag st)) p cs.
Proof. exact (c27_accepted o st p cs st'). Qed.
Print Assumptions C27_accepted.
Theorem C27_cycle_rejected (o : oracle) (st : vstate) (p : string) (cs : list string) (c : string) :
  vreachable st -> c ∈ cs -> rtc (child (d_edges (w_dag st))) c p ->
  exists e, vstep o st (VAddChildRole p cs) = Ok (st, WErr (Some e)).
Proof. exact (c27_cycle o st p cs c). Qed.
Print Assumptions C27_cycle_rejected.
Example C27_ex :
  exists st st1 st2 e, vreachable st /\
  vstep id_oracle st (VAddChildRole "c" ["d"]) = Ok (st1, WErr None) /\
  vstep id_oracle st (VAddChildRole "c" ["a"]) = Ok (st2, WErr (Some e)).
Proof. exact c27_ex. Qed.

(** C28: AddChildRole rejects harmless calls too: two children that share a descendant, or a child named twice. *)
Theorem C28_only_cycles_refuted :
  (exists st st' e, vreachable st /\ vstep id_oracle st (VAddChildRole "a" ["b"; "c"]) = Ok (st', WErr (Some e)) /\
     acyclic (with_children (d_edges (w_dag st)) "a" ["b"; "c"])).
Proof. exact c28_refuted. Qed.
Print Assumptions C28_only_cycles_refuted.
Theorem C28_duplicate_refuted :
  (exists st st' e, vreachable st /\ vstep id_oracle st (VAddChildRole "a" ["b"; "b"]) = Ok (st', WErr (Some e)) /\
     acyclic (with_children (d_edges (w_dag st)) "a" ["b"; "b"])).
Proof. exact c28_duplicate_refuted. Qed.
Print Assumptions C28_duplicate_refuted.

(** What it accepts exactly: the tree below the children, written out in full, repeats no role and does not contain
    the parent. *)
Theorem C28_exact (o : oracle) (st : vstate) (p : string) (cs : list string) :
  vreachable st ->
  ((exists st', vstep o st (VAddChildRole p cs) = Ok (st', WErr None)) <->
     exists l, listing (d_edges (w_dag st)) cs l /\ NoDup (p :: l)) /\
  ((exists st' e, vstep o st (VAddChildRole p cs) = Ok (st', WErr (Some e))) <->
     exists l, listing (d_edges (w_dag st)) cs l /\ ~ NoDup (p :: l)).
Proof. exact (c28_exact o st p cs). Qed.
Print Assumptions C28_exact.
Example C28_ex :
  exists st st' l, vreachable st /\ listing (d_edges (w_dag st)) ["b"; "x"] l /\ NoDup ("a" :: l) /\
  length l = 4 /\ vstep id_oracle st (VAddChildRole "a" ["b"; "x"]) = Ok (st', WErr None).
Proof. exact c28_ex. Qed.

(** C29: what a role resolves to the first time; it always resolves; and then it never changes. *)
Theorem C29_permissions (h : list vrole) (d : dag) (name : string) (d' : dag) (s : gset string) :
  d_resolved d !! name = None -> resolve_permissions h d name = Ok (d', s) ->
  forall p, p ∈ s <-> confers h d name p.
Proof. exact (c29_permissions h d name d' s). Qed.
Print Assumptions C29_permissions.
Theorem C29_names (h : list vrole) (d : dag) (name : string) (d' : dag) (s : gset string) :
  d_resolved d !! name = None -> resolve_child_roles h d name = Ok (d', s) ->
  forall x, x ∈ s <-> includes h d name x.
Proof. exact (c29_names h d name d' s). Qed.
Print Assumptions C29_names.
Theorem C29_returns (contrib : vrole -> gset string) (h : list vrole) (d : dag) (name : string) :
  dag_wf h d -> exists d' s, resolve contrib h d name = Ok (d', s).
Proof. exact (resolve_returns contrib h d name). Qed.
Print Assumptions C29_returns.
Theorem C29_later (contrib : vrole -> gset string) (h : list vrole) (d : dag) (name : string) (d' : dag) (s : gset string) (h' : list vrole) :
  resolve contrib h d name = Ok (d', s) -> resolve contrib h' d' name = Ok (d', s).
Proof. exact (c29_later contrib h d name d' s h'). Qed.
Print Assumptions C29_later.
Example C29_ex :
  let h := [VRole "a" {["p"]}; VRole "b" {["q"]}; VRole "z" {["r"]}] in
  let d := Dag {["a" := 0; "b" := 1; "z" := 2]} {["a" := ["b"; "ghost"]; "b" := ["a"]; "ghost" := ["z"]]} ∅ in
  dag_wf h d /\
  match resolve_permissions h d "a" with Ok (_, s) => elements s = ["p"; "q"] \/ elements s = ["q"; "p"] | _ => False end /\
  match resolve_child_roles h d "b" with Ok (_, s) => elements s = ["a"; "b"] \/ elements s = ["b"; "a"] | _ => False end.
Proof. exact c29_ex. Qed.

(** C30: a permission removed after a decision keeps granting, one added does not grant. *)
Theorem C30_role_changes_refuted :
  (exists st st', vreachable st /\ distinct_ids st /\ ~ v2_allowed (forget st) 0 q_doc /\
     v2_authorize id_oracle st 0 q_doc = Ok (st', true)) /\
  (exists st st', vreachable st /\ distinct_ids st /\ v2_allowed (forget st) 0 q_new /\
     v2_authorize id_oracle st 0 q_new = Ok (st', false)).
Proof. exact c30_refuted. Qed.
Print Assumptions C30_role_changes_refuted.

(** Once resolved, a role stands for the same set in every later state. *)
Theorem C30_frozen (o : oracle) (i : nat) (st : vstate) (ops : list vop) (st' : vstate) (outs : list vout) (r : string) (s : gset string) (p : string) :
  vreachable st -> vrun o i st ops = Ok (st', outs) -> d_resolved (w_dag st) !! r = Some s ->
  (role_perm st' r p <-> p ∈ s) /\ (role_name st' r p <-> p ∈ s).
Proof. exact (c30_frozen o i st ops st' outs r s p). Qed.
Print Assumptions C30_frozen.

(** Decisions reflect the current roles as long as what is remembered of the principal's roles is up to date; so they
    do when every role change precedes the first decision and only one kind of query is made. *)
Theorem C30_role_changes_partial (o : oracle) (st : vstate) (now : Z) (q : request) (st' : vstate) (b : bool) :
  vreachable st -> distinct_ids st ->
  (forall pr, assigned st pr -> pr_principal pr = q_principal q -> up_to_date st (pr_role pr)) ->
  v2_authorize o st now q = Ok (st', b) -> (b = true <-> v2_allowed (forget st) now q).
Proof. exact (c30_current o st now q st' b). Qed.
Print Assumptions C30_role_changes_partial.
Theorem C30_can_partial (o : oracle) (st : vstate) (now : Z) (q : request) (roles : list string) (st' : vstate) (b : bool) :
  vreachable st -> distinct_ids st ->
  (forall pr, assigned st pr -> pr_principal pr = q_principal q -> names_up_to_date st (pr_role pr)) ->
  v2_can o st now q roles = Ok (st', b) -> (b = true <-> v2_can_allowed (forget st) now q roles).
Proof. exact (c30_can_current o st now q roles st' b). Qed.
Print Assumptions C30_can_partial.
Theorem C30_setup_partial (o : oracle) (ops1 : list vop) (ops2 : list vop) (st : vstate) (outs : list vout) (o' : oracle) (now : Z) (q : request) (st' : vstate) (b : bool) :
  vrun o 0 v2_init (ops1 ++ ops2) = Ok (st, outs) ->
  Forall (fun x => ~ decides x) ops1 ->
  Forall (fun x => ~ changes_roles x /\ ~ is_can x) ops2 -> distinct_ids st ->
  v2_authorize o' st now q = Ok (st', b) -> (b = true <-> v2_allowed (forget st) now q).
Proof. exact (c30_setup o ops1 ops2 st outs o' now q st' b). Qed.
Print Assumptions C30_setup_partial.
Theorem C30_can_setup_partial (o : oracle) (ops1 : list vop) (ops2 : list vop) (st : vstate) (outs : list vout) (o' : oracle) (now : Z) (q : request) (roles : list string) (st' : vstate) (b : bool) :
  vrun o 0 v2_init (ops1 ++ ops2) = Ok (st, outs) ->
  Forall (fun x => ~ decides x) ops1 ->
  Forall (fun x => ~ changes_roles x /\ ~ is_authorize x) ops2 -> distinct_ids st ->
  v2_can o' st now q roles = Ok (st', b) -> (b = true <-> v2_can_allowed (forget st) now q roles).
Proof. exact (c30_can_setup o ops1 ops2 st outs o' now q roles st' b). Qed.
Print Assumptions C30_can_setup_partial.
Example C30_ex :
  exists st st' st'', vreachable st /\ distinct_ids st /\
  (forall r, d_resolved (w_dag st) !! r = None) /\
  v2_authorize id_oracle st 0 q_doc = Ok (st', true) /\ v2_authorize id_oracle st 0 q_new = Ok (st'', false).
Proof. exact c30_ex. Qed.

(** C31: Authorize, exactly. *)
Theorem C31_exact (o : oracle) (st : vstate) (now : Z) (q : request) (st' : vstate) (b : bool) :
  vreachable st -> distinct_ids st -> v2_authorize o st now q = Ok (st', b) ->
  b = true <-> v2_allowed st now q.
Proof. exact (c31_exact o st now q st' b). Qed.
Print Assumptions C31_exact.
Theorem C31_returns (o : oracle) (st : vstate) (now : Z) (q : request) :
  vreachable st -> ~ broken st -> no_loop st now q -> exists st' b, v2_authorize o st now q = Ok (st', b).
Proof. exact (c31_returns o st now q). Qed.
Print Assumptions C31_returns.
Theorem C31_effect (o : oracle) (st : vstate) (now : Z) (q : request) (st' : vstate) (b : bool) :
  vreachable st -> v2_authorize o st now q = Ok (st', b) ->
  exists d', st' = vw_dag st d' /\ d_roles d' = d_roles (w_dag st) /\ d_edges d' = d_edges (w_dag st) /\
    forall r p, role_perm st' r p <-> role_perm st r p.
Proof. exact (c31_effect o st now q st' b). Qed.
Print Assumptions C31_effect.
Example C31_ex :
  exists st st1 st2 st3, vreachable st /\ distinct_ids st /\ ~ broken st /\
  v2_authorize rev_oracle st 0 (Req "ann" "acme" "" "s" "/doc" "GET") = Ok (st1, true) /\
  v2_authorize rev_oracle st 0 (Req "ann" "acme" "" "" "/doc" "GET") = Ok (st2, false) /\
  v2_authorize rev_oracle st 0 (Req "bob" "acme" "" "s" "/doc" "GET") = Ok (st3, false).
Proof. exact c31_ex. Qed.

(** C32: Can, exactly; the soundness half needs no distinct tenant ids. *)
Theorem C32_exact (o : oracle) (st : vstate) (now : Z) (q : request) (roles : list string) (st' : vstate) (b : bool) :
  vreachable st -> distinct_ids st -> v2_can o st now q roles = Ok (st', b) ->
  b = true <-> v2_can_allowed st now q roles.
Proof. exact (c32_exact o st now q roles st' b). Qed.
Print Assumptions C32_exact.
Theorem C32_returns (o : oracle) (st : vstate) (now : Z) (q : request) (roles : list string) :
  vreachable st -> ~ broken st -> exists st' b, v2_can o st now q roles = Ok (st', b).
Proof. exact (c32_returns o st now q roles). Qed.
Print Assumptions C32_returns.
Theorem C32_sound (o : oracle) (st : vstate) (now : Z) (q : request) (roles : list string) (st' : vstate) :
  vreachable st -> v2_can o st now q roles = Ok (st', true) -> v2_can_allowed st now q roles.
Proof. exact (c32_sound o st now q roles st'). Qed.
Print Assumptions C32_sound.
Example C32_ex :
  exists st st1 st2 st3, vreachable st /\ distinct_ids st /\
  v2_can rev_oracle st 0 q_doc ["writer"; "reader"] = Ok (st1, true) /\
  v2_can rev_oracle st 0 q_doc ["writer"] = Ok (st2, false) /\
  v2_can rev_oracle st 0 q_doc ["lead"] = Ok (st3, true).
Proof. exact c32_ex. Qed.

(** C33: Can changes what Authorize answers and the other way round; a role called "*" then grants everything. *)
Theorem C33_independent_refuted :
  exists st st1 st2 st3 st4 st5 st6, vreachable st /\ distinct_ids st /\
    v2_authorize id_oracle st 0 q_doc = Ok (st1, true) /\
    v2_can id_oracle st 0 q_doc ["reader"] = Ok (st2, true) /\
    v2_authorize id_oracle st2 0 q_doc = Ok (st3, false) /\
    v2_can id_oracle st1 0 q_doc ["reader"] = Ok (st4, false) /\
    v2_can id_oracle st 0 q_doc ["/doc GET"] = Ok (st5, false) /\
    v2_can id_oracle st1 0 q_doc ["/doc GET"] = Ok (st6, true).
Proof. exact c33_refuted. Qed.
Print Assumptions C33_independent_refuted.
Theorem C33_escalation_refuted :
  exists st st1 st2 st3, vreachable st /\ distinct_ids st /\
    v2_authorize id_oracle st 0 q_secret = Ok (st1, false) /\
    v2_can id_oracle st 0 q_secret ["*"] = Ok (st2, true) /\
    v2_authorize id_oracle st2 0 q_secret = Ok (st3, true).
Proof. exact c33_escalation. Qed.
Print Assumptions C33_escalation_refuted.

(** They do not influence each other once the principal's roles have been resolved; and queries of the same kind never
    influence each other. *)
Theorem C33_authorize_partial (o1 : oracle) (o2 : oracle) (o3 : oracle) (st : vstate) (now1 : Z) (q1 : request) (roles : list string) (st1 : vstate) (b1 : bool) (now2 : Z) (q2 : request) (st2 : vstate) (st3 : vstate) (b2 : bool) (b3 : bool) :
  vreachable st -> distinct_ids st ->
  (forall pr, assigned st pr -> pr_principal pr = q_principal q2 ->
     exists s, d_resolved (w_dag st) !! pr_role pr = Some s) ->
  v2_can o1 st now1 q1 roles = Ok (st1, b1) ->
  v2_authorize o2 st now2 q2 = Ok (st2, b2) -> v2_authorize o3 st1 now2 q2 = Ok (st3, b3) -> b2 = b3.
Proof. exact (c33_authorize o1 o2 o3 st now1 q1 roles st1 b1 now2 q2 st2 st3 b2 b3). Qed.
Print Assumptions C33_authorize_partial.
Theorem C33_can_partial (o1 : oracle) (o2 : oracle) (o3 : oracle) (st : vstate) (now1 : Z) (q1 : request) (st1 : vstate) (b1 : bool) (now2 : Z) (q2 : request) (roles : list string) (st2 : vstate) (st3 : vstate) (b2 : bool) (b3 : bool) :
  vreachable st -> distinct_ids st ->
  (forall pr, assigned st pr -> pr_principal pr = q_principal q2 ->
     exists s, d_resolved (w_dag st) !! pr_role pr = Some s) ->
  v2_authorize o1 st now1 q1 = Ok (st1, b1) ->
  v2_can o2 st now2 q2 roles = Ok (st2, b2) -> v2_can o3 st1 now2 q2 roles = Ok (st3, b3) -> b2 = b3.
Proof. exact (c33_can o1 o2 o3 st now1 q1 st1 b1 now2 q2 roles st2 st3 b2 b3). Qed.
Print Assumptions C33_can_partial.
Theorem C33_same_kind_authorize (o1 : oracle) (o2 : oracle) (o3 : oracle) (st : vstate) (now1 : Z) (q1 : request) (st1 : vstate) (b1 : bool) (now2 : Z) (q2 : request) (st2 : vstate) (st3 : vstate) (b2 : bool) (b3 : bool) :
  vreachable st -> distinct_ids st ->
  v2_authorize o1 st now1 q1 = Ok (st1, b1) ->
  v2_authorize o2 st now2 q2 = Ok (st2, b2) -> v2_authorize o3 st1 now2 q2 = Ok (st3, b3) -> b2 = b3.
Proof. exact (same_kind_authorize o1 o2 o3 st now1 q1 st1 b1 now2 q2 st2 st3 b2 b3). Qed.
Print Assumptions C33_same_kind_authorize.
Theorem C33_same_kind_can (o1 : oracle) (o2 : oracle) (o3 : oracle) (st : vstate) (now1 : Z) (q1 : request) (roles1 : list string) (st1 : vstate) (b1 : bool) (now2 : Z) (q2 : request) (roles2 : list string) (st2 : vstate) (st3 : vstate) (b2 : bool) (b3 : bool) :
  vreachable st -> distinct_ids st ->
  v2_can o1 st now1 q1 roles1 = Ok (st1, b1) ->
  v2_can o2 st now2 q2 roles2 = Ok (st2, b2) -> v2_can o3 st1 now2 q2 roles2 = Ok (st3, b3) -> b2 = b3.
Proof. exact (same_kind_can o1 o2 o3 st now1 q1 roles1 st1 b1 now2 q2 roles2 st2 st3 b2 b3). Qed.
Print Assumptions C33_same_kind_can.
Example C33_ex :
  exists st st1 st2 st3, vreachable st /\ distinct_ids st /\
  d_resolved (w_dag st) !! "lead" <> None /\
  v2_can id_oracle st 0 q_doc ["lead"] = Ok (st1, true) /\
  v2_authorize id_oracle st 0 q_doc = Ok (st2, true) /\
  v2_authorize id_oracle st1 0 q_doc = Ok (st3, true).
Proof. exact c33_ex. Qed.

(** C34: a role held in scope s1 only counts for scope s2. *)
Theorem C34_scope_isolation_refuted :
  exists st st', vreachable st /\ distinct_ids st /\
  (forall pr, assigned st pr -> pr_scope pr = "s1") /\ q_scope q_s2 = "s2" /\
  v2_can id_oracle st 0 q_s2 ["reader"] = Ok (st', true).
Proof. exact c34_refuted. Qed.
Print Assumptions C34_scope_isolation_refuted.

(** Can ignores the scopes of assignments altogether: changing them changes no answer. *)
Theorem C34_scopes_ignored (o1 : oracle) (o2 : oracle) (st1 : vstate) (st2 : vstate) (now : Z) (q : request) (roles : list string) (st1' : vstate) (st2' : vstate) (b1 : bool) (b2 : bool) :
  vreachable st1 -> vreachable st2 -> distinct_ids st1 -> same_setup st1 st2 ->
  (forall pr, assigned st1 pr -> exists s, assigned st2 (with_scope pr s)) ->
  (forall pr, assigned st2 pr -> exists s, assigned st1 (with_scope pr s)) ->
  v2_can o1 st1 now q roles = Ok (st1', b1) -> v2_can o2 st2 now q roles = Ok (st2', b2) -> b1 = b2.
Proof. exact (c34_can o1 o2 st1 st2 now q roles st1' st2' b1 b2). Qed.
Print Assumptions C34_scopes_ignored.

(** C35: an expired assignment that manages child tenants still opens them. *)
Theorem C35_expired_refuted :
  exists st1 st2 pr st1' st2', vreachable st1 /\ vreachable st2 /\ distinct_ids st1 /\
  same_setup st1 st2 /\ expired 10 pr /\
  (forall pr', assigned st1 pr' <-> assigned st2 pr' \/ pr' = pr) /\
  v2_authorize id_oracle st1 10 q_doc = Ok (st1', true) /\
  v2_authorize id_oracle st2 10 q_doc = Ok (st2', false).
Proof. exact c35_refuted. Qed.
Print Assumptions C35_expired_refuted.

(** Expired assignments that do not manage child tenants have no influence. *)
Theorem C35_authorize_partial (o1 : oracle) (o2 : oracle) (st1 : vstate) (st2 : vstate) (now : Z) (q : request) (st1' : vstate) (st2' : vstate) (b1 : bool) (b2 : bool) :
  vreachable st1 -> vreachable st2 -> distinct_ids st1 -> same_setup st1 st2 ->
  (forall pr, assigned st2 pr -> assigned st1 pr) ->
  (forall pr, assigned st1 pr -> assigned st2 pr \/ expired now pr /\ pr_manage pr = false) ->
  v2_authorize o1 st1 now q = Ok (st1', b1) -> v2_authorize o2 st2 now q = Ok (st2', b2) -> b1 = b2.
Proof. exact (c35_authorize o1 o2 st1 st2 now q st1' st2' b1 b2). Qed.
Print Assumptions C35_authorize_partial.
Theorem C35_can_partial (o1 : oracle) (o2 : oracle) (st1 : vstate) (st2 : vstate) (now : Z) (q : request) (roles : list string) (st1' : vstate) (st2' : vstate) (b1 : bool) (b2 : bool) :
  vreachable st1 -> vreachable st2 -> distinct_ids st1 -> same_setup st1 st2 ->
  (forall pr, assigned st2 pr -> assigned st1 pr) ->
  (forall pr, assigned st1 pr -> assigned st2 pr \/ expired now pr /\ pr_manage pr = false) ->
  v2_can o1 st1 now q roles = Ok (st1', b1) -> v2_can o2 st2 now q roles = Ok (st2', b2) -> b1 = b2.
Proof. exact (c35_can o1 o2 st1 st2 now q roles st1' st2' b1 b2). Qed.
Print Assumptions C35_can_partial.
Example C35_ex :
  exists st1 st2 st1' st2', vreachable st1 /\ vreachable st2 /\ distinct_ids st1 /\
  same_setup st1 st2 /\ 
  (forall pr, assigned st1 pr <-> assigned st2 pr \/ pr = PRole "ann" "acme" "" "" "boss" (Some 5%Z) false) /\
  v2_authorize id_oracle st1 10 (Req "ann" "sub" "" "" "/doc" "GET") = Ok (st1', true) /\
  v2_authorize id_oracle st2 10 (Req "ann" "sub" "" "" "/doc" "GET") = Ok (st2', true).
Proof. exact c35_ex. Qed.

(** C36: removing ann's assignment loses bob's and makes bob's next request panic. *)
Theorem C36_removes_exactly_refuted :
  exists st st' st'' e, vreachable st /\
  list_is st [0; 1] /\ remains st only_ann [0; 1] [1] /\
  v2_remove_principal_role st only_ann = Ok (st', e) /\ e = None /\ w_assign st' = [None] /\
  v2_authorize id_oracle st 0 q_bob = Ok (st'', true) /\
  (forall o now, v2_authorize o st' now q_bob = Panic) /\ (forall o now rs, v2_can o st' now q_bob rs = Panic).
Proof. exact c36_refuted. Qed.
Print Assumptions C36_removes_exactly_refuted.

(** It always returns, reports an error exactly when nothing matches and then changes nothing; otherwise the list has
    the right length, and it has the right content exactly when what goes was at the end: else it contains nil. *)
Theorem C36_returns (st : vstate) (tg : prole) :
  vreachable st -> ~ broken st -> exists st' e, v2_remove_principal_role st tg = Ok (st', e).
Proof. exact (c36_returns st tg). Qed.
Print Assumptions C36_returns.
Theorem C36_error (st : vstate) (tg : prole) (st' : vstate) (e : option string) :
  vreachable st -> ~ broken st -> v2_remove_principal_role st tg = Ok (st', e) ->
  (e <> None <-> forall pr, assigned st pr -> ~ meets tg pr) /\ (e <> None -> st' = st).
Proof. exact (c36_error st tg st' e). Qed.
Print Assumptions C36_error.
Theorem C36_removes_exactly_partial (st : vstate) (tg : prole) (st' : vstate) (ls : list nat) (ks : list nat) :
  vreachable st -> list_is st ls -> remains st tg ls ks -> v2_remove_principal_role st tg = Ok (st', None) ->
  length (w_assign st') = length ks /\
  (go_last st tg ls -> list_is st' ks) /\ (~ go_last st tg ls -> broken st').
Proof. exact (c36_success st tg st' ls ks). Qed.
Print Assumptions C36_removes_exactly_partial.
Theorem C36_cases (st : vstate) (tg : prole) (ls : list nat) :
  go_last st tg ls \/ ~ go_last st tg ls.
Proof. exact (go_last_dec st tg ls). Qed.
Print Assumptions C36_cases.
Example C36_ex :
  exists st st' st'', vreachable st /\ list_is st [0; 1] /\
  go_last st only_bob [0; 1] /\ v2_remove_principal_role st only_bob = Ok (st', None) /\ list_is st' [0] /\
  v2_authorize id_oracle st' 0 q_doc = Ok (st'', true).
Proof. exact c36_ex. Qed.

(** C37: a banned tenant grants as before. *)
Theorem C37_inactive_refuted :
  exists st t c st' st'', vreachable st /\ distinct_ids st /\
  w_reg st !! "acme" = Some t /\ tenant_at st t c /\ vt_status c = TBanned /\
  v2_authorize id_oracle st 0 q_doc = Ok (st', true) /\
  v2_can id_oracle st 0 q_doc ["reader"] = Ok (st'', true).
Proof. exact c37_refuted. Qed.
Print Assumptions C37_inactive_refuted.

(** Statuses make no difference whatever to requests directed at a tenant; without one, only active tenants grant. *)
Theorem C37_named_ignored (o1 : oracle) (o2 : oracle) (st1 : vstate) (st2 : vstate) (now : Z) (q : request) (name : string) (st1' : vstate) (st2' : vstate) (b1 : bool) (b2 : bool) :
  vreachable st1 -> vreachable st2 -> distinct_ids st1 -> differ_in_status st1 st2 -> names st1 q name ->
  v2_authorize o1 st1 now q = Ok (st1', b1) -> v2_authorize o2 st2 now q = Ok (st2', b2) -> b1 = b2.
Proof. exact (c37_authorize_named o1 o2 st1 st2 now q name st1' st2' b1 b2). Qed.
Print Assumptions C37_named_ignored.
Theorem C37_named_can_ignored (o1 : oracle) (o2 : oracle) (st1 : vstate) (st2 : vstate) (now : Z) (q : request) (roles : list string) (name : string) (st1' : vstate) (st2' : vstate) (b1 : bool) (b2 : bool) :
  vreachable st1 -> vreachable st2 -> distinct_ids st1 -> differ_in_status st1 st2 -> names st1 q name ->
  v2_can o1 st1 now q roles = Ok (st1', b1) -> v2_can o2 st2 now q roles = Ok (st2', b2) -> b1 = b2.
Proof. exact (c37_can_named o1 o2 st1 st2 now q roles name st1' st2' b1 b2). Qed.
Print Assumptions C37_named_can_ignored.
Theorem C37_nameless_partial (o : oracle) (st : vstate) (now : Z) (q : request) (st' : vstate) :
  vreachable st -> nameless st q -> v2_authorize o st now q = Ok (st', true) ->
  exists pr t c, assigned st pr /\ pr_principal pr = q_principal q /\ w_reg st !! pr_tenant pr = Some t /\
    tenant_at st t c /\ vt_status c = TActive /\
    exists n p, uses_namespace c q n /\ matches_perm q p /\
      (scoped_perm st now (q_principal q) t n (q_scope q) p \/ global_perm st now (q_principal q) t n (q_scope q) p).
Proof. exact (c37_nameless o st now q st'). Qed.
Print Assumptions C37_nameless_partial.
Theorem C37_can_nameless_partial (o : oracle) (st : vstate) (now : Z) (q : request) (roles : list string) (st' : vstate) :
  vreachable st -> nameless st q -> v2_can o st now q roles = Ok (st', true) ->
  exists pr t c, assigned st pr /\ pr_principal pr = q_principal q /\ w_reg st !! pr_tenant pr = Some t /\
    tenant_at st t c /\ vt_status c = TActive /\
    exists n x, uses_namespace c q n /\ holds_role st now (q_principal q) t n x /\ x ∈ roles.
Proof. exact (c37_can_nameless o st now q roles st'). Qed.
Print Assumptions C37_can_nameless_partial.
Example C37_ex :
  exists st1 st2 st1' st2', vreachable st1 /\ vreachable st2 /\ nameless st1 q_nameless /\ nameless st2 q_nameless /\
  v2_authorize id_oracle st1 0 q_nameless = Ok (st1', true) /\
  v2_authorize id_oracle st2 0 q_nameless = Ok (st2', false).
Proof. exact c37_ex. Qed.

(** C38: a managing role grants nothing in the child tenant, and a role in the child grants in the parent. *)
Theorem C38_manage_refuted :
  (exists st st' st'', vreachable st /\ distinct_ids st /\ child_tenant st 0 1 /\ w_reg st !! "sub" = Some 1 /\
     v2_authorize id_oracle st 0 q_doc = Ok (st', true) /\ v2_authorize id_oracle st 0 q_sub = Ok (st'', false)) /\
  (exists st st', vreachable st /\ distinct_ids st /\
     (forall p, ~ confers (w_roles st) (w_dag st) "boss" p) /\
     (forall pr, assigned st pr -> pr_tenant pr = "acme" -> pr_role pr = "boss") /\
     v2_authorize id_oracle st 0 q_doc = Ok (st', true)).
Proof. exact c38_refuted. Qed.
Print Assumptions C38_manage_refuted.

(** Universally: without an assignment in the tenant named or below it the answer is no, whatever is managed above;
    and whoever manages a tenant takes the roles held in its children up into it. *)
Theorem C38_not_downward (o : oracle) (st : vstate) (now : Z) (q : request) (name : string) (t : nat) (st' : vstate) (b : bool) :
  vreachable st -> names st q name -> w_reg st !! name = Some t ->
  (forall pr, assigned st pr -> pr_principal pr = q_principal q -> ~ given_below st t pr) ->
  v2_authorize o st now q = Ok (st', b) -> b = false.
Proof. exact (c38_not_downward o st now q name t st' b). Qed.
Print Assumptions C38_not_downward.
Theorem C38_upward (o : oracle) (st : vstate) (now : Z) (q : request) (name : string) (t : nat) (c : vtenant) (t' : nat) (c' : vtenant) (n : string) (prm : prole) (pr : prole) (p : string) (st' : vstate) (b : bool) :
  vreachable st -> distinct_ids st ->
  names st q name -> w_reg st !! name = Some t -> tenant_at st t c -> uses_namespace c q n ->
  assigned st prm -> pr_principal prm = q_principal q -> pr_tenant prm = vt_id c -> pr_manage prm = true ->
  child_tenant st t t' -> tenant_at st t' c' ->
  assigned st pr -> pr_principal pr = q_principal q -> pr_tenant pr = vt_id c' -> ~ expired now pr ->
  pr_namespace pr = "" \/ pr_namespace pr = n -> pr_scope pr = q_scope q ->
  role_perm st (pr_role pr) p -> matches_perm q p ->
  v2_authorize o st now q = Ok (st', b) -> b = true.
Proof. exact (c38_upward o st now q name t c t' c' n prm pr p st' b). Qed.
Print Assumptions C38_upward.

(** Roles in child tenants grant nothing in the parent to principals who manage nothing there. *)
Theorem C38_manage_partial (o : oracle) (st : vstate) (now : Z) (q : request) (name : string) (t : nat) (st' : vstate) :
  vreachable st -> distinct_ids st -> names st q name -> w_reg st !! name = Some t ->
  (forall pr, assigned st pr -> pr_principal pr = q_principal q -> pr_tenant pr = name -> pr_manage pr = false) ->
  v2_authorize o st now q = Ok (st', true) ->
  exists pr p, assigned st pr /\ pr_principal pr = q_principal q /\ pr_tenant pr = name /\ ~ expired now pr /\
    role_perm st (pr_role pr) p /\ matches_perm q p.
Proof. exact (c38_no_manager o st now q name t st'). Qed.
Print Assumptions C38_manage_partial.

(** C39: only the principal's own assignments in the tenant named or below it matter. *)
Theorem C39_isolation (o1 : oracle) (o2 : oracle) (st1 : vstate) (st2 : vstate) (now : Z) (q : request) (name : string) (t : nat) (st1' : vstate) (st2' : vstate) (b1 : bool) (b2 : bool) :
  vreachable st1 -> vreachable st2 -> distinct_ids st1 -> same_setup st1 st2 ->
  names st1 q name -> w_reg st1 !! name = Some t ->
  (forall pr, pr_principal pr = q_principal q -> given_below st1 t pr -> (assigned st1 pr <-> assigned st2 pr)) ->
  v2_authorize o1 st1 now q = Ok (st1', b1) -> v2_authorize o2 st2 now q = Ok (st2', b2) -> b1 = b2.
Proof. exact (c39_authorize o1 o2 st1 st2 now q name t st1' st2' b1 b2). Qed.
Print Assumptions C39_isolation.
Theorem C39_can_isolation (o1 : oracle) (o2 : oracle) (st1 : vstate) (st2 : vstate) (now : Z) (q : request) (roles : list string) (name : string) (t : nat) (st1' : vstate) (st2' : vstate) (b1 : bool) (b2 : bool) :
  vreachable st1 -> vreachable st2 -> distinct_ids st1 -> same_setup st1 st2 ->
  names st1 q name -> w_reg st1 !! name = Some t ->
  (forall pr, pr_principal pr = q_principal q -> given_below st1 t pr -> (assigned st1 pr <-> assigned st2 pr)) ->
  v2_can o1 st1 now q roles = Ok (st1', b1) -> v2_can o2 st2 now q roles = Ok (st2', b2) -> b1 = b2.
Proof. exact (c39_can o1 o2 st1 st2 now q roles name t st1' st2' b1 b2). Qed.
Print Assumptions C39_can_isolation.
Theorem C39_principal (o1 : oracle) (o2 : oracle) (st1 : vstate) (st2 : vstate) (now : Z) (q : request) (st1' : vstate) (st2' : vstate) (b1 : bool) (b2 : bool) :
  vreachable st1 -> vreachable st2 -> distinct_ids st1 -> same_setup st1 st2 ->
  (forall pr, pr_principal pr = q_principal q -> (assigned st1 pr <-> assigned st2 pr)) ->
  v2_authorize o1 st1 now q = Ok (st1', b1) -> v2_authorize o2 st2 now q = Ok (st2', b2) -> b1 = b2.
Proof. exact (c39_principal o1 o2 st1 st2 now q st1' st2' b1 b2). Qed.
Print Assumptions C39_principal.
Theorem C39_can_principal (o1 : oracle) (o2 : oracle) (st1 : vstate) (st2 : vstate) (now : Z) (q : request) (roles : list string) (st1' : vstate) (st2' : vstate) (b1 : bool) (b2 : bool) :
  vreachable st1 -> vreachable st2 -> distinct_ids st1 -> same_setup st1 st2 ->
  (forall pr, pr_principal pr = q_principal q -> (assigned st1 pr <-> assigned st2 pr)) ->
  v2_can o1 st1 now q roles = Ok (st1', b1) -> v2_can o2 st2 now q roles = Ok (st2', b2) -> b1 = b2.
Proof. exact (c39_can_principal o1 o2 st1 st2 now q roles st1' st2' b1 b2). Qed.
Print Assumptions C39_can_principal.
Example C39_ex :
  exists st1 st2 st1' st2' st1'' st2'', vreachable st1 /\ vreachable st2 /\ distinct_ids st1 /\
  same_setup st1 st2 /\ names st1 q_doc "acme" /\ w_reg st1 !! "acme" = Some 0 /\
  w_assign st1 = [Some 0] /\ w_assign st2 = [Some 2; Some 1; Some 0] /\
  v2_authorize id_oracle st1 0 q_doc = Ok (st1', true) /\ v2_authorize id_oracle st2 0 q_doc = Ok (st2', true) /\
  v2_authorize id_oracle st1 0 q_bob = Ok (st1'', false) /\ v2_authorize id_oracle st2 0 q_bob = Ok (st2'', true).
Proof. exact c39_ex. Qed.

(** C40: after RemovePrincipalRole, Authorize can panic. *)
Theorem C40_panic_refuted :
  exists st, vreachable st /\ forall o now, v2_authorize o st now q_bob = Panic.
Proof. exact c40_refuted. Qed.
Print Assumptions C40_panic_refuted.

(** Only then: without a nil in the assignment list nothing panics, without a removal there is none, and with one the
    panics are exactly the requests that get as far as looking at assignments. *)
Theorem C40_no_panic_partial (o : oracle) (st : vstate) (now : Z) (q : request) (roles : list string) :
  vreachable st -> ~ broken st -> v2_authorize o st now q <> Panic /\ v2_can o st now q roles <> Panic.
Proof. exact (c40_not_broken o st now q roles). Qed.
Print Assumptions C40_no_panic_partial.
Theorem C40_no_removal_partial (o : oracle) (ops : list vop) (st : vstate) (outs : list vout) :
  vrun o 0 v2_init ops = Ok (st, outs) -> (forall t, VRemovePR t ∉ ops) -> ~ broken st.
Proof. exact (c40_no_removal o ops st outs). Qed.
Print Assumptions C40_no_removal_partial.
Theorem C40_panics_exactly (o : oracle) (st : vstate) (now : Z) (q : request) (roles : list string) :
  vreachable st -> broken st ->
  let looks := nameless st q \/
    exists name t c n, names st q name /\ w_reg st !! name = Some t /\ tenant_at st t c /\ uses_namespace c q n in
  (v2_authorize o st now q = Panic <-> looks) /\ (v2_can o st now q roles = Panic <-> looks).
Proof. exact (c40_exact o st now q roles). Qed.
Print Assumptions C40_panics_exactly.

(** C42: an unparsable duration and one of another type are accepted without an error; the latter expires at once. *)
Theorem C42_invalid_refuted :
  exists pr : prole, set_expiry_duration 0 pr (DString None) = (pr, None) /\
    (set_expiry_duration 0 pr DOther).2 = None /\ expired 1 (set_expiry_duration 0 pr DOther).1 /\ ~ expired 1 pr.
Proof. exact c42_refuted. Qed.
Print Assumptions C42_invalid_refuted.

(** Everything else is as expected; SetExpiryDuration never reports an error. *)
Theorem C42_set_expiry (now : Z) (pr : prole) (e : Z) (pr' : prole) (err : option string) :
  set_expiry now pr e = (pr', err) ->
  ((e < now)%Z -> err <> None /\ pr' = pr) /\
  ((now <= e)%Z -> err = None /\ forall now', expired now' pr' <-> (e < now')%Z).
Proof. exact (c42_set_expiry now pr e pr' err). Qed.
Print Assumptions C42_set_expiry.
Theorem C42_clear (pr : prole) (now : Z) :
  ~ expired now (clear_expiry pr).
Proof. exact (c42_clear pr now). Qed.
Print Assumptions C42_clear.
Theorem C42_duration_partial (now : Z) (pr : prole) (a : dur_arg) (pr' : prole) (err : option string) :
  set_expiry_duration now pr a = (pr', err) ->
  err = None /\
  forall d, a = DDuration d \/ a = DString (Some d) ->
    forall now', expired now' pr' <-> (now + d < now')%Z.
Proof. exact (c42_duration now pr a pr' err). Qed.
Print Assumptions C42_duration_partial.
Theorem C42_duration_ignored (now : Z) (pr : prole) (a : dur_arg) :
  a = DString None \/ a = DOther ->
  (set_expiry_duration now pr a).2 = None /\
  (a = DString None -> (set_expiry_duration now pr a).1 = pr) /\
  (a = DOther -> forall now', expired now' (set_expiry_duration now pr a).1 <-> (now < now')%Z).
Proof. exact (c42_duration_ignored now pr a). Qed.
Print Assumptions C42_duration_ignored.

(** C43: after a removal the index may list an assignment the list has lost. *)
Theorem C43_index_refuted :
  exists st, vreachable st /\ w_assign st = [None] /\ indexed st "bob" "acme" = [1].
Proof. exact c43_refuted. Qed.
Print Assumptions C43_index_refuted.

(** Index and list agree in every reachable state whose list contains no nil. *)
Theorem C43_index_partial (st : vstate) :
  vreachable st -> broken st \/ index_agrees st.
Proof. exact (c43_index st). Qed.
Print Assumptions C43_index_partial.
Example C43_ex :
  exists st, vreachable st /\ ~ broken st /\ list_is st [0; 1] /\
  indexed st "ann" "acme" = [0] /\ indexed st "bob" "acme" = [1] /\ indexed st "bob" "other" = [].
Proof. exact c43_ex. Qed.

(** C55: with two tenant objects of the same id the answer depends on the iteration order of maps. *)
Theorem C55_order_refuted :
  exists st o1 o2 st1 st2, vreachable st /\
  v2_authorize o1 st 0 q_t = Ok (st1, true) /\ v2_authorize o2 st 0 q_t = Ok (st2, false).
Proof. exact c55_refuted. Qed.
Print Assumptions C55_order_refuted.

(** With distinct ids it does not. *)
Theorem C55_authorize_partial (o1 : oracle) (o2 : oracle) (st : vstate) (now : Z) (q : request) (st1 : vstate) (st2 : vstate) (b1 : bool) (b2 : bool) :
  vreachable st -> distinct_ids st ->
  v2_authorize o1 st now q = Ok (st1, b1) -> v2_authorize o2 st now q = Ok (st2, b2) -> b1 = b2.
Proof. exact (c55_authorize o1 o2 st now q st1 st2 b1 b2). Qed.
Print Assumptions C55_authorize_partial.
Theorem C55_can_partial (o1 : oracle) (o2 : oracle) (st : vstate) (now : Z) (q : request) (roles : list string) (st1 : vstate) (st2 : vstate) (b1 : bool) (b2 : bool) :
  vreachable st -> distinct_ids st ->
  v2_can o1 st now q roles = Ok (st1, b1) -> v2_can o2 st now q roles = Ok (st2, b2) -> b1 = b2.
Proof. exact (c55_can o1 o2 st now q roles st1 st2 b1 b2). Qed.
Print Assumptions C55_can_partial.
Example C55_ex :
  exists st st1 st2, vreachable st /\ distinct_ids st /\
  v2_authorize rev_oracle st 0 q_doc = Ok (st1, true) /\ v2_authorize id_oracle st 0 q_doc = Ok (st2, true).
Proof. exact c55_ex. Qed.
