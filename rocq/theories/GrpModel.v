(** Model of contracts/voting/dao-voting-cw4/src/contract.rs, with the cw4-group contract it
    asks.

    cw4-group 1.1 is an external crate, modelled from its documentation.  Only such a group is
    modelled, though any contract with the same queries can be named at set-up. *)
From Verif Require Import Base Exec StoreModel RolesModel.

(** ** cw4-group *)
Record gstate := GState {
  g_admin : option addr;
  g_members : smap;
  g_total : snap;
  g_hooks : list addr }.
Inductive gmsg :=
| GAdmin (a : option addr)
| GMembers (remove : list addr) (add : list (addr * Z))
| GAddHook (a : addr)
| GRemoveHook (a : addr)
(** A call of the voting module. *)
| GVoting.
(** A member's weight before and after, told to a hook. *)
Notation gdiff := (addr * option Z * option Z)%type.
Inductive gsub := GHook (hook : addr) (diffs : list gdiff).

Definition is_admin (s : gstate) (a : addr) : bool := bool_decide (g_admin s = Some a).
(** [validate_unique_members]. *)
Definition unique (l : list (addr * Z)) : bool := bool_decide (NoDup l.*1).
Definition weights_fit (l : list (addr * Z)) : bool := forallb (fun x => fits64 x.2) l.

(** [update_members]: first the additions, then the removals. *)
Fixpoint g_add (ms : smap) (t h : Z) (l : list (addr * Z)) : result (smap * Z * list gdiff) :=
  match l with
  | [] => Ok (ms, t, [])
  | (a, w) :: l =>
      let old := smap_load ms a in
      do! t1 <- sub64 t (default 0 old);
      do! t2 <- add64 t1 w;
      do! ' (ms', t', ds) <- g_add (smap_save ms a h w) t2 h l;
      Ok (ms', t', (a, old, Some w) :: ds)
  end.
Fixpoint g_remove (ms : smap) (t h : Z) (l : list addr) : result (smap * Z * list gdiff) :=
  match l with
  | [] => Ok (ms, t, [])
  | a :: l =>
      match smap_load ms a with
      | Some w =>
          do! t1 <- sub64 t w;
          do! ' (ms', t', ds) <- g_remove (smap_drop ms a h) t1 h l;
          Ok (ms', t', (a, Some w, None) :: ds)
      | None => g_remove ms t h l
      end
  end.
Definition g_update (s : gstate) (b : block) (remove : list addr) (add : list (addr * Z))
  : result (gstate * list gsub) :=
  check! unique add else "DuplicateMember";
  do! ' (ms, t, ds) <- g_add (g_members s) (snap_get (g_total s)) (height b) add;
  do! ' (ms', t', ds') <- g_remove ms t (height b) remove;
  Ok (GState (g_admin s) ms' (snap_save (g_total s) (height b) t') (g_hooks s),
      map (fun h => GHook h (ds ++ ds')) (g_hooks s)).
(** [create]. *)
Fixpoint g_fill (ms : smap) (t h : Z) (l : list (addr * Z)) : result (smap * Z) :=
  match l with
  | [] => Ok (ms, t)
  | (a, w) :: l => do! t' <- add64 t w; g_fill (smap_save ms a h w) t' h l
  end.
Definition g_create (admin : option addr) (members : list (addr * Z)) (b : block) : result gstate :=
  check! weights_fit members else "parse";
  check! unique members else "DuplicateMember";
  do! ' (ms, t) <- g_fill ∅ 0 (height b) members;
  Ok (GState admin ms (snap_save snap_empty (height b) t) []).

Definition g_handle (s : gstate) (b : block) (sender : addr) (m : gmsg)
  : result (gstate * list gsub) :=
  match m with
  (* contract.rs:105-112 of the voting module *)
  | GVoting => Err "NoExecute"
  | GAdmin a =>
      check! is_admin s sender else "NotAdmin";
      Ok (GState a (g_members s) (g_total s) (g_hooks s), [])
  | GMembers remove add =>
      check! weights_fit add else "parse";
      check! is_admin s sender else "NotAdmin";
      g_update s b remove add
  | GAddHook a =>
      check! is_admin s sender else "NotAdmin";
      check! negb (bool_decide (a ∈ g_hooks s)) else "HookAlreadyRegistered";
      Ok (GState (g_admin s) (g_members s) (g_total s) (g_hooks s ++ [a]), [])
  | GRemoveHook a =>
      check! is_admin s sender else "NotAdmin";
      check! bool_decide (a ∈ g_hooks s) else "HookNotRegistered";
      Ok (GState (g_admin s) (g_members s) (g_total s)
            (List.filter (fun x => negb (x =? a)%N) (g_hooks s)), [])
  end.
(** [Member], [TotalWeight] and [ListMembers]. *)
Definition q_weight (s : gstate) (a : addr) (h : option Z) : option Z :=
  match h with
  | Some h => snap_at (smap_snap (g_members s) a) h
  | None => smap_load (g_members s) a
  end.
Definition q_total (s : gstate) (h : option Z) : Z :=
  match h with Some h => snap_get_at (g_total s) h | None => snap_get (g_total s) end.
Definition q_list (s : gstate) : list (addr * Z) :=
  omap (fun x => (fun w => (x.1, w)) <$> sn_cur x.2) (map_to_list (g_members s)).

(** ** The voting module *)
(** 129-165 [query_voting_power_at_height], [query_total_power_at_height]. *)
Definition gv_power (s : gstate) (a : addr) (h : option Z) : Z := default 0 (q_weight s a h).
Definition gv_total (s : gstate) (h : option Z) : Z := q_total s h.

(** 34-76 [instantiate] with a new group.  Lines 41-47
    refuse a list in which the same address comes twice with the same weight; the group
    refuses every list in which an address comes twice, so they change no outcome and are
    left out. *)
Definition gv_new (dao : addr) (b : block) (members : list (addr * Z)) : result gstate :=
  check! weights_fit members else "parse";
  check! match members with [] => false | _ => true end else "NoMembers";
  check! negb (lsum snd members =? 0) else "ZeroTotalWeight";
  g_create (Some dao) members b.
(** 77-102: with an existing one. *)
Definition gv_old (s : gstate) : result unit :=
  check! match q_list s with [] => false | _ => true end else "NoMembers"; Ok tt.
