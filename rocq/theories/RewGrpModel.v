(** dao-rewards-distributor (RewModel.v) joined to a cw4 group and its voting module
    (GrpModel.v): the module at [md] is the voting-power contract of some of its distributions,
    the group at [gr] their hook caller.

    An update of the members sends every hook of the group one message with all changes of
    weights, in the order in which they were made (cw4-group [update_members]; contracts/
    distribution/dao-rewards-distributor/src/hooks.rs:82-102 [execute_membership_changed]).
    These messages wait in [gj_out], the first to be delivered first; what a call sends is put
    in front.  [GDeliver] delivers the first: if the receiver is the distributor at [self] it
    handles it, as a call of the group; other receivers do whatever they like, that is, anybody
    may call either contract at any time.  They are sent without a reply, so a block ends only
    when all are delivered; a refused one undoes the call that sent it, which is then no part of
    the history.

    The distributor keeps powers as RewModel.v does; each change of a weight sets the power of
    that member at [md].  That the answers are then those of the module is proved, not assumed.
    Voting-power contracts and hook callers other than these are as in RewModel.v.  The group
    makes no calls of its own but these, the module none at all.

    The distributor starts out fresh, the group without members: those it is created with are
    added by the first call (proved to come to the same). *)
From Verif Require Import Base Exec HooksModel StoreModel RolesModel GrpModel RewModel.

Record gjstate := GJ {
  gj_g : gstate;
  gj_e : estate;
  gj_out : list gsub;
  gj_block : block }.
Inductive gjmsg :=
| GGrp (m : gmsg)
| GRew (m : emsg)
| GDeliver.

(** The changes a call makes, as its hooks are told (cw4-group [update_members]). *)
Definition g_diffs (s : gstate) (b : block) (m : gmsg) : list gdiff :=
  match m with
  | GMembers remove add =>
      match g_add (g_members s) (snap_get (g_total s)) (height b) add with
      | Ok (ms, t, ds) =>
          match g_remove ms t (height b) remove with
          | Ok (_, _, ds') => ds ++ ds'
          | Err _ => []
          end
      | Err _ => []
      end
  | _ => []
  end.
Definition g_hooked (self : addr) (g : gstate) : bool := existsb (N.eqb self) (g_hooks g).
(** An address that is no hook caller. *)
Definition stranger (m : gmap addr (list Z)) : addr :=
  (1 + foldr N.max 0 (map fst (map_to_list m)))%N.
(** Whom the distributor will hear of a change from; nobody, if it is not told. *)
Definition teller (gr self : addr) (g : gstate) (e : estate) : addr :=
  if g_hooked self g then gr else stranger (e_hooks e).
(** The distributor's view of the powers at [md] after the changes. *)
Fixpoint told (e : estate) (b : block) (md caller : addr) (ds : list gdiff) : result estate :=
  match ds with
  | [] => Ok e
  | (a, _, new) :: ds =>
      do! e' <- set_power (set_block e b) b md caller a (default 0 new);
      told e' b md caller ds
  end.
(** Changes of power elsewhere. *)
Definition g_elsewhere (gr md : addr) (m : emsg) : bool :=
  match m with
  | EPower vp caller _ _ => negb (vp =? md)%N && negb (caller =? gr)%N
  | _ => true
  end.
Definition gj_goes (gr : addr) (s : gjstate) (b : block) : bool :=
  (height b <=? U64_MAX) &&
  if height b =? height (gj_block s) then time b =? time (gj_block s)
  else match gj_out s with [] => true | _ => false end &&
       forallb (fun x => (x.1 =? gr)%N) (e_due (gj_e s)).
Definition gj_handle (gr md self : addr) (s : gjstate) (b : block) (sender : addr) (m : gjmsg)
  : result (gjstate * list esub) :=
  check! gj_goes gr s b else "no such block";
  match m with
  | GGrp m =>
      do! ' (g', subs) <- g_handle (gj_g s) b sender m;
      do! e' <- told (gj_e s) b md (teller gr self (gj_g s) (gj_e s)) (g_diffs (gj_g s) b m);
      Ok (GJ g' e' (subs ++ gj_out s) b, [])
  | GRew m =>
      check! negb (sender =? gr)%N && g_elsewhere gr md m else "not so";
      do! ' (e', subs) <- e_step (set_block (gj_e s) b) b sender m;
      Ok (GJ (gj_g s) e' (gj_out s) b, subs)
  | GDeliver =>
      match gj_out s with
      | GHook h ds :: out =>
          if (h =? self)%N then
            do! ' (e', subs) <- e_step (set_block (gj_e s) b) b gr (EHook (map (fun d => d.1.1) ds));
            Ok (GJ (gj_g s) e' out b, subs)
          else Ok (GJ (gj_g s) (gj_e s) out b, [])
      | [] => Err "nothing to deliver"
      end
  end.
(** A group without members. *)
Definition g_bare (admin : addr) (b : block) : gstate :=
  GState (Some admin) ∅ (snap_save snap_empty (height b) 0) [].
Definition gj_start (md : addr) (b : block) (owner admin : addr) (vs : gset addr) : gjstate :=
  GJ (g_bare admin b) (e_instantiate b owner ({[md]} ∪ vs)) [] b.
