(** Specification vocabulary for the distributor joined to a group. *)
From Verif Require Import Base Exec Plain HooksModel StoreModel RolesModel GrpModel RewModel RewSpec RewGrpModel.

Notation gjlog := (log gjstate gjmsg esub).
Notation gjevent := (event gjstate gjmsg esub).

(** Both contracts after the history [l], seen in block [b]. *)
Definition gjreached (gr md self : addr) (b : block) (s : gjstate) (l : gjlog) : Prop :=
  exists b0 owner admin vs, 0 <= height b0 /\
    leads (gj_handle gr md self) b0 (gj_start md b0 owner admin vs) b s l /\ gj_goes gr s b = true.

(** ** Payments to and from a distribution *)
Definition gfunded (id : Z) (l : gjlog) : Z :=
  lsum (fun e => match e with
    | ECall pre _ _ (GRew m) _ _ =>
        match funds_to (gj_e pre) m with Some (i, n) => if i =? id then n else 0 | None => 0 end
    | _ => 0 end) l.
Definition gclaimed (id : Z) (l : gjlog) : Z :=
  lsum (fun e => match e with
    | ECall _ _ _ (GRew (EClaim i)) _ subs => if i =? id then lsum pay subs else 0
    | _ => 0 end) l.
Definition gwithdrawn (id : Z) (l : gjlog) : Z :=
  lsum (fun e => match e with
    | ECall _ _ _ (GRew (EWithdraw i)) _ subs => if i =? id then lsum pay subs else 0
    | _ => 0 end) l.

(** ** Conditions *)
(** The distribution is about weights in the group, which is its hook caller; whenever members
    change after it was made, the distributor is among the group's hooks. *)
Definition gset_up (gr md self : addr) (id : Z) (e : gjevent) : bool :=
  match e with
  | ECall pre _ _ (GGrp (GMembers _ _)) _ _ =>
      match e_dists (gj_e pre) !! id with
      | Some d => negb (di_vp d =? md)%N || (di_hook d =? gr)%N && g_hooked self (gj_g pre)
      | None => true
      end
  | ECall pre _ _ (GRew (EPower vp caller _ _)) _ _ =>
      match e_dists (gj_e pre) !! id with
      | Some d => negb (di_vp d =? vp)%N || (di_hook d =? caller)%N
      | None => true
      end
  | ECall _ _ _ (GRew (EUpdate i _ vp hook _ _)) _ _ =>
      negb (i =? id) || match vp, hook with None, None => true | _, _ => false end
  | _ => true
  end.
(** No weight changed earlier in the block in which rewards are handed out at once. *)
Definition gunhurried (id : Z) (e : gjevent) : bool :=
  match e with
  | ECall pre b a (GRew m) post _ => quiet id (ECall (gj_e pre) b a m (gj_e post) [])
  | _ => true
  end.
Definition gorderly (gr md self : addr) (id : Z) (l : gjlog) : bool :=
  forallb (fun e => gset_up gr md self id e && gunhurried id e) l.

(** ** The distributor's part of a history *)
(** One change of power for each change of a weight. *)
Fixpoint tellings (e : estate) (b : block) (sender md caller : addr) (ds : list gdiff) : elog :=
  match ds with
  | [] => []
  | (a, _, new) :: ds =>
      match set_power (set_block e b) b md caller a (default 0 new) with
      | Ok e' => ECall e b sender (EPower md caller a (default 0 new)) e' [] :: tellings e' b sender md caller ds
      | Err _ => []
      end
  end.
Definition grp_part (gr md self : addr) (e : gjevent) : elog :=
  match e with
  | ECall pre b a (GRew m) post subs => [ECall (gj_e pre) b a m (gj_e post) subs]
  | ECall pre b a (GGrp m) post _ =>
      tellings (gj_e pre) b a md (teller gr self (gj_g pre) (gj_e pre)) (g_diffs (gj_g pre) b m)
  | ECall pre b _ GDeliver post _ =>
      match gj_out pre with
      | GHook h ds :: _ =>
          if (h =? self)%N then [ECall (gj_e pre) b gr (EHook (map (fun d => d.1.1) ds)) (gj_e post) []] else []
      | _ => []
      end
  | _ => []
  end.
Definition only_calls (l : elog) : elog :=
  List.filter (fun e => match e with ECall _ _ _ _ _ _ => true | _ => false end) l.
