(** Specification vocabulary for the distributor joined to the token module. *)
From Verif Require Import Base Exec Plain HooksModel StoreModel TokModel RewModel RewSpec RewTokModel.

Notation rjlog := (log rjstate rjmsg rjsub).
Notation rjevent := (event rjstate rjmsg rjsub).

(** Both contracts after the history [l], seen in block [b]. *)
Definition rjreached (md self : addr) (b : block) (s : rjstate) (l : rjlog) : Prop :=
  exists b0 owner vs dao denom src d thr t0, 0 <= height b0 /\
    t_instantiate dao denom src d thr = Ok t0 /\
    leads (rj_handle md self) b0 (rj_start md b0 owner vs t0) b s l /\ rj_goes md s b = true.

(** ** Payments to and from a distribution *)
Definition re_pay (x : rjsub) : Z := match x with RE (EPay _ _ n) => n | _ => 0 end.
Definition jfunded (id : Z) (l : rjlog) : Z :=
  lsum (fun e => match e with
    | ECall pre _ _ (RRew m) _ _ =>
        match funds_to (rj_e pre) m with Some (i, n) => if i =? id then n else 0 | None => 0 end
    | _ => 0 end) l.
Definition jclaimed (id : Z) (l : rjlog) : Z :=
  lsum (fun e => match e with
    | ECall _ _ _ (RRew (EClaim i)) _ subs => if i =? id then lsum re_pay subs else 0
    | _ => 0 end) l.
Definition jwithdrawn (id : Z) (l : rjlog) : Z :=
  lsum (fun e => match e with
    | ECall _ _ _ (RRew (EWithdraw i)) _ subs => if i =? id then lsum re_pay subs else 0
    | _ => 0 end) l.

(** ** Conditions *)
(** The distribution is about stakes in the module, which is its hook caller; whenever a stake
    changes after it was made, the distributor is among the module's hooks. *)
Definition set_up (md self : addr) (id : Z) (e : rjevent) : bool :=
  match e with
  | ECall pre _ _ (RTok m) _ _ =>
      match e_dists (rj_e pre) !! id with
      | Some d => negb (stakes m) || negb (di_vp d =? md)%N ||
          (di_hook d =? md)%N && hooked self (rj_t pre)
      | None => true
      end
  | ECall pre _ _ (RRew (EPower vp caller _ _)) _ _ =>
      match e_dists (rj_e pre) !! id with
      | Some d => negb (di_vp d =? vp)%N || (di_hook d =? caller)%N
      | None => true
      end
  | ECall _ _ _ (RRew (EUpdate i _ vp hook _ _)) _ _ =>
      negb (i =? id) || match vp, hook with None, None => true | _, _ => false end
  | _ => true
  end.
(** Nobody's stake changed earlier in the block in which rewards are handed out at once. *)
Definition unhurried (id : Z) (e : rjevent) : bool :=
  match e with
  | ECall pre b a (RRew m) post _ => quiet id (ECall (rj_e pre) b a m (rj_e post) [])
  | _ => true
  end.
Definition orderly (md self : addr) (id : Z) (l : rjlog) : bool :=
  forallb (fun e => set_up md self id e && unhurried id e) l.

(** ** The distributor's part of a history *)
(** No address on a map's list. *)
Definition nobody {A} (m : gmap addr A) : addr :=
  (1 + foldr N.max 0 (map fst (map_to_list m)))%N.
Definition re_subs (l : list rjsub) : list esub :=
  flat_map (fun x => match x with RE x => [x] | _ => [] end) l.
Definition rew_part (md self : addr) (e : rjevent) : elog :=
  match e with
  | ECall pre b a (RRew m) post subs => [ECall (rj_e pre) b a m (rj_e post) (re_subs subs)]
  | ECall pre b a (RTok m) post _ =>
      if stakes m then
        [ECall (rj_e pre) b a
          (EPower md (if hooked self (rj_t pre) then md else nobody (e_hooks (rj_e pre))) a
             (smap_get (t_bals (rj_t post)) a)) (rj_e post) []]
      else []
  | ECall pre b _ RDeliver post _ =>
      match rj_out pre with
      | THook h _ who _ :: _ =>
          if (h =? self)%N then [ECall (rj_e pre) b md (EHook [who]) (rj_e post) []] else []
      | _ => []
      end
  | _ => []
  end.
Definition calls (l : elog) : elog :=
  List.filter (fun e => match e with ECall _ _ _ _ _ _ => true | _ => false end) l.
