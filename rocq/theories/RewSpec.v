(** Specification vocabulary for dao-rewards-distributor. *)
From Verif Require Import Base Exec Plain StoreModel RewModel.

Notation elog := (log estate emsg esub).
Notation eevent := (event estate emsg esub).

(** A distributor after the history [l], seen in block [b]. *)
Definition ereached (b : block) (s : estate) (l : elog) : Prop :=
  exists b0 owner vs, 0 <= height b0 /\ leads e_handle b0 (e_instantiate b0 owner vs) b s l /\
    e_goes s b = true.

(** The distribution a call funds, and with how much. *)
Definition funds_to (s : estate) (m : emsg) : option (Z * Z) :=
  match m with
  | ECreate _ _ _ _ _ _ funds => Some (e_count s + 1, lsum snd funds)
  | EFund id funds => Some (id, lsum snd funds)
  | EFundLatest funds => Some (e_count s, lsum snd funds)
  | EReceive _ n id => Some (default (e_count s) id, n)
  | _ => None
  end.
Definition ev_funded (id : Z) (e : eevent) : Z :=
  match e with
  | ECall pre _ _ m _ _ =>
      match funds_to pre m with Some (i, n) => if i =? id then n else 0 | None => 0 end
  | _ => 0
  end.
Definition funded (id : Z) (l : elog) : Z := lsum (ev_funded id) l.
(** Rewards paid from a distribution to its members, and withdrawn from it. *)
Definition pay (x : esub) : Z := match x with EPay _ _ n => n end.
Definition ev_claimed (id : Z) (e : eevent) : Z :=
  match e with
  | ECall _ _ _ (EClaim i) _ subs => if i =? id then lsum pay subs else 0
  | _ => 0
  end.
Definition claimed (id : Z) (l : elog) : Z := lsum (ev_claimed id) l.
Definition ev_withdrawn (id : Z) (e : eevent) : Z :=
  match e with
  | ECall _ _ _ (EWithdraw i) _ subs => if i =? id then lsum pay subs else 0
  | _ => 0
  end.
Definition withdrawn (id : Z) (l : elog) : Z := lsum (ev_withdrawn id) l.

(** What the contract reports as claimable, and as not yet distributed; nothing if the
    query fails. *)
Definition claimable (s : estate) (b : block) (id : Z) (a : addr) : Z :=
  match pending_rewards s b id a with Ok n => n | Err _ => 0 end.
Definition remaining (s : estate) (b : block) (id : Z) : Z :=
  match undistributed s b id with Ok n => n | Err _ => 0 end.

(** Every change of power at the distribution's voting-power contract is reported by its
    hook caller. *)
Definition reported (id : Z) (e : eevent) : bool :=
  match e with
  | ECall pre _ _ (EPower vp caller _ _) _ _ =>
      match e_dists pre !! id with
      | Some d => negb (di_vp d =? vp)%N || (di_hook d =? caller)%N
      | None => true
      end
  | _ => true
  end.
(** The distribution keeps its voting-power contract and its hook caller. *)
Definition steady (id : Z) (e : eevent) : bool :=
  match e with
  | ECall _ _ _ (EUpdate i _ vp hook _ _) _ _ =>
      negb (i =? id) || match vp, hook with None, None => true | _, _ => false end
  | _ => true
  end.
(** No power changed at [vp] earlier in block [b]. *)
Definition calm (s : estate) (b : block) (vp : addr) : bool :=
  match e_vps s !! vp with Some v => vp_last v <? height b | None => true end.
(** Rewards are never handed out all at once in a block in which powers changed before:
    by funding at immediate emission, by funding a continuous distribution, by switching
    to immediate emission. *)
Definition immediate (r : emission) : bool :=
  match r with EmImmediate => true | _ => false end.
Definition at_once (r : emission) : bool :=
  match r with EmImmediate | EmLinear _ _ true => true | _ => false end.
Definition quiet (id : Z) (e : eevent) : bool :=
  match e with
  | ECall pre b _ m _ _ =>
      match m with
      | ECreate _ rate vp _ _ _ _ => negb (id =? e_count pre + 1) || negb (immediate rate) || calm pre b vp
      | EUpdate i (Some r) _ _ _ _ =>
          match e_dists pre !! id with
          | Some d => negb (i =? id) || negb (immediate r) || calm pre b (di_vp d)
          | None => true
          end
      | _ =>
          match funds_to pre m, e_dists pre !! id with
          | Some (i, _), Some d =>
              negb (i =? id) || negb (at_once (ep_rate (di_ep d))) || calm pre b (di_vp d)
          | _, _ => true
          end
      end
  | _ => true
  end.
Definition tame (id : Z) (l : elog) : bool :=
  forallb (fun e => reported id e && steady id e && quiet id e) l.

(** Tokens sent to the distributor without a call. *)
Definition ev_given (t : asset) (e : eevent) : Z :=
  match e with
  | ECall _ _ _ (EDonate t' n) _ _ => if decide (t' = t) then n else 0
  | _ => 0
  end.
Definition given (t : asset) (l : elog) : Z := lsum (ev_given t) l.
(** What a distribution has received and not paid. *)
Definition net (id : Z) (l : elog) : Z := funded id l - claimed id l - withdrawn id l.

(** What [a] was paid from a distribution. *)
Definition ev_earned (id : Z) (a : addr) (e : eevent) : Z :=
  match e with
  | ECall _ _ sender (EClaim i) _ subs => if (i =? id) && (sender =? a)%N then lsum pay subs else 0
  | _ => 0
  end.
Definition earned (id : Z) (a : addr) (l : elog) : Z := lsum (ev_earned id a) l.
(** Calls that can do no more than update rewards and pay them. *)
Definition poke (e : eevent) : bool :=
  match e with
  | ECall _ _ _ (EClaim _ | EHook _ | EOwner _ | EDonate _ _) _ _ | ESub _ _ _ _ _ => true
  | _ => false
  end.
Definition calls (l : elog) : Z :=
  lsum (fun e : eevent => match e with ECall _ _ _ _ _ _ => 1 | _ => 0 end) l.
(** The time from the last update to now or the end of the distribution, in the units of
    its periods: blocks, or seconds. *)
Definition passed (p : epoch) (b : block) : Z :=
  match ep_last p, ep_end p with
  | AtHeight la, AtHeight en => Z.max 0 (Z.min (height b) en - la)
  | AtTime la, AtTime en => Z.max 0 (Z.min (time b) en / NANOS - la / NANOS)
  | _, _ => 0
  end.
Definition period (u : duration) : Z := match u with DHeight n | DTime n => n end.
(** The call comes in the middle of a period. *)
Definition cut (id : Z) (e : eevent) : bool :=
  match e with
  | ECall pre b _ _ _ _ =>
      match e_dists pre !! id with
      | Some d =>
          match ep_rate (di_ep d) with
          | EmLinear _ u _ => negb (passed (di_ep d) b mod period u =? 0)
          | _ => false
          end
      | None => false
      end
  | _ => false
  end.
Definition cuts (id : Z) (l : elog) : Z := lsum (fun e : eevent => if cut id e then 1 else 0) l.

(** The terms of a distribution. *)
Definition terms (d : dist) : asset * emission * addr * addr * bool * addr :=
  (di_denom d, ep_rate (di_ep d), di_vp d, di_hook d, di_open d, di_wdest d).

(** Immediate emission is never chosen. *)
Definition no_immediate (e : eevent) : bool :=
  match e with
  | ECall _ _ _ (ECreate _ r _ _ _ _ _) _ _ | ECall _ _ _ (EUpdate _ (Some r) _ _ _ _) _ _ =>
      negb (immediate r)
  | _ => true
  end.
