(** Model of contracts/external/cw-vesting/src/{vesting,contract}.rs, with the
    [staking] feature.

    The schedule curves are those of the crate wynd-utils, modelled from its
    published behaviour.  The bank and the chain's staking module are the record
    [chain]: what the contract holds of the vested token, what is bonded per
    validator, what is unbonding and until when.  A message the contract sends to
    them runs inside the call that sends it (it is sent without a reply, so its
    failure reverts the call).  Slashes on the chain and transfers to the contract
    outside of its own messages are messages of their own, from the environment.
    Staking rewards never arrive at the contract (the withdraw address is not it). *)
From Verif Require Import Base Exec StoreModel WormModel.

(** ** Curves (wynd-utils) *)
Inductive curve :=
| CConst (y : Z)
| CLinear (x0 y0 x1 y1 : Z)
| CPiece (steps : list (Z * Z)).
Definition DEC : Z := 10 ^ 18.
(** [interpolate]: [Decimal::from_ratio], then [Uint128 * Decimal]; both round down. *)
Definition interpolate (x0 y0 x1 y1 x : Z) : Z :=
  if y0 <? y1 then y0 + (y1 - y0) * ((x - x0) * DEC / (x1 - x0)) / DEC
  else y0 - (y0 - y1) * ((x - x0) * DEC / (x1 - x0)) / DEC.
(** [PiecewiseLinear::value]: the loop that finds the pair of points around [x]. *)
Fixpoint piece_find (prev : option (Z * Z)) (next : Z * Z) (rest : list (Z * Z)) (x : Z)
  : option (Z * Z) * (Z * Z) :=
  match rest with
  | [] => (prev, next)
  | item :: rest' => if next.1 <? x then piece_find (Some next) item rest' x else (prev, next)
  end.
Definition curve_value (c : curve) (x : Z) : Z :=
  match c with
  | CConst y => y
  | CLinear x0 y0 x1 y1 =>
      if x <? x0 then y0 else if x1 <? x then y1 else interpolate x0 y0 x1 y1 x
  | CPiece [] => 0
  | CPiece (p :: rest) =>
      match piece_find None p rest x with
      | (Some last, next) =>
          if x =? last.1 then last.2
          else if next.1 <=? x then next.2
          else interpolate last.1 last.2 next.1 next.2 x
      | (None, next) => next.2
      end
  end.
(** [Curve::range]. *)
Definition curve_range (c : curve) : Z * Z :=
  match c with
  | CConst y => (y, y)
  | CLinear _ y0 _ y1 => if y0 <? y1 then (y0, y1) else (y1, y0)
  | CPiece steps =>
      let y0 := match steps with p :: _ => p.2 | [] => 0 end in
      let y1 := match last steps with Some p => p.2 | None => 0 end in
      if y0 <? y1 then (y0, y1) else (y1, y0)
  end.
(** [validate_monotonic_increasing]: points in order (the first one after zero), values
    never decreasing. *)
Fixpoint steps_in_order (x : Z) (steps : list (Z * Z)) : bool :=
  match steps with [] => true | p :: steps' => (x <? p.1) && steps_in_order p.1 steps' end.
Fixpoint steps_increase (y : Z) (steps : list (Z * Z)) : bool :=
  match steps with [] => true | p :: steps' => (y <=? p.2) && steps_increase p.2 steps' end.
Definition validate_increasing (c : curve) : result unit :=
  match c with
  | CConst _ => Ok tt
  | CLinear x0 y0 x1 y1 =>
      check! x0 <? x1 else "PointsOutOfOrder"; check! y0 <=? y1 else "MonotonicDecreasing"; Ok tt
  | CPiece [] => Err "MissingSteps"
  | CPiece (p :: steps) =>
      check! steps_in_order 0 (p :: steps) else "PointsOutOfOrder";
      check! steps_increase p.2 steps else "NotMonotonic"; Ok tt
  end.

(** ** vesting.rs *)
Inductive vdenom := DNative (d : N) | DCw20 (a : addr).
Global Instance vdenom_eq_dec : EqDecision vdenom.
Proof. solve_decision. Defined.
(** 39-50, 52-69, 21-38 *)
Inductive vstatus := Unfunded | Funded | Canceled (owner_withdrawable : Z).
Inductive schedule := SLinear | SPiece (steps : list (Z * Z)).
Record vest := Vest {
  ve_curve : curve; ve_start : Z; ve_status : vstatus; ve_recipient : addr; ve_denom : vdenom;
  ve_claimed : Z; ve_slashed : Z }.
(** 479-500 [into_curve]. *)
Definition into_curve (sc : schedule) (total dur : Z) : result curve :=
  do! c <- match sc with
           | SLinear => Ok (CLinear 0 0 dur total)
           | SPiece steps =>
               check! 2 <=? Z.of_nat (length steps) else "ConstantVest"; Ok (CPiece steps)
           end;
  do! _ <- validate_increasing c;
  check! bool_decide (curve_range c = (0, total)) else "VestRange";
  Ok c.
(** 409-429 [Vest::new]. *)
Definition vest_new (total : Z) (sc : schedule) (start dur : Z) (denom : vdenom)
    (recipient : addr) : result vest :=
  check! negb (total =? 0) else "ZeroVest";
  check! negb (dur =? 0) else "Instavest";
  do! c <- into_curve sc total dur;
  Ok (Vest c start Unfunded recipient denom 0 0).
(** 432-442 [total], [vested]; times in nanoseconds. *)
Definition sec (t : Z) : Z := t / NANOS.
Definition ve_total (v : vest) : Z := (curve_range (ve_curve v)).2.
Definition vested (v : vest) (t : Z) : Z :=
  curve_value (ve_curve v) (Z.max 0 (sec t - sec (ve_start v))).
Definition sat_sub (a b : Z) : Z := Z.max 0 (a - b).
(** 113-153 [liquid]. *)
Definition liquid (v : vest) (staked : Z) : result Z :=
  match ve_status v with
  | Unfunded => Ok 0
  | Funded =>
      do! x <- sub128 (ve_total v) (ve_claimed v);
      do! x <- sub128 x staked;
      sub128 x (ve_slashed v)
  | Canceled ow =>
      do! x <- sub128 (ve_total v) (ve_claimed v);
      do! x <- add128 ow x;
      sub128 x staked
  end.
(** 157-168 [distributable]. *)
Definition distributable (v : vest) (k : tracker) (t : Z) : result Z :=
  do! l <- liquid v (total_staked k (sec t));
  do! c <- sub128 (vested v t) (ve_claimed v);
  Ok (Z.min l (sat_sub c (ve_slashed v))).
Definition set_claimed (v : vest) (n : Z) : vest :=
  Vest (ve_curve v) (ve_start v) (ve_status v) (ve_recipient v) (ve_denom v) n (ve_slashed v).
Definition set_status (v : vest) (st : vstatus) : vest :=
  Vest (ve_curve v) (ve_start v) st (ve_recipient v) (ve_denom v) (ve_claimed v) (ve_slashed v).
(** 174-199 [distribute]: the new vest and what is sent to the recipient. *)
Definition p_distribute (v : vest) (k : tracker) (t : Z) (request : option Z) : result (vest * Z) :=
  do! d <- distributable v k t;
  let r := default d request in
  do! c <- add128 (ve_claimed v) r;
  check! negb ((d <? r) || (r =? 0)) else "InvalidWithdrawal";
  Ok (set_claimed v c, r).
(** 213-269 [cancel] with 445-450 [Vest::cancel]: the new vest, what is sent to the
    owner and what is sent to the recipient. *)
Definition p_cancel (v : vest) (k : tracker) (t : Z) : result (vest * Z * Z) :=
  check! (match ve_status v with Canceled _ => false | _ => true end) else "Cancelled";
  let staked := total_staked k (sec t) in
  do! l <- liquid v staked;
  do! c <- sub128 (vested v t) (ve_claimed v);
  let to_vestee := Z.min (sat_sub c (ve_slashed v)) l in
  do! to_owner <- sub128 l to_vestee;
  do! claimed <- add128 (ve_claimed v) to_vestee;
  do! rest <- sub128 (vested v t) claimed;
  do! ow <- sub128 staked (sat_sub rest (ve_slashed v));
  Ok (Vest (CConst (vested v t)) (ve_start v) (Canceled ow) (ve_recipient v) (ve_denom v)
        claimed (ve_slashed v), to_owner, to_vestee).
(** 271-298 [withdraw_canceled_payment]. *)
Definition p_withdraw (v : vest) (k : tracker) (t : Z) (request : option Z) : result (vest * Z) :=
  match ve_status v with
  | Canceled ow =>
      do! l <- liquid v (total_staked k (sec t));
      let c := Z.min l ow in
      let r := default c request in
      check! negb ((c <? r) || (r =? 0)) else "InvalidWithdrawal";
      do! ow' <- sub128 ow r;
      Ok (set_status v (Canceled ow'), r)
  | _ => Err "NotCancelled"
  end.
(** 351-393 [register_slash]. *)
Definition p_register_slash (v : vest) (k : tracker) (val : N) (t n : Z) (unbonding : bool)
  : result (vest * tracker) :=
  check! negb (n =? 0) else "NoSlash";
  do! v' <- match ve_status v with
            | Unfunded => Err "UnfundedSlash"
            | Funded =>
                do! x <- add128 (ve_slashed v) n;
                Ok (Vest (ve_curve v) (ve_start v) Funded (ve_recipient v) (ve_denom v)
                      (ve_claimed v) x)
            | Canceled ow =>
                if ow <? n then
                  do! d <- sub128 n ow;
                  do! x <- add128 (ve_slashed v) d;
                  Ok (Vest (ve_curve v) (ve_start v) (Canceled 0) (ve_recipient v) (ve_denom v)
                        (ve_claimed v) x)
                else do! ow' <- sub128 ow n; Ok (set_status v (Canceled ow'))
            end;
  do! k' <- (if unbonding then on_unbonding_slash k (sec t) val n
             else on_bonded_slash k (sec t) val n);
  Ok (v', k').

(** ** The bank and the staking module *)
Record entry := Entry { e_val : N; e_done : Z; e_amt : Z }.
Record chain := Chain { ch_held : Z; ch_bonded : gmap N Z; ch_unb : list entry }.
Definition bonded_with (c : chain) (v : N) : Z := default 0 (ch_bonded c !! v).
(** Finished unbondings are paid to the contract. *)
Definition ch_settle (c : chain) (t : Z) : chain :=
  Chain (ch_held c + lsum e_amt (List.filter (fun e => e_done e <=? t) (ch_unb c)))
    (ch_bonded c) (List.filter (fun e => negb (e_done e <=? t)) (ch_unb c)).
Definition ch_pay (c : chain) (n : Z) : result chain :=
  check! n <=? ch_held c else "bank: insufficient funds";
  Ok (Chain (ch_held c - n) (ch_bonded c) (ch_unb c)).
(** The staking module refuses zero amounts. *)
Definition ch_delegate (c : chain) (v : N) (n : Z) : result chain :=
  check! (0 <? n) && (n <=? ch_held c) else "staking: cannot delegate";
  Ok (Chain (ch_held c - n) (<[v := bonded_with c v + n]> (ch_bonded c)) (ch_unb c)).
Definition ch_redelegate (c : chain) (src dst : N) (n : Z) : result chain :=
  check! negb (src =? dst)%N && (0 <? n) && (n <=? bonded_with c src)
    else "staking: cannot redelegate";
  let c' := Chain (ch_held c) (<[src := bonded_with c src - n]> (ch_bonded c)) (ch_unb c) in
  Ok (Chain (ch_held c) (<[dst := bonded_with c' dst + n]> (ch_bonded c')) (ch_unb c)).
Definition ch_undelegate (c : chain) (v : N) (n done : Z) : result chain :=
  check! (0 <? n) && (n <=? bonded_with c v) else "staking: cannot undelegate";
  Ok (Chain (ch_held c) (<[v := bonded_with c v - n]> (ch_bonded c))
        (ch_unb c ++ [Entry v done n])).
Definition ch_slash (c : chain) (v : N) (n : Z) : result chain :=
  check! (0 <? n) && (n <=? bonded_with c v) else "no such slash";
  Ok (Chain (ch_held c) (<[v := bonded_with c v - n]> (ch_bonded c)) (ch_unb c)).
Definition ch_slash_unb (c : chain) (i : nat) (n : Z) : result chain :=
  match ch_unb c !! i with
  | Some e =>
      check! (0 <? n) && (n <=? e_amt e) else "no such slash";
      Ok (Chain (ch_held c) (ch_bonded c)
            (<[i := Entry (e_val e) (e_done e) (e_amt e - n)]> (ch_unb c)))
  | None => Err "no such slash"
  end.

(** ** contract.rs *)
(** [vs_ub] is the configured unbonding duration, [vs_chain_ub] the chain's; [vs_bond]
    the chain's staking denomination. *)
Record vstate := VState {
  vs_own : own; vs_vest : vest; vs_tr : tracker; vs_ub : Z;
  vs_chain_ub : Z; vs_bond : N; vs_chain : chain }.
Definition put (s : vstate) (v : vest) (k : tracker) (c : chain) : vstate :=
  VState (vs_own s) v k (vs_ub s) (vs_chain_ub s) (vs_bond s) c.

Inductive vmsg :=
| VReceive (amount : Z)
| VCancel
| VDistribute (amount : option Z)
| VWithdraw (amount : option Z)
| VOwnership (a : own_action)
| VDelegate (v : N) (n : Z)
| VRedelegate (src dst : N) (n : Z) (can : option Z)
| VUndelegate (v : N) (n : Z)
| VSetWithdraw (a : addr) (self : bool)
| VWithdrawReward (v : N)
| VRegisterSlash (v : N) (t n : Z) (unbonding : bool)
(* the environment *)
| VDonate (n : Z)
| VSlash (v : N) (n : Z)
| VSlashUnb (i : nat) (n : Z).
(** Sub-messages: a payment to the recipient, a payment to the owner, others. *)
Inductive vsub :=
| VPayVestee (a : addr) (n : Z)
| VPayOwner (a : addr) (n : Z)
| VRewardsTo (a : addr)
| VStaking.

(** What to instantiate with. *)
Record vinit := VInit {
  vi_owner : option addr; vi_recipient : addr; vi_total : Z; vi_schedule : schedule;
  vi_start : option Z; vi_dur : Z; vi_denom : vdenom; vi_funds : list (N * Z); vi_ub : Z;
  vi_chain_ub : Z; vi_bond : N }.
(** 26-96 [instantiate]. *)
Definition v_instantiate (b : block) (i : vinit) : result (vstate * list vsub) :=
  let start := default (time b) (vi_start i) in
  check! start + vi_dur i * NANOS <=? U64_MAX else "panic";
  check! time b <? start + vi_dur i * NANOS else "Instavest";
  do! v <- vest_new (vi_total i) (vi_schedule i) start (vi_dur i) (vi_denom i) (vi_recipient i);
  let st := fun v c => VState (initialize_owner (vi_owner i)) v tr_new (vi_ub i)
                         (vi_chain_ub i) (vi_bond i) c in
  match vi_denom i with
  | DNative d =>
      do! sent <- must_pay (vi_funds i) d;
      check! sent =? ve_total v else "WrongFundAmount";
      Ok (st (set_status v Funded) (Chain sent ∅ []),
          if (d =? vi_bond i)%N then [VRewardsTo (ve_recipient v)] else [])
  | DCw20 _ =>
      check! (match vi_funds i with [] => true | _ => false end) else "NonPayable";
      Ok (st v (Chain 0 ∅ []), [])
  end.

(** 144-181 [execute_receive_cw20]; [sender] is the token contract. *)
Definition v_receive (s : vstate) (sender : addr) (n : Z) : result (vstate * list vsub) :=
  let v := vs_vest s in
  check! ve_total v =? n else "WrongFundAmount";
  check! bool_decide (ve_denom v = DCw20 sender) else "WrongCw20";
  check! (match ve_status v with Unfunded => true | _ => false end) else "Funded";
  let c := vs_chain s in
  Ok (put s (set_status v Funded) (vs_tr s) (Chain (ch_held c + n) (ch_bonded c) (ch_unb c)), []).
(** 183-197 [execute_cancel_vesting_payment]. *)
Definition v_cancel (s : vstate) (b : block) (sender : addr) : result (vstate * list vsub) :=
  check! is_owner (vs_own s) sender else "NotOwner";
  do! ' (v, to_owner, to_vestee) <- p_cancel (vs_vest s) (vs_tr s) (time b);
  do! c1 <- (if to_owner =? 0 then Ok (vs_chain s) else ch_pay (vs_chain s) to_owner);
  do! c2 <- (if to_vestee =? 0 then Ok c1 else ch_pay c1 to_vestee);
  Ok (put s v (vs_tr s) c2,
      VRewardsTo sender ::
      (if to_owner =? 0 then [] else [VPayOwner sender to_owner]) ++
      (if to_vestee =? 0 then [] else [VPayVestee (ve_recipient v) to_vestee])).
(** 199-209 [execute_distribute]. *)
Definition v_distribute (s : vstate) (b : block) (r : option Z) : result (vstate * list vsub) :=
  do! ' (v, n) <- p_distribute (vs_vest s) (vs_tr s) (time b) r;
  do! c <- ch_pay (vs_chain s) n;
  Ok (put s v (vs_tr s) c, [VPayVestee (ve_recipient v) n]).
(** 211-224 [execute_withdraw_canceled_payment]. *)
Definition v_withdraw (s : vstate) (b : block) (r : option Z) : result (vstate * list vsub) :=
  some! owner <- o_owner (vs_own s) else "NoOwner";
  do! ' (v, n) <- p_withdraw (vs_vest s) (vs_tr s) (time b) r;
  do! c <- ch_pay (vs_chain s) n;
  Ok (put s v (vs_tr s) c, [VPayOwner owner n]).
(** 226-241 [execute_update_owner]. *)
Definition v_ownership (s : vstate) (b : block) (sender : addr) (act : own_action)
  : result (vstate * list vsub) :=
  check! negb (match ve_status (vs_vest s), act with
               | Canceled ow, ORenounce => negb (ow =? 0)
               | _, _ => false
               end) else "Cancelled";
  do! o <- update_ownership (vs_own s) b sender act;
  Ok (VState o (vs_vest s) (vs_tr s) (vs_ub s) (vs_chain_ub s) (vs_bond s) (vs_chain s), []).
(** 254-262, 296-304: who may delegate. *)
Definition may_delegate (s : vstate) (sender : addr) : result unit :=
  match ve_status (vs_vest s) with
  | Unfunded => Err "NotFunded"
  | Funded => check! (sender =? ve_recipient (vs_vest s))%N else "NotReceiver"; Ok tt
  | Canceled _ => Err "Cancelled"
  end.
(** 244-282 [execute_delegate]. *)
Definition v_delegate (s : vstate) (b : block) (sender : addr) (v : N) (n : Z)
  : result (vstate * list vsub) :=
  do! _ <- may_delegate s sender;
  check! bool_decide (ve_denom (vs_vest s) = DNative (vs_bond s)) else "NotStakeable";
  do! k <- on_delegate (vs_tr s) (sec (time b)) v n;
  do! c <- ch_delegate (vs_chain s) v n;
  Ok (put s (vs_vest s) k c, [VStaking]).
(** 285-349 [execute_redelegate]; [can] is the amount the chain says can be
    redelegated, if there is a delegation. *)
Definition v_redelegate (s : vstate) (b : block) (sender : addr) (src dst : N) (n : Z)
    (can : option Z) : result (vstate * list vsub) :=
  do! _ <- may_delegate s sender;
  check! bool_decide (ve_denom (vs_vest s) = DNative (vs_bond s)) else "NotStakeable";
  some! m <- can else "NoDelegation";
  check! n <=? m else "NonImmediateRedelegate";
  do! k <- on_redelegate (vs_tr s) (sec (time b)) src dst n;
  do! c <- ch_redelegate (vs_chain s) src dst n;
  Ok (put s (vs_vest s) k c, [VStaking]).
(** 352-392 [execute_undelegate]. *)
Definition v_undelegate (s : vstate) (b : block) (sender : addr) (v : N) (n : Z)
  : result (vstate * list vsub) :=
  do! _ <- match ve_status (vs_vest s) with
           | Unfunded => Err "NotFunded"
           | Funded => check! (sender =? ve_recipient (vs_vest s))%N else "NotReceiver"; Ok tt
           | Canceled _ => Ok tt
           end;
  do! k <- on_undelegate (vs_tr s) (sec (time b)) v n (vs_ub s);
  do! c <- ch_undelegate (vs_chain s) v n (sec (time b) + vs_chain_ub s);
  Ok (put s (vs_vest s) k c, [VStaking]).
(** 395-425 [execute_set_withdraw_address]; [self]: the address is the contract's. *)
Definition v_set_withdraw (s : vstate) (sender a : addr) (self : bool)
  : result (vstate * list vsub) :=
  check! (match ve_status (vs_vest s) with
          | Canceled _ => is_owner (vs_own s) sender
          | _ => (sender =? ve_recipient (vs_vest s))%N
          end) else "Unauthorized";
  check! negb self else "SelfWithdraw";
  Ok (s, [VRewardsTo a]).
(** 436-463 [execute_register_slash]. *)
Definition v_register_slash (s : vstate) (b : block) (sender : addr) (v : N) (t n : Z)
    (unbonding : bool) : result (vstate * list vsub) :=
  check! is_owner (vs_own s) sender else "NotOwner";
  check! t <=? time b else "FutureSlash";
  do! ' (ve, k) <- p_register_slash (vs_vest s) (vs_tr s) v t n unbonding;
  Ok (put s ve k (vs_chain s), []).

(** 100-141 [execute]; before it, finished unbondings arrive. *)
Definition settle (s : vstate) (b : block) : vstate :=
  put s (vs_vest s) (vs_tr s) (ch_settle (vs_chain s) (sec (time b))).
Definition fits_opt (o : option Z) : bool := match o with Some n => fits128 n | None => true end.
Definition v_handle (s0 : vstate) (b : block) (sender : addr) (m : vmsg)
  : result (vstate * list vsub) :=
  let s := settle s0 b in
  match m with
  | VReceive n => check! fits128 n else "parse"; v_receive s sender n
  | VCancel => v_cancel s b sender
  | VDistribute r => check! fits_opt r else "parse"; v_distribute s b r
  | VWithdraw r => check! fits_opt r else "parse"; v_withdraw s b r
  | VOwnership a => v_ownership s b sender a
  | VDelegate v n => check! fits128 n else "parse"; v_delegate s b sender v n
  | VRedelegate src dst n can =>
      check! fits128 n && fits_opt can else "parse"; v_redelegate s b sender src dst n can
  | VUndelegate v n => check! fits128 n else "parse"; v_undelegate s b sender v n
  | VSetWithdraw a self => v_set_withdraw s sender a self
  | VWithdrawReward v => Ok (s, [VStaking])
  | VRegisterSlash v t n unb =>
      check! fits128 n && (0 <=? t) else "parse"; v_register_slash s b sender v t n unb
  | VDonate n =>
      check! 0 <=? n else "bank";
      let c := vs_chain s in
      Ok (put s (vs_vest s) (vs_tr s) (Chain (ch_held c + n) (ch_bonded c) (ch_unb c)), [])
  | VSlash v n => do! c <- ch_slash (vs_chain s) v n; Ok (put s (vs_vest s) (vs_tr s) c, [])
  | VSlashUnb i n =>
      do! c <- ch_slash_unb (vs_chain s) i n; Ok (put s (vs_vest s) (vs_tr s) c, [])
  end.
(** The query [Distributable] (contract.rs:470-474) in block [b]. *)
Definition v_distributable (s : vstate) (b : block) : result Z :=
  distributable (vs_vest s) (vs_tr s) (time b).
