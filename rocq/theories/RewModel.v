(** Model of contracts/distribution/dao-rewards-distributor/src: contract.rs, rewards.rs,
    state.rs, helpers.rs, hooks.rs, together with the voting-power contracts it asks.

    Line numbers without a file name refer to contract.rs.

    A voting-power contract is a snapshotted map of powers with its total ([vps]); the
    environment changes powers with [EPower].  Such a change is reported by the hook
    caller named in the message, and the report waits in [e_due] until delivered;
    anything may happen between, but no later block begins while one is waiting (the
    hook is sent without a reply).  [e_held] is the contract's balance of each token; a
    transfer out is the last thing a handler does, so the handler performs it.
    [EDonate] is a third party moving tokens to the contract without calling it.

    Calls that [nonpayable] refuses when they bring coins are modelled without coins. *)
From Verif Require Import Base Exec HooksModel StoreModel ExtModel.

(** cw20 [Denom]: native denomination, or (true) cw20 token. *)
Notation asset := (bool * N)%type.

(** state.rs:44-63 [EmissionRate]. *)
Inductive emission :=
| EmPaused
| EmImmediate
| EmLinear (amount : Z) (dur : duration) (continuous : bool).
Global Instance emission_eq_dec : EqDecision emission.
Proof. solve_decision. Defined.

(** state.rs:127-143 [Epoch]. *)
Record epoch := Epoch {
  ep_rate : emission;
  ep_start : expiration;
  ep_end : expiration;
  ep_puvp : Z;
  ep_last : expiration }.
(** state.rs:173-199 [DistributionState]; the id is the key of the map. *)
Record dist := Dist {
  di_denom : asset;
  di_ep : epoch;
  di_vp : addr;
  di_hook : addr;
  di_open : bool;
  di_funded : Z;
  di_wdest : addr;
  di_hist : Z }.
(** A voting-power contract: powers, their total, and the height of the last change. *)
Record vps := VP { vp_pow : smap; vp_tot : snap; vp_last : Z }.

(** state.rs:17-39; the two maps of [UserRewardState] are kept apart, by id and address. *)
Record estate := EState {
  e_own : own;
  e_count : Z;
  e_dists : gmap Z dist;
  e_pend : gmap (Z * addr) Z;
  e_acc : gmap (Z * addr) Z;
  e_hooks : gmap addr (list Z);
  e_vps : gmap addr vps;
  e_held : gmap asset Z;
  e_due : list (addr * addr);
  e_block : block }.

Inductive emsg :=
| ECreate (denom : asset) (rate : emission) (vp hook : addr) (open : option bool)
    (wdest : option addr) (funds : list (N * Z))
| EUpdate (id : Z) (rate : option emission) (vp hook : option addr) (open : option bool)
    (wdest : option addr)
| EFund (id : Z) (funds : list (N * Z))
| EFundLatest (funds : list (N * Z))
| EReceive (from : addr) (amount : Z) (id : option Z)
| EClaim (id : Z)
| EWithdraw (id : Z)
| EHook (who : list addr)
| EOwner (act : own_action)
| EPower (vp caller who : addr) (n : Z)
| EDonate (t : asset) (n : Z).
Inductive esub := EPay (t : asset) (to : addr) (n : Z).

(** [Decimal] has 18 decimals. *)
Definition DECIMAL : Z := 10 ^ 18.

(** ** helpers.rs *)
(** helpers.rs:85-114 [duration_since]; [seconds] of a timestamp rounds down. *)
Definition duration_since (e s : expiration) : result duration :=
  match e, s with
  | AtHeight e, AtHeight s => Ok (DHeight (if s <? e then e - s else 0))
  | AtTime e, AtTime s => Ok (DTime (if s <? e then e / NANOS - s / NANOS else 0))
  | _, _ => Err "incompatible expirations"
  end.
(** helpers.rs:126-147. *)
Definition dur_zero (d : duration) : bool :=
  match d with DHeight n => n =? 0 | DTime n => n =? 0 end.
Definition dur_div (d e : duration) : result Z :=
  match d, e with
  | DHeight n, DHeight m => check! negb (m =? 0) else "DivideByZero"; Ok (n / m)
  | DTime n, DTime m => check! negb (m =? 0) else "DivideByZero"; Ok (n / m)
  | _, _ => Err "incompatible durations"
  end.
(** helpers.rs:13-38: power queries for the current height; 67-78 existence of the contract. *)
Definition q_vp (s : estate) (vp : addr) : result vps :=
  some! v <- e_vps s !! vp else "no such contract"; Ok v.
Definition vp_total_at (v : vps) (b : block) : Z := snap_get_at (vp_tot v) (height b).
Definition vp_power_at (v : vps) (b : block) (a : addr) : Z := smap_at (vp_pow v) a (height b).

(** ** state.rs *)
(** state.rs:67-87 [validate]. *)
Definition em_validate (r : emission) : result unit :=
  match r with
  | EmLinear amount dur _ =>
      check! negb (amount =? 0) else "InvalidEmissionRateFieldZero";
      check! negb (dur_zero dur) else "InvalidEmissionRateFieldZero";
      Ok tt
  | _ => Ok tt
  end.
(** state.rs:93-125 [get_funded_period_duration]. *)
Definition funded_units (n amount funded : Z) : result Z :=
  do! ratio <- mul_ratio128 funded DECIMAL amount;
  do! u <- mul_ratio128 n ratio DECIMAL;
  check! u <=? U64_MAX else "ConversionOverflow"; Ok u.
Definition funded_dur (r : emission) (funded : Z) : result (option duration) :=
  match r with
  | EmLinear amount (DHeight n) _ =>
      do! u <- funded_units n amount funded; Ok (Some (DHeight u))
  | EmLinear amount (DTime n) _ =>
      do! u <- funded_units n amount funded; Ok (Some (DTime u))
  | _ => Ok None
  end.
(** The current block or the end, whichever is first: state.rs:155-169, 220-231. *)
Definition until (e : expiration) (b : block) (never : expiration) : expiration :=
  match e with
  | AtHeight h => AtHeight (Z.min (height b) h)
  | AtTime t => AtTime (Z.min (time b) t)
  | Never => never
  end.
(** state.rs:155-169 [bump_last_updated]. *)
Definition bump (p : epoch) (b : block) : epoch :=
  Epoch (ep_rate p) (ep_start p) (ep_end p) (ep_puvp p) (until (ep_end p) b Never).
(** state.rs:219-231 [get_latest_reward_distribution_time]. *)
Definition latest (p : epoch) (b : block) : expiration := until (ep_end p) b (ep_last p).
(** state.rs:234-258 [get_rewards_until]. *)
Definition rewards_until (p : epoch) (funded : Z) (e : expiration) : result Z :=
  match ep_rate p with
  | EmPaused => Ok 0
  | EmImmediate => Ok funded
  | EmLinear amount dur _ =>
      match ep_start p with
      | Never => Ok 0
      | _ =>
          do! d <- duration_since e (ep_start p);
          do! n <- dur_div d dur;
          mul128 amount n
      end
  end.
(** rewards.rs:82-144 [get_active_total_earned_puvp]. *)
Definition active_puvp (s : estate) (b : block) (vp : addr) (p : epoch) : result Z :=
  match ep_rate p with
  | EmPaused => Ok 0
  | EmImmediate => Ok (ep_puvp p)
  | EmLinear amount dur _ =>
      match latest p b with
      | Never => Ok (ep_puvp p)
      | e =>
          do! d <- duration_since e (ep_last p);
          if dur_zero d then Ok (ep_puvp p)
          else
            do! v <- q_vp s vp;
            let total := vp_total_at v b in
            if total =? 0 then Ok (ep_puvp p)
            else
              do! n <- dur_div d dur;
              do! x <- mul256 (amount * n) SCALE;
              add256 (ep_puvp p) (x / total)
      end
  end.
(** state.rs:378-412 [update_immediate_emission_total_earned_puvp]. *)
Definition immediate_puvp (s : estate) (b : block) (vp : addr) (puvp delta : Z) : result Z :=
  do! v <- q_vp s vp;
  let total := vp_total_at v b in
  check! negb (total =? 0) else "NoVotingPowerNoRewards";
  do! x <- mul256 delta SCALE;
  add256 puvp (x / total).
(** The dist with another epoch, funded amount and history. *)
Definition set_ep (d : dist) (p : epoch) (funded hist : Z) : dist :=
  Dist (di_denom d) p (di_vp d) (di_hook d) (di_open d) funded (di_wdest d) hist.
(** state.rs:282-371 [transition_epoch]. *)
Definition start_now (r : emission) (b : block) : expiration :=
  match r with
  | EmLinear _ (DHeight _) _ => AtHeight (height b)
  | EmLinear _ (DTime _) _ => AtTime (time b)
  | _ => Never
  end.
Definition transition (s : estate) (b : block) (d : dist) (r : emission) : result dist :=
  let p := di_ep d in
  if decide (ep_rate p = r) then Ok d
  else
    do! puvp <- active_puvp s b (di_vp d) p;
    let e := latest p b in
    do! hist <- add256 (di_hist d) puvp;
    do! done_ <- rewards_until p (di_funded d) e;
    do! funded <- sub128 (di_funded d) done_;
    do! len <- funded_dur r funded;
    do! e' <-
      match len with
      | Some (DHeight n) =>
          Ok (AtHeight (if height b + n <=? U64_MAX then height b + n else U64_MAX))
      | Some (DTime n) =>
          check! time b + n * NANOS <=? U64_MAX else "panic"; Ok (AtTime (time b + n * NANOS))
      | None => Ok Never
      end;
    let start := start_now r b in
    do! puvp' <-
      match r with
      | EmImmediate => immediate_puvp s b (di_vp d) 0 funded
      | _ => Ok 0
      end;
    Ok (set_ep d (Epoch r start e' puvp' start) funded hist).

(** ** rewards.rs *)
Definition pend (s : estate) (id : Z) (a : addr) : Z := default 0 (e_pend s !! (id, a)).
Definition acc (s : estate) (id : Z) (a : addr) : Z := default 0 (e_acc s !! (id, a)).
(** rewards.rs:148-180 [get_accrued_rewards_not_yet_accounted_for]. *)
Definition accrued (s : estate) (b : block) (id : Z) (a vp : addr) (total : Z) : result Z :=
  do! v <- q_vp s vp;
  do! f <- sub256 total (acc s id a);
  do! n <- mul256 (vp_power_at v b a) f;
  check! n / SCALE <=? U128_MAX else "ConversionOverflow";
  Ok (n / SCALE).
Definition get_dist (s : estate) (id : Z) : result dist :=
  some! d <- e_dists s !! id else "DistributionNotFound"; Ok d.
Definition set_dist (s : estate) (id : Z) (d : dist) : estate :=
  EState (e_own s) (e_count s) (<[id := d]> (e_dists s)) (e_pend s) (e_acc s) (e_hooks s)
    (e_vps s) (e_held s) (e_due s) (e_block s).
(** rewards.rs:15-79 [update_rewards]. *)
Definition update_rewards (s : estate) (b : block) (a : addr) (id : Z) : result estate :=
  do! d <- get_dist s id;
  let p := di_ep d in
  do! puvp <- active_puvp s b (di_vp d) p;
  let p' := bump (Epoch (ep_rate p) (ep_start p) (ep_end p) puvp (ep_last p)) b in
  do! total <- add256 puvp (di_hist d);
  do! n <- accrued s b id a (di_vp d) total;
  do! m <- add128 n (pend s id a);
  Ok (EState (e_own s) (e_count s) (<[id := set_ep d p' (di_funded d) (di_hist d)]> (e_dists s))
        (<[(id, a) := m]> (e_pend s)) (<[(id, a) := total]> (e_acc s)) (e_hooks s)
        (e_vps s) (e_held s) (e_due s) (e_block s)).

(** ** hooks.rs *)
(** hooks.rs:8-40. *)
Definition registered (s : estate) (h : addr) : list Z := default [] (e_hooks s !! h).
Definition subscribe (m : gmap addr (list Z)) (id : Z) (h : addr) : gmap addr (list Z) :=
  <[h := default [] (m !! h) ++ [id]]> m.
Definition unsubscribe (m : gmap addr (list Z)) (id : Z) (h : addr) : gmap addr (list Z) :=
  match List.filter (fun i => negb (i =? id)) (default [] (m !! h)) with
  | [] => delete h m
  | l => <[h := l]> m
  end.
Definition set_hooks (s : estate) (m : gmap addr (list Z)) : estate :=
  EState (e_own s) (e_count s) (e_dists s) (e_pend s) (e_acc s) m
    (e_vps s) (e_held s) (e_due s) (e_block s).
(** hooks.rs:57-140: every member named, for every distribution the caller is registered for. *)
Fixpoint update_ids (s : estate) (b : block) (a : addr) (ids : list Z) : result estate :=
  match ids with
  | [] => Ok s
  | id :: ids => do! s' <- update_rewards s b a id; update_ids s' b a ids
  end.
Fixpoint update_all (s : estate) (b : block) (who : list addr) (ids : list Z) : result estate :=
  match who with
  | [] => Ok s
  | a :: who => do! s' <- update_ids s b a ids; update_all s' b who ids
  end.
(** The reports delivered by a call. *)
Fixpoint drop_due (c a : addr) (l : list (addr * addr)) : list (addr * addr) :=
  match l with
  | [] => []
  | x :: t => if (x.1 =? c)%N && (x.2 =? a)%N then t else x :: drop_due c a t
  end.

(** ** contract.rs *)
Definition held (s : estate) (t : asset) : Z := default 0 (e_held s !! t).
Definition set_held (s : estate) (t : asset) (n : Z) : estate :=
  EState (e_own s) (e_count s) (e_dists s) (e_pend s) (e_acc s) (e_hooks s)
    (e_vps s) (<[t := n]> (e_held s)) (e_due s) (e_block s).
(** Tokens arriving, tokens leaving. *)
Definition take (s : estate) (t : asset) (n : Z) : result estate :=
  check! held s t + n <=? U128_MAX else "more tokens than the supply";
  Ok (set_held s t (held s t + n)).
Definition send (s : estate) (t : asset) (n : Z) : result estate :=
  check! n <=? held s t else "insufficient funds";
  Ok (set_held s t (held s t - n)).

(** [Expiration + Duration], panicking on overflow. *)
Definition exp_plus (e : expiration) (d : duration) : result expiration :=
  do! e' <- exp_add e d;
  match e' with
  | AtHeight n | AtTime n => check! n <=? U64_MAX else "panic"; Ok e'
  | Never => Ok e'
  end.
(** 390-475 [execute_fund_linear]. *)
Definition fund_linear (s : estate) (b : block) (d : dist) (continuous : bool) (n : Z)
  : result dist :=
  let p := di_ep d in
  let before := negb (di_funded d =? 0) in
  let expired := is_expired (ep_end p) b in
  let over := negb continuous && expired in
  do! d1 <-
    (if negb before || over then
       do! hist <-
         (if over && before then
            do! f <- active_puvp s b (di_vp d) p;
            add256 (di_hist d) f
          else Ok (di_hist d));
       let start := start_now (ep_rate p) b in
       Ok (set_ep d (Epoch (ep_rate p) start (ep_end p) 0 start) n hist)
     else
       do! f <- add128 (di_funded d) n;
       Ok (set_ep d p f (di_hist d)));
  let p1 := di_ep d1 in
  do! len <- funded_dur (ep_rate p1) (di_funded d1);
  do! e' <- match len with Some x => exp_plus (ep_start p1) x | None => Ok Never end;
  let p2 := Epoch (ep_rate p1) (ep_start p1) e' (ep_puvp p1) (ep_last p1) in
  if continuous && before && expired then
    do! puvp <- active_puvp s b (di_vp d1) p2;
    Ok (set_ep d1 (bump (Epoch (ep_rate p2) (ep_start p2) (ep_end p2) puvp (ep_last p2)) b)
          (di_funded d1) (di_hist d1))
  else Ok (set_ep d1 p2 (di_funded d1) (di_hist d1)).
(** 325-388 [execute_fund]. *)
Definition fund (s : estate) (b : block) (sender : addr) (id : Z) (d : dist) (n : Z)
  : result estate :=
  check! di_open d || is_owner (e_own s) sender else "NotOwner";
  do! d' <-
    match ep_rate (di_ep d) with
    | EmPaused =>
        do! f <- add128 (di_funded d) n; Ok (set_ep d (di_ep d) f (di_hist d))
    | EmImmediate =>
        do! f <- add128 (di_funded d) n;
        let p := di_ep d in
        do! puvp <- immediate_puvp s b (di_vp d) (ep_puvp p) n;
        Ok (set_ep d (Epoch (ep_rate p) (ep_start p) (ep_end p) puvp (ep_last p)) f (di_hist d))
    | EmLinear _ _ continuous => fund_linear s b d continuous n
    end;
  do! s' <- take s (di_denom d) n;
  Ok (set_dist s' id d').
(** 305-323 [execute_fund_native]. *)
Definition fund_native (s : estate) (b : block) (sender : addr) (id : Z) (funds : list (N * Z))
  : result estate :=
  do! d <- get_dist s id;
  match di_denom d with
  | (false, t) => do! n <- must_pay funds t; fund s b sender id d n
  | (true, _) => Err "InvalidFunds"
  end.
(** 97-151 [execute_receive_cw20]. *)
Definition fund_cw20 (s : estate) (b : block) (sender : addr) (from : addr) (id n : Z)
  : result estate :=
  do! d <- get_dist s id;
  match di_denom d with
  | (true, t) => check! (t =? sender)%N else "InvalidCw20"; fund s b from id d n
  | (false, _) => Err "InvalidFunds"
  end.
(** Deserialised fields are in range. *)
Definition em_fits (r : emission) : bool :=
  match r with
  | EmLinear amount dur _ => fits128 amount && fits_dur (Some dur)
  | _ => true
  end.
Definition set_count (s : estate) (n : Z) : estate :=
  EState (e_own s) n (e_dists s) (e_pend s) (e_acc s) (e_hooks s)
    (e_vps s) (e_held s) (e_due s) (e_block s).
(** 156-235 [execute_create]. *)
Definition create (s : estate) (b : block) (sender : addr) (denom : asset) (rate : emission)
    (vp hook : addr) (open : option bool) (wdest : option addr) (funds : list (N * Z))
  : result estate :=
  check! is_owner (e_own s) sender else "NotOwner";
  check! e_count s + 1 <=? U64_MAX else "panic";
  let id := e_count s + 1 in
  do! _ <- q_vp s vp;
  do! _ <- em_validate rate;
  let d := Dist denom (Epoch rate Never Never 0 Never) vp hook (default true open) 0
             (default sender wdest) 0 in
  check! (match e_dists s !! id with Some _ => false | None => true end)
    else "UnexpectedDuplicateDistributionId";
  let s1 := set_hooks (set_dist (set_count s id) id d) (subscribe (e_hooks s) id hook) in
  match funds with
  | [] => Ok s1
  | _ =>
      match denom with
      | (false, t) => do! n <- must_pay funds t; fund s1 b sender id d n
      | (true, _) => Err "NoFundsOnCw20Create"
      end
  end.
(** 239-294 [execute_update]. *)
Definition update (s : estate) (b : block) (sender : addr) (id : Z) (rate : option emission)
    (vp hook : option addr) (open : option bool) (wdest : option addr) : result estate :=
  check! is_owner (e_own s) sender else "NotOwner";
  do! d <- get_dist s id;
  do! d <-
    match rate with
    | Some r => do! _ <- em_validate r; transition s b d r
    | None => Ok d
    end;
  do! vp' <-
    match vp with Some v => do! _ <- q_vp s v; Ok v | None => Ok (di_vp d) end;
  let hooks :=
    match hook with
    | Some h => subscribe (unsubscribe (e_hooks s) id (di_hook d)) id h
    | None => e_hooks s
    end in
  Ok (set_hooks (set_dist s id
        (Dist (di_denom d) (di_ep d) vp' (default (di_hook d) hook)
           (default (di_open d) open) (di_funded d) (default (di_wdest d) wdest) (di_hist d)))
      hooks).
(** 477-522 [execute_claim]. *)
Definition claim_rewards (s : estate) (b : block) (sender : addr) (id : Z)
  : result (estate * list esub) :=
  do! s1 <- update_rewards s b sender id;
  do! d <- get_dist s1 id;
  let n := pend s1 id sender in
  check! negb (n =? 0) else "NoRewardsClaimable";
  let s2 := EState (e_own s1) (e_count s1) (e_dists s1) (<[(id, sender) := 0]> (e_pend s1))
              (e_acc s1) (e_hooks s1) (e_vps s1) (e_held s1) (e_due s1) (e_block s1) in
  do! s3 <- send s2 (di_denom d) n;
  Ok (s3, [EPay (di_denom d) sender n]).
(** 529-580 [execute_withdraw]. *)
Definition withdraw (s : estate) (b : block) (sender : addr) (id : Z)
  : result (estate * list esub) :=
  check! is_owner (e_own s) sender else "NotOwner";
  do! d <- get_dist s id;
  let p := di_ep d in
  check! negb (is_expired (ep_end p) b) else "RewardsAlreadyDistributed";
  let e' := match ep_start p with
            | AtHeight _ => AtHeight (height b)
            | AtTime _ => AtTime (time b)
            | Never => Never
            end in
  let p' := Epoch (ep_rate p) (ep_start p) e' (ep_puvp p) (ep_last p) in
  do! given <- rewards_until p' (di_funded d) e';
  do! back <- sub128 (di_funded d) given;
  do! s1 <- send s (di_denom d) back;
  Ok (set_dist s1 id (set_ep d p' given (di_hist d)), [EPay (di_denom d) (di_wdest d) back]).

(** The environment: the power of [who] at [vp] becomes [n]; the hook caller [caller] will
    report it, if it is a hook caller of any distribution. *)
Definition set_power (s : estate) (b : block) (vp caller who : addr) (n : Z) : result estate :=
  let v := default (VP ∅ snap_empty 0) (e_vps s !! vp) in
  let t := snap_get (vp_tot v) - smap_get (vp_pow v) who + n in
  check! t <=? U128_MAX else "panic";
  Ok (EState (e_own s) (e_count s) (e_dists s) (e_pend s) (e_acc s) (e_hooks s)
        (<[vp := VP (smap_save (vp_pow v) who (height b) n) (snap_save (vp_tot v) (height b) t)
                   (height b)]> (e_vps s))
        (e_held s)
        (match e_hooks s !! caller with Some _ => e_due s ++ [(caller, who)] | None => e_due s end)
        (e_block s)).
Definition set_due (s : estate) (l : list (addr * addr)) : estate :=
  EState (e_own s) (e_count s) (e_dists s) (e_pend s) (e_acc s) (e_hooks s)
    (e_vps s) (e_held s) l (e_block s).
Definition set_block (s : estate) (b : block) : estate :=
  EState (e_own s) (e_count s) (e_dists s) (e_pend s) (e_acc s) (e_hooks s)
    (e_vps s) (e_held s) (e_due s) b.

(** 35-56 [instantiate]; [vs] are voting-power contracts in which nobody has power yet. *)
Definition e_instantiate (b : block) (owner : addr) (vs : gset addr) : estate :=
  EState (initialize_owner (Some owner)) 0 ∅ ∅ ∅ ∅ (gset_to_gmap (VP ∅ snap_empty 0) vs) ∅ [] b.

(** 59-95 [execute]. *)
Definition e_step (s : estate) (b : block) (sender : addr) (m : emsg)
  : result (estate * list esub) :=
  match m with
  | ECreate denom rate vp hook open wdest funds =>
      check! em_fits rate && forallb (fun c => fits128 c.2) funds else "parse";
      do! s' <- create s b sender denom rate vp hook open wdest funds; Ok (s', [])
  | EUpdate id rate vp hook open wdest =>
      check! match rate with Some r => em_fits r | None => true end else "parse";
      do! s' <- update s b sender id rate vp hook open wdest; Ok (s', [])
  | EFund id funds =>
      check! forallb (fun c => fits128 c.2) funds else "parse";
      do! s' <- fund_native s b sender id funds; Ok (s', [])
  | EFundLatest funds =>
      check! forallb (fun c => fits128 c.2) funds else "parse";
      do! s' <- fund_native s b sender (e_count s) funds; Ok (s', [])
  | EReceive from n id =>
      check! fits128 n else "parse";
      do! s' <- fund_cw20 s b sender from (default (e_count s) id) n; Ok (s', [])
  | EClaim id => claim_rewards s b sender id
  | EWithdraw id => withdraw s b sender id
  | EHook who =>
      some! ids <- e_hooks s !! sender else "InvalidHookSender";
      do! s' <- update_all s b who ids;
      Ok (set_due s' (fold_left (fun l a => drop_due sender a l) who (e_due s')), [])
  | EOwner act =>
      do! o <- update_ownership (e_own s) b sender act;
      Ok (EState o (e_count s) (e_dists s) (e_pend s) (e_acc s) (e_hooks s)
            (e_vps s) (e_held s) (e_due s) (e_block s), [])
  | EPower vp caller who n =>
      check! fits128 n else "parse";
      do! s' <- set_power s b vp caller who n; Ok (s', [])
  | EDonate t n =>
      check! fits128 n else "parse";
      do! s' <- take s t n; Ok (s', [])
  end.
(** A block has one time, and ends with every report delivered; heights are [u64]. *)
Definition e_goes (s : estate) (b : block) : bool :=
  (height b <=? U64_MAX) &&
  if height b =? height (e_block s) then time b =? time (e_block s)
  else match e_due s with [] => true | _ => false end.
Definition e_handle (s : estate) (b : block) (sender : addr) (m : emsg)
  : result (estate * list esub) :=
  check! e_goes s b else "no such block";
  e_step (set_block s b) b sender m.

(** 633-692 [query_pending_rewards], for one distribution. *)
Definition pending_rewards (s : estate) (b : block) (id : Z) (a : addr) : result Z :=
  do! d <- get_dist s id;
  do! puvp <- active_puvp s b (di_vp d) (di_ep d);
  do! total <- add256 puvp (di_hist d);
  do! n <- accrued s b id a (di_vp d) total;
  add128 n (pend s id a).
(** 694-698 [query_undistributed_rewards]. *)
Definition undistributed (s : estate) (b : block) (id : Z) : result Z :=
  do! d <- get_dist s id;
  do! n <- rewards_until (di_ep d) (di_funded d) (latest (di_ep d) b);
  sub128 (di_funded d) n.
