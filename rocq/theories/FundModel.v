(** contracts/distribution/cw-fund-distributor/src/contract.rs.

    Outside the contract ([world]): what the voting contract answers in block [b] about
    height [h], and the cw20 tokens whose transfers fail.  Simplified: [ClaimAll] visits the
    tokens in no particular order; transfers the contract orders are applied to its balances
    at once. *)
From Verif Require Import Base StoreModel.

Record world := World {
  w_pow : block -> Z -> addr -> Z;
  w_tot : block -> Z -> Z;
  w_bad : addr -> bool;
}.

(** A token: a cw20 contract ([true]) or a native denomination ([false]). *)
Notation gtok := (bool * N)%type.

(** state.rs; and the contract's balances. *)
Record gstate := GState {
  g_height : Z;
  g_dead : expiration;
  g_total : Z;
  g_bals : gmap gtok Z;
  g_claims : gmap (addr * gtok) Z;
  g_held : gmap gtok Z;
}.

Inductive gmsg :=
| GReceive (from : addr) (n : Z)
| GFundNative (funds : list (N * Z))
| GClaimCw20 (tokens : list N)
| GClaimNative (denoms : list N)
| GClaimAll
(** [migrate], ordered by the admin of the contract. *)
| GRedistribute (h : Z)
(** Somebody transfers tokens to the contract without a call. *)
| GDonate (t : gtok) (n : Z).

Inductive gsub := GPay (t : gtok) (to : addr) (n : Z).

(** [Decimal] one. *)
Definition DEC : Z := 10 ^ 18.

Definition g_bal (s : gstate) (t : gtok) : Z := default 0 (g_bals s !! t).
Definition g_claim (s : gstate) (a : addr) (t : gtok) : Z := default 0 (g_claims s !! (a, t)).
Definition g_has (s : gstate) (t : gtok) : Z := default 0 (g_held s !! t).

(** 28-63 [instantiate]. *)
Definition g_instantiate (w : world) (b : block) (h : Z) (period : duration) : result gstate :=
  check! (0 <=? h) && (h <=? U64_MAX) else "parse";
  check! fits_dur (Some period) else "parse";
  check! negb (w_tot w b (height b) =? 0) else "ZeroVotingPower";
  Ok (GState h (after period b) (w_tot w b (height b)) ∅ ∅ ∅).

(** The amount [n] of [t] arrives. *)
Definition g_arrive (s : gstate) (t : gtok) (n : Z) : result gstate :=
  check! g_has s t + n <=? U128_MAX else "more tokens than the supply";
  Ok (GState (g_height s) (g_dead s) (g_total s) (g_bals s) (g_claims s)
        (<[t := g_has s t + n]> (g_held s))).

(** 95-109, 132-148: the amount is added to what is distributed. *)
Definition g_add (s : gstate) (t : gtok) (n : Z) : result gstate :=
  do! s <- g_arrive s t n;
  if n =? 0 then Ok s
  else
    do! n' <- add128 (g_bal s t) n;
    Ok (GState (g_height s) (g_dead s) (g_total s) (<[t := n']> (g_bals s)) (g_claims s)
          (g_held s)).
Fixpoint g_add_all (s : gstate) (funds : list (N * Z)) : result gstate :=
  match funds with
  | [] => Ok s
  | (d, n) :: rest =>
      check! fits128 n else "parse";
      do! s <- g_add s (false, d) n;
      g_add_all s rest
  end.

(** 170-185 [get_relative_share]. *)
Definition g_share (w : world) (s : gstate) (b : block) (a : addr) : result Z :=
  mul_ratio128 (w_pow w b (g_height s) a) DEC (g_total s).

(** 157-168 [get_entitlement]. *)
Definition g_entitlement (bal share previous : Z) : result Z :=
  do! n <- mul_ratio128 bal share DEC;
  sub128 n previous.

(** 224-262, 298-337: the claim of one token. *)
Definition g_claim1 (w : world) (s : gstate) (a : addr) (share : Z) (t : gtok)
  : result (gstate * list gsub) :=
  some! bal <- g_bals s !! t else "not found";
  do! n <- g_entitlement bal share (g_claim s a t);
  if n =? 0 then Ok (s, [])
  else
    do! c <- add128 (g_claim s a t) n;
    check! negb (fst t && w_bad w (snd t)) else "transfer refused by the token";
    check! n <=? g_has s t else "insufficient funds";
    Ok (GState (g_height s) (g_dead s) (g_total s) (g_bals s) (<[(a, t) := c]> (g_claims s))
          (<[t := g_has s t - n]> (g_held s)), [GPay t a n]).
Fixpoint g_claim_loop (w : world) (s : gstate) (a : addr) (share : Z) (ts : list gtok)
  : result (gstate * list gsub) :=
  match ts with
  | [] => Ok (s, [])
  | t :: rest =>
      do! ' (s1, p) <- g_claim1 w s a share t;
      do! ' (s2, q) <- g_claim_loop w s1 a share rest;
      Ok (s2, p ++ q)
  end.

(** 187-207 [execute_claim_cw20s], 264-290 [execute_claim_natives], 339-380
    [execute_claim_all]. *)
Definition g_do_claim (w : world) (s : gstate) (b : block) (a : addr) (ts : list gtok)
  : result (gstate * list gsub) :=
  check! is_expired (g_dead s) b else "ClaimDuringFundingPeriod";
  do! share <- g_share w s b a;
  g_claim_loop w s a share ts.

(** 566-612 [execute_redistribute_unclaimed_funds]. *)
Fixpoint g_settle (bals : gmap gtok Z) (cs : list (addr * gtok * Z)) : result (gmap gtok Z) :=
  match cs with
  | [] => Ok bals
  | ((_, t), n) :: rest =>
      some! bal <- bals !! t else "not found";
      do! bal' <- sub128 bal n;
      g_settle (<[t := bal']> bals) rest
  end.

(** 66-85 [execute], 87-117 [execute_fund_cw20], 119-155 [execute_fund_native]. *)
Definition g_handle (w : world) (s : gstate) (b : block) (sender : addr) (m : gmsg)
  : result (gstate * list gsub) :=
  match m with
  | GReceive _ n =>
      check! fits128 n else "parse";
      check! negb (is_expired (g_dead s) b) else "FundDuringClaimingPeriod";
      do! s' <- g_add s (true, sender) n;
      Ok (s', [])
  | GFundNative funds =>
      check! negb (is_expired (g_dead s) b) else "FundDuringClaimingPeriod";
      do! s' <- g_add_all s funds;
      Ok (s', [])
  | GClaimCw20 ts =>
      check! negb (match ts with [] => true | _ => false end) else "EmptyClaim";
      g_do_claim w s b sender (map (pair true) ts)
  | GClaimNative ts =>
      check! negb (match ts with [] => true | _ => false end) else "EmptyClaim";
      g_do_claim w s b sender (map (pair false) ts)
  | GClaimAll => g_do_claim w s b sender (map fst (map_to_list (g_bals s)))
  | GRedistribute h =>
      check! (0 <=? h) && (h <=? U64_MAX) else "parse";
      do! bals <- g_settle (g_bals s) (map_to_list (g_claims s));
      Ok (GState h (g_dead s) (g_total s) bals ∅ (g_held s), [])
  | GDonate t n =>
      check! fits128 n else "parse";
      do! s' <- g_arrive s t n;
      Ok (s', [])
  end.
