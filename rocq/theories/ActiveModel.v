(** Active thresholds: packages/dao-voting/src/threshold.rs:12-60 and the
    [query_is_active] functions of the voting modules. *)
From Verif Require Import Base VotingModel StoreModel.

(** threshold.rs:12-19 [ActiveThreshold]; a percentage holds its atomics. *)
Inductive athreshold := ACount (n : Z) | APercent (p : Z).

(** threshold.rs:38-49 [assert_valid_absolute_count_threshold]. *)
Definition assert_valid_absolute_count (count supply : Z) : result unit :=
  check! negb (count =? 0) else "ZeroActiveCount";
  check! count <=? supply else "InvalidAbsoluteCount";
  Ok tt.
(** threshold.rs:51-56 [assert_valid_percentage_threshold]. *)
Definition assert_valid_percentage (p : Z) : result unit :=
  check! negb (p =? 0) && (p <=? DEC_ONE) else "InvalidActivePercentage";
  Ok tt.
Definition validate_active (t : option athreshold) (supply : Z) : result unit :=
  match t with
  | Some (ACount n) => assert_valid_absolute_count n supply
  | Some (APercent p) => assert_valid_percentage p
  | None => Ok tt
  end.
(** Deserialised numbers are unsigned 128-bit. *)
Definition fits_active (t : option athreshold) : bool :=
  match t with Some (ACount n) | Some (APercent n) => fits128 n | None => true end.

(** The number of tokens a percentage asks for; in dao-voting-token-staked
    contract.rs:520-539, dao-voting-cw20-staked contract.rs:340-357,
    dao-voting-cw721-staked contract.rs:550-565 and dao-voting-onft-staked.  The
    256-bit arithmetic cannot overflow for 128-bit supplies and percentages up to
    one; the final conversion to 128 bits panics if it does not fit. *)
Definition active_count (supply p : Z) : result Z :=
  let applied := supply * PRECISION_FACTOR * p / DEC_ONE in
  let rounded := (applied + PRECISION_FACTOR - 1) / PRECISION_FACTOR in
  check! rounded <=? U128_MAX else "unwrap"; Ok rounded.

(** [query_is_active] of the token modules (token-staked 485-545, cw20-staked
    303-365), given the staked amount it looks at and the supply. *)
Definition is_active (t : option athreshold) (staked supply : Z) : result bool :=
  match t with
  | None => Ok true
  | Some (ACount n) => Ok (n <=? staked)
  | Some (APercent p) => do! n <- active_count supply p; Ok (n <=? staked)
  end.
(** [query_is_active] of the NFT modules (cw721-staked 508-575): nothing staked
    is inactive under a percentage. *)
Definition is_active_nft (t : option athreshold) (staked supply : Z) : result bool :=
  match t with
  | None => Ok true
  | Some (ACount n) => Ok (n <=? staked)
  | Some (APercent p) =>
      if staked =? 0 then Ok false
      else do! n <- active_count supply p; Ok (n <=? staked)
  end.
