(** Model of contracts/voting/dao-voting-cw721-staked/src/{contract,state}.rs.

    Line numbers refer to contract.rs unless said otherwise.  Token ids are
    numbers.  [n_held] is the set of tokens the collection records as owned by the
    module.  The collection is a correct cw721: it calls [ReceiveNft] exactly when
    a token it did not yet hold for the module is sent to it, and it transfers a
    token out exactly when the module, as its owner, asks; transfers do not call
    back.  Transfers out are part of the call that makes them (they come first).
    [NDeposit] is somebody transferring a token to the module without a call. *)
From Verif Require Import Base Exec VotingModel HooksModel StoreModel ActiveModel.

(** packages/cw721-controllers/src/nft_claim.rs:11-24 *)
Record nclaim := NClaimOf { nc_id : N; nc_release : expiration }.
Notation nclaims := (gmap addr (list nclaim)).
Definition nclaims_of (m : nclaims) (a : addr) : list nclaim := default [] (m !! a).
(** nft_claim.rs:42-61 *)
Definition create_nft_claims (m : nclaims) (a : addr) (ids : list N) (e : expiration) : nclaims :=
  <[a := nclaims_of m a ++ map (fun i => NClaimOf i e) ids]> m.
Definition nmature (b : block) (c : nclaim) : bool := is_expired (nc_release c) b.
(** nft_claim.rs:65-86 *)
Definition claim_nfts (m : nclaims) (a : addr) (b : block) : list N * nclaims :=
  (map nc_id (List.filter (nmature b) (nclaims_of m a)),
   <[a := List.filter (fun c => negb (nmature b c)) (nclaims_of m a)]> m).

(** state.rs:47 *)
Definition NFT_MAX_CLAIMS : Z := 70.
(** state.rs:11-52; the map of staked tokens is keyed by owner and token. *)
Record nstate := NState {
  n_dao : addr;
  n_nft : addr;
  n_dur : option duration;
  n_thr : option athreshold;
  n_staked : gmap (addr * N) unit;
  n_bals : smap;
  n_total : snap;
  n_claims : nclaims;
  n_hooks : list addr;
  n_held : gset N }.

Inductive nmsg :=
| NReceive (from : addr) (id : N)
| NUnstake (ids : list N)
| NClaim
| NUpdateConfig (d : option duration)
| NAddHook (a : addr)
| NRemoveHook (a : addr)
| NUpdateThreshold (t : option athreshold) (supply : Z)
| NDeposit (id : N).
(** Sub-messages: a token transfer; hooks (packages/dao-hooks/src/nft_stake.rs). *)
Inductive nsub :=
| NPay (recipient : addr) (id : N)
| NStakeHook (receiver : addr) (who : addr) (id : N)
| NUnstakeHook (receiver : addr) (who : addr) (ids : list N).

(** Where the collection comes from; its size when validated.  A factory's
    collection is not validated (reply 760-795). *)
Inductive nft_source :=
| ExistingNft (supply : Z)
| NewNft (minted : Z)
| FactoryNft.
(** 69-195 [instantiate] with 659-801 [reply]. *)
Definition n_instantiate (b : block) (dao nft : addr) (src : nft_source) (d : option duration)
    (thr : option athreshold) : result nstate :=
  do! _ <- validate_duration d;
  do! _ <- match thr with Some (APercent p) => assert_valid_percentage p | _ => Ok tt end;
  do! _ <- match src with
           | ExistingNft supply =>
               match thr with Some (ACount n) => assert_valid_absolute_count n supply | _ => Ok tt end
           | NewNft minted =>
               check! negb (minted =? 0) else "NoInitialNfts";
               match thr with Some (ACount n) => assert_valid_absolute_count n minted | _ => Ok tt end
           | FactoryNft => Ok tt
           end;
  Ok (NState dao nft d thr ∅ ∅ (snap_save snap_empty (height b) 0) ∅ [] ∅).

(** A token arriving; it was not the module's before. *)
Definition n_arrive (held : gset N) (id : N) : result (gset N) :=
  check! negb (bool_decide (id ∈ held)) else "cw721: already owned";
  Ok ({[id]} ∪ held).
(** Tokens leaving, one message each. *)
Fixpoint n_leave (held : gset N) (ids : list N) : result (gset N) :=
  match ids with
  | [] => Ok held
  | id :: ids =>
      check! bool_decide (id ∈ held) else "cw721: not the owner";
      n_leave (held ∖ {[id]}) ids
  end.

(** state.rs:55-75 [register_staked_nft]. *)
Definition register_staked (s : nstate) (b : block) (staker : addr) (id : N) : result nstate :=
  do! bal <- add128 (smap_get (n_bals s) staker) 1;
  do! tot <- add128 (snap_get (n_total s)) 1;
  Ok (NState (n_dao s) (n_nft s) (n_dur s) (n_thr s)
        (<[(staker, id) := tt]> (n_staked s))
        (smap_save (n_bals s) staker (height b) bal) (snap_save (n_total s) (height b) tot)
        (n_claims s) (n_hooks s) (n_held s)).
(** state.rs:94-105: the loop over the tokens. *)
Fixpoint remove_staked (m : gmap (addr * N) unit) (staker : addr) (ids : list N)
  : result (gmap (addr * N) unit) :=
  match ids with
  | [] => Ok m
  | id :: ids =>
      match m !! (staker, id) with
      | Some _ => remove_staked (delete (staker, id) m) staker ids
      | None => Err "NotStaked"
      end
  end.
(** state.rs:81-114 [register_unstaked_nfts]; [expect] panics for an address that
    never staked. *)
Definition register_unstaked (s : nstate) (b : block) (staker : addr) (ids : list N)
  : result nstate :=
  do! m <- remove_staked (n_staked s) staker ids;
  let n := Z.of_nat (length ids) in
  do! tot <- sub128 (snap_get (n_total s)) n;
  some! cur <- sn_cur (smap_snap (n_bals s) staker) else "panic";
  do! bal <- sub128 cur n;
  Ok (NState (n_dao s) (n_nft s) (n_dur s) (n_thr s) m
        (smap_save (n_bals s) staker (height b) bal) (snap_save (n_total s) (height b) tot)
        (n_claims s) (n_hooks s) (n_held s)).

(** 217-243 [execute_stake]. *)
Definition n_stake (s : nstate) (b : block) (sender from : addr) (id : N)
  : result (nstate * list nsub) :=
  check! (sender =? n_nft s)%N else "InvalidToken";
  do! held <- n_arrive (n_held s) id;
  do! s' <- register_staked s b from id;
  Ok (NState (n_dao s') (n_nft s') (n_dur s') (n_thr s') (n_staked s') (n_bals s') (n_total s')
        (n_claims s') (n_hooks s') held,
      map (fun h => NStakeHook h from id) (n_hooks s)).

(** 245-340 [execute_unstake]. *)
Definition n_unstake (s : nstate) (b : block) (sender : addr) (ids : list N)
  : result (nstate * list nsub) :=
  check! negb (Nat.eqb (length ids) 0) else "ZeroUnstake";
  do! s' <- register_unstaked s b sender ids;
  let hooks := map (fun h => NUnstakeHook h sender ids) (n_hooks s) in
  match n_dur s with
  | None =>
      do! held <- n_leave (n_held s) ids;
      Ok (NState (n_dao s') (n_nft s') (n_dur s') (n_thr s') (n_staked s') (n_bals s')
            (n_total s') (n_claims s') (n_hooks s') held,
          map (NPay sender) ids ++ hooks)
  | Some d =>
      check! Z.of_nat (length (nclaims_of (n_claims s) sender) + length ids) <=? NFT_MAX_CLAIMS
        else "TooManyClaims";
      Ok (NState (n_dao s') (n_nft s') (n_dur s') (n_thr s') (n_staked s') (n_bals s')
            (n_total s') (create_nft_claims (n_claims s') sender ids (after d b)) (n_hooks s')
            (n_held s'),
          hooks)
  end.

(** 342-373 [execute_claim_nfts]. *)
Definition n_claim (s : nstate) (b : block) (sender : addr) : result (nstate * list nsub) :=
  let '(ids, cs) := claim_nfts (n_claims s) sender b in
  check! negb (Nat.eqb (length ids) 0) else "NothingToClaim";
  do! held <- n_leave (n_held s) ids;
  Ok (NState (n_dao s) (n_nft s) (n_dur s) (n_thr s) (n_staked s) (n_bals s) (n_total s)
        cs (n_hooks s) held, map (NPay sender) ids).

(** 375-403 [execute_update_config]. *)
Definition n_update_config (s : nstate) (sender : addr) (d : option duration)
  : result (nstate * list nsub) :=
  check! (sender =? n_dao s)%N else "Unauthorized";
  do! _ <- validate_duration d;
  Ok (NState (n_dao s) (n_nft s) d (n_thr s) (n_staked s) (n_bals s) (n_total s) (n_claims s)
        (n_hooks s) (n_held s), []).
(** 405-443 [execute_add_hook], [execute_remove_hook]. *)
Definition n_set_hooks (s : nstate) (sender : addr) (r : result (list addr))
  : result (nstate * list nsub) :=
  check! (sender =? n_dao s)%N else "Unauthorized";
  do! h <- r;
  Ok (NState (n_dao s) (n_nft s) (n_dur s) (n_thr s) (n_staked s) (n_bals s) (n_total s)
        (n_claims s) h (n_held s), []).
(** 445-478 [execute_update_active_threshold]. *)
Definition n_update_threshold (s : nstate) (sender : addr) (t : option athreshold) (supply : Z)
  : result (nstate * list nsub) :=
  check! (sender =? n_dao s)%N else "Unauthorized";
  do! _ <- validate_active t supply;
  Ok (NState (n_dao s) (n_nft s) (n_dur s) t (n_staked s) (n_bals s) (n_total s) (n_claims s)
        (n_hooks s) (n_held s), []).

(** 198-215 [execute]. *)
Definition n_handle (s : nstate) (b : block) (sender : addr) (m : nmsg)
  : result (nstate * list nsub) :=
  match m with
  | NReceive from id => n_stake s b sender from id
  | NUnstake ids => n_unstake s b sender ids
  | NClaim => n_claim s b sender
  | NUpdateConfig d => check! fits_dur d else "parse"; n_update_config s sender d
  | NAddHook a => n_set_hooks s sender (add_hook (n_hooks s) a)
  | NRemoveHook a => n_set_hooks s sender (remove_hook (n_hooks s) a)
  | NUpdateThreshold t supply =>
      check! fits_active t && fits128 supply else "parse"; n_update_threshold s sender t supply
  | NDeposit id =>
      do! held <- n_arrive (n_held s) id;
      Ok (NState (n_dao s) (n_nft s) (n_dur s) (n_thr s) (n_staked s) (n_bals s) (n_total s)
            (n_claims s) (n_hooks s) held, [])
  end.

(** 577-597 queries; a missing height is the current one. *)
Definition n_power_at (s : nstate) (b : block) (who : addr) (h : option Z) : Z :=
  smap_at (n_bals s) who (default (height b) h).
Definition n_total_at (s : nstate) (b : block) (h : option Z) : Z :=
  snap_get_at (n_total s) (default (height b) h).
(** 508-575 [query_is_active]: looks at the total at the start of the block. *)
Definition n_is_active (s : nstate) (b : block) (supply : Z) : result bool :=
  is_active_nft (n_thr s) (snap_get_at (n_total s) (height b)) supply.
