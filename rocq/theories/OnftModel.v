(** Model of contracts/voting/dao-voting-onft-staked/src/{contract,state,omniflix}.rs.

    Line numbers refer to contract.rs unless said otherwise.  Token ids are numbers.
    [f_owner] is the chain's record of who owns each token of the collection.  Transfers out of
    the module are part of the call that makes them.  [XMove], [XBurn] and [XCreate] are what
    others do with tokens at the chain.  The module makes no calls of its own.  Claims, active
    thresholds and the loop of unstaking are those of dao-voting-cw721-staked
    ([NftModel], [ActiveModel]): state.rs:81-118 and nft_claim.rs are the same code. *)
From Verif Require Import Base Exec VotingModel HooksModel StoreModel ActiveModel NftModel.

(** state.rs:11-63 *)
Record fstate := FState {
  f_self : addr;
  f_dao : addr;
  f_dur : option duration;
  f_thr : option athreshold;
  f_prep : gmap N addr;
  f_staked : gmap (addr * N) unit;
  f_bals : smap;
  f_total : snap;
  f_claims : nclaims;
  f_hooks : list addr;
  f_owner : gmap N addr }.

Inductive fmsg :=
| FPrepare (ids : list N)
| FConfirm (ids : list N)
| FCancel (ids : list N) (recipient : option addr)
| FUnstake (ids : list N)
| FClaim
| FUpdateConfig (d : option duration)
| FAddHook (a : addr)
| FRemoveHook (a : addr)
| FUpdateThreshold (t : option athreshold) (supply : Z)
| XMove (id : N) (to : addr)
| XBurn (id : N)
| XCreate (id : N) (to : addr).
(** Sub-messages: a token transfer; hooks (packages/dao-hooks/src/nft_stake.rs). *)
Inductive fsub :=
| FPay (recipient : addr) (id : N)
| FStakeHook (receiver : addr) (who : addr) (id : N)
| FUnstakeHook (receiver : addr) (who : addr) (ids : list N).

(** 35-83 [instantiate]; the collection has [supply] tokens, owned as in [own]. *)
Definition f_instantiate (b : block) (self dao : addr) (d : option duration)
    (thr : option athreshold) (supply : Z) (own : gmap N addr) : result fstate :=
  do! _ <- validate_duration d;
  do! _ <- match thr with
           | Some (APercent p) => assert_valid_percentage p
           | Some (ACount n) => assert_valid_absolute_count n supply
           | None => Ok tt
           end;
  Ok (FState self dao d thr ∅ ∅ ∅ (snap_save snap_empty (height b) 0) ∅ [] own).

(** A change of the stakes, of the preparations, of the owners. *)
Definition f_set_prep (s : fstate) (p : gmap N addr) : fstate :=
  FState (f_self s) (f_dao s) (f_dur s) (f_thr s) p (f_staked s) (f_bals s) (f_total s)
    (f_claims s) (f_hooks s) (f_owner s).
Definition f_set_owner (s : fstate) (o : gmap N addr) : fstate :=
  FState (f_self s) (f_dao s) (f_dur s) (f_thr s) (f_prep s) (f_staked s) (f_bals s) (f_total s)
    (f_claims s) (f_hooks s) o.
Definition f_set_claims (s : fstate) (c : nclaims) : fstate :=
  FState (f_self s) (f_dao s) (f_dur s) (f_thr s) (f_prep s) (f_staked s) (f_bals s) (f_total s)
    c (f_hooks s) (f_owner s).

(** Transfers by the module, one message each (omniflix.rs:19-32). *)
Fixpoint f_send (self : addr) (own : gmap N addr) (l : list (N * addr)) : result (gmap N addr) :=
  match l with
  | [] => Ok own
  | (id, to) :: l =>
      check! bool_decide (own !! id = Some self) else "onft: not the owner";
      f_send self (<[id := to]> own) l
  end.
Definition f_pays (l : list (N * addr)) : list fsub := map (fun x => FPay (snd x) (fst x)) l.

(** 109-142 [execute_prepare_stake]. *)
Definition f_prepare (s : fstate) (sender : addr) (ids : list N) : result (fstate * list fsub) :=
  check! forallb (fun id => bool_decide (f_owner s !! id = Some sender)) ids
    else "OnlyOwnerCanPrepareStake";
  Ok (f_set_prep s (foldr (fun id p => <[id := sender]> p) (f_prep s) ids), []).

(** 144-195 [execute_confirm_stake] with state.rs:65-88 [register_staked_nfts].  Sorting only
    changes the order of the hooks and is left out. *)
Definition f_confirm (s : fstate) (b : block) (sender : addr) (ids : list N)
  : result (fstate * list fsub) :=
  let ids := remove_dups ids in
  check! forallb (fun id =>
      bool_decide (f_prep s !! id = Some sender) &&
      bool_decide (f_owner s !! id = Some (f_self s))) ids else "StakeMustBePrepared";
  let n := Z.of_nat (length ids) in
  do! bal <- add128 (smap_get (f_bals s) sender) n;
  do! tot <- add128 (snap_get (f_total s)) n;
  Ok (FState (f_self s) (f_dao s) (f_dur s) (f_thr s)
        (foldr (fun id p => delete id p) (f_prep s) ids)
        (foldr (fun id m => <[(sender, id) := tt]> m) (f_staked s) ids)
        (smap_save (f_bals s) sender (height b) bal) (snap_save (f_total s) (height b) tot)
        (f_claims s) (f_hooks s) (f_owner s),
      flat_map (fun id => map (fun h => FStakeHook h sender id) (f_hooks s)) ids).

(** 216-302 [execute_cancel_stake]: the owners and preparers are read first.  By the DAO
    (242-268): the tokens held by the module and where they go. *)
Fixpoint f_cancel_dao (s : fstate) (ids : list N) (recipient : option addr)
  : result (list (N * addr)) :=
  match ids with
  | [] => Ok []
  | id :: ids =>
      some! o <- f_owner s !! id else "ONFT not found";
      if bool_decide (f_self s = o) then
        some! to <- match recipient with Some r => Some r | None => f_prep s !! id end
          else "NoRecipient";
        do! l <- f_cancel_dao s ids recipient; Ok ((id, to) :: l)
      else f_cancel_dao s ids recipient
  end.
(** By anybody else (269-293). *)
Fixpoint f_cancel_other (s : fstate) (sender : addr) (ids : list N) : result (list (N * addr)) :=
  match ids with
  | [] => Ok []
  | id :: ids =>
      some! o <- f_owner s !! id else "ONFT not found";
      check! bool_decide (sender = o) || bool_decide (f_prep s !! id = Some sender)
        else "NotPreparerNorOwner";
      if bool_decide (f_self s = o) then
        some! to <- f_prep s !! id else "panic";
        do! l <- f_cancel_other s sender ids; Ok ((id, to) :: l)
      else f_cancel_other s sender ids
  end.
Definition f_cancel (s : fstate) (sender : addr) (ids : list N) (recipient : option addr)
  : result (fstate * list fsub) :=
  do! l <- if (sender =? f_dao s)%N then f_cancel_dao s ids recipient
           else f_cancel_other s sender ids;
  do! own <- f_send (f_self s) (f_owner s) l;
  Ok (f_set_owner (f_set_prep s (foldr (fun id p => delete id p) (f_prep s) ids)) own, f_pays l).

(** 304-397 [execute_unstake] with state.rs:94-118 [register_unstaked_nfts]. *)
Definition f_unstake (s : fstate) (b : block) (sender : addr) (ids : list N)
  : result (fstate * list fsub) :=
  check! negb (Nat.eqb (length ids) 0) else "ZeroUnstake";
  do! m <- remove_staked (f_staked s) sender ids;
  let n := Z.of_nat (length ids) in
  do! tot <- sub128 (snap_get (f_total s)) n;
  some! cur <- sn_cur (smap_snap (f_bals s) sender) else "panic";
  do! bal <- sub128 cur n;
  let s' := FState (f_self s) (f_dao s) (f_dur s) (f_thr s) (f_prep s) m
    (smap_save (f_bals s) sender (height b) bal) (snap_save (f_total s) (height b) tot)
    (f_claims s) (f_hooks s) (f_owner s) in
  let hooks := map (fun h => FUnstakeHook h sender ids) (f_hooks s) in
  match f_dur s with
  | None =>
      let l := map (fun id => (id, sender)) ids in
      do! own <- f_send (f_self s) (f_owner s) l;
      Ok (f_set_owner s' own, f_pays l ++ hooks)
  | Some d =>
      check! Z.of_nat (length (nclaims_of (f_claims s) sender) + length ids) <=? NFT_MAX_CLAIMS
        else "TooManyClaims";
      Ok (f_set_claims s' (create_nft_claims (f_claims s) sender ids (after d b)), hooks)
  end.

(** 399-427 [execute_claim_nfts]. *)
Definition f_claim (s : fstate) (b : block) (sender : addr) : result (fstate * list fsub) :=
  let ' (ids, cs) := claim_nfts (f_claims s) sender b in
  check! negb (Nat.eqb (length ids) 0) else "NothingToClaim";
  let l := map (fun id => (id, sender)) ids in
  do! own <- f_send (f_self s) (f_owner s) l;
  Ok (f_set_owner (f_set_claims s cs) own, f_pays l).

(** 429-457, 459-497, 499-526: settings. *)
Definition f_settings (s : fstate) (sender : addr) (d : option duration) (t : option athreshold)
  (h : list addr) : result (fstate * list fsub) :=
  check! (sender =? f_dao s)%N else "Unauthorized";
  Ok (FState (f_self s) (f_dao s) d t (f_prep s) (f_staked s) (f_bals s) (f_total s) (f_claims s) h
        (f_owner s), []).

(** 85-107 [execute]. *)
Definition f_handle (s : fstate) (b : block) (sender : addr) (m : fmsg)
  : result (fstate * list fsub) :=
  check! negb (sender =? f_self s)%N else "the module makes no calls";
  match m with
  | FPrepare ids => f_prepare s sender ids
  | FConfirm ids => f_confirm s b sender ids
  | FCancel ids r => f_cancel s sender ids r
  | FUnstake ids => f_unstake s b sender ids
  | FClaim => f_claim s b sender
  | FUpdateConfig d =>
      check! fits_dur d else "parse";
      do! _ <- validate_duration d; f_settings s sender d (f_thr s) (f_hooks s)
  | FAddHook a => do! h <- add_hook (f_hooks s) a; f_settings s sender (f_dur s) (f_thr s) h
  | FRemoveHook a => do! h <- remove_hook (f_hooks s) a; f_settings s sender (f_dur s) (f_thr s) h
  | FUpdateThreshold t supply =>
      check! fits_active t && fits128 supply else "parse";
      do! _ <- validate_active t supply; f_settings s sender (f_dur s) t (f_hooks s)
  | XMove id to =>
      check! bool_decide (f_owner s !! id = Some sender) else "onft: not the owner";
      Ok (f_set_owner s (<[id := to]> (f_owner s)), [])
  | XBurn id =>
      check! bool_decide (f_owner s !! id = Some sender) else "onft: not the owner";
      Ok (f_set_owner s (delete id (f_owner s)), [])
  | XCreate id to =>
      check! bool_decide (f_owner s !! id = None) else "onft: exists";
      Ok (f_set_owner s (<[id := to]> (f_owner s)), [])
  end.

(** 623-645 queries; a missing height is the current one. *)
Definition f_power_at (s : fstate) (b : block) (who : addr) (h : option Z) : Z :=
  smap_at (f_bals s) who (default (height b) h).
Definition f_total_at (s : fstate) (b : block) (h : option Z) : Z :=
  snap_get_at (f_total s) (default (height b) h).
(** 557-621 [query_is_active]: as for NFTs (NftModel.v), with the supply of the collection. *)
Definition f_is_active (s : fstate) (b : block) (supply : Z) : result bool :=
  is_active_nft (f_thr s) (snap_get_at (f_total s) (height b)) supply.
