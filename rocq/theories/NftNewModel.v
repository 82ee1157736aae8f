(** Model of the set-up of dao-voting-cw721-staked with a collection of its own
    (contracts/voting/dao-voting-cw721-staked/src/contract.rs [instantiate] 69-82, 118-163 with the
    replies 661-757), and of the module (NftModel.v) joined to that collection (CollModel.v).

    The module at [md] instantiates the collection at [nft] with itself as minter, and in the
    reply (661-712) sends it the messages [initial_nfts] as they were given by whoever
    creates the DAO, and hands the collection to the DAO; all are sent without a reply that
    would catch a failure, so the first failure undoes everything.  A second reply (713-756)
    looks at the supply; its data are a callback for the DAO, which accepts the collection.
    dao-dao-core carries it out when the DAO is created, but not when the DAO exchanges its
    voting module ([created], as in TokNewModel.v).  [SOther]: a contract one of the messages
    sends a token to may make calls while the set-up runs.

    [n_held] is what the collection says, and transfers out are carried out by it: a token that
    is no longer the module's is not paid out.  (A new owner who lets the module move it
    after all is left out.)  A token sent to the module that is the module's already is
    registered again, as [execute_stake] (217-243) does not look.  The supply the module asks
    for (450-460) is the collection's.  Once set up, the module sends the collection
    nothing but transfers (contract.rs:269-281, 352-366). *)
From Verif Require Import Base Exec StoreModel ActiveModel NftModel CollModel.

Record pstate := PS { p_n : nstate; p_c : coll }.
Inductive pmsg :=
| PNft (m : nmsg)
| PColl (m : cmsg).

(** The tokens of an address. *)
Definition kept (a : addr) (c : coll) : gset N :=
  dom (filter (fun x : N * tok => k_owner x.2 = a) (q_toks c)).
Definition holding (n : nstate) (h : gset N) : nstate :=
  NState (n_dao n) (n_nft n) (n_dur n) (n_thr n) (n_staked n) (n_bals n) (n_total n) (n_claims n)
    (n_hooks n) h.
(** The transfers of a call. *)
Fixpoint pay_out (md : addr) (c : coll) (b : block) (subs : list nsub) : result coll :=
  match subs with
  | [] => Ok c
  | NPay to id :: subs => do! c' <- c_handle c b md (CTransfer id to); pay_out md c' b subs
  | _ :: subs => pay_out md c b subs
  end.
(** Calls of the module that are not the collection's doing. *)
Definition plain (c : coll) (m : nmsg) : bool :=
  match m with
  | NDeposit _ | NReceive _ _ => false
  | NUpdateThreshold _ n => n =? c_supply c
  | _ => true
  end.
Definition p_nft (md : addr) (s : pstate) (b : block) (sender : addr) (m : nmsg)
  : result (pstate * list nsub) :=
  check! plain (p_c s) m else "not so";
  do! ' (n', subs) <- n_handle (p_n s) b sender m;
  do! c' <- pay_out md (p_c s) b subs;
  Ok (PS (holding n' (kept md c')) c', subs).
(** A call of the collection; it calls the receiver of a token sent. *)
Definition p_coll (md : addr) (s : pstate) (b : block) (sender : addr) (m : cmsg)
  : result (pstate * list nsub) :=
  do! c' <- c_handle (p_c s) b sender m;
  match m with
  | CSend id to =>
      if (to =? md)%N then
        do! ' (n', subs) <- n_handle (holding (p_n s) (kept md c' ∖ {[id]})) b (n_nft (p_n s))
                              (NReceive sender id);
        Ok (PS (holding n' (kept md c')) c', subs)
      else Ok (PS (holding (p_n s) (kept md c')) c', [])
  | _ => Ok (PS (holding (p_n s) (kept md c')) c', [])
  end.
Definition p_handle (md : addr) (s : pstate) (b : block) (sender : addr) (m : pmsg)
  : result (pstate * list nsub) :=
  check! negb (sender =? md)%N && negb (sender =? n_nft (p_n s))%N else "not the module";
  match m with
  | PNft m => p_nft md s b sender m
  | PColl m => p_coll md s b sender m
  end.

(** 676-694 with what receivers do meanwhile. *)
Inductive sstep :=
| SOwn (m : cmsg)
| SOther (a : addr) (m : pmsg).
Fixpoint s_run (md : addr) (s : pstate) (b : block) (ms : list sstep) : result pstate :=
  match ms with
  | [] => Ok s
  | SOwn m :: ms => do! ' (s', subs) <- p_coll md s b md m; s_run md s' b ms
  | SOther a m :: ms => do! ' (s', subs) <- p_handle md s b a m; s_run md s' b ms
  end.
Definition s_msgs (ms : list sstep) : list cmsg :=
  flat_map (fun x => match x with SOwn m => [m] | SOther _ _ => [] end) ms.
(** The whole set-up. *)
Definition new_coll (created : bool) (b : block) (dao md nft : addr) (d : option duration)
    (thr : option athreshold) (ms : list sstep) : result pstate :=
  check! fits_dur d && fits_active thr else "parse";
  (* 118-137: the collection's size is looked at last *)
  do! n <- n_instantiate b dao nft FactoryNft d thr;
  check! negb (Nat.eqb (length (s_msgs ms)) 0) else "NoInitialNfts";
  do! s <- s_run md (PS n (coll_new md)) b ms;
  do! ' (s, subs) <- p_coll md s b md (COwn (OTransfer dao None));
  (* 713-739 *)
  check! negb (c_supply (p_c s) =? 0) else "NoInitialNfts";
  do! _ <- match n_thr (p_n s) with
           | Some (ACount n) => assert_valid_absolute_count n (c_supply (p_c s))
           | _ => Ok tt
           end;
  (* 744-756 *)
  if created then do! ' (s, subs) <- p_coll md s b dao (COwn OAccept); Ok s else Ok s.
