(** Model of the set-up of dao-voting-token-staked with a token of its own:
    contracts/voting/dao-voting-token-staked/src/contract.rs [instantiate] (62-126) with the
    reply 573-735, joined to the model of cw-tokenfactory-issuer and of the chain's token
    factory and bank (IssuerModel.v).

    The module at [module] instantiates the issuer at [issuer], whose owner is then the module,
    and in the reply sends it the messages [setup_msgs]; all are sent without a reply, so the
    first failure undoes everything.  The data of the reply are a callback for the DAO
    (718-726), which accepts the ownership of the issuer.  dao-dao-core carries it out when
    the DAO is created (contracts/dao-dao-core/src/contract.rs:1000-1010), but not when the
    DAO exchanges its voting module (1012-1019): [created] tells which.

    The denomination "factory/{issuer}/{subdenom}" is what the token factory calls it; it is
    one number here.  Left out: the fee for creating a denomination ([funds]), the contents
    of the metadata. *)
From Verif Require Import Base Exec StoreModel ActiveModel TokModel IssuerModel.

(** msg.rs [NewTokenInfo]. *)
Record new_token := NewToken {
  nt_bals : list (addr * Z);
  nt_dao : option Z;
  nt_meta : bool }.

(** 596-601: the sum panics on overflow. *)
Fixpoint sum128 (l : list (addr * Z)) (acc : Z) : result Z :=
  match l with
  | [] => Ok acc
  | x :: l => do! acc' <- add128 acc x.2; sum128 l acc'
  end.
(** 620-713. *)
Definition setup_msgs (module dao : addr) (nt : new_token) (total : Z) : list imsg :=
  [ISetMinter module total] ++
  (if nt_meta nt then [IMetadata] else []) ++
  map (fun x => IMint x.1 x.2) (nt_bals nt) ++
  match nt_dao nt with
  | Some n => if negb (n =? 0) then [IMint dao n] else []
  | None => []
  end ++
  [IOwn (OTransfer dao None)].
(** Messages of one sender, one after the other. *)
Fixpoint i_run (i : istate) (b : block) (sender : addr) (ms : list imsg) : result istate :=
  match ms with
  | [] => Ok i
  | m :: ms => do! ' (i', subs) <- i_handle i b sender m; i_run i' b sender ms
  end.
(** The whole set-up. *)
Definition new_setup (created : bool) (b : block) (dao module issuer : addr) (denom : N) (d : option duration)
    (thr : option athreshold) (nt : new_token) : result (tstate * istate) :=
  check! fits_dur d && fits_active thr && forallb (fun x => fits128 x.2) (nt_bals nt) &&
    match nt_dao nt with Some n => fits128 n | None => true end else "parse";
  (* 586-619 *)
  do! initial <- sum128 (nt_bals nt) 0;
  do! total <- add128 initial (default 0 (nt_dao nt));
  do! t <- t_instantiate dao denom (CreatedToken initial) d thr;
  do! i <- i_run (i_new issuer module denom) b module (setup_msgs module dao nt total);
  do! i' <- i_run i b dao (if created then [IOwn OAccept] else []);
  Ok (t, i').
