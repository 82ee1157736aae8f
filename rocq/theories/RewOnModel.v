(** dao-rewards-distributor (RewModel.v) joined to a contract in which members stake: the token
    module (TokModel.v), cw20-stake (StakeModel.v) or the NFT module (NftModel.v).

    The staking contract at [hk] is the hook caller of some distributions, the contract at [md]
    their voting-power contract.  The token and the NFT module are both; dao-voting-cw20-staked
    asks cw20-stake and answers with what it hears (contracts/voting/dao-voting-cw20-staked/src/
    contract.rs:256-291), so there [hk] is the latter and [md] the former.

    A change of a stake sends a message to every receiver on the staking contract's list
    (packages/dao-hooks/src/stake.rs:21-63, nft_stake.rs:21-63).  These wait in [oj_out], the
    first to be delivered first; what a call sends is put in front.  [ODeliver] delivers the
    first: if the receiver is the distributor at [self] it handles it (contracts/distribution/
    dao-rewards-distributor/src/hooks.rs:57-140), as a call of the staking contract; other
    receivers do whatever they like, that is, anybody may call either contract at any time.
    They are sent without a reply, so a block ends only when all are delivered; a refused one
    undoes the call that sent it, which is then no part of the history.

    The distributor keeps powers as RewModel.v does; each change of a stake sets the power of
    that member at [md].  That the answers are then those of the staking contract is proved, not
    assumed.  Voting-power contracts and hook callers other than these are as in RewModel.v.  The
    staking contract makes no calls of its own but these (and payments of staked tokens).

    Both start out fresh.  A distributor made later is one that nobody called until then. *)
From Verif Require Import Base Exec HooksModel StoreModel ActiveModel TokModel StakeModel NftModel RolesModel GrpModel
  RewModel RewGrpModel.

(** What the distributor has to do with: the handler; the stakes and their total; the answers
    about powers; the receivers of reports; whose stake a call changes; receiver and subject of
    a report. *)
Record staking (S M X : Type) := Staking {
  st_handle : S -> block -> addr -> M -> result (S * list X);
  st_stakes : S -> smap;
  st_total : S -> snap;
  st_power_at : S -> block -> addr -> option Z -> Z;
  st_total_at : S -> block -> option Z -> Z;
  st_hooks : S -> list addr;
  st_who : addr -> M -> option addr;
  st_report : X -> option (addr * addr) }.
Arguments Staking {_ _ _} _ _ _ _ _ _ _ _.
Arguments st_handle {_ _ _} _ _ _ _ _.
Arguments st_stakes {_ _ _} _ _.
Arguments st_total {_ _ _} _ _.
Arguments st_power_at {_ _ _} _ _ _ _ _.
Arguments st_total_at {_ _ _} _ _ _ _.
Arguments st_hooks {_ _ _} _ _.
Arguments st_who {_ _ _} _ _ _.
Arguments st_report {_ _ _} _ _.

(** contracts/voting/dao-voting-token-staked/src/contract.rs:181-282. *)
Definition tok_staking : staking tstate tmsg tsub :=
  Staking t_handle t_bals t_total t_power_at t_total_at t_hooks
    (fun sender m => match m with TStake _ | TUnstake _ => Some sender | _ => None end)
    (fun x => match x with THook h _ who _ => Some (h, who) | _ => None end).
(** contracts/staking/cw20-stake/src/contract.rs:117-255; tokens sent with [Fund] change no
    stake. *)
Definition cw20_staking : staking kstate kmsg ksub :=
  Staking k_handle k_bals k_total k_balance_at k_total_at k_hooks
    (fun sender m => match m with
       | KReceive from _ true => Some from | KUnstake _ => Some sender | _ => None end)
    (fun x => match x with KHook h _ who _ => Some (h, who) | _ => None end).
(** contracts/voting/dao-voting-cw721-staked/src/contract.rs:217-340. *)
Definition nft_staking : staking nstate nmsg nsub :=
  Staking n_handle n_bals n_total n_power_at n_total_at n_hooks
    (fun sender m => match m with
       | NReceive from _ => Some from | NUnstake _ => Some sender | _ => None end)
    (fun x => match x with
       | NStakeHook h who _ | NUnstakeHook h who _ => Some (h, who) | NPay _ _ => None end).

Record ojstate (S : Type) := OJ {
  oj_m : S;
  oj_e : estate;
  oj_out : list (addr * addr);
  oj_block : block }.
Arguments OJ {_} _ _ _ _.
Arguments oj_m {_} _.
Arguments oj_e {_} _.
Arguments oj_out {_} _.
Arguments oj_block {_} _.
Inductive ojmsg (M : Type) :=
| OMod (m : M)
| ORew (m : emsg)
| ODeliver.
Arguments OMod {_} _.
Arguments ORew {_} _.
Arguments ODeliver {_}.

Fixpoint reports {X} (f : X -> option (addr * addr)) (l : list X) : list (addr * addr) :=
  match l with
  | [] => []
  | x :: l => match f x with Some r => r :: reports f l | None => reports f l end
  end.
Definition o_hooked {S M X} (I : staking S M X) (self : addr) (k : S) : bool :=
  existsb (N.eqb self) (st_hooks I k).
(** Whom the distributor will hear of a change from; nobody, if it is not told. *)
Definition o_teller {S M X} (I : staking S M X) (hk self : addr) (k : S) (e : estate) : addr :=
  if o_hooked I self k then hk else stranger (e_hooks e).
Definition oj_goes {S} (hk : addr) (s : ojstate S) (b : block) : bool :=
  (height b <=? U64_MAX) &&
  if height b =? height (oj_block s) then time b =? time (oj_block s)
  else match oj_out s with [] => true | _ => false end &&
       forallb (fun x => (x.1 =? hk)%N) (e_due (oj_e s)).
Definition oj_handle {S M X} (I : staking S M X) (hk md self : addr) (s : ojstate S) (b : block)
    (sender : addr) (m : ojmsg M) : result (ojstate S * list esub) :=
  check! oj_goes hk s b else "no such block";
  match m with
  | OMod m =>
      do! ' (k, subs) <- st_handle I (oj_m s) b sender m;
      do! e' <- match st_who I sender m with
                | Some a => set_power (set_block (oj_e s) b) b md (o_teller I hk self (oj_m s) (oj_e s)) a
                              (smap_get (st_stakes I k) a)
                | None => Ok (oj_e s)
                end;
      Ok (OJ k e' (reports (st_report I) subs ++ oj_out s) b, [])
  | ORew m =>
      check! negb (sender =? hk)%N && g_elsewhere hk md m else "not so";
      do! ' (e', subs) <- e_step (set_block (oj_e s) b) b sender m;
      Ok (OJ (oj_m s) e' (oj_out s) b, subs)
  | ODeliver =>
      match oj_out s with
      | (h, who) :: out =>
          if (h =? self)%N then
            do! ' (e', subs) <- e_step (set_block (oj_e s) b) b hk (EHook [who]);
            Ok (OJ (oj_m s) e' out b, subs)
          else Ok (OJ (oj_m s) (oj_e s) out b, [])
      | [] => Err "nothing to deliver"
      end
  end.
Definition oj_start {S} (md : addr) (b : block) (owner : addr) (vs : gset addr) (k : S) : ojstate S :=
  OJ k (e_instantiate b owner ({[md]} ∪ vs)) [] b.
