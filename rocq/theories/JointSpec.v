(** Specification vocabulary for a proposal module together with a voting module. *)
From Verif Require Import Base Exec Plain StoreModel ActiveModel JointModel.
From Verif Require SingleModel MultModel CondModel TokModel TokSpec StakeModel StakeSpec NftModel NftSpec.

(** The token-staked voting module: what it reports for a height, and whether it
    reports the DAO active; if the query fails, proposal modules take it to be
    (dao-proposal-single/src/contract.rs:190-195). *)
Definition tpow (t : TokModel.tstate) (a : addr) (h : Z) : Z :=
  TokModel.t_power_at t (Block 0 0) a (Some h).
Definition ttot (t : TokModel.tstate) (h : Z) : Z := TokModel.t_total_at t (Block 0 0) (Some h).
Definition tact (t : TokModel.tstate) (_ : block) (supply : Z) : bool :=
  match TokModel.t_is_active t supply with Ok x => x | Err _ => true end.

(** cw20-stake behind the cw20-staked voting module, which forwards the questions
    about power (dao-voting-cw20-staked/src/contract.rs:256-290).  Whether the DAO
    is active also depends on the threshold kept by the voting module: any answer
    is allowed, given with the message. *)
Definition kpow (t : StakeModel.kstate) (a : addr) (h : Z) : Z :=
  StakeModel.k_balance_at t (Block 0 0) a (Some h).
Definition ktot (t : StakeModel.kstate) (h : Z) : Z := StakeModel.k_total_at t (Block 0 0) (Some h).
Definition kact (_ : StakeModel.kstate) (_ : block) (answer : Z) : bool := negb (answer =? 0).

(** The NFT-staking voting module. *)
Definition npow (t : NftModel.nstate) (a : addr) (h : Z) : Z :=
  NftModel.n_power_at t (Block 0 0) a (Some h).
Definition ntot (t : NftModel.nstate) (h : Z) : Z := NftModel.n_total_at t (Block 0 0) (Some h).
Definition nact (t : NftModel.nstate) (b : block) (supply : Z) : bool :=
  match NftModel.n_is_active t b supply with Ok x => x | Err _ => true end.

Notation single_on_tok := (single_reached TokModel.t_handle tpow ttot tact TokSpec.treached).
Notation single_on_tok_later := (single_later TokModel.t_handle tpow ttot tact).
Notation mult_on_tok := (mult_reached TokModel.t_handle tpow ttot tact TokSpec.treached).
Notation mult_on_tok_later := (mult_later TokModel.t_handle tpow ttot tact).
Notation cond_on_tok := (cond_reached TokModel.t_handle tpow ttot TokSpec.treached).
Notation cond_on_tok_later := (cond_later TokModel.t_handle tpow ttot).
Notation single_on_cw20 := (single_reached StakeModel.k_handle kpow ktot kact StakeSpec.kreached).
Notation single_on_cw20_later := (single_later StakeModel.k_handle kpow ktot kact).
Notation mult_on_cw20 := (mult_reached StakeModel.k_handle kpow ktot kact StakeSpec.kreached).
Notation mult_on_cw20_later := (mult_later StakeModel.k_handle kpow ktot kact).
Notation cond_on_cw20 := (cond_reached StakeModel.k_handle kpow ktot StakeSpec.kreached).
Notation cond_on_cw20_later := (cond_later StakeModel.k_handle kpow ktot).

Notation single_on_nft := (single_reached NftModel.n_handle npow ntot nact NftSpec.nreached).
Notation single_on_nft_later := (single_later NftModel.n_handle npow ntot nact).
Notation mult_on_nft := (mult_reached NftModel.n_handle npow ntot nact NftSpec.nreached).
Notation mult_on_nft_later := (mult_later NftModel.n_handle npow ntot nact).
Notation cond_on_nft := (cond_reached NftModel.n_handle npow ntot NftSpec.nreached).
Notation cond_on_nft_later := (cond_later NftModel.n_handle npow ntot).

(** Calls other than the creation of a proposal. *)
Definition not_propose (m : SingleModel.msg) : Prop :=
  match m with SingleModel.Propose _ => False | _ => True end.
Definition mnot_propose (m : MultModel.msg) : Prop :=
  match m with MultModel.Propose _ => False | _ => True end.
Definition cnot_propose (m : CondModel.msg) : Prop :=
  match m with CondModel.Propose _ => False | _ => True end.
