(** Model of the migrations of the three staking contracts: contracts/staking/
    cw20-stake/src/contract.rs:458-489, cw20-stake-external-rewards/src/contract.rs:85-119,
    cw20-stake-reward-distributor/src/contract.rs:231-259.  Each knows one message, [FromV1].

    The key "config" holds version one's configuration (whose code is not part of this
    repository), "config_v2" this version's; nothing removes the former.  All other keys are
    the same in both versions.  A migration is sent by the chain's admin of the contract and
    names the version of the code that runs from then on, whose text is taken to be the text
    at this commit. *)
From Verif Require Import Base Exec StoreModel StakeModel ExtModel DistModel.

Section host.
  Context {State Msg Sub Old : Type}.
  Variable handle : State -> block -> addr -> Msg -> result (State * list Sub).
  Variable reset : Old -> State -> State.

  (** The contract with its entry in the chain's register of contracts and what version one
      left. *)
  Record host := Host {
    h_admin : addr;
    h_version : N;
    h_old : option Old;
    h_st : State }.
  Inductive hmsg := HCall (m : Msg) | HMigrate (v : N).
  Definition h_handle (s : host) (b : block) (sender : addr) (m : hmsg)
    : result (host * list Sub) :=
    match m with
    | HCall m =>
        do! ' (t, subs) <- handle (h_st s) b sender m;
        Ok (Host (h_admin s) (h_version s) (h_old s) t, subs)
    | HMigrate v =>
        check! (sender =? h_admin s)%N else "Unauthorized";
        check! negb (h_version s =? v)%N else "AlreadyMigrated";
        some! c <- h_old s else "NotFound";
        Ok (Host (h_admin s) v (h_old s) (reset c (h_st s)), [])
    end.
End host.
Arguments host : clear implicits.
Arguments hmsg : clear implicits.

(** cw20-stake 470-487. *)
Record kold := KOld { ko_owner : option addr; ko_token : addr; ko_dur : option duration }.
Definition k_reset (c : kold) (s : kstate) : kstate :=
  KState (ko_token c) (ko_dur c) (initialize_owner (ko_owner c)) (k_bals s) (k_total s)
    (k_pool s) (k_claims s) (k_hooks s) (k_held s).
Definition hk_handle := h_handle k_handle k_reset.

(** cw20-stake-external-rewards 101-115. *)
Record rold := ROld { ro_owner : option addr; ro_staking : addr; ro_token : rdenom }.
Definition x_reset (c : rold) (s : xstate) : xstate :=
  let r := x_rew s in
  XState (x_stake s)
    (RState (initialize_owner (ro_owner c)) (ro_token c) (r_fin r) (r_rate r) (r_dur r) (r_rpt r)
       (r_last r) (r_pend r) (r_urpt r))
    (x_me s) (ro_staking c) (x_held s) (x_due s) (x_block s).
Definition hx_handle := h_handle x_handle x_reset.

(** cw20-stake-reward-distributor 247-255. *)
Record dold := DOld { do_owner : addr; do_staking : addr; do_token : addr; do_rate : Z }.
Definition d_reset (c : dold) (s : dstate) : dstate :=
  DState (initialize_owner (Some (do_owner c))) (do_staking c) (do_token c) (do_rate c) (d_last s)
    (d_bals s).
Definition hd_handle := h_handle d_handle d_reset.
