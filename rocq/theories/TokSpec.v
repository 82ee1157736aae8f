(** Specification vocabulary for dao-voting-token-staked. *)
From Verif Require Import Base Exec Plain VotingModel StoreModel ActiveModel TokModel.

Notation tlog := (log tstate tmsg tsub).

(** A module instantiated some time ago by [dao], after the history [l], seen in
    block [b]. *)
Definition treached (b : block) (s : tstate) (l : tlog) : Prop :=
  exists b0 dao denom src d thr s0,
    fits_dur d = true /\ fits_active thr = true /\
    t_instantiate dao denom src d thr = Ok s0 /\ leads t_handle b0 s0 b s l.

(** Current stakes. *)
Definition tstaked (s : tstate) (a : addr) : Z :=
  match t_bals s !! a with Some x => default 0 (sn_cur x) | None => 0 end.
Definition ttotal (s : tstate) : Z := default 0 (sn_cur (t_total s)).
(** Sum of the powers reported for all addresses at a height. *)
Definition tsum_at (s : tstate) (b : block) (h : Z) : Z :=
  msum (fun a _ => t_power_at s b a (Some h)) (t_bals s).
Definition tunclaimed (s : tstate) : Z := msum (fun _ l => lsum cl_amount l) (t_claims s).
(** Coins sent to the module without a call, in a log. *)
Definition tev_donated (e : event tstate tmsg tsub) : Z :=
  match e with ECall _ _ _ (TDonate n) _ _ => n | _ => 0 end.
Definition tdonated (l : tlog) : Z := lsum tev_donated l.

(** Claims of [a] created, and collected, in a log. *)
Definition tev_created (a : addr) (e : event tstate tmsg tsub) : list claim :=
  match e with
  | ECall pre b sender (TUnstake n) _ _ =>
      if (sender =? a)%N then
        match t_dur pre with Some d => [Claim n (after d b)] | None => [] end
      else []
  | _ => []
  end.
Definition tcreated (a : addr) (l : tlog) : list claim := flat_map (tev_created a) l.
Definition tev_released (a : addr) (e : event tstate tmsg tsub) : list claim :=
  match e with
  | ECall pre b sender TClaim _ _ =>
      if (sender =? a)%N then
        List.filter (fun c => is_expired (cl_release c) b) (claims_of (t_claims pre) a)
      else []
  | _ => []
  end.
Definition treleased (a : addr) (l : tlog) : list claim := flat_map (tev_released a) l.
(** Coins [a] put in by staking, and coins paid to [a], in a log. *)
Definition tev_in (a : addr) (e : event tstate tmsg tsub) : Z :=
  match e with
  | ECall _ _ sender (TStake funds) _ _ => if (sender =? a)%N then lsum snd funds else 0
  | _ => 0
  end.
Definition tev_out (a : addr) (e : event tstate tmsg tsub) : Z :=
  match e with
  | ECall _ _ _ _ _ subs =>
      lsum (fun x => match x with TPay to n => if (to =? a)%N then n else 0 | _ => 0 end) subs
  | _ => 0
  end.
Definition tput_in (a : addr) (l : tlog) : Z := lsum (tev_in a) l.
Definition ttaken_out (a : addr) (l : tlog) : Z := lsum (tev_out a) l.
(** What [a] still has coming from claims. *)
Definition twaiting (s : tstate) (a : addr) : Z := lsum cl_amount (claims_of (t_claims s) a).
