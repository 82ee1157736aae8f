(** Specification vocabulary for dao-voting-cw721-staked. *)
From Verif Require Import Base Exec Plain VotingModel StoreModel ActiveModel NftModel.

Notation nlog := (log nstate nmsg nsub).

(** A module instantiated some time ago, after the history [l], seen in block [b]. *)
Definition nreached (b : block) (s : nstate) (l : nlog) : Prop :=
  exists b0 dao nft src d thr s0,
    fits_dur d = true /\ fits_active thr = true /\
    n_instantiate b0 dao nft src d thr = Ok s0 /\ leads n_handle b0 s0 b s l.

Definition one (x : bool) : Z := if x then 1 else 0.
(** Tokens staked by [a]; all staked tokens. *)
Definition ncount (s : nstate) (a : addr) : Z :=
  msum (fun (k : addr * N) _ => one (k.1 =? a)%N) (n_staked s).
Definition ncount_all (s : nstate) : Z := msum (fun _ _ => 1) (n_staked s).
(** How many times token [id] is recorded as staked, over all addresses; how many
    claims there are for it; how often it was transferred to the module without a
    call. *)
Definition nstaked_times (s : nstate) (id : N) : Z :=
  msum (fun (k : addr * N) _ => one (k.2 =? id)%N) (n_staked s).
Definition nclaimed_by (s : nstate) (a : addr) (id : N) : Z :=
  lsum (fun c => one (nc_id c =? id)%N) (default [] (n_claims s !! a)).
Definition nclaimed_times (s : nstate) (id : N) : Z :=
  msum (fun _ cs => lsum (fun c => one (nc_id c =? id)%N) cs) (n_claims s).
Definition nev_deposited (id : N) (e : event nstate nmsg nsub) : Z :=
  match e with ECall _ _ _ (NDeposit i) _ _ => one (i =? id)%N | _ => 0 end.
Definition ndeposited (id : N) (l : nlog) : Z := lsum (nev_deposited id) l.
(** The powers reported for all addresses at a height. *)
Definition nsum_at (s : nstate) (b : block) (h : Z) : Z :=
  msum (fun a _ => n_power_at s b a (Some h)) (n_bals s).

(** How often [a] staked token [id] in a log, and how often it was sent to [a]. *)
Definition nev_in (a : addr) (id : N) (e : event nstate nmsg nsub) : Z :=
  match e with ECall _ _ _ (NReceive f i) _ _ => one ((f =? a) && (i =? id))%N | _ => 0 end.
Definition nput_in (a : addr) (id : N) (l : nlog) : Z := lsum (nev_in a id) l.
Definition nev_out (a : addr) (id : N) (e : event nstate nmsg nsub) : Z :=
  match e with
  | ECall _ _ _ _ _ subs =>
      lsum (fun x => match x with NPay to i => one ((to =? a) && (i =? id))%N | _ => 0 end) subs
  | _ => 0
  end.
Definition ntaken_out (a : addr) (id : N) (l : nlog) : Z := lsum (nev_out a id) l.
Definition nholds (s : nstate) (a : addr) (id : N) : Z :=
  match n_staked s !! (a, id) with Some _ => 1 | None => 0 end.

(** Claims of [a] created, and collected, in a log. *)
Definition nev_created (a : addr) (e : event nstate nmsg nsub) : list nclaim :=
  match e with
  | ECall pre b sender (NUnstake ids) _ _ =>
      if (sender =? a)%N then
        match n_dur pre with Some d => map (fun i => NClaimOf i (after d b)) ids | None => [] end
      else []
  | _ => []
  end.
Definition ncreated (a : addr) (l : nlog) : list nclaim := flat_map (nev_created a) l.
Definition nev_released (a : addr) (e : event nstate nmsg nsub) : list nclaim :=
  match e with
  | ECall pre b sender NClaim _ _ =>
      if (sender =? a)%N then
        List.filter (fun c => is_expired (nc_release c) b) (default [] (n_claims pre !! a))
      else []
  | _ => []
  end.
Definition nreleased (a : addr) (l : nlog) : list nclaim := flat_map (nev_released a) l.
