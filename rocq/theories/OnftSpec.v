(** What is claimed of dao-voting-onft-staked. *)
From Verif Require Import Base Exec Plain VotingModel StoreModel ActiveModel NftModel NftSpec OnftModel.

Notation flog := (log fstate fmsg fsub).
Notation fevent := (event fstate fmsg fsub).

(** A module instantiated some time ago, after the history [l], seen in block [b].  Nobody's
    token was at its address before. *)
Definition freached (b : block) (s : fstate) (l : flog) : Prop :=
  exists b0 self dao d thr supply own s0,
    fits_dur d = true /\ fits_active thr = true /\
    f_instantiate b0 self dao d thr supply own = Ok s0 /\ leads f_handle b0 s0 b s l.

(** Tokens staked by [a]; all staked tokens; how many times token [id] is recorded as staked,
    and how many claims there are for it. *)
Definition fcount (s : fstate) (a : addr) : Z :=
  msum (fun (k : addr * N) _ => one (k.1 =? a)%N) (f_staked s).
Definition fcount_all (s : fstate) : Z := msum (fun _ _ => 1) (f_staked s).
Definition fstaked_times (s : fstate) (id : N) : Z :=
  msum (fun (k : addr * N) _ => one (k.2 =? id)%N) (f_staked s).
Definition fclaimed_times (s : fstate) (id : N) : Z :=
  msum (fun _ cs => lsum (fun c => one (nc_id c =? id)%N) cs) (f_claims s).
(** The powers reported for all addresses at a height. *)
Definition fsum_at (s : fstate) (b : block) (h : Z) : Z :=
  msum (fun a _ => f_power_at s b a (Some h)) (f_bals s).

(** The DAO never cancels the stake of a token that is staked or waiting to be claimed. *)
Definition kept (l : flog) : Prop :=
  forall pre b a ids r post subs id,
    ECall pre b a (FCancel ids r) post subs ∈ l -> a = f_dao pre -> id ∈ ids ->
    fstaked_times pre id = 0 /\ fclaimed_times pre id = 0.

(** How often [a] staked token [id] in a log, and how often it was sent to [a] after unstaking. *)
Definition fev_in (a : addr) (id : N) (e : fevent) : Z :=
  match e with
  | ECall _ _ c (FConfirm ids) _ _ => one ((c =? a)%N && bool_decide (id ∈ ids))
  | _ => 0
  end.
Definition fput_in (a : addr) (id : N) (l : flog) : Z := lsum (fev_in a id) l.
Definition fev_out (a : addr) (id : N) (e : fevent) : Z :=
  match e with
  | ECall _ _ _ (FUnstake _) _ subs | ECall _ _ _ FClaim _ subs =>
      lsum (fun x => match x with FPay to i => one ((to =? a) && (i =? id))%N | _ => 0 end) subs
  | _ => 0
  end.
Definition ftaken_out (a : addr) (id : N) (l : flog) : Z := lsum (fev_out a id) l.
Definition fholds (s : fstate) (a : addr) (id : N) : Z :=
  match f_staked s !! (a, id) with Some _ => 1 | None => 0 end.
Definition fclaimed_by (s : fstate) (a : addr) (id : N) : Z :=
  lsum (fun c => one (nc_id c =? id)%N) (default [] (f_claims s !! a)).

(** An event gives [id] a new preparer, or takes its preparer away. *)
Definition prepares (id : N) (e : fevent) : option (option addr) :=
  match e with
  | ECall _ _ c (FPrepare ids) _ _ => if bool_decide (id ∈ ids) then Some (Some c) else None
  | ECall _ _ _ (FConfirm ids) _ _ | ECall _ _ _ (FCancel ids _) _ _ =>
      if bool_decide (id ∈ ids) then Some None else None
  | _ => None
  end.
(** Who prepared [id] last, if that still stands. *)
Definition preparer (id : N) (l : flog) : option addr :=
  fold_left (fun r e => default r (prepares id e)) l None.
(** Who moved [id] last to the module. *)
Definition mover (self : addr) (id : N) (l : flog) : option addr :=
  fold_left (fun r (e : fevent) =>
    match e with
    | ECall _ _ c (XMove i to) _ _ => if ((i =? id) && (to =? self))%N then Some c else r
    | _ => r
    end) l None.
