(** Specification vocabulary for cw20-stake. *)
From Verif Require Import Base Exec Plain StoreModel StakeModel.

Notation klog := (log kstate kmsg ksub).

(** A contract instantiated some time ago, after the history [l], seen in block [b]. *)
Definition kreached (b : block) (s : kstate) (l : klog) : Prop :=
  exists b0 token d owner s0,
    fits_dur d = true /\ k_instantiate b0 token d owner = Ok s0 /\ leads k_handle b0 s0 b s l.

(** What an address has staked; the total staked; the sum over all addresses. *)
Definition staked (s : kstate) (a : addr) : Z :=
  match k_bals s !! a with Some x => default 0 (sn_cur x) | None => 0 end.
Definition total_staked (s : kstate) : Z := default 0 (sn_cur (k_total s)).
Definition sum_staked (s : kstate) : Z := msum (fun _ x => default 0 (sn_cur x)) (k_bals s).
(** Sum of what is reported for all addresses at a height. *)
Definition sum_staked_at (s : kstate) (b : block) (h : Z) : Z :=
  msum (fun a _ => k_balance_at s b a (Some h)) (k_bals s).
(** Everything waiting in unbonding claims. *)
Definition unclaimed (s : kstate) : Z := msum (fun _ l => lsum cl_amount l) (k_claims s).

(** Tokens sent to the contract without a call, in a log. *)
Definition ev_donated (e : event kstate kmsg ksub) : Z :=
  match e with ECall _ _ _ (KDonate n) _ _ => n | _ => 0 end.
Definition donated (l : klog) : Z := lsum ev_donated l.

(** The claims of [a] created in a log: one per unstaking under an unbonding
    period, for what left the pool, released one period later. *)
Definition ev_created (a : addr) (e : event kstate kmsg ksub) : list claim :=
  match e with
  | ECall pre b sender (KUnstake _) post _ =>
      if (sender =? a)%N then
        match k_dur pre with
        | Some d => [Claim (k_pool pre - k_pool post) (after d b)]
        | None => []
        end
      else []
  | _ => []
  end.
Definition created (a : addr) (l : klog) : list claim := flat_map (ev_created a) l.
(** The claims of [a] that were due when [a] collected. *)
Definition due (b : block) (c : claim) : bool := is_expired (cl_release c) b.
Definition ev_released (a : addr) (e : event kstate kmsg ksub) : list claim :=
  match e with
  | ECall pre b sender KClaim _ _ =>
      if (sender =? a)%N then List.filter (due b) (claims_of (k_claims pre) a) else []
  | _ => []
  end.
Definition released (a : addr) (l : klog) : list claim := flat_map (ev_released a) l.
(** Payments to [a] in a log, for collected claims. *)
Definition ev_collected (a : addr) (e : event kstate kmsg ksub) : Z :=
  match e with
  | ECall _ _ _ KClaim _ subs =>
      lsum (fun x => match x with KPay to n => if (to =? a)%N then n else 0 | _ => 0 end) subs
  | _ => 0
  end.
Definition collected (a : addr) (l : klog) : Z := lsum (ev_collected a) l.
