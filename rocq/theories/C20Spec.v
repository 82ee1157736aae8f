(** Specification vocabulary for dao-voting-cw20-staked. *)
From Verif Require Import Base Exec Plain StoreModel StakeModel StakeSpec ActiveModel C20Model.

Notation clog := (log cstate cmsg ksub).

(** Contracts that exist already are what they say: a token with balances of 128 bits in all; a
    staking contract with a history of its own, holding what the token says it holds. *)
Definition csound (b : block) (i : cinfo) : Prop :=
  match i with
  | COld _ _ m st =>
      (forall a n, m !! a = Some n -> 0 <= n) /\ msum (fun _ n => n) m <= U128_MAX /\
      match st with
      | CStaked a k => (exists l, kreached b k l) /\ k_held k = default 0 (m !! a)
      | CFresh _ => True
      end
  | CNew _ _ _ => True
  end.
(** A voting module set up some time ago, after the history [l], seen in block [b]. *)
Definition creached (b : block) (s : cstate) (l : clog) : Prop :=
  exists b0 dao t i ntoken nstaker s0,
    csound b0 i /\ c_instantiate b0 dao t i ntoken nstaker = Ok s0 /\ leads c_handle b0 s0 b s l.
(** The same, with a staking contract made by the module. *)
Definition cmade (b : block) (s : cstate) (l : clog) : Prop :=
  exists b0 dao t i ntoken nstaker s0,
    csound b0 i /\ match i with COld _ _ _ (CStaked _ _) => False | _ => True end /\
    c_instantiate b0 dao t i ntoken nstaker = Ok s0 /\ leads c_handle b0 s0 b s l.

(** Tokens of an account; all tokens. *)
Definition tokens (s : cstate) (a : addr) : Z := default 0 (c_bals s !! a).
Definition supply (s : cstate) : Z := msum (fun _ n => n) (c_bals s).
(** What an account has staked, and all have. *)
Definition stake_of (s : cstate) (a : addr) : Z := staked (c_stake s) a.
Definition all_staked (s : cstate) : Z := total_staked (c_stake s).
(** The tokens these stakes can be exchanged for. *)
Definition pooled (s : cstate) : Z := k_pool (c_stake s).

(** A threshold that could be met when it was accepted. *)
Definition sensible (t : option athreshold) (supply : Z) : Prop :=
  match t with
  | Some (ACount n) => 0 < n <= supply
  | Some (APercent p) => 0 < p <= 10 ^ 18
  | None => True
  end.
(** [n] tokens meet a threshold when there are [supply]; percentages are cut to nine decimals. *)
Definition meets (t : option athreshold) (n supply : Z) : Prop :=
  match t with
  | Some (ACount c) => c <= n
  | Some (APercent p) => supply * 10 ^ 9 * p / 10 ^ 18 <= n * 10 ^ 9
  | None => True
  end.
(** The last threshold asked for in a log. *)
Definition last_asked (t : option athreshold) (l : clog) : option athreshold :=
  fold_left (fun acc e => match e with ECall _ _ _ (CActive t') _ _ => t' | _ => acc end) l t.

(** Nobody added tokens to the pool without staking them. *)
Definition not_funded (l : clog) : Prop :=
  forall pre b a from n post subs, ECall pre b a (CSend from n false) post subs ∈ l -> n = 0.
(** The DAO did nothing and no tokens of it were moved by others. *)
Definition dao_idle (dao : addr) (l : clog) : Prop :=
  forall pre b a m post subs, ECall pre b a m post subs ∈ l ->
    a <> dao /\
    match m with CTransfer f _ _ | CSend f _ _ | CBurn f _ => f <> dao | _ => True end.
