(** Shared vocabulary: results, bounded arithmetic, blocks, expirations,
    durations, and sums over finite maps. *)
From stdpp Require Export base gmap list strings.
From Coq Require Export ZArith Lia ZifyBool.
From Coq Require Import ZifyNat ZifyN.
Global Open Scope Z_scope.

(** Addresses.  Only equality is ever used; address validation
    ([deps.api.addr_validate]) is not modelled. *)
Definition addr := N.
Bind Scope N_scope with addr.

(** Rust [Result]; a panic is the error ["panic"].  Both revert the call. *)
Inductive result (A : Type) :=
| Ok (a : A)
| Err (e : string).
Arguments Ok {A} a.
Arguments Err {A} e.

Notation "'do!' x <- e ; k" :=
  (match e with Ok x => k | Err err__ => Err err__ end)
  (at level 200, x name, e at level 100, k at level 200,
   format "'do!'  x  <-  e ;  '/' k").
Notation "'do!' ' p <- e ; k" :=
  (match e with Ok p => k | Err err__ => Err err__ end)
  (at level 200, p pattern, e at level 100, k at level 200).
Notation "'check!' b 'else' m ; k" :=
  (if b then k else Err m)
  (at level 200, b at level 100, m at level 100, k at level 200).
Notation "'some!' x <- e 'else' m ; k" :=
  (match e with Some x => k | None => Err m end)
  (at level 200, x name, e at level 100, m at level 100, k at level 200).

Definition is_ok {A} (r : result A) : bool :=
  match r with Ok _ => true | Err _ => false end.

(** [cosmwasm_std::Uint128] range; [u64] range. *)
Definition U128_MAX : Z := 2 ^ 128 - 1.
Definition U64_MAX : Z := 2 ^ 64 - 1.

(** [Uint128] [+], [-], [*]: panic (or checked error) on overflow/underflow. *)
Definition add128 (a b : Z) : result Z :=
  if U128_MAX <? a + b then Err "panic" else Ok (a + b).
Definition sub128 (a b : Z) : result Z :=
  if a <? b then Err "panic" else Ok (a - b).
Definition mul128 (a b : Z) : result Z :=
  if U128_MAX <? a * b then Err "panic" else Ok (a * b).
(** [Uint128::multiply_ratio(n, d)]: floor division on a 256-bit
    intermediate, panics on [d = 0] or when the result exceeds 128 bits. *)
Definition mul_ratio128 (a n d : Z) : result Z :=
  if d =? 0 then Err "panic"
  else if U128_MAX <? a * n / d then Err "panic" else Ok (a * n / d).

Definition is_u128 (z : Z) : Prop := 0 <= z <= U128_MAX.

(** [cosmwasm_std::BlockInfo]: height, and time in nanoseconds. *)
Record block := Block { height : Z; time : Z }.
Definition block_le (b b' : block) : Prop :=
  height b <= height b' /\ time b <= time b'.

(** [cw_utils::Expiration] and [cw_utils::Duration] (external crate). *)
Inductive expiration := AtHeight (h : Z) | AtTime (t : Z) | Never.
Inductive duration := DHeight (n : Z) | DTime (secs : Z).
Global Instance expiration_eq_dec : EqDecision expiration.
Proof. solve_decision. Defined.
Global Instance duration_eq_dec : EqDecision duration.
Proof. solve_decision. Defined.

Definition NANOS : Z := 10 ^ 9.

(** [Expiration::is_expired]. *)
Definition is_expired (e : expiration) (b : block) : bool :=
  match e with
  | AtHeight h => h <=? height b
  | AtTime t => t <=? time b
  | Never => false
  end.

(** [Duration::after]. *)
Definition after (d : duration) (b : block) : expiration :=
  match d with
  | DHeight n => AtHeight (height b + n)
  | DTime s => AtTime (time b + s * NANOS)
  end.

(** [Expiration + Duration]: errors when the units differ. *)
Definition exp_add (e : expiration) (d : duration) : result expiration :=
  match e, d with
  | AtHeight h, DHeight n => Ok (AtHeight (h + n))
  | AtTime t, DTime s => Ok (AtTime (t + s * NANOS))
  | Never, _ => Ok Never
  | _, _ => Err "Cannot add height and time"
  end.

Definition dur_nonneg (d : duration) : Prop :=
  match d with DHeight n => 0 <= n | DTime s => 0 <= s end.

(** Sum of [f k v] over the entries of a finite map (specification device). *)
Definition msum {K V} `{Countable K} (f : K -> V -> Z) (m : gmap K V) : Z :=
  map_fold (fun k v acc => f k v + acc) 0 m.

(** Sum over a list. *)
Fixpoint lsum {A} (f : A -> Z) (l : list A) : Z :=
  match l with [] => 0 | x :: l' => f x + lsum f l' end.
