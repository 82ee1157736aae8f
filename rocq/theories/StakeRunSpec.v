(** Specification vocabulary: everybody leaves a staking pool. *)
From Verif Require Import Base Exec Plain StoreModel StakeModel StakeSpec.

(** What a stake is worth: its share of the pool, rounded down. *)
Definition share (s : kstate) (a : addr) : Z := staked s a * k_pool s / total_staked s.
(** The stakers, each once. *)
Definition stakers (s : kstate) (vs : list addr) : Prop :=
  NoDup vs /\ forall a, a ∈ vs <-> 0 < staked s a.
(** What an unstaking call gives the caller: a payment, or a claim after the unbonding period. *)
Definition gives (b : block) (s : kstate) (a : addr) (s' : kstate) (subs : list ksub) (n : Z) : Prop :=
  match k_dur s with
  | None => KPay a n ∈ subs
  | Some d => claims_of (k_claims s') a = claims_of (k_claims s) a ++ [Claim n (after d b)]
  end.
(** In block [b], the addresses unstake everything one after the other and get that much. *)
Inductive leave (b : block) : kstate -> list addr -> list Z -> kstate -> Prop :=
| leave_nil s : leave b s [] [] s
| leave_cons s a vs s1 subs n ns s2 :
    k_handle s b a (KUnstake (staked s a)) = Ok (s1, subs) -> gives b s a s1 subs n ->
    leave b s1 vs ns s2 -> leave b s (a :: vs) (n :: ns) s2.
