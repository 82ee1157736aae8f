(** Specification vocabulary: stakes brought and taken out in parts. *)
From Verif Require Import Base Exec Plain StoreModel StakeModel StakeSpec.

(** One part: when, who, how much. *)
Notation part := (block * addr * Z)%type.
Definition amounts (ps : list part) : Z := lsum (fun p => p.2) ps.
(** The parts are unstaked one after the other, and that much leaves the pool. *)
Inductive takes_out : kstate -> list part -> Z -> kstate -> Prop :=
| out_nil s : takes_out s [] 0 s
| out_cons s b a x ps s1 subs n s2 :
    k_handle s b a (KUnstake x) = Ok (s1, subs) -> takes_out s1 ps n s2 ->
    takes_out s ((b, a, x) :: ps) (k_pool s - k_pool s1 + n) s2.
(** The parts are staked one after the other, and give that much stake. *)
Inductive puts_in : kstate -> list part -> Z -> kstate -> Prop :=
| in_nil s : puts_in s [] 0 s
| in_cons s b a x ps s1 subs n s2 :
    k_handle s b (k_token s) (KReceive a x true) = Ok (s1, subs) -> puts_in s1 ps n s2 ->
    puts_in s ((b, a, x) :: ps) (staked s1 a - staked s a + n) s2.
