(** What is claimed of the factory of fan tokens. *)
From Verif Require Import Base BaseProofs FanModel.

Fixpoint given (a : addr) (l : list (addr * Z)) : Z :=
  match l with
  | [] => 0
  | x :: l => (if (x.1 =? a)%N then x.2 else 0) + given a l
  end.
Fixpoint given_all (l : list (addr * Z)) : Z :=
  match l with [] => 0 | x :: l => x.2 + given_all l end.
Definition dao_share (t : newtoken) : Z := match nt_dao t with Some n => n | None => 0 end.
(** What account [a] is to get of a new token, and what all get. *)
Definition due (t : newtoken) (dao a : addr) : Z :=
  given a (nt_balances t) + (if (a =? dao)%N then dao_share t else 0).
Definition due_all (t : newtoken) : Z := given_all (nt_balances t) + dao_share t.

(** Histories: anybody does anything, failed calls change nothing. *)
Inductive fan_leads (s : factory) : factory -> Prop :=
| fl_nil : fan_leads s s
| fl_step s1 a e s2 : fan_leads s s1 -> fan_event s1 a e = Ok s2 -> fan_leads s s2.
Definition has_right (s : factory) (a : addr) (d : N) : Prop :=
  exists t, fc_tokens (fa_chain s) !! d = Some t /\ (ft_minter t = a \/ ft_authority t = a).

(** What all hold of token [d], and its books: all that was minted is held, nobody owes, no more than the
    maximum is minted, and of a token that was not made nothing is held. *)
Definition held_all (s : fanchain) (d : N) : Z := msum (fun k n => if (k.1 =? d)%N then n else 0) (fc_held s).
Definition fan_books (s : fanchain) : Prop :=
  (forall d a, 0 <= held_of s d a) /\
  forall d, match fc_tokens s !! d with
            | Some t => held_all s d = ft_supply t /\ (ft_supply t = 0 \/ ft_supply t <= ft_max t)
            | None => held_all s d = 0
            end.
