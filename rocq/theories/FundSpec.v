(** Specification vocabulary for cw-fund-distributor. *)
From Verif Require Import Base Exec Plain StoreModel FundModel.

Notation glog := (log gstate gmsg gsub).
Notation gevent := (event gstate gmsg gsub).

(** A voting contract: powers of members add up to at most the total, and what it says
    about past heights does not change. *)
Definition voting_ok (w : world) : Prop :=
  (forall b h a, 0 <= w_pow w b h a) /\
  (forall b h, 0 <= w_tot w b h <= U128_MAX) /\
  (forall b h us, h <= height b -> NoDup us -> lsum (w_pow w b h) us <= w_tot w b h) /\
  (forall b b' h a, block_le b b' -> h <= height b -> w_pow w b' h a = w_pow w b h a).

Definition greached (w : world) (b : block) (s : gstate) (l : glog) : Prop :=
  exists b0 h period s0,
    voting_ok w /\ g_instantiate w b0 h period = Ok s0 /\ leads (g_handle w) b0 s0 b s l.

(** Claims are made not before the height whose powers count. *)
Definition is_claim (m : gmsg) : bool :=
  match m with GClaimCw20 _ | GClaimNative _ | GClaimAll => true | _ => false end.
Definition past_height (e : gevent) : Prop :=
  match e with ECall s b _ m _ _ => is_claim m = true -> g_height s <= height b | _ => True end.
(** The total power at that height is not above the recorded one. *)
Definition fair (w : world) (e : gevent) : Prop :=
  match e with
  | ECall s b _ m _ _ => is_claim m = true -> w_tot w b (g_height s) <= g_total s
  | _ => True
  end.

(** Tokens brought for distribution; tokens given without a call. *)
Definition coin_sum (d : N) (funds : list (N * Z)) : Z :=
  lsum (fun c => if (fst c =? d)%N then snd c else 0) funds.
Definition ev_funded (t : gtok) (e : gevent) : Z :=
  match e with
  | ECall _ _ a (GReceive _ n) _ _ => if decide (t = (true, a)) then n else 0
  | ECall _ _ _ (GFundNative funds) _ _ => if fst t then 0 else coin_sum (snd t) funds
  | _ => 0
  end.
Definition funded (t : gtok) (l : glog) : Z := lsum (ev_funded t) l.
Definition ev_given (t : gtok) (e : gevent) : Z :=
  match e with ECall _ _ _ (GDonate t' n) _ _ => if decide (t' = t) then n else 0 | _ => 0 end.
Definition given (t : gtok) (l : glog) : Z := lsum (ev_given t) l.
(** Tokens paid to [a]; to anybody. *)
Definition pay_to (a : addr) (t : gtok) (x : gsub) : Z :=
  match x with GPay t' to n => if decide (t' = t /\ to = a) then n else 0 end.
Definition pay (t : gtok) (x : gsub) : Z :=
  match x with GPay t' _ n => if decide (t' = t) then n else 0 end.
Definition ev_sum (f : gsub -> Z) (e : gevent) : Z :=
  match e with ECall _ _ _ _ _ subs => lsum f subs | _ => 0 end.
Definition paid_to (a : addr) (t : gtok) (l : glog) : Z := lsum (ev_sum (pay_to a t)) l.
Definition paid (t : gtok) (l : glog) : Z := lsum (ev_sum (pay t)) l.

(** The events since the last redistribution, and the tokens there were to distribute
    then. *)
Definition is_redist (e : gevent) : bool :=
  match e with ECall _ _ _ (GRedistribute _) _ _ => true | _ => false end.
Fixpoint this_round (l : glog) : glog :=
  match l with
  | [] => []
  | e :: rest =>
      if existsb is_redist rest then this_round rest
      else if is_redist e then rest else e :: rest
  end.
Definition pool (t : gtok) (l : glog) : Z := funded t l - (paid t l - paid t (this_round l)).

(** The tokens a claim asks for. *)
Definition asks (m : gmsg) (t : gtok) : Prop :=
  match m with
  | GClaimCw20 ts => fst t = true /\ snd t ∈ ts
  | GClaimNative ts => fst t = false /\ snd t ∈ ts
  | GClaimAll => True
  | _ => False
  end.
(** Transfers of the token are refused. *)
Definition refused (w : world) (t : gtok) : bool := fst t && w_bad w (snd t).
