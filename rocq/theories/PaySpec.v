(** What is claimed of the payroll factory. *)
From Verif Require Import Base Exec Plain StoreModel WormModel VestModel VestSpec PayModel.

Notation ylog := (log ystate ymsg ysub).

(** A factory at [self], set up with an owner and a code id when nobody held tokens for it. *)
Definition yreached (b : block) (s : ystate) (l : ylog) : Prop :=
  exists b0 self owner code honest m,
    0 <= time b0 /\ (forall k, 0 <= default 0 (m !! k)) /\ (forall t, m !! (t, self) = None) /\
    leads y_handle b0 (y_instantiate self owner code honest m) b s l.

(** In the call from [pre] to [post] in block [b], sender [a] asks with [m] for a vesting
    contract with terms [i], and gets it at address [c] in state [v]; the one who ordered it,
    as far as the factory can tell, is [x]. *)
Record order := Order {
  r_pre : ystate; r_block : block; r_sender : addr; r_msg : ymsg; r_post : ystate;
  r_addr : addr; r_code : Z; r_admin : option addr; r_terms : vinit; r_vest : vstate }.
Definition orders_of (e : event ystate ymsg ysub) : list order :=
  match e with
  | ECall pre b a m post subs =>
      map (fun x => match x with YMade c n ad i v => Order pre b a m post c n ad i v end) subs
  | _ => []
  end.
Definition orders (l : ylog) : list order := flat_map orders_of l.
Definition orderer (r : order) : addr :=
  match r_msg r with YReceive who _ _ _ _ => who | _ => r_sender r end.
Definition asked (m : ymsg) : option vinit :=
  match m with
  | YSend _ _ i _ _ | YReceive _ _ i _ _ | YNative i _ _ => Some i
  | _ => None
  end.

(** What [who] holds of [token]. *)
Definition holds (s : ystate) (token who : addr) : Z := default 0 (y_bal s !! (token, who)).
(** The vest is in a native coin, or in an honest token. *)
Definition in_honest (s : ystate) (i : vinit) : Prop :=
  match vi_denom i with DNative _ => True | DCw20 t => t ∈ y_honest s end.
(** Nothing was sent to the factory but to be vested in the token that was sent. *)
Definition tidy (self : addr) (e : event ystate ymsg ysub) : Prop :=
  match e with
  | ECall _ _ _ (YSend t _ i _ _) _ _ => vi_denom i = DCw20 t
  | ECall _ _ a (YTransfer _ to _) _ _ => to <> self
  | _ => True
  end.
