(** What is claimed of tokens staked in a module whose token is the issuer's. *)
From Verif Require Import Base Exec Plain StoreModel ActiveModel TokModel TokSpec IssuerModel IssuerSpec TokNewModel GovTokModel.

Notation glog := (log gstate gmsg gsub).
Notation gevent := (event gstate gmsg gsub).

(** The module, set up some time ago when the issuer of its token was in the state [i0]. *)
Definition greached (md : addr) (i0 : istate) (b : block) (s : gstate) (l : glog) : Prop :=
  i_self i0 <> md /\
  exists b0 dao src d thr t0, t_instantiate dao (i_denom i0) src d thr = Ok t0 /\
    leads (g_handle md) b0 (g_start md t0 i0) b s l.
(** A DAO with a token of its own, created with it. *)
Definition dreached (md dao : addr) (i0 : istate) (b : block) (s : gstate) (l : glog) : Prop :=
  exists b0 issuer denom d thr nt t0, issuer <> md /\ dao <> md /\ dao <> issuer /\
    new_setup true b0 dao md issuer denom d thr nt = Ok (t0, i0) /\
    leads (g_handle md) b0 (g_start md t0 i0) b s l.

(** What the module is given without a stake, and what is taken from it without its doing. *)
Definition ev_given (md : addr) (e : gevent) : Z :=
  match e with
  | ECall _ _ _ (GIss (XSend to n)) _ _ | ECall _ _ _ (GIss (IMint to n)) _ _
  | ECall _ _ _ (GIss (XMint to n)) _ _ | ECall _ _ _ (GIss (IForce n _ to)) _ _ =>
      if decide (to = md) then n else 0
  | _ => 0
  end.
Definition given (md : addr) (l : glog) : Z := lsum (ev_given md) l.
Definition ev_taken (md : addr) (e : gevent) : Z :=
  match e with
  | ECall _ _ _ (GIss (IForce n from _)) _ _ | ECall _ _ _ (GIss (IBurn from n)) _ _
  | ECall _ _ _ (GIss (XBurn from n)) _ _ => if decide (from = md) then n else 0
  | _ => 0
  end.
Definition taken (md : addr) (l : glog) : Z := lsum (ev_taken md) l.

(** What [a] can collect in block [b]. *)
Definition due (b : block) (t : tstate) (a : addr) : Z :=
  lsum cl_amount (List.filter (fun c => is_expired (cl_release c) b) (claims_of (t_claims t) a)).
(** The bank lets coins pass from [x] to [y]. *)
Definition passes (i : istate) (x y : addr) : Prop :=
  i_bhook i = Some (i_self i) ->
  (i_frozen i = true -> i_allow i !! x = Some true \/ i_allow i !! y = Some true) /\
  i_deny i !! x <> Some true /\ i_deny i !! y <> Some true.
(** The powers over what others hold, and handing on the issuer. *)
Definition over_holders (m : imsg) : bool :=
  match m with
  | ISetBurner _ _ | ISetHook _ | IForce _ _ _ | IAdmin _ | IOwn (OTransfer _ _) => true
  | _ => false
  end.
Definition restrained (dao : addr) (e : gevent) : bool :=
  match e with
  | ECall _ _ sender (GIss m) _ _ => negb (sender =? dao)%N || negb (over_holders m)
  | _ => true
  end.
