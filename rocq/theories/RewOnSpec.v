(** Specification vocabulary for the distributor joined to a staking contract. *)
From Verif Require Import Base Exec Plain HooksModel StoreModel ActiveModel TokModel StakeModel NftModel
  RewModel RewSpec RewGrpModel RewOnModel.

Notation ojlog S M := (log (ojstate S) (ojmsg M) esub).
Notation ojevent S M := (event (ojstate S) (ojmsg M) esub).

(** The three staking contracts, each with its possible first states. *)
Definition tok_made (_ : block) (k : tstate) : Prop :=
  exists dao denom src d thr, t_instantiate dao denom src d thr = Ok k.
Definition cw20_made (b : block) (k : kstate) : Prop :=
  exists token d owner, k_instantiate b token d owner = Ok k.
Definition nft_made (b : block) (k : nstate) : Prop :=
  exists dao nft src d thr, n_instantiate b dao nft src d thr = Ok k.
Inductive one_of_three : forall S M X, staking S M X -> (block -> S -> Prop) -> Prop :=
| is_tok : one_of_three _ _ _ tok_staking tok_made
| is_cw20 : one_of_three _ _ _ cw20_staking cw20_made
| is_nft : one_of_three _ _ _ nft_staking nft_made.
Arguments one_of_three {_ _ _} _ _.

Section spec.
  Context {S M X : Type} (I : staking S M X) (made : block -> S -> Prop) (hk md self : addr).
  (** Both contracts after the history [l], seen in block [b]. *)
  Definition ojreached (b : block) (s : ojstate S) (l : ojlog S M) : Prop :=
    exists b0 owner vs k0, 0 <= height b0 /\ made b0 k0 /\
      leads (oj_handle I hk md self) b0 (oj_start md b0 owner vs k0) b s l /\ oj_goes hk s b = true.

  (** ** Payments to and from a distribution *)
  Definition ofunded (id : Z) (l : ojlog S M) : Z :=
    lsum (fun e => match e with
      | ECall pre _ _ (ORew m) _ _ =>
          match funds_to (oj_e pre) m with Some (i, n) => if i =? id then n else 0 | None => 0 end
      | _ => 0 end) l.
  Definition oclaimed (id : Z) (l : ojlog S M) : Z :=
    lsum (fun e => match e with
      | ECall _ _ _ (ORew (EClaim i)) _ subs => if i =? id then lsum pay subs else 0
      | _ => 0 end) l.
  Definition owithdrawn (id : Z) (l : ojlog S M) : Z :=
    lsum (fun e => match e with
      | ECall _ _ _ (ORew (EWithdraw i)) _ subs => if i =? id then lsum pay subs else 0
      | _ => 0 end) l.

  (** ** Conditions *)
  (** The distribution is about stakes in the contract, which is its hook caller; whenever a
      stake changes after it was made, the distributor is among the receivers. *)
  Definition oset_up (id : Z) (e : ojevent S M) : bool :=
    match e with
    | ECall pre _ a (OMod m) _ _ =>
        match st_who I a m, e_dists (oj_e pre) !! id with
        | Some _, Some d => negb (di_vp d =? md)%N || (di_hook d =? hk)%N && o_hooked I self (oj_m pre)
        | _, _ => true
        end
    | ECall pre _ _ (ORew (EPower vp caller _ _)) _ _ =>
        match e_dists (oj_e pre) !! id with
        | Some d => negb (di_vp d =? vp)%N || (di_hook d =? caller)%N
        | None => true
        end
    | ECall _ _ _ (ORew (EUpdate i _ vp hook _ _)) _ _ =>
        negb (i =? id) || match vp, hook with None, None => true | _, _ => false end
    | _ => true
    end.
  (** No stake changed earlier in the block in which rewards are handed out at once. *)
  Definition ounhurried (id : Z) (e : ojevent S M) : bool :=
    match e with
    | ECall pre b a (ORew m) post _ => quiet id (ECall (oj_e pre) b a m (oj_e post) [])
    | _ => true
    end.
  Definition oorderly (id : Z) (l : ojlog S M) : bool :=
    forallb (fun e => oset_up id e && ounhurried id e) l.

  (** The next [n] reports delivered one after the other. *)
  Fixpoint deliveries (n : nat) (s : ojstate S) (b : block) (c : addr) : result (ojstate S) :=
    match n with
    | O => Ok s
    | Datatypes.S n => do! ' (s', _) <- oj_handle I hk md self s b c ODeliver; deliveries n s' b c
    end.

  (** ** The distributor's part of a history *)
  Definition on_part (e : ojevent S M) : elog :=
    match e with
    | ECall pre b a (ORew m) post subs => [ECall (oj_e pre) b a m (oj_e post) subs]
    | ECall pre b a (OMod m) post _ =>
        match st_who I a m with
        | Some w => [ECall (oj_e pre) b a
            (EPower md (o_teller I hk self (oj_m pre) (oj_e pre)) w (smap_get (st_stakes I (oj_m post)) w))
            (oj_e post) []]
        | None => []
        end
    | ECall pre b _ ODeliver post _ =>
        match oj_out pre with
        | (h, who) :: _ => if (h =? self)%N then [ECall (oj_e pre) b hk (EHook [who]) (oj_e post) []] else []
        | _ => []
        end
    | _ => []
    end.
End spec.
(** The calls in a log, without what became of the messages sent. *)
Definition ecalls (l : elog) : elog :=
  List.filter (fun e => match e with ECall _ _ _ _ _ _ => true | _ => false end) l.
