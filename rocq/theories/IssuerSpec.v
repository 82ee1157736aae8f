(** What is claimed of the token issuer. *)
From Verif Require Import Base Exec Plain StoreModel IssuerModel.

Notation ilog := (log istate imsg isub).
Notation ievent := (event istate imsg isub).

(** A contract just set up. *)
Definition ifresh (s : istate) : Prop :=
  (exists self owner denom, s = i_new self owner denom) \/
  (exists self owner denom bal admin bh, s = i_take self owner denom bal admin bh).
Definition ireached (s0 : istate) (b : block) (s : istate) (l : ilog) : Prop :=
  ifresh s0 /\ exists b0, leads i_handle b0 s0 b s l.

(** ** Allowances *)
(** What the messages sent because of [a]'s calls mint and burn. *)
Definition sub_mint (x : isub) : Z := match x with SMint n => n | _ => 0 end.
Definition sub_burn (x : isub) : Z := match x with SBurn _ n => n | _ => 0 end.
Definition ev_by (f : isub -> Z) (a : addr) (e : ievent) : Z :=
  match e with
  | ECall _ _ sender _ _ subs => if decide (sender = a) then lsum f subs else 0
  | _ => 0
  end.
Definition minted (a : addr) (l : ilog) : Z := lsum (ev_by sub_mint a) l.
Definition burned (a : addr) (l : ilog) : Z := lsum (ev_by sub_burn a) l.
(** A grant to [a]. *)
Definition mint_grant (a : addr) (e : ievent) : option Z :=
  match e with
  | ECall _ _ _ (ISetMinter a' n) _ _ => if decide (a' = a) then Some n else None
  | _ => None
  end.
Definition burn_grant (a : addr) (e : ievent) : option Z :=
  match e with
  | ECall _ _ _ (ISetBurner a' n) _ _ => if decide (a' = a) then Some n else None
  | _ => None
  end.
Definition granted (g : ievent -> option Z) (l : ilog) : Z := lsum (fun e => default 0 (g e)) l.
Definition ungranted (g : ievent -> option Z) (l : ilog) : Prop := forall e, e ∈ l -> g e = None.
(** Everybody's. *)
Definition ev_all (f : isub -> Z) (e : ievent) : Z :=
  match e with ECall _ _ _ _ _ subs => lsum f subs | _ => 0 end.
Definition supply (s : istate) : Z := msum (fun _ n => n) (i_bal s).
(** The admin of the denomination is never changed through the contract. *)
Definition keeps_admin (l : ilog) : Prop :=
  forall pre b sender a post subs, ECall pre b sender (IAdmin a) post subs ∉ l.

(** ** Freezing *)
(** The last word of the history: [None] when an event says nothing. *)
Fixpoint last_said (f : ievent -> option bool) (x : bool) (l : ilog) : bool :=
  match l with
  | [] => x
  | e :: l' => last_said f (default x (f e)) l'
  end.
Definition says_frozen (e : ievent) : option bool :=
  match e with ECall _ _ _ (IFreeze x) _ _ => Some x | _ => None end.
(** Freezing lists the contract itself, unfreezing takes it off the list. *)
Definition says_allowed (self a : addr) (e : ievent) : option bool :=
  match e with
  | ECall _ _ _ (IAllow a' x) _ _ => if decide (a' = a) then Some x else None
  | ECall _ _ _ (IFreeze x) _ _ => if decide (a = self) then Some x else None
  | _ => None
  end.
Definition says_denied (a : addr) (e : ievent) : option bool :=
  match e with
  | ECall _ _ _ (IDeny a' x) _ _ => if decide (a' = a) then Some x else None
  | _ => None
  end.
Definition frozen (l : ilog) : Prop := last_said says_frozen false l = true.
Definition allowed (self a : addr) (l : ilog) : Prop :=
  last_said (says_allowed self a) false l = true.
Definition denied (a : addr) (l : ilog) : Prop := last_said (says_denied a) false l = true.
(** What the lists have to say about a transfer. *)
Definition may_move (self : addr) (l : ilog) (from to : addr) : Prop :=
  (frozen l -> allowed self from l \/ allowed self to l) /\ ~ denied from l /\ ~ denied to l.
(** The transfers a call makes the bank perform. *)
Definition transfers (self sender : addr) (m : imsg) : list (addr * addr) :=
  match m with
  | XSend to _ => [(sender, to)]
  | IMint to _ => [(self, to)]
  | _ => []
  end.
(** A list of the contract. *)
Definition on_list (m : gmap addr bool) (a : addr) : bool := default false (m !! a).
