(** What is claimed of a DAO with an NFT collection of its own. *)
From Verif Require Import Base Exec Plain StoreModel ActiveModel NftModel NftSpec CollModel NftNewModel.

Notation plog := (log pstate pmsg nsub).
Notation pevent := (event pstate pmsg nsub).

(** Set up with the messages [ms], after the history [l]. *)
Definition preached (created : bool) (md dao nft : addr) (ms : list sstep) (b : block) (s : pstate)
    (l : plog) : Prop :=
  dao <> md /\ nft <> md /\ dao <> nft /\
  exists b0 d thr s0, new_coll created b0 dao md nft d thr ms = Ok s0 /\ leads (p_handle md) b0 s0 b s l.

Definition owner_of (c : coll) (id : N) : option addr :=
  match q_toks c !! id with Some t => Some (k_owner t) | None => None end.
(** How many tokens an address has. *)
Definition owned_by (c : coll) (a : addr) : Z := msum (fun _ t => one (k_owner t =? a)%N) (q_toks c).
(** How many tokens wait to be collected. *)
Definition waiting (n : nstate) : Z := msum (fun _ cs => Z.of_nat (length cs)) (n_claims n).
(** Messages that do nothing but mint. *)
Definition only_mints (ms : list sstep) : bool :=
  forallb (fun x => match x with SOwn (CMint _ _) => true | _ => false end) ms.
(** Nobody but the owner of a token may move it. *)
Definition untouchable (c : coll) (b : block) (id : N) : Prop :=
  forall a m c', owner_of c id <> Some a -> c_handle c b a m = Ok c' -> owner_of c' id = owner_of c id.
(** The DAO does not hand on its collection; the DAO does nothing. *)
Definition keeps (dao : addr) (e : pevent) : bool :=
  match e with
  | ECall _ _ sender (PColl (COwn _)) _ _ => negb (sender =? dao)%N
  | _ => true
  end.
Definition silent (dao : addr) (e : pevent) : bool :=
  match e with ECall _ _ sender _ _ _ => negb (sender =? dao)%N | _ => true end.
