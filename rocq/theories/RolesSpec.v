(** What is claimed of role tokens. *)
From Verif Require Import Base Exec Plain StoreModel RolesModel.

Notation rlog := (log rstate rmsg rsub).
Notation revent := (event rstate rmsg rsub).

(** A token contract and a history of calls. *)
Definition rreached (b : block) (s : rstate) (l : rlog) : Prop :=
  exists b0 minter, leads r_handle b0 (r_instantiate minter b0) b s l.

(** The weights of the tokens [a] holds, and of all tokens. *)
Definition held (s : rstate) (a : addr) : Z :=
  msum (fun _ x => if decide (ro_owner x = a) then ro_weight x else 0) (r_tokens s).
Definition all_held (s : rstate) : Z := msum (fun _ x => ro_weight x) (r_tokens s).
(** [l] has everybody [f] gives something, once. *)
Definition covers (f : addr -> Z) (l : list addr) : Prop :=
  NoDup l /\ forall a, f a <> 0 -> a ∈ l.

(** An event moves a token to or from [a]. *)
Definition owner_of (s : rstate) (id : N) : option addr := ro_owner <$> r_tokens s !! id.
Definition moves (a : addr) (e : revent) : Prop :=
  match e with
  | ECall pre _ _ (RTransfer to id) _ _ | ECall pre _ _ (RSend to id) _ _ =>
      owner_of pre id <> Some to /\ (owner_of pre id = Some a \/ to = a)
  | _ => False
  end.

(** A message to a hook tells the weight before and the weight after. *)
Definition tells_true (pre post : rstate) (x : rsub) : Prop :=
  match x with
  | RHook _ a old new => old = q_member pre a None /\ new = q_member post a None
  | RReceive _ _ => True
  end.
(** A call lowers the weight of a token. *)
Definition lowers (s : rstate) (m : rmsg) : Prop :=
  match m with
  | RWeight id w => exists x, r_tokens s !! id = Some x /\ w < ro_weight x
  | _ => False
  end.
(** The hook told, and about whom. *)
Definition hook_of (x : rsub) : option (addr * addr) :=
  match x with RHook h a _ _ => Some (h, a) | RReceive _ _ => None end.
(** What the last call about hook [a] did: registered it, or removed it. *)
Definition about_hook (a : addr) (e : revent) : option bool :=
  match e with
  | ECall _ _ _ (RAddHook x) _ _ => if decide (x = a) then Some true else None
  | ECall _ _ _ (RRemoveHook x) _ _ => if decide (x = a) then Some false else None
  | _ => None
  end.
Definition last_about (a : addr) (l : rlog) : option bool :=
  fold_left (fun acc e => match about_hook a e with Some x => Some x | None => acc end) l None.
