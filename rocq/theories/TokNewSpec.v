(** What is claimed of a token made for a DAO. *)
From Verif Require Import Base Exec Plain StoreModel ActiveModel TokModel IssuerModel IssuerSpec TokNewModel.

(** What the message lists for an account. *)
Definition listed (l : list (addr * Z)) (a : addr) : Z :=
  lsum (fun x => if decide (x.1 = a) then x.2 else 0) l.
Definition due_to (dao : addr) (nt : new_token) (a : addr) : Z :=
  listed (nt_bals nt) a + if decide (a = dao) then default 0 (nt_dao nt) else 0.
(** The message asks for something possible: an unstaking time that is no nothing; nobody
    listed for nothing, somebody listed; the sum is a 128-bit number; the threshold is one
    that those listed can meet. *)
Definition duration_fits (d : option duration) : Prop :=
  match d with Some (DHeight n) | Some (DTime n) => 0 < n <= U64_MAX | None => True end.
Definition threshold_fits (thr : option athreshold) (initial : Z) : Prop :=
  match thr with
  | Some (ACount n) => 0 < n <= initial
  | Some (APercent p) => 0 < p <= 10 ^ 18
  | None => True
  end.
Definition possible (d : option duration) (thr : option athreshold) (nt : new_token) : Prop :=
  duration_fits d /\ nt_bals nt <> [] /\ (forall x, x ∈ nt_bals nt -> 0 < x.2) /\
  0 <= default 0 (nt_dao nt) /\ lsum snd (nt_bals nt) + default 0 (nt_dao nt) <= U128_MAX /\
  threshold_fits thr (lsum snd (nt_bals nt)).
(** The issuer is in nobody's hands but the owner's: no allowances, no freezing, no list, no
    hook, and the denomination is its own. *)
Definition untouched (i : istate) : Prop :=
  (forall a, allowance (i_mint i) a = 0) /\ (forall a, allowance (i_burn i) a = 0) /\
  i_frozen i = false /\ i_deny i = ∅ /\ i_allow i = ∅ /\ i_hook i = None /\ i_bhook i = None /\
  i_admin i = i_self i.
