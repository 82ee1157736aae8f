(** Two contracts running side by side: a proposal module whose handler asks a
    voting module, and that voting module.  Any interleaving of calls to either of
    them, and of calls back into either of them while a sub-message of one runs. *)
From Verif Require Import Base Exec Plain.

(** The images of the elements a partial function is defined on. *)
Fixpoint keep {A B} (f : A -> option B) (l : list A) : list B :=
  match l with
  | [] => []
  | x :: l' => match f x with Some y => y :: keep f l' | None => keep f l' end
  end.

Section compose.
  (** Proposal module: state, messages, sub-messages; [O] is what it can ask. *)
  Context {S M X O : Type}.
  Variable handle_p : O -> S -> block -> addr -> M -> result (S * list X).
  Variable fail_p : S -> block -> X -> result S.
  Variable ok_p : S -> block -> X -> addr -> result S.
  (** Voting module (no replies). *)
  Context {T MV XV : Type}.
  Variable handle_v : T -> block -> addr -> MV -> result (T * list XV).
  (** The answers given by a voting module in some state. *)
  Variable ask : T -> O.
  (** Messages to the proposal module before the answers they need from the voting
      module are filled in, and how these are filled in. *)
  Context {MJ : Type}.
  Variable look : T -> block -> MJ -> M.

  Definition pair_handle (j : S * T) (b : block) (a : addr) (m : MJ + MV)
    : result ((S * T) * list (X + XV)) :=
    match m with
    | inl m =>
        do! ' (s', subs) <- handle_p (ask j.2) j.1 b a (look j.2 b m);
        Ok ((s', j.2), map inl subs)
    | inr m =>
        do! ' (t', subs) <- handle_v j.2 b a m; Ok ((j.1, t'), map inr subs)
    end.
  Definition pair_fail (j : S * T) (b : block) (x : X + XV) : result (S * T) :=
    match x with
    | inl x => do! s' <- fail_p j.1 b x; Ok (s', j.2)
    | inr x => do! t' <- no_fail j.2 b x; Ok (j.1, t')
    end.
  Definition pair_ok (j : S * T) (b : block) (x : X + XV) (d : addr) : result (S * T) :=
    match x with
    | inl x => do! s' <- ok_p j.1 b x d; Ok (s', j.2)
    | inr x => do! t' <- no_reply j.2 b x d; Ok (j.1, t')
    end.

  (** What each of the two sees of a joint log. *)
  Definition lefts {A B} : list (A + B) -> list A :=
    keep (fun x => match x with inl a => Some a | inr _ => None end).
  Definition rights {A B} : list (A + B) -> list B :=
    keep (fun x => match x with inr a => Some a | inl _ => None end).
  Definition seen_p (l : log (S * T) (MJ + MV) (X + XV)) : log S M X :=
    keep (fun e => match e with
      | ECall pre b a (inl m) post subs =>
          Some (ECall pre.1 b a (look pre.2 b m) post.1 (lefts subs))
      | ESub pre b (inl x) ok post => Some (ESub pre.1 b x ok post.1)
      | _ => None end) l.
  Definition seen_v (l : log (S * T) (MJ + MV) (X + XV)) : log T MV XV :=
    keep (fun e => match e with
      | ECall pre b a (inr m) post subs => Some (ECall pre.2 b a m post.2 (rights subs))
      | ESub pre b (inr x) ok post => Some (ESub pre.2 b x ok post.2)
      | _ => None end) l.
  (** Messages admitted in the joint history. *)
  Definition pair_msg (P : addr -> M -> Prop) (a : addr) (m : MJ + MV) : Prop :=
    match m with inl m => forall t b, P a (look t b m) | inr _ => True end.
End compose.
