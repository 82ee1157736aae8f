(** What is claimed of the cw4 voting module. *)
From Verif Require Import Base Exec Plain StoreModel GrpModel.

Notation glog := (log gstate gmsg gsub).
Notation gevent := (event gstate gmsg gsub).

(** A group created with [admin] and [members], and a history of calls. *)
Definition gborn (admin : option addr) (members : list (addr * Z)) (b : block) (s : gstate) (l : glog)
  : Prop := exists b0 s0, g_create admin members b0 = Ok s0 /\ leads g_handle b0 s0 b s l.
Definition greached (b : block) (s : gstate) (l : glog) : Prop :=
  exists admin members, gborn admin members b s l.
(** [l] has everybody [f] gives something, once. *)
Definition covers (f : addr -> Z) (l : list addr) : Prop :=
  NoDup l /\ forall a, f a <> 0 -> a ∈ l.

(** The weight a list gives [a]. *)
Fixpoint given (l : list (addr * Z)) (a : addr) : option Z :=
  match l with
  | [] => None
  | (x, w) :: l => if decide (x = a) then Some w else given l a
  end.
(** What the calls did to the weight of [a]: it is as last given, unless taken since. *)
Definition weight_after (a : addr) (w : option Z) (e : gevent) : option Z :=
  match e with
  | ECall _ _ _ (GMembers remove add) _ _ =>
      if decide (a ∈ remove) then None
      else match given add a with Some n => Some n | None => w end
  | _ => w
  end.
Definition weight_last (members : list (addr * Z)) (a : addr) (l : glog) : option Z :=
  fold_left (weight_after a) l (given members a).
(** The admin last set. *)
Definition admin_after (x : option addr) (e : gevent) : option addr :=
  match e with ECall _ _ _ (GAdmin a) _ _ => a | _ => x end.
Definition admin_last (x : option addr) (l : glog) : option addr := fold_left admin_after l x.
(** Nobody was made admin instead of [a]. *)
Definition keeps_admin (a : addr) (l : glog) : Prop :=
  forall pre b c x post subs, ECall pre b c (GAdmin x) post subs ∈ l -> x = Some a.
