(** What is claimed of the admin factory. *)
From Verif Require Import Base Exec AdmModel.

Notation alog := (log astate amsg asub).
(** Factory [self], set up with [admin], after the history [h] with log [l]. *)
Definition areached (self : addr) (admin : option addr) (h : list (block * call amsg)) (s : astate)
    (l : alog) : Prop :=
  run_hist a_handle a_fail a_reply (a_instantiate self admin) h = (s, l).

(** The second message is never used by a contract that is just being made. *)
Fixpoint outer (inside : bool) (c : call amsg) : Prop :=
  match c with
  | Call _ m outs =>
      match m with AInst2 _ _ => inside = false | AInst _ => True end /\
      (fix go (outs : list (option (addr * list (call amsg)))) : Prop :=
         match outs with
         | [] => True
         | None :: outs' => go outs'
         | Some (_, cs) :: outs' =>
             (fix go' (cs : list (call amsg)) : Prop :=
                match cs with [] => True | c :: cs' => outer true c /\ go' cs' end) cs /\ go outs'
         end) outs
  end.
Definition no_second_inside (h : list (block * call amsg)) : Prop :=
  Forall (fun bc => outer false bc.2) h.
