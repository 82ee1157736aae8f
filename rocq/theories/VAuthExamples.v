(** Concrete histories for who may do what with a vest. *)
From Verif Require Import Base BaseProofs Exec ExecProofs Plain PlainProofs StoreModel WormModel
  VestModel VestSpec VestProofs VestClaims VestExamples VAuthSpec VAuthClaims.

(** The owner nominates 3, who accepts, cancels, and renounces once nothing is left. *)
Definition ex_vh9 : list (block * call vmsg) :=
  [(vb 5, vc 2%N (VDelegate 1%N 40)); (vb 6, vc 1%N (VOwnership (OTransfer 3%N None)));
   (vb 7, vc 3%N (VOwnership OAccept)); (vb 8, vc 2%N (VSetWithdraw 9%N false));
   (vb 20, vc 3%N VCancel); (vb 21, vc 3%N (VSetWithdraw 3%N false));
   (vb 22, vc 8%N (VUndelegate 1%N 40));
   (vb 40, vc 8%N (VWithdraw None)); (vb 41, vc 3%N (VOwnership ORenounce))].
Definition ex_v9 := vrun lin ex_vh9.
Lemma ex_v9_reached : vreached lin (vb 50) (fst ex_v9) (snd ex_v9).
Proof. vreach. Qed.
(** Renounced while running. *)
Definition ex_v10 := vrun lin [(vb 5, vc 1%N (VOwnership ORenounce)); (vb 30, vc 5%N (VDistribute None))].
Lemma ex_v10_reached : vreached lin (vb 50) (fst ex_v10) (snd ex_v10).
Proof. vreach. Qed.
Definition callers (l : vlog) : list (addr * vmsg) :=
  flat_map (fun e => match e with ECall _ _ a m _ _ => [(a, m)] | _ => [] end) l.
Definition sent (l : vlog) : list vsub :=
  flat_map (fun e => match e with ECall _ _ _ _ _ subs => subs | _ => [] end) l.
