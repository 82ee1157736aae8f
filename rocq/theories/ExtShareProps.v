(** What stakers get from cw20-stake-external-rewards over the whole history: theorems.  Each is
    followed by what it rests on and by a concrete case meeting its hypotheses. *)
From Verif Require Import Base BaseProofs Exec ExecProofs Plain StoreModel StakeModel StakeSpec
  ExtModel ExtSpec ExtProofs ExtClaims ExtExamples ExtShareSpec ExtShare ExtShareExamples.

(** * C146 *)
Theorem C146_share_of_every_block b s l u :
  xreached b s l -> funded l <= 10 ^ 38 ->
  exists n, x_pending s b u = Ok n /\
    Z.abs (received u l + n - entitled u l s b) <= 2 * stretches u l s b.
Proof. exact (entitled_share b s l u). Qed.
Print Assumptions C146_share_of_every_block.
(** All stakers together get all rewards of the blocks in which there is one. *)
Theorem C146_all_handed_out b s l us :
  xreached b s l -> funded l <= 10 ^ 38 -> NoDup us -> covers us s -> covered us l ->
  Z.abs (lsum (fun u => received u l + claimable s b u) us - emitted l s b) <=
    3 * lsum (fun u => stretches u l s b) us.
Proof. exact (handed_out b s l us). Qed.
Print Assumptions C146_all_handed_out.
(** 1000 tokens over ten blocks; two stakers, one claim, one donation, one unstaking. *)
Example C146_case :
  xreached (xb 10) (fst ex_x) (snd ex_x) /\ funded (snd ex_x) <= 10 ^ 38 /\
  (let l := snd ex_x in
   received 2%N l = 349 /\ claimable (fst ex_x) (xb 10) 2%N = 307 /\ entitled 2%N l (fst ex_x) (xb 10) = 657 /\
   stretches 2%N l (fst ex_x) (xb 10) = 6 /\
   received 3%N l = 0 /\ claimable (fst ex_x) (xb 10) 3%N = 242 /\ entitled 3%N l (fst ex_x) (xb 10) = 242 /\
   NoDup [2%N; 3%N] /\ covers [2%N; 3%N] (fst ex_x) /\ covered [2%N; 3%N] l /\
   emitted l (fst ex_x) (xb 10) = 900).
Proof.
  split; [xreach|]. split; [vm_compute; discriminate|]. cbv zeta.
  do 7 (split; [vm_compute; reflexivity|]).
  split; [apply NoDup_cons; split; [by intros ?%elem_of_list_singleton|apply NoDup_singleton]|].
  split; [apply coversb_spec; vm_compute; reflexivity|].
  split; [apply coveredb_spec; vm_compute; reflexivity|]. vm_compute; reflexivity.
Qed.
