(** cw-token-swap: theorems.  Each is followed by what it rests on and by a concrete case
    meeting its hypotheses. *)
From Verif Require Import Base BaseProofs Exec ExecProofs Plain StoreModel
  SwapModel SwapSpec SwapProofs SwapClaims SwapFirst SwapExamples.

(** * C60 *)
Theorem C60_outcome d b s l : wreached d b s l ->
  (pa_provided (w_one s) = true /\ pa_provided (w_two s) = true /\ swapped d l) \/
  (pa_provided (w_one s) && pa_provided (w_two s) = false /\
     escrow d (pa_provided (w_one s)) (pa_provided (w_two s)) l).
Proof. exact (outcome d b s l). Qed.
Print Assumptions C60_outcome.
Theorem C60_takes_back d b s l : wreached d b s l ->
  (pa_provided (w_one s) = true -> pa_provided (w_two s) = false ->
   exists s', w_handle s b (d_a1 d) WWithdraw = Ok (s', [WPay (d_t1 d) (d_a1 d) (d_n1 d)]) /\
     pa_provided (w_one s') = false) /\
  (pa_provided (w_two s) = true -> pa_provided (w_one s) = false ->
   exists s', w_handle s b (d_a2 d) WWithdraw = Ok (s', [WPay (d_t2 d) (d_a2 d) (d_n2 d)]) /\
     pa_provided (w_two s') = false).
Proof. exact (takes_back d b s l). Qed.
Print Assumptions C60_takes_back.
Theorem C60_completes d b s l : wreached d b s l ->
  pa_provided (w_one s) = true -> pa_provided (w_two s) = false ->
  w_bal (w_held s) (d_t2 d) + d_n2 d <= U128_MAX ->
  exists s', w_handle s b (bring (d_a2 d) (d_t2 d) (d_n2 d)).1 (bring (d_a2 d) (d_t2 d) (d_n2 d)).2 =
      Ok (s', [WPay (d_t2 d) (d_a1 d) (d_n2 d); WPay (d_t1 d) (d_a2 d) (d_n1 d)]) /\
    pa_provided (w_one s') = true /\ pa_provided (w_two s') = true.
Proof. exact (completes d b s l). Qed.
Print Assumptions C60_completes.
Theorem C60_completes_first d b s l : wreached d b s l ->
  pa_provided (w_one s) = false -> pa_provided (w_two s) = true ->
  w_bal (w_held s) (d_t1 d) + d_n1 d <= U128_MAX ->
  exists s', w_handle s b (bring (d_a1 d) (d_t1 d) (d_n1 d)).1 (bring (d_a1 d) (d_t1 d) (d_n1 d)).2 =
      Ok (s', [WPay (d_t1 d) (d_a2 d) (d_n1 d); WPay (d_t2 d) (d_a1 d) (d_n2 d)]) /\
    pa_provided (w_one s') = true /\ pa_provided (w_two s') = true.
Proof. exact (completes_first d b s l). Qed.
Print Assumptions C60_completes_first.
Theorem C60_complete_is_final d b0 s0 l0 b s l : wreached d b0 s0 l0 ->
  pa_provided (w_one s0) = true -> pa_provided (w_two s0) = true ->
  leads w_handle b0 s0 b s l ->
  pa_provided (w_one s) = true /\ pa_provided (w_two s) = true /\
  forall a t, brought a t l = 0 /\ got a t l = 0.
Proof. exact (complete_final d b0 s0 l0 b s l). Qed.
Print Assumptions C60_complete_is_final.
Theorem C60_nobody_else d b s l a t : wreached d b s l -> a <> d_a1 d -> a <> d_a2 d ->
  brought a t l = 0 /\ got a t l = 0.
Proof. exact (nobody_else d b s l a t). Qed.
Print Assumptions C60_nobody_else.
Theorem C60_balance d b s l t : wreached d b s l ->
  w_bal (w_held s) t = given t l + spent (d_a1 d) t l + spent (d_a2 d) t l.
Proof. exact (swap_balance d b s l t). Qed.
Print Assumptions C60_balance.
Example C60_case_first :
  let h := wrun [wc 1 50 (WReceive 2 250)] in
  wreached the_deal (wb 6) (fst h) (snd h) /\ pa_provided (w_one (fst h)) = false /\
  pa_provided (w_two (fst h)) = true /\ w_bal (w_held (fst h)) (false, 7%N) + 100 <= U128_MAX.
Proof.
  cbv zeta. split; [wreach|]. split; [vm_compute; reflexivity|]. split; [vm_compute; reflexivity|].
  vm_compute. discriminate.
Qed.
Example C60_case :
  let h := wrun half in let w := wrun whole in
  wreached the_deal (wb 6) (fst h) (snd h) /\ length (snd h) = 5%nat /\
  pa_provided (w_one (fst h)) = true /\ pa_provided (w_two (fst h)) = false /\
  brought 1 (false, 7%N) (snd h) = 200 /\ spent 1 (false, 7%N) (snd h) = 100 /\
  w_bal (w_held (fst h)) (false, 7%N) = 105 /\
  (exists s', w_handle (fst h) (wb 6) 1%N WWithdraw = Ok (s', [WPay (false, 7%N) 1%N 100])) /\
  w_bal (w_held (fst h)) (true, 50%N) + 250 <= U128_MAX /\
  wreached the_deal (wb 6) (fst w) (snd w) /\ length (snd w) = 8%nat /\
  pa_provided (w_one (fst w)) = true /\ pa_provided (w_two (fst w)) = true /\
  spent 1 (false, 7%N) (snd w) = 100 /\ spent 1 (true, 50%N) (snd w) = -250 /\
  spent 2 (false, 7%N) (snd w) = -100 /\ spent 2 (true, 50%N) (snd w) = 250 /\
  w_bal (w_held (fst w)) (false, 7%N) = 5.
Proof.
  cbv zeta. split; [wreach|]. do 6 (split; [vm_compute; reflexivity|]).
  split; [eexists; vm_compute; reflexivity|]. split; [vm_compute; discriminate|].
  split; [wreach|]. repeat split; vm_compute; reflexivity.
Qed.
