(** cw20-stake-external-rewards on cw20-stake: theorems.  Each is followed by what it rests
    on and by a concrete case meeting its hypotheses. *)
From Verif Require Import Base BaseProofs Exec ExecProofs Plain StoreModel StakeModel StakeSpec
  ExtModel ExtSpec ExtProofs ExtClaims ExtExamples.

(** * C51 *)
(** Paid, claimable by anybody, and still to be handed out: within the funding. *)
Theorem C51_promises_within_funding b s l us :
  xreached b s l -> NoDup us ->
  paid l + lsum (claimable s b) us + to_come s b <= funded l /\
  (forall u, 0 <= claimable s b u).
Proof. exact (c51_solvent b s l us). Qed.
Print Assumptions C51_promises_within_funding.
Theorem C51_balance b s l : xreached b s l -> x_held s = funded l + given l - paid l /\ 0 <= given l.
Proof. exact (c51_held b s l). Qed.
Print Assumptions C51_balance.
Theorem C51_claim_pays b s l a n :
  xreached b s l -> x_pending s b a = Ok n -> 0 < n ->
  exists s', x_handle s b a (XRew RClaim) = Ok (s', [XPay a n]).
Proof. exact (c51_claim b s l a n). Qed.
Print Assumptions C51_claim_pays.
Theorem C51_others_untouched b s l a m s' subs u n :
  xreached b s l -> x_handle s b a m = Ok (s', subs) -> x_pending s b u = Ok n ->
  x_pending s' b u = Ok (n - lsum (pay_to u) subs).
Proof. exact (c51_others b s l a m s' subs u n). Qed.
Print Assumptions C51_others_untouched.
Theorem C51_accrual b s l b' u n n' :
  xreached b s l -> block_le b b' -> x_pending s b u = Ok n -> x_pending s b' u = Ok n' ->
  let w := staked (x_stake s) u in
  let total := total_staked (x_stake s) in
  let fin := r_fin (x_rew s) in
  let blocks := Z.min (height b') fin - Z.min (height b) fin in
  (n' - n - 2) * total < r_rate (x_rew s) * blocks * w < (n' - n + 2) * total \/
  total = 0 /\ w = 0 /\ n' = n.
Proof. exact (c51_accrual b s l b' u n n'). Qed.
Print Assumptions C51_accrual.
(** 1000 tokens over ten blocks; two stakers, one claim, one donation, one unstaking. *)
Example C51_case :
  xreached (xb 10) (fst ex_x) (snd ex_x) /\ funded (snd ex_x) = 1000 /\ paid (snd ex_x) = 349 /\
  given (snd ex_x) = 5 /\ x_held (fst ex_x) = 656 /\
  claimable (fst ex_x) (xb 10) 2%N = 307 /\ claimable (fst ex_x) (xb 10) 3%N = 242 /\
  to_come (fst ex_x) (xb 10) = 100 /\ staked (x_stake (fst ex_x)) 2%N = 7 /\
  staked (x_stake (fst ex_x)) 3%N = 10 /\
  xreached (xb 11) (fst ex_x) (snd ex_x) /\ claimable (fst ex_x) (xb 11) 2%N = 348 /\
  (exists s', x_handle (fst ex_x) (xb 11) 2%N (XRew RClaim) = Ok (s', [XPay 2%N 348])) /\
  (* what the hook is for: without it a newcomer earns rewards of the past *)
  (let g := fst (xrun 10 ex_nohook) in
   claimable g (xb 11) 2%N = 100 /\ claimable g (xb 12) 2%N = 10 /\ claimable g (xb 12) 3%N = 90).
Proof.
  split; [xreach|]. do 9 (split; [vm_compute; reflexivity|]). split; [xreach|].
  split; [vm_compute; reflexivity|]. split; [eexists; vm_compute; reflexivity|].
  repeat split; vm_compute; reflexivity.
Qed.

(** * C77 *)
Theorem C77_query_answers_partial b s l u :
  xreached b s l -> funded l <= 10 ^ 38 -> exists n, x_pending s b u = Ok n.
Proof. exact (c77_query b s l u). Qed.
Print Assumptions C77_query_answers_partial.
Theorem C77_hook_accepted_partial b s l st who :
  xran b s l -> height b = x_block s -> funded l <= 10 ^ 38 -> who ∈ x_due s ->
  exists s', x_handle s b (x_staking s) (XRew (RHook st who)) = Ok (s', []).
Proof. exact (c77_hook b s l st who). Qed.
Print Assumptions C77_hook_accepted_partial.
(** Missing: fundings above 10^38.  There the bookkeeping overflows 256 bits, and from then
    on every staking and unstaking is refused by the hook. *)
Theorem C77_overflow_refuted :
  exists b s l, xreached b s l /\
    forall b' a m s1 subs st who, block_le b b' -> x_handle s b' a (XStake m) = Ok (s1, subs) ->
      stake_change m = true -> who ∈ x_due s1 ->
      exists e, x_handle s1 b' (x_staking s1) (XRew (RHook st who)) = Err e.
Proof. exact c77_refuted. Qed.
Print Assumptions C77_overflow_refuted.
Example C77_case :
  xreached (xb 10) (fst ex_x) (snd ex_x) /\ funded (snd ex_x) <= 10 ^ 38 /\
  (let h := take 9 ex_xh in
   let s := fst (xrun 10 h) in
   xran (xb 8) s (snd (xrun 10 h)) /\ height (xb 8) = x_block s /\ 2%N ∈ x_due s).
Proof.
  split; [xreach|]. split; [vm_compute; discriminate|]. cbv zeta.
  split; [apply xran_run; xside|]. split; [vm_compute; reflexivity|].
  apply (elem_of_list_lookup_2 _ 0); vm_compute; reflexivity.
Qed.

(** * C78 *)
Theorem C78_terms_by_owner_between_periods s b a m s' subs :
  x_handle s b a m = Ok (s', subs) -> terms s' <> terms s ->
  o_owner (r_own (x_rew s)) = Some (acting a m) /\ r_fin (x_rew s) <= height b.
Proof. exact (c78_terms s b a m s' subs). Qed.
Print Assumptions C78_terms_by_owner_between_periods.
Theorem C78_funding s b a funds s' subs d :
  x_handle s b a (XRew (RFund funds)) = Ok (s', subs) -> r_token (x_rew s) = RNative d ->
  o_owner (r_own (x_rew s)) = Some a /\ subs = [] /\
  exists n, funds = [(d, n)] /\ 0 < n /\ x_held s' = x_held s + n /\
    terms s' = (height b + r_dur (x_rew s), n / r_dur (x_rew s), r_dur (x_rew s)) /\
    r_fin (x_rew s) <= height b.
Proof. exact (c78_funding s b a funds s' subs d). Qed.
Print Assumptions C78_funding.
Example C78_case :
  let s := fst ex_x in
  (exists s', x_handle s (xb 11) 1%N (XRew (RFund [(7%N, 45)])) = Ok (s', []) /\
     terms s' = (21, 4, 10) /\ terms s = (11, 100, 10)) /\
  (exists s', x_handle s (xb 11) 1%N (XRew (RUpdateDuration 20)) = Ok (s', []) /\
     terms s' = (11, 100, 20)) /\
  x_handle s (xb 10) 1%N (XRew (RFund [(7%N, 45)])) = Err "RewardPeriodNotFinished" /\
  x_handle s (xb 11) 2%N (XRew (RFund [(7%N, 45)])) = Err "NotOwner".
Proof.
  cbv zeta. split; [eexists; split; [vm_compute; reflexivity|split; vm_compute; reflexivity]|].
  split; [eexists; split; vm_compute; reflexivity|]. split; vm_compute; reflexivity.
Qed.
