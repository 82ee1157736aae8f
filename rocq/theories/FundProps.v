(** cw-fund-distributor: theorems.  Each is followed by what it rests on and by a concrete
    case meeting its hypotheses. *)
From Verif Require Import Base BaseProofs Exec ExecProofs Plain StoreModel FundModel FundSpec
  FundProofs FundClaims FundExamples.

(** * C53 *)
(** [this_round]: the events since the last redistribution; [pool]: what there was to
    distribute. *)
Theorem C53_at_most_the_share w b s l a t :
  greached w b s l -> Forall past_height l ->
  paid_to a t (this_round l) * g_total s <= pool t l * w_pow w b (g_height s) a /\
  0 <= paid_to a t (this_round l).
Proof. exact (c53_share w b s l a t). Qed.
Print Assumptions C53_at_most_the_share.
(** The share itself is first rounded down to 18 decimals; the loss is less than one token
    and a 10^-18th of the pool. *)
Theorem C53_after_a_claim_partial w b s l a m s' subs t :
  greached w b s l -> g_handle w s b a m = Ok (s', subs) -> is_claim m = true ->
  asks m t -> 0 < pool t l ->
  let l' := l ++ [ECall s b a m s' subs] in
  let p := w_pow w b (g_height s) a in
  let T := g_total s in
  let got := paid_to a t (this_round l') in
  pool t l' = pool t l /\
  got = pool t l * (p * 10 ^ 18 / T) / 10 ^ 18 /\
  got * T <= pool t l * p /\
  pool t l * p * 10 ^ 18 <= (got + 1) * T * 10 ^ 18 + pool t l * T /\
  (forall u, u <> a -> lsum (pay_to u t) subs = 0).
Proof. exact (c53_claim w b s l a m s' subs t). Qed.
Print Assumptions C53_after_a_claim_partial.
(** When the total power at the distribution height is at most the recorded one. *)
Theorem C53_total_within_funding_partial w b s l t :
  greached w b s l -> Forall past_height l -> Forall (fair w) l ->
  paid t l <= funded t l /\ g_has s t = funded t l + given t l - paid t l /\ 0 <= given t l.
Proof. exact (c53_total w b s l t). Qed.
Print Assumptions C53_total_within_funding_partial.
Theorem C53_claims_accepted w b s l a m :
  greached w b s l -> Forall past_height l -> Forall (fair w) l -> is_claim m = true ->
  g_height s <= height b -> w_tot w b (g_height s) <= g_total s -> is_expired (g_dead s) b = true ->
  m <> GClaimCw20 [] -> m <> GClaimNative [] ->
  (forall t, asks m t -> m = GClaimAll \/ 0 < pool t l) ->
  (forall t, asks m t -> 0 < pool t l -> refused w t = false) ->
  exists s' subs, g_handle w s b a m = Ok (s', subs).
Proof. exact (c53_accepted w b s l a m). Qed.
Print Assumptions C53_claims_accepted.
Theorem C53_periods w s b a m s' subs :
  g_handle w s b a m = Ok (s', subs) ->
  (is_claim m = true -> is_expired (g_dead s) b = true) /\
  (subs <> [] -> is_claim m = true) /\
  (forall t, g_bal s' t <> g_bal s t -> is_expired (g_dead s) b = false \/ exists h, m = GRedistribute h) /\
  g_dead s' = g_dead s /\ g_total s' = g_total s.
Proof. exact (c53_periods w s b a m s' subs). Qed.
Print Assumptions C53_periods.
(** A distributor can be made for any height, while anybody has power. *)
Theorem C53_made w b h period :
  0 <= h <= U64_MAX -> fits_dur (Some period) = true -> 0 < w_tot w b (height b) ->
  exists s, g_instantiate w b h period = Ok s /\ g_height s = h /\ g_dead s = after period b /\
    g_total s = w_tot w b (height b).
Proof. exact (c53_made w b h period). Qed.
Print Assumptions C53_made.
(** And what was not claimed can at any time be redistributed, for any height. *)
Theorem C53_redistributes_partial w b s l a h :
  greached w b s l -> Forall past_height l -> Forall (fair w) l -> 0 <= h <= U64_MAX ->
  exists s', g_handle w s b a (GRedistribute h) = Ok (s', []) /\ g_height s' = h /\ g_total s' = g_total s /\
    (forall t, g_bal s' t = pool t l - paid t (this_round l)) /\ (forall x t, g_claim s' x t = 0).
Proof. exact (c53_redistributes w b s l a h). Qed.
Print Assumptions C53_redistributes_partial.
Theorem C53_floor_refuted :
  exists w b s l a m s' subs t, greached w b s l /\ Forall past_height l /\ Forall (fair w) l /\
    is_claim m = true /\ asks m t /\ g_handle w s b a m = Ok (s', subs) /\
    let l' := l ++ [ECall s b a m s' subs] in
    paid_to a t (this_round l') = 0 /\ pool t l' * w_pow w b (g_height s) a / g_total s = 1.
Proof. exact c53_floor_refuted. Qed.
Print Assumptions C53_floor_refuted.
Theorem C53_other_height_refuted :
  exists w b s l t, greached w b s l /\ Forall past_height l /\ pool t l = 100 /\
    w_pow w b (g_height s) 2%N = 3 /\ w_tot w b (g_height s) = 5 /\
    paid_to 3%N t (this_round l) = 100 /\
    g_handle w s b 2%N (GClaimNative [snd t]) = Err "insufficient funds".
Proof. exact c53_height_refuted. Qed.
Print Assumptions C53_other_height_refuted.
Theorem C53_redistribution_refuted :
  exists w b s l t, greached w b s l /\ Forall past_height l /\ pool t l = 50 /\
    w_pow w b (g_height s) 2%N = 3 /\ w_tot w b (g_height s) = 5 /\
    paid_to 3%N t (this_round l) = 50 /\
    g_handle w s b 2%N (GClaimNative [snd t]) = Err "insufficient funds".
Proof. exact c53_redistribution_refuted. Qed.
Print Assumptions C53_redistribution_refuted.
Theorem C53_future_height_refuted :
  exists w b s l t, greached w b s l /\ Forall (fair w) l /\ pool t l = 90 /\
    w_pow w b (g_height s) 2%N = 3 /\ w_tot w b (g_height s) = 3 /\ g_total s = 3 /\
    0 < paid_to 3%N t (this_round l) /\ w_pow w b (g_height s) 3%N = 0 /\
    g_handle w s b 2%N (GClaimNative [snd t]) = Err "insufficient funds".
Proof. exact c53_future_refuted. Qed.
Print Assumptions C53_future_height_refuted.
(** Two members, two tokens, repeated claims. *)
Example C53_case :
  greached gw1 (gb 17) (fst ex_g1) (snd ex_g1) /\ Forall past_height (snd ex_g1) /\
  Forall (fair gw1) (snd ex_g1) /\
  funded (false, 7%N) (snd ex_g1) = 1000 /\ given (false, 7%N) (snd ex_g1) = 3 /\
  paid_to 2%N (false, 7%N) (snd ex_g1) = 333 /\ paid_to 3%N (false, 7%N) (snd ex_g1) = 666 /\
  paid_to 3%N (true, 50%N) (snd ex_g1) = 19 /\ g_has (fst ex_g1) (false, 7%N) = 4 /\
  pool (true, 50%N) (snd ex_g1) = 30 /\
  (exists s', g_handle gw1 (fst ex_g1) (gb 17) 2%N GClaimAll = Ok (s', [GPay (true, 50%N) 2%N 9])) /\
  (* after a redistribution at an unchanged total *)
  (let r := grun gw1 10 10 (ex_gh1 ++ [gc 18 1%N (GRedistribute 18); gc 19 3%N GClaimAll]) in
   greached gw1 (gb 19) (fst r) (snd r) /\ Forall past_height (snd r) /\ Forall (fair gw1) (snd r) /\
   pool (true, 50%N) (snd r) = 11 /\ paid_to 3%N (true, 50%N) (this_round (snd r)) = 7 /\
   paid_to 3%N (true, 50%N) (snd r) = 26).
Proof.
  split; [greach|]. split; [gall|]. split; [gall|]. do 7 (split; [vm_compute; reflexivity|]).
  split; [eexists; vm_compute; reflexivity|]. cbv zeta. split; [greach|]. split; [gall|].
  split; [gall|]. split; [vm_compute; reflexivity|]. split; vm_compute; reflexivity.
Qed.

(** * C79 *)
(** Missing: pools with a token that refuses transfers. *)
Theorem C79_claims_accepted_partial w b s l a m :
  greached w b s l -> Forall past_height l -> Forall (fair w) l -> is_claim m = true ->
  g_height s <= height b -> w_tot w b (g_height s) <= g_total s -> is_expired (g_dead s) b = true ->
  m <> GClaimCw20 [] -> m <> GClaimNative [] ->
  (forall t, asks m t -> m = GClaimAll \/ 0 < pool t l) ->
  (forall t, asks m t -> 0 < pool t l -> refused w t = false) ->
  exists s' subs, g_handle w s b a m = Ok (s', subs).
Proof. exact (c53_accepted w b s l a m). Qed.
Print Assumptions C79_claims_accepted_partial.
Theorem C79_claim_all_refuted :
  exists w b s l, greached w b s l /\ Forall past_height l /\ Forall (fair w) l /\
    w_pow w b (g_height s) 2%N = 1 /\ is_expired (g_dead s) b = true /\
    g_handle w s b 2%N GClaimAll = Err "transfer refused by the token" /\
    exists s', g_handle w s b 2%N (GClaimNative [7%N]) = Ok (s', [GPay (false, 7%N) 2%N 299]).
Proof. exact c79_refuted. Qed.
Print Assumptions C79_claim_all_refuted.
Example C79_case :
  greached gw1 (gb 17) (fst ex_g1) (snd ex_g1) /\ Forall past_height (snd ex_g1) /\
  Forall (fair gw1) (snd ex_g1) /\ g_height (fst ex_g1) = 10 /\
  w_tot gw1 (gb 17) (g_height (fst ex_g1)) = g_total (fst ex_g1) /\
  is_expired (g_dead (fst ex_g1)) (gb 17) = true /\ refused gw1 (true, 50%N) = false.
Proof.
  split; [greach|]. split; [gall|]. split; [gall|]. do 3 (split; [vm_compute; reflexivity|]).
  vm_compute; reflexivity.
Qed.
