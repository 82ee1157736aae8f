(** dao-voting-token-staked: theorems.  Each is followed by what it rests on and by
    a concrete case meeting its hypotheses. *)
From Verif Require Import Base BaseProofs Exec ExecProofs Plain HooksModel VotingModel StoreModel
  ActiveModel TokModel TokSpec TokProofs TokClaims TokExamples.

(** * C41 *)
Theorem C41_powers_sum_to_total b s l bq h : treached b s l -> tsum_at s bq h = t_total_at s bq (Some h).
Proof. exact (c41_adds_up b s l bq h). Qed.
Print Assumptions C41_powers_sum_to_total.
Theorem C41_any_voters_within_total b s l bq h vs :
  treached b s l -> NoDup vs ->
  lsum (fun a => t_power_at s bq a (Some h)) vs <= t_total_at s bq (Some h) <= U128_MAX /\
  (forall a, 0 <= t_power_at s bq a (Some h)).
Proof. exact (c41_any_voters b s l bq h vs). Qed.
Print Assumptions C41_any_voters_within_total.
(** The last summand: coins sent to the module outside of a call. *)
Theorem C41_holdings b s l : treached b s l -> t_held s = ttotal s + tunclaimed s + tdonated l.
Proof. exact (c41_holdings b s l). Qed.
Print Assumptions C41_holdings.
Theorem C41_start_of_block b1 s1 l1 b' b2 s2 l2 bq h :
  treached b1 s1 l1 -> height b1 < h -> block_le b1 b' -> h <= height b' ->
  leads t_handle b' s1 b2 s2 l2 ->
  (forall a, t_power_at s2 bq a (Some h) = tstaked s1 a) /\
  t_total_at s2 bq (Some h) = ttotal s1.
Proof. exact (c41_reported b1 s1 l1 b' b2 s2 l2 bq h). Qed.
Print Assumptions C41_start_of_block.
Theorem C41_past_never_changes b s l b' s' l' bq bq' h :
  treached b s l -> leads t_handle b s b' s' l' -> h <= height b ->
  (forall a, t_power_at s' bq' a (Some h) = t_power_at s bq a (Some h)) /\
  t_total_at s' bq' (Some h) = t_total_at s bq (Some h).
Proof. exact (c41_immutable b s l b' s' l' bq bq' h). Qed.
Print Assumptions C41_past_never_changes.
Example C41_case :
  treached (tb 20) ex_t ex_tl /\ ttotal ex_t = 200 /\ tunclaimed ex_t = 15 /\ tdonated ex_tl = 7 /\
  t_held ex_t = 222 /\ t_total_at ex_t (tb 20) (Some 5) = 240 /\
  t_power_at ex_t (tb 20) 1%N (Some 5) = 140 /\ t_power_at ex_t (tb 20) 2%N (Some 5) = 100 /\
  t_power_at ex_t (tb 20) 1%N (Some 4) = 200 /\ t_power_at ex_t (tb 20) 1%N None = 125 /\
  NoDup [1%N; 2%N; 3%N] /\
  (* an earlier state of the same module *)
  (exists s1 l1 l2, treached (tb 4) s1 l1 /\ leads t_handle (tb 5) s1 (tb 20) ex_t l2 /\
     tstaked s1 1 = 140 /\ (length l2 > 5)%nat).
Proof.
  split; [exact ex_treached|]. do 9 (split; [vm_compute; reflexivity|]).
  split; [repeat (apply NoDup_cons_2; [set_solver|]); apply NoDup_nil_2|].
  exists (fst (trun ex_td ex_thr (take 4 ex_th))), (snd (trun ex_td ex_thr (take 4 ex_th))),
    (snd (run_hist t_handle no_fail no_reply (fst (trun ex_td ex_thr (take 4 ex_th))) (drop 4 ex_th))).
  split; [treach|]. split; [|vm_compute; split; [reflexivity|lia]].
  exists (drop 4 ex_th). split; [tside|]. split; [|tside]. vm_compute. reflexivity.
Qed.

(** * C44 *)
(** False for percentages with more than nine decimals. *)
Theorem C44_percent_refuted :
  exists b s l p supply, treached b s l /\ t_thr s = Some (APercent p) /\ 0 < p /\ 0 < supply /\
    ttotal s * DEC_ONE < supply * p /\ t_is_active s supply = Ok true.
Proof. exact c44_refuted. Qed.
Print Assumptions C44_percent_refuted.
(** At most nine decimals; missing: finer percentages. *)
Theorem C44_percent_exact_partial staked supply p :
  0 <= supply <= U128_MAX -> 0 <= p * 10 ^ 9 <= DEC_ONE ->
  exists a, is_active (Some (APercent (p * 10 ^ 9))) staked supply = Ok a /\
    (a = true <-> supply * (p * 10 ^ 9) <= staked * DEC_ONE).
Proof. exact (c44_percent_exact staked supply p). Qed.
Print Assumptions C44_percent_exact_partial.
Theorem C44_percent_close staked supply p :
  0 <= supply <= U128_MAX -> 0 <= p <= DEC_ONE ->
  exists a, is_active (Some (APercent p)) staked supply = Ok a /\
    (supply * p <= staked * DEC_ONE -> a = true) /\
    (a = true -> supply * p < staked * DEC_ONE + 10 ^ 9) /\
    (a = true <-> supply * 10 ^ 9 * p / 10 ^ 18 <= staked * 10 ^ 9).
Proof. exact (c44_percent_close staked supply p). Qed.
Print Assumptions C44_percent_close.
Theorem C44_module b s l supply :
  treached b s l -> 0 <= supply <= U128_MAX ->
  exists a, t_is_active s supply = Ok a /\
  match t_thr s with
  | None => a = true
  | Some (ACount n) => a = true <-> n <= ttotal s
  | Some (APercent p) => a = true <-> supply * 10 ^ 9 * p / 10 ^ 18 <= ttotal s * 10 ^ 9
  end.
Proof. exact (c44_module b s l supply). Qed.
Print Assumptions C44_module.
Theorem C44_configured b s l t supply :
  treached b s l -> fits_active t = true -> 0 <= supply <= U128_MAX ->
  (exists s' subs, t_handle s b (t_dao s) (TUpdateThreshold t supply) = Ok (s', subs) /\ t_thr s' = t) <->
  match t with
  | Some (ACount n) => 0 < n <= supply
  | Some (APercent p) => 0 < p <= DEC_ONE
  | None => True
  end.
Proof. exact (c44_config b s l t supply). Qed.
Print Assumptions C44_configured.
Theorem C44_instantiated dao denom src d thr :
  fits_active thr = true -> fits_dur d = true -> (d <> Some (DHeight 0) /\ d <> Some (DTime 0)) ->
  (exists s, t_instantiate dao denom src d thr = Ok s) <->
  (match src with CreatedToken n => n <> 0 | ExistingToken _ => True end) /\
  match thr with
  | Some (ACount n) => 0 < n <= match src with ExistingToken x | CreatedToken x => x end
  | Some (APercent p) => 0 < p <= DEC_ONE
  | None => True
  end.
Proof. exact (c44_instantiate dao denom src d thr). Qed.
Print Assumptions C44_instantiated.
Example C44_case :
  treached (tb 20) ex_t ex_tl /\ t_thr ex_t = Some (APercent (25 * 10 ^ 16)) /\ ttotal ex_t = 200 /\
  t_is_active ex_t 800 = Ok true /\ t_is_active ex_t 801 = Ok false /\
  0 <= 800 <= U128_MAX /\ 0 <= (25 * 10 ^ 7) * 10 ^ 9 <= DEC_ONE /\
  fits_active (Some (ACount 800)) = true /\
  (exists s' subs, t_handle ex_t (tb 20) 9%N (TUpdateThreshold (Some (ACount 800)) 800) = Ok (s', subs)) /\
  t_handle ex_t (tb 20) 9%N (TUpdateThreshold (Some (ACount 801)) 800) = Err "InvalidAbsoluteCount" /\
  (exists s, t_instantiate 9 5 (CreatedToken 10) (Some (DTime 3)) (Some (ACount 10)) = Ok s) /\
  t_instantiate 9 5 (CreatedToken 10) (Some (DTime 3)) (Some (ACount 11)) = Err "InvalidAbsoluteCount".
Proof.
  split; [exact ex_treached|]. do 4 (split; [vm_compute; reflexivity|]).
  split; [vm_compute; split; discriminate|]. split; [vm_compute; split; discriminate|].
  split; [vm_compute; reflexivity|]. split; [do 2 eexists; vm_compute; reflexivity|].
  split; [vm_compute; reflexivity|]. split; [eexists; vm_compute; reflexivity|vm_compute; reflexivity].
Qed.

(** * C72 *)
Theorem C72_conservation b s l a :
  treached b s l -> tput_in a l = ttaken_out a l + twaiting s a + tstaked s a.
Proof. exact (c72_conservation b s l a). Qed.
Print Assumptions C72_conservation.
Theorem C72_created_released_or_open b s l a :
  treached b s l -> tcreated a l ≡ₚ treleased a l ++ claims_of (t_claims s) a.
Proof. exact (c72_once b s l a). Qed.
Print Assumptions C72_created_released_or_open.
Theorem C72_payments b s l pre b1 a m post subs to n :
  treached b s l -> ECall pre b1 a m post subs ∈ l -> TPay to n ∈ subs ->
  to = a /\ t_held post = t_held pre - n /\
  ((m = TUnstake n /\ t_dur pre = None /\ n <= tstaked pre a) \/
   (m = TClaim /\ exists out, claims_of (t_claims pre) a ≡ₚ out ++ claims_of (t_claims post) a /\
      (forall c, c ∈ out -> is_expired (cl_release c) b1 = true) /\
      (forall c, c ∈ claims_of (t_claims post) a -> is_expired (cl_release c) b1 = false) /\
      n = lsum cl_amount out)).
Proof. exact (c72_payments b s l pre b1 a m post subs to n). Qed.
Print Assumptions C72_payments.
Theorem C72_nobody_else b s l pre b1 a m post subs a' :
  treached b s l -> ECall pre b1 a m post subs ∈ l -> a' <> a ->
  tstaked post a' = tstaked pre a' /\ claims_of (t_claims post) a' = claims_of (t_claims pre) a'.
Proof. exact (c72_others b s l pre b1 a m post subs a'). Qed.
Print Assumptions C72_nobody_else.
Theorem C72_can_unstake b s l a x :
  treached b s l -> 0 < x <= tstaked s a ->
  (t_dur s <> None -> Z.of_nat (length (claims_of (t_claims s) a)) < 100) ->
  exists s' subs, t_handle s b a (TUnstake x) = Ok (s', subs).
Proof. exact (c72_can_unstake b s l a x). Qed.
Print Assumptions C72_can_unstake.
Theorem C72_due_can_be_collected b s l a c :
  treached b s l -> c ∈ claims_of (t_claims s) a -> is_expired (cl_release c) b = true ->
  0 < cl_amount c -> exists s' subs, t_handle s b a TClaim = Ok (s', subs).
Proof. exact (c72_can_collect b s l a c). Qed.
Print Assumptions C72_due_can_be_collected.
Example C72_case :
  treached (tb 20) ex_t ex_tl /\
  tput_in 1 ex_tl = 200 /\ ttaken_out 1 ex_tl = 60 /\ twaiting ex_t 1 = 15 /\ tstaked ex_t 1 = 125 /\
  tcreated 1 ex_tl = [Claim 60 (AtHeight 14); Claim 15 (AtHeight 27)] /\
  treleased 1 ex_tl = [Claim 60 (AtHeight 14)] /\
  (exists pre post subs, ECall pre (tb 14) 1%N TClaim post subs ∈ ex_tl /\ TPay 1 60 ∈ subs) /\
  (exists pre post subs, ECall pre (tb 16) 2%N (TUnstake 30) post subs ∈ ex_tl /\ TPay 2 30 ∈ subs) /\
  t_dur ex_t = None /\ 0 < 50 <= tstaked ex_t 1 /\
  (exists c, c ∈ claims_of (t_claims ex_t) 1 /\ is_expired (cl_release c) (tb 27) = true /\
     0 < cl_amount c) /\ treached (tb 27) ex_t ex_tl.
Proof.
  split; [exact ex_treached|]. do 6 (split; [vm_compute; reflexivity|]).
  split. { do 3 eexists. split; [apply (elem_of_list_lookup_2 _ 9); vm_compute; reflexivity|].
    apply elem_of_list_here. }
  split. { do 3 eexists. split; [apply (elem_of_list_lookup_2 _ 12); vm_compute; reflexivity|].
    apply elem_of_list_here. }
  split; [vm_compute; reflexivity|]. split; [vm_compute; split; discriminate || reflexivity|].
  split. { exists (Claim 15 (AtHeight 27)).
    split; [apply (elem_of_list_lookup_2 _ 0); vm_compute; reflexivity|]. vm_compute. split; reflexivity. }
  treach.
Qed.

(** * C73 *)
Theorem C73_token_module b s l pre b1 a m post subs :
  treached b s l -> ECall pre b1 a m post subs ∈ l ->
  t_dao post = t_dao pre /\ t_denom post = t_denom pre /\
  (t_dur post <> t_dur pre \/ t_thr post <> t_thr pre \/ t_hooks post <> t_hooks pre -> a = t_dao pre).
Proof. exact (c73_tok b s l pre b1 a m post subs). Qed.
Print Assumptions C73_token_module.
Example C73_token_case :
  treached (tb 20) ex_t ex_tl /\
  (exists pre post subs, ECall pre (tb 6) 9%N (TUpdateConfig (Some (DHeight 20))) post subs ∈ ex_tl /\
     t_dur post <> t_dur pre /\ t_dao pre = 9%N) /\
  t_handle ex_t (tb 20) 1%N (TUpdateConfig None) = Err "Unauthorized" /\
  t_handle ex_t (tb 20) 1%N (TAddHook 1) = Err "Unauthorized" /\
  t_handle ex_t (tb 20) 1%N (TRemoveHook 77) = Err "Unauthorized" /\
  t_handle ex_t (tb 20) 1%N (TUpdateThreshold None 5) = Err "Unauthorized".
Proof.
  split; [exact ex_treached|].
  split. { do 3 eexists. split; [apply (elem_of_list_lookup_2 _ 6); vm_compute; reflexivity|].
    vm_compute. split; [discriminate|reflexivity]. }
  repeat split; vm_compute; reflexivity.
Qed.
