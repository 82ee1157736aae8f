(** dao-rewards-distributor: theorems.  Each is followed by what it rests on and by a
    concrete case meeting its hypotheses. *)
From Verif Require Import Base BaseProofs Exec ExecProofs Plain StoreModel ExtModel ExtProofs
  RewModel RewSpec RewProofs RewClaims RewExamples.

(** * C54 *)
(** Missing: histories in which rewards are handed out at once (immediate emission, the
    funding of a continuous distribution for the past) in a block in which powers changed
    before, and histories in which the voting-power contract or the hook caller of the
    distribution is exchanged. *)
Theorem C54_promises_within_funding_partial id b s l us :
  ereached b s l -> tame id l = true -> e_dists s !! id <> None -> NoDup us ->
  (forall u, 0 <= claimable s b id u) /\
  claimed id l + withdrawn id l + lsum (claimable s b id) us + remaining s b id <= funded id l.
Proof. exact (covered id b s l us). Qed.
Print Assumptions C54_promises_within_funding_partial.
Theorem C54_claim_pays_what_was_reported s b a id s' subs :
  e_handle s b a (EClaim id) = Ok (s', subs) ->
  exists d n, e_dists s !! id = Some d /\ pending_rewards s b id a = Ok n /\ 0 <> n /\
    subs = [EPay (di_denom d) a n].
Proof. exact (claim_exact s b a id s' subs). Qed.
Print Assumptions C54_claim_pays_what_was_reported.
Theorem C54_claim_succeeds_partial b s l id d a n :
  ereached b s l -> e_dists s !! id = Some d ->
  (forall i d', e_dists s !! i = Some d' -> di_denom d' = di_denom d -> tame i l = true) ->
  pending_rewards s b id a = Ok n -> n <> 0 ->
  exists s', e_handle s b a (EClaim id) = Ok (s', [EPay (di_denom d) a n]).
Proof. exact (claim_goes b s l id d a n). Qed.
Print Assumptions C54_claim_succeeds_partial.
Theorem C54_same_block_refuted :
  exists b s l id us, ereached b s l /\ forallb (reported id) l = true /\ forallb (steady id) l = true /\
    NoDup us /\ funded id l < claimed id l + withdrawn id l + lsum (claimable s b id) us.
Proof. exact c54_same_block. Qed.
Print Assumptions C54_same_block_refuted.
Theorem C54_funding_the_past_refuted :
  exists b s l id us, ereached b s l /\ forallb (reported id) l = true /\ forallb (steady id) l = true /\
    forallb no_immediate l = true /\
    NoDup us /\ funded id l < claimed id l + withdrawn id l + lsum (claimable s b id) us.
Proof. exact c54_past. Qed.
Print Assumptions C54_funding_the_past_refuted.
Theorem C54_other_voting_contract_refuted :
  exists b s l id us, ereached b s l /\ forallb (reported id) l = true /\ forallb (quiet id) l = true /\
    NoDup us /\ funded id l < claimed id l + withdrawn id l + lsum (claimable s b id) us.
Proof. exact c54_move. Qed.
Print Assumptions C54_other_voting_contract_refuted.
(** 1000 tokens at 100 per ten blocks from block 1; the powers 30 and 10, then 30 and 30
    from block 22; a second, immediate distribution of 400 other tokens. *)
Example C54_case :
  let s := fst ex_r in let l := snd ex_r in
  ereached (eb 51) s l /\ tame 1 l = true /\ tame 2 l = true /\
  funded 1 l = 1000 /\ claimed 1 l = 224 /\ withdrawn 1 l = 0 /\
  claimable s (eb 51) 1 2%N = 224 /\ claimable s (eb 51) 1 3%N = 49 /\ remaining s (eb 51) 1 = 500 /\
  funded 2 l = 400 /\ claimed 2 l = 199 /\ claimable s (eb 51) 2 3%N = 199 /\ remaining s (eb 51) 2 = 0 /\
  pending_rewards s (eb 51) 1 2%N = Ok 224 /\
  (exists s', e_handle s (eb 51) 2%N (EClaim 1) = Ok (s', [EPay token 2%N 224])).
Proof.
  cbv zeta. split; [unfold ex_r; ereach|]. do 13 (split; [vm_compute; reflexivity|]).
  eexists. vm_compute. reflexivity.
Qed.

(** * C55 *)
(** Missing: updates in the middle of a period.  Each such update can cost the member its
    share of one period's rewards, because whole periods are counted from the last update. *)
Theorem C55_updates_cost_partial b0 s l0 b s' l id a d amount u ct v n n' :
  ereached b0 s l0 -> tame id l0 = true ->
  e_dists s !! id = Some d -> ep_rate (di_ep d) = EmLinear amount u ct ->
  e_vps s !! di_vp d = Some v -> vp_last v < height b0 ->
  leads e_handle b0 s b s' l -> forallb poke l = true ->
  pending_rewards s b id a = Ok n -> pending_rewards s' b id a = Ok n' ->
  vp_total_at v b * n <=
    vp_total_at v b * (n' + earned id a l + 2 * (calls l + 1)) +
    amount * vp_power_at v b a * cuts id l.
Proof. exact (updates_cost b0 s l0 b s' l id a d amount u ct v n n'). Qed.
Print Assumptions C55_updates_cost_partial.
Theorem C55_updates_between_periods_refuted :
  exists b0 s l0 b s' l id d a amount u ct n n', ereached b0 s l0 /\ tame id l0 = true /\
    e_dists s !! id = Some d /\ ep_rate (di_ep d) = EmLinear amount u ct /\
    leads e_handle b0 s b s' l /\ forallb poke l = true /\
    pending_rewards s b id a = Ok n /\ pending_rewards s' b id a = Ok n' /\
    n' + earned id a l + 10 ^ 31 * (calls l + 1) < n.
Proof. exact c55_cut. Qed.
Print Assumptions C55_updates_between_periods_refuted.
(** Nine updates of the member itself, one after each period: 675 against 675. *)
Example C55_case :
  let s := fst (erun linear) in let s' := fst (erun_from s pokes10) in
  let l := snd (erun_from s pokes10) in
  ereached (eb 2) s (snd (erun linear)) /\ tame 1 (snd (erun linear)) = true /\
  (exists d v, e_dists s !! 1 = Some d /\ ep_rate (di_ep d) = EmLinear 100 (DHeight 10) false /\
    e_vps s !! di_vp d = Some v /\ vp_last v = 1 /\ vp_total_at v (eb 95) = 40 /\ vp_power_at v (eb 95) 2%N = 30) /\
  leads e_handle (eb 2) s (eb 95) s' l /\ forallb poke l = true /\
  pending_rewards s (eb 95) 1 2%N = Ok 675 /\ pending_rewards s' (eb 95) 1 2%N = Ok 675 /\
  calls l = 9 /\ cuts 1 l = 0 /\ earned 1 2%N l = 0.
Proof.
  cbv zeta. split; [ereach|]. split; [vm_compute; reflexivity|].
  split; [do 2 eexists; split; [vm_compute; reflexivity|]; split; [vm_compute; reflexivity|];
    split; [vm_compute; reflexivity|]; vm_compute; repeat split; reflexivity|].
  split; [apply leads_from; eside|]. do 5 (split; [vm_compute; reflexivity|]). vm_compute. reflexivity.
Qed.

(** * C80 *)
Theorem C80_balance b s l t :
  ereached b s l ->
  held s t = given t l + msum (fun i d => if decide (di_denom d = t) then net i l else 0) (e_dists s) /\
  0 <= given t l.
Proof. exact (books_kept b s l t). Qed.
Print Assumptions C80_balance.
Example C80_case :
  let s := fst ex_r in let l := snd ex_r in
  ereached (eb 51) s l /\ held s token = 781 /\ given token l = 5 /\ net 1 l = 776 /\
  held s (true, 50%N) = 201 /\ net 2 l = 201.
Proof. cbv zeta. split; [unfold ex_r; ereach|]. repeat split; vm_compute; reflexivity. Qed.

(** * C81 *)
Theorem C81_owner_sets_terms s b a m s' subs id :
  e_handle s b a m = Ok (s', subs) ->
  terms <$> e_dists s' !! id <> terms <$> e_dists s !! id ->
  o_owner (e_own s) = Some a /\
  match m with
  | ECreate _ _ _ _ _ _ _ => e_dists s !! id = None /\ id = e_count s + 1
  | EUpdate i _ _ _ _ _ => i = id
  | _ => False
  end.
Proof. exact (terms_owner s b a m s' subs id). Qed.
Print Assumptions C81_owner_sets_terms.
Theorem C81_withdraw_returns_the_rest b s l a id s' subs :
  ereached b s l -> tame id l = true -> e_handle s b a (EWithdraw id) = Ok (s', subs) ->
  o_owner (e_own s) = Some a /\
  exists d n, e_dists s !! id = Some d /\ undistributed s b id = Ok n /\
    subs = [EPay (di_denom d) (di_wdest d) n] /\ undistributed s' b id = Ok 0.
Proof. exact (withdraw_exact b s l a id s' subs). Qed.
Print Assumptions C81_withdraw_returns_the_rest.
Theorem C81_payees s b a m s' subs t to n :
  e_handle s b a m = Ok (s', subs) -> EPay t to n ∈ subs ->
  (exists id, m = EClaim id /\ to = a) \/
  (exists id d, m = EWithdraw id /\ o_owner (e_own s) = Some a /\ e_dists s !! id = Some d /\ to = di_wdest d).
Proof. exact (pays_only s b a m s' subs t to n). Qed.
Print Assumptions C81_payees.
Example C81_case :
  let s := fst ex_r in let l := snd ex_r in
  ereached (eb 51) s l /\ tame 1 l = true /\ o_owner (e_own s) = Some 1%N /\
  (exists s', e_handle s (eb 51) 1%N (EWithdraw 1) = Ok (s', [EPay token 1%N 500]) /\
    undistributed s (eb 51) 1 = Ok 500 /\ undistributed s' (eb 60) 1 = Ok 0 /\
    claimable s' (eb 60) 1 2%N = 224) /\
  (exists s', e_handle s (eb 51) 1%N (EUpdate 1 (Some EmPaused) None None None (Some 6%N)) = Ok (s', []) /\
    terms <$> e_dists s' !! 1 <> terms <$> e_dists s !! 1) /\
  (exists e, e_handle s (eb 51) 2%N (EUpdate 1 (Some EmPaused) None None None None) = Err e) /\
  (exists e, e_handle s (eb 51) 2%N (EWithdraw 1) = Err e).
Proof.
  cbv zeta. split; [unfold ex_r; ereach|]. do 2 (split; [vm_compute; reflexivity|]).
  split; [eexists; split; [vm_compute; reflexivity|]; repeat split; vm_compute; reflexivity|].
  split; [eexists; split; [vm_compute; reflexivity|]; vm_compute; discriminate|].
  split; eexists; vm_compute; reflexivity.
Qed.
