(** dao-voting-token-staked with the token of cw-tokenfactory-issuer: theorems.  Each is
    followed by what it rests on and by a concrete case meeting its hypotheses. *)
From Verif Require Import Base BaseProofs Exec Plain StoreModel StoreProofs ActiveModel TokModel TokSpec IssuerModel
  IssuerSpec TokNewModel GovTokModel GovTokSpec GovTokProofs GovTokClaims GovTokExamples.

(** * C118 *)
Theorem C118_backing md i0 b s l : greached md i0 b s l ->
  i_bal_of (g_i s) md = i_bal_of i0 md + ttotal (g_t s) + tunclaimed (g_t s) + given md l - taken md l.
Proof. exact (c118_backing md i0 b s l). Qed.
Print Assumptions C118_backing.
Theorem C118_who_can_take md i0 b s l pre b1 a m post subs :
  greached md i0 b s l -> ECall pre b1 a m post subs ∈ l -> 0 < ev_taken md (ECall pre b1 a m post subs) ->
  (exists n to, m = GIss (IForce n md to) /\ o_owner (i_own (g_i pre)) = Some a) \/
  (exists n, m = GIss (IBurn md n) /\ n <= allowance (i_burn (g_i pre)) a) \/
  (exists n, m = GIss (XBurn md n) /\ a = i_admin (g_i pre) /\ a <> i_self (g_i pre)).
Proof. exact (c118_takers md i0 b s l pre b1 a m post subs). Qed.
Print Assumptions C118_who_can_take.
Theorem C118_powers_untouched md i0 b s l bq h : greached md i0 b s l ->
  tsum_at (g_t s) bq h = t_total_at (g_t s) bq (Some h) /\
  forall pre b1 a m post subs, ECall pre b1 a m post subs ∈ l ->
    ((exists m', m = GIss m') \/ h <= height b1) ->
    (forall c, t_power_at (g_t post) bq c (Some h) = t_power_at (g_t pre) bq c (Some h)) /\
    t_total_at (g_t post) bq (Some h) = t_total_at (g_t pre) bq (Some h).
Proof. exact (c118_powers md i0 b s l bq h). Qed.
Print Assumptions C118_powers_untouched.
(** Missing: tokens taken from the module by force or burning, and members or modules the
    freeze or the denylist does not let pass; members with a hundred claims, and claims due of
    more than 128 bits. *)
Theorem C118_unstake_partial md i0 b s l a x :
  greached md i0 b s l -> a <> md -> 0 < x <= tstaked (g_t s) a ->
  (t_dur (g_t s) = None -> 0 <= i_bal_of i0 md /\ taken md l = 0 /\ passes (g_i s) md a) ->
  (t_dur (g_t s) <> None -> Z.of_nat (length (claims_of (t_claims (g_t s)) a)) < 100) ->
  exists s' subs, g_handle md s b a (GTok (TUnstake x)) = Ok (s', subs) /\
    tstaked (g_t s') a = tstaked (g_t s) a - x /\
    i_bal_of (g_i s') a = i_bal_of (g_i s) a + match t_dur (g_t s) with None => x | Some _ => 0 end /\
    twaiting (g_t s') a = twaiting (g_t s) a + match t_dur (g_t s) with None => 0 | Some _ => x end.
Proof. exact (c118_unstake md i0 b s l a x). Qed.
Print Assumptions C118_unstake_partial.
Theorem C118_collect_partial md i0 b s l a :
  greached md i0 b s l -> a <> md -> 0 < due b (g_t s) a <= U128_MAX ->
  0 <= i_bal_of i0 md -> taken md l = 0 -> passes (g_i s) md a ->
  exists s' subs, g_handle md s b a (GTok TClaim) = Ok (s', subs) /\
    i_bal_of (g_i s') a = i_bal_of (g_i s) a + due b (g_t s) a /\
    twaiting (g_t s') a = twaiting (g_t s) a - due b (g_t s) a.
Proof. exact (c118_collect md i0 b s l a). Qed.
Print Assumptions C118_collect_partial.
Theorem C118_restraint_suffices_partial md dao i0 b s l : dreached md dao i0 b s l -> forallb (restrained dao) l = true ->
  greached md i0 b s l /\ 0 <= i_bal_of i0 md /\ taken md l = 0 /\
  ttotal (g_t s) + tunclaimed (g_t s) <= i_bal_of (g_i s) md /\ forall x y, passes (g_i s) x y.
Proof. exact (c118_restraint md dao i0 b s l). Qed.
Print Assumptions C118_restraint_suffices_partial.
Theorem C118_force_refuted :
  exists md dao i0 b s l a n, dreached md dao i0 b s l /\ tstaked (g_t s) a = n /\ 0 < n /\
    t_power_at (g_t s) b a None = n /\ i_bal_of (g_i s) md = 0 /\
    g_handle md s b a (GTok (TUnstake n)) = Err "insufficient funds".
Proof. exact force_out. Qed.
Print Assumptions C118_force_refuted.
Theorem C118_burner_refuted :
  exists md dao i0 b s l a n c, dreached md dao i0 b s l /\ tstaked (g_t s) a = n /\ 0 < n /\
    t_power_at (g_t s) b a None = n /\ i_bal_of (g_i s) md = 0 /\ c <> dao /\
    (exists pre b1 post subs k, ECall pre b1 c (GIss (IBurn md k)) post subs ∈ l) /\
    g_handle md s b a (GTok (TUnstake n)) = Err "insufficient funds".
Proof. exact burn_out. Qed.
Print Assumptions C118_burner_refuted.
Theorem C118_freeze_refuted :
  exists md dao i0 b s l a n, dreached md dao i0 b s l /\ taken md l = 0 /\ tstaked (g_t s) a = n /\ 0 < n /\
    i_bal_of (g_i s) md = ttotal (g_t s) /\ g_handle md s b a (GTok (TUnstake n)) = Err "ContractFrozen".
Proof. exact freeze_in. Qed.
Print Assumptions C118_freeze_refuted.
Theorem C118_denied_votes_refuted :
  exists md dao i0 b s l a n, dreached md dao i0 b s l /\ taken md l = 0 /\ tstaked (g_t s) a = n /\ 0 < n /\
    t_power_at (g_t s) b a None = n /\ g_handle md s b a (GTok (TUnstake n)) = Err "Denied".
Proof. exact deny_votes. Qed.
Print Assumptions C118_denied_votes_refuted.
(** The DAO lets Carol mint; Alice takes some out at once, Bob with a delay. *)
Example C118_case :
  dreached md dao i0 (gb 20) us ul /\ forallb (restrained dao) ul = true /\
  ttotal (g_t us) = 60 /\ tunclaimed (g_t us) = 30 /\ given md ul = 5 /\ taken md ul = 0 /\
  i_bal_of (g_i us) md = 95 /\ i_bal_of (g_i us) alice = 60 /\ i_bal_of (g_i us) carol = 15 /\
  tstaked (g_t us) alice = 40 /\ due (gb 20) (g_t us) bob = 30 /\
  (exists s' subs, g_handle md us (gb 20) bob (GTok TClaim) = Ok (s', subs) /\ i_bal_of (g_i s') bob = 30).
Proof.
  split; [greach|]. do 10 (split; [vm_compute; reflexivity|]).
  eexists _, _. split; vm_compute; reflexivity.
Qed.
(** Forced transfers are what takes tokens from the module. *)
Example C118_case_taken :
  let l := snd (grun forced) in
  dreached md dao i0 (gb 9) (fst (grun forced)) l /\ taken md l = 60 /\
  exists pre b1 post subs, ECall pre b1 dao (GIss (IForce 60 md dao)) post subs ∈ l /\
    0 < ev_taken md (ECall pre b1 dao (GIss (IForce 60 md dao)) post subs).
Proof.
  cbn zeta. split; [greach|]. split; [vm_compute; reflexivity|].
  eexists _, _, _, _. split; [apply (elem_of_list_lookup_2 _ 2%nat); vm_compute; reflexivity|]. vm_compute. reflexivity.
Qed.
