(** Proofs about tokens staked in a module whose token is the issuer's. *)
From Verif Require Import Base BaseProofs Exec ExecProofs Plain PlainProofs VotingModel HooksModel
  StoreModel StoreProofs LedgerProofs ActiveModel TokModel TokSpec TokProofs IssuerModel IssuerSpec IssuerProofs
  TokNewModel GovTokModel GovTokSpec.

Lemma send_bal i x y n i' : bank_send i x y n = Ok i' ->
  rest i' = rest i /\ n <= i_bal_of i x /\
  forall a, i_bal_of i' a = i_bal_of i a - (if decide (a = x) then n else 0) + (if decide (a = y) then n else 0).
Proof. intros [H _]%bank_send_ok. apply move_ok in H as (A & _ & B & C). done. Qed.
Lemma rest_id i i' : rest i' = rest i -> i_self i' = i_self i /\ i_denom i' = i_denom i.
Proof. intros H%rest_fields. intuition. Qed.
Lemma pay_hooks md i f who n (hs : list addr) : pay_out md i (map (fun h => THook h f who n) hs) = Ok i.
Proof. induction hs; done. Qed.

Lemma lsum_one {A} (f : A -> Z) x : lsum f [x] = f x.
Proof. unfold lsum. cbn. lia. Qed.

(** What an issuer's call does to the module's balance. *)
Lemma iss_bal md i b a m i' subs (s s' : gstate) x :
  i_handle i b a m = Ok (i', subs) -> i_self i <> md -> a <> md ->
  i_bal_of i' md = i_bal_of i md + ev_given md (ECall s b a (GIss m) s' x) - ev_taken md (ECall s b a (GIss m) s' x) /\
  i_self i' = i_self i /\ i_denom i' = i_denom i /\
  0 <= ev_given md (ECall s b a (GIss m) s' x) /\ 0 <= ev_taken md (ECall s b a (GIss m) s' x).
Proof.
  intros H Hs Ha. destruct (handle_effect _ _ _ _ _ _ H) as [E1 E2 _ _ _ _ _ _ _].
  split; [|split; [done|split; [done|]]].
  all: destruct m; cbn [i_handle] in H; cbn zeta in H; res_inv H; cbn [ev_given ev_taken];
    repeat match goal with F : fits128 _ = true |- _ => apply fits_ok in F end;
    repeat case_decide; try lia; subst; try done.
  all: repeat match goal with
    | F : bank_send _ _ _ _ = Ok _ |- _ => apply send_bal in F as (_ & _ & F)
    | F : move _ _ _ _ = Ok _ |- _ => apply move_ok in F as (_ & _ & _ & F)
    | F : tf_mint _ _ _ _ = Ok _ |- _ => apply tf_mint_ok in F as (_ & _ & _ & F)
    | F : tf_burn _ _ _ _ = Ok _ |- _ => apply tf_burn_ok in F as (_ & _ & _ & _ & F)
    end.
  all: repeat match goal with F : forall a, i_bal_of _ a = _ |- _ => specialize (F md) end.
  all: repeat case_decide; try congruence; unfold i_bal_of in *; cbn in *; try lia.
Qed.

(** ** What the module's calls do *)
Lemma tok_step md s b a m s' subs :
  g_handle md s b a (GTok m) = Ok (s', subs) -> i_self (g_i s) <> md ->
  t_denom (g_t s) = i_denom (g_i s) -> a <> md /\
  exists i1 n t' tsubs, pay_in md (g_i s) a m = Ok i1 /\ n = has md i1 m /\
    t_handle (hold (g_t s) n) b a m = Ok (t', tsubs) /\ subs = map GT tsubs /\
    pay_out md i1 tsubs = Ok (g_i s') /\ g_t s' = hold t' (i_bal_of (g_i s') md) /\
    i_bal_of (g_i s') md = i_bal_of (g_i s) md + (ttotal t' + tunclaimed t') - (ttotal (g_t s) + tunclaimed (g_t s)) /\
    rest (g_i s') = rest (g_i s) /\ t_denom t' = t_denom (g_t s) /\
    (forall d, m <> TDonate d).
Proof.
  intros H Hi Hd. unfold g_handle in H. destruct (N.eqb_spec a md) as [|Ha]; [done|]. cbn [negb] in H. split; [done|].
  destruct (apart (g_i s) m) eqn:Ea; [|done]. destruct (pay_in md (g_i s) a m) as [i1|] eqn:Ei; [|done].
  destruct (t_handle _ b a m) as [[t' ts]|] eqn:Et; [|done]. destruct (pay_out md i1 ts) as [i2|] eqn:Eo; [|done].
  injection H as <- <-. cbn [g_i g_t]. exists i1, (has md i1 m), t', ts. do 6 (split; [done|]).
  destruct m as [funds|n|d| |t sup|h|h|n]; cbn [has] in Et; [| | | | | | |done].
  - apply tstake_step in Et as (n & -> & Hn & _ & _ & _ & -> & ->). cbn [t_hooks hold] in Eo. rewrite pay_hooks in Eo.
    injection Eo as <-. cbn [pay_in t_denom hold] in Ei. rewrite <-Hd, N.eqb_refl in Ei.
    apply send_bal in Ei as (E1 & _ & E3). specialize (E3 md). rewrite decide_False, decide_True in E3 by done.
    split; [|done]. unfold ttotal, tunclaimed. cbn. rewrite E3. unfold ttotal. cbn. lia.
  - cbn in Ei. injection Ei as <-.
    apply tunstake_step in Et as (_ & _ & _ & _ & E1 & _ & E2 & _ & _ & _ & [(_ & _ & _ & E3 & ->)|(d & _ & _ & _ & E3 & ->)]).
    + cbn [pay_out] in Eo. destruct (bank_send _ _ _ _) as [i3|] eqn:E; [|done]. rewrite pay_hooks in Eo. injection Eo as <-.
      apply send_bal in E as (F1 & _ & F3). specialize (F3 md). rewrite decide_True, decide_False in F3 by congruence.
      split; [|done]. unfold tunclaimed. rewrite ttotal_get, E1, E3, F3, snap_get_save. unfold ttotal. cbn. lia.
    + rewrite pay_hooks in Eo. injection Eo as <-. split; [|done].
      rewrite ttotal_get, E1, snap_get_save, !tunclaimed_get, E3, claims_sum_create. unfold ttotal. cbn. lia.
  - cbn in Ei. injection Ei as <-. apply tquiet_step in Et as (_ & _ & E1 & E2 & _ & E3 & _ & ->); [|done].
    injection Eo as <-. split; [|done]. unfold ttotal, tunclaimed. rewrite E1, E2. cbn. lia.
  - cbn in Ei. injection Ei as <-. apply tclaim_step in Et as (_ & _ & E1 & -> & ->).
    cbn [pay_out] in Eo. destruct (bank_send _ _ _ _) as [i3|] eqn:E; [|done]. injection Eo as <-.
    apply send_bal in E as (F1 & _ & F3). specialize (F3 md). rewrite decide_True, decide_False in F3 by congruence.
    split; [|done]. rewrite !tunclaimed_get, F3, E1. unfold ttotal. cbn. lia.
  - cbn in Ei. injection Ei as <-. apply tquiet_step in Et as (_ & _ & E1 & E2 & _ & E3 & _ & ->); [|done].
    injection Eo as <-. split; [|done]. unfold ttotal, tunclaimed. rewrite E1, E2. cbn. lia.
  - cbn in Ei. injection Ei as <-. apply tquiet_step in Et as (_ & _ & E1 & E2 & _ & E3 & _ & ->); [|done].
    injection Eo as <-. split; [|done]. unfold ttotal, tunclaimed. rewrite E1, E2. cbn. lia.
  - cbn in Ei. injection Ei as <-. apply tquiet_step in Et as (_ & _ & E1 & E2 & _ & E3 & _ & ->); [|done].
    injection Eo as <-. split; [|done]. unfold ttotal, tunclaimed. rewrite E1, E2. cbn. lia.
Qed.
Lemma iss_step md s b a m s' subs :
  g_handle md s b a (GIss m) = Ok (s', subs) -> a <> md /\
  exists isubs, i_handle (g_i s) b a m = Ok (g_i s', isubs) /\ subs = map GI isubs /\
    g_t s' = hold (g_t s) (i_bal_of (g_i s') md).
Proof.
  intros H. unfold g_handle in H. destruct (N.eqb_spec a md) as [|Ha]; [done|]. cbn [negb] in H. split; [done|].
  destruct (i_handle _ b a m) as [[i' x]|] eqn:Et; [|done]. injection H as <- <-. eauto.
Qed.

(** ** Over a history *)
Record ginv (md : addr) (n0 : Z) (b : block) (s : gstate) (l : glog) : Prop := GInv {
  gi_led : ledger (height b) (t_bals (g_t s)) (t_total (g_t s));
  gi_cpos : claims_pos (t_claims (g_t s));
  gi_held : t_held (g_t s) = i_bal_of (g_i s) md;
  gi_self : i_self (g_i s) <> md;
  gi_denom : t_denom (g_t s) = i_denom (g_i s);
  gi_bal : i_bal_of (g_i s) md = n0 + ttotal (g_t s) + tunclaimed (g_t s) + given md l - taken md l;
  gi_given : 0 <= given md l;
  gi_taken : forall e, e ∈ l -> 0 <= ev_taken md e }.
(** What the ledger of a module needs of the coins held is nothing. *)
Lemma led_call b t n a m t' subs :
  ledger (height b) (t_bals t) (t_total t) -> claims_pos (t_claims t) ->
  t_handle (hold t n) b a m = Ok (t', subs) ->
  ledger (height b) (t_bals t') (t_total t') /\ claims_pos (t_claims t').
Proof.
  intros HL HC H. destruct m as [funds|x|d| |th sup|h|h|x].
  - apply tstake_step in H as (k & _ & Hn & Hh & H1 & H2 & -> & ->).
    pose proof (ledger_le _ _ _ a HL). rewrite tstaked_get, ttotal_get in *. cbn in *. split; [|done].
    apply ledger_save; [done|lia|lia|lia].
  - apply tunstake_step in H as (Hx & Hs & Ht & Eb & Et & _ & _ & _ & _ & _ & Hc).
    pose proof (ledger_le _ _ _ a HL) as Hle. pose proof (lg_max _ _ _ HL).
    rewrite tstaked_get, ttotal_get in *. cbn in *. split; rewrite ?Eb, ?Et.
    + apply ledger_save; [done|lia|lia|lia].
    + destruct Hc as [(_ & _ & _ & -> & _)|(d & _ & _ & _ & -> & _)]; [done|]. apply claims_pos_create; [done|lia].
  - apply tquiet_step in H as (_ & E1 & E2 & E3 & E4 & _); [|done]. rewrite E1, E2, E3. done.
  - apply tclaim_step in H as (H0 & Hh & Hs & -> & _). cbn. split; [done|].
    apply claims_pos_insert; [done|]. intros c [Hc _]%elem_of_filter_b. eauto.
  - apply tquiet_step in H as (_ & E1 & E2 & E3 & E4 & _); [|done]. rewrite E1, E2, E3. done.
  - apply tquiet_step in H as (_ & E1 & E2 & E3 & E4 & _); [|done]. rewrite E1, E2, E3. done.
  - apply tquiet_step in H as (_ & E1 & E2 & E3 & E4 & _); [|done]. rewrite E1, E2, E3. done.
  - apply tdonate_step in H as (H0 & H1 & _ & ->). done.
Qed.
Lemma ginv_call md n0 b s l a m s' subs :
  ginv md n0 b s l -> g_handle md s b a m = Ok (s', subs) ->
  ginv md n0 b s' (l ++ [ECall s b a m s' subs]).
Proof.
  intros [] H. destruct m as [m|m].
  - apply tok_step in H as (Ha & i1 & n & t' & ts & _ & _ & Et & _ & _ & E1 & E2 & E3 & E4 & _); [|done..].
    apply led_call in Et as [L C]; [|done..]. apply rest_id in E3 as [E5 E6].
    split; rewrite ?E1; cbn; try done.
    + congruence.
    + congruence.
    + unfold given, taken. rewrite !lsum_app. cbn. fold (given md l) (taken md l). rewrite E2.
      unfold ttotal, tunclaimed in *. cbn. lia.
    + unfold given. rewrite lsum_app. cbn. fold (given md l). lia.
    + intros e [?|Ee%elem_of_list_singleton]%elem_of_app; [eauto|by rewrite Ee].
  - apply iss_step in H as (Ha & xs & Ei & _ & E1).
    destruct (iss_bal md _ _ _ _ _ _ s s' subs Ei gi_self0 Ha) as (E2 & E3 & E4 & E5 & E6).
    split; rewrite ?E1; cbn [t_bals t_total t_claims t_held t_denom hold]; try done.
    + congruence.
    + congruence.
    + unfold given, taken. rewrite !lsum_app, !lsum_one. fold (given md l) (taken md l). rewrite E2.
      change (ttotal (hold _ _)) with (ttotal (g_t s)). change (tunclaimed (hold _ _)) with (tunclaimed (g_t s)). lia.
    + unfold given. rewrite lsum_app, lsum_one. fold (given md l). lia.
    + intros e [?|Ee%elem_of_list_singleton]%elem_of_app; [eauto|by rewrite Ee].
Qed.
Lemma ginv_start md i0 dao src d thr t0 b :
  i_self i0 <> md -> t_instantiate dao (i_denom i0) src d thr = Ok t0 ->
  ginv md (i_bal_of i0 md) b (g_start md t0 i0) [].
Proof.
  intros Hs H. unfold t_instantiate in H. res_inv H. all: split; cbn; try done; try (by apply ledger_empty; left).
  all: try apply claims_pos_empty. all: try (intros e Hee; by apply elem_of_nil in Hee).
  all: change (tunclaimed _) with 0; unfold ttotal; cbn; lia.
Qed.
Lemma ginv_leads md i0 b0 dao src d thr t0 b s l :
  i_self i0 <> md -> t_instantiate dao (i_denom i0) src d thr = Ok t0 ->
  leads (g_handle md) b0 (g_start md t0 i0) b s l -> ginv md (i_bal_of i0 md) b s l.
Proof.
  intros Hs Ht HL. revert HL. apply (leads_ind (g_handle md) (ginv md (i_bal_of i0 md))).
  - intros. by apply ginv_call.
  - intros b1 s1 l1 x []. split; try done.
    + unfold given, taken. rewrite !lsum_app. cbn. fold (given md l1) (taken md l1). lia.
    + unfold given. rewrite !lsum_app. cbn. fold (given md l1). lia.
    + intros e [?|Ee%elem_of_list_singleton]%elem_of_app; [eauto|by rewrite Ee].
  - intros b1 b2 s1 l1 [] [Hh _]. split; try done. by eapply ledger_time.
  - by eapply ginv_start.
Qed.
