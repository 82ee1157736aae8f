(** Claims about tokens staked in a module whose token is the issuer's. *)
From Verif Require Import Base BaseProofs Exec ExecProofs Plain PlainProofs VotingModel HooksModel
  StoreModel StoreProofs LedgerProofs ActiveModel TokModel TokSpec TokProofs TokClaims IssuerModel IssuerSpec IssuerProofs
  TokNewModel TokNewSpec TokNewProofs TokNewClaims GovTokModel GovTokSpec GovTokProofs.

Lemma reached_ginv md i0 b s l : greached md i0 b s l -> ginv md (i_bal_of i0 md) b s l.
Proof. intros (Hs & b0 & dao & src & d & thr & t0 & Ht & HL). by eapply ginv_leads. Qed.
Lemma reached_event md i0 b s l pre b1 a m post subs :
  greached md i0 b s l -> ECall pre b1 a m post subs ∈ l ->
  g_handle md pre b1 a m = Ok (post, subs) /\ i_self (g_i pre) <> md /\ t_denom (g_t pre) = i_denom (g_i pre).
Proof.
  intros (Hs & b0 & dao & src & d & thr & t0 & Ht & HL) Hin.
  set (Inv := fun b s => exists l, ginv md (i_bal_of i0 md) b s l).
  assert (forall b2 s2 a2 m2 s2' x2, Inv b2 s2 -> g_handle md s2 b2 a2 m2 = Ok (s2', x2) -> Inv b2 s2') as I1.
  { intros b2 s2 a2 m2 s2' x2 [l2 HI] Hh. eexists. by eapply ginv_call. }
  assert (forall b2 b3 s2, Inv b2 s2 -> block_le b2 b3 -> Inv b3 s2) as I2.
  { intros b2 b3 s2 [l2 []] [Hh _]. exists l2. split; try done. by eapply ledger_time. }
  assert (Inv b0 (g_start md t0 i0)) as I3 by (exists []; by eapply ginv_start).
  destruct (leads_call (g_handle md) Inv I1 I2 _ _ _ _ _ I3 HL _ _ _ _ _ _ Hin) as ([l1 []] & H2 & _). done.
Qed.

(** *** C118: what the module holds *)
Lemma c118_backing md i0 b s l : greached md i0 b s l ->
  i_bal_of (g_i s) md = i_bal_of i0 md + ttotal (g_t s) + tunclaimed (g_t s) + given md l - taken md l.
Proof. intros H%reached_ginv. apply H. Qed.
Lemma c118_takers md i0 b s l pre b1 a m post subs :
  greached md i0 b s l -> ECall pre b1 a m post subs ∈ l -> 0 < ev_taken md (ECall pre b1 a m post subs) ->
  (exists n to, m = GIss (IForce n md to) /\ o_owner (i_own (g_i pre)) = Some a) \/
  (exists n, m = GIss (IBurn md n) /\ n <= allowance (i_burn (g_i pre)) a) \/
  (exists n, m = GIss (XBurn md n) /\ a = i_admin (g_i pre) /\ a <> i_self (g_i pre)).
Proof.
  intros HR Hin Hp. destruct (reached_event _ _ _ _ _ _ _ _ _ _ _ HR Hin) as (H & Hs & _).
  destruct m as [m|m]; [done|]. apply iss_step in H as (_ & xs & H & _).
  destruct m; cbn [ev_taken] in Hp; try done; case_decide; try done; subst; cbn [i_handle] in H; cbn zeta in H; res_inv H.
  - right. left. eexists. split; [done|]. lia.
  - left. eexists _, _. split; [done|]. unfold is_owner in *. destruct (o_owner _) as [o|]; [|done].
    f_equal. by apply N.eqb_eq.
  - right. right. eexists. split; [done|].
    match goal with F : tf_burn _ _ _ _ = Ok _ |- _ => apply tf_burn_ok in F as (_ & _ & -> & _) end.
    split; [done|]. match goal with F : negb (_ =? _)%N = true |- _ => apply negb_true_iff, N.eqb_neq in F end. done.
Qed.

(** *** C118: the issuer does not reach voting power *)
Lemma c118_powers md i0 b s l bq h : greached md i0 b s l ->
  tsum_at (g_t s) bq h = t_total_at (g_t s) bq (Some h) /\
  forall pre b1 a m post subs, ECall pre b1 a m post subs ∈ l ->
    ((exists m', m = GIss m') \/ h <= height b1) ->
    (forall c, t_power_at (g_t post) bq c (Some h) = t_power_at (g_t pre) bq c (Some h)) /\
    t_total_at (g_t post) bq (Some h) = t_total_at (g_t pre) bq (Some h).
Proof.
  intros HR. split.
  { unfold tsum_at, t_power_at, t_total_at. cbn. apply (lg_snap _ _ _ (gi_led _ _ _ _ _ (reached_ginv _ _ _ _ _ HR)) h). }
  intros pre b1 a m post subs Hin Hm. destruct (reached_event _ _ _ _ _ _ _ _ _ _ _ HR Hin) as (H & Hs & Hd).
  unfold t_power_at, t_total_at. cbn. destruct m as [m|m].
  - destruct Hm as [[m' Hm]|Hm]; [done|].
    apply tok_step in H as (_ & i1 & n & t' & ts & _ & _ & Et & _ & _ & -> & _); [|done..].
    apply (tat_call _ _ _ _ _ _ h) in Et; [|done]. done.
  - apply iss_step in H as (_ & xs & _ & _ & ->). done.
Qed.

(** *** C118: leaving *)
Lemma passes_send i x y n : passes i x y -> n <= i_bal_of i x -> exists i', bank_send i x y n = Ok i'.
Proof.
  intros Hp Hn. assert (exists i', move i x y n = Ok i') as [i' E].
  { unfold move. rewrite (proj2 (Z.leb_le _ _)) by done. eauto. }
  exists i'. unfold bank_send. destruct (i_bhook i) as [h|] eqn:Eh; [|done]. destruct (N.eqb_spec h (i_self i)) as [->|]; [|done].
  destruct (Hp Eh) as (A & B & C). unfold before_send, not_frozen, not_denied.
  assert ((if i_frozen i && (i_denom i =? i_denom i)%N then
    match i_allow i !! x, i_allow i !! y with
    | Some true, _ => Ok tt | _, Some true => Ok tt | _, _ => Err "ContractFrozen" end else Ok tt) = Ok tt) as ->.
  { destruct (i_frozen i); [|done]. rewrite N.eqb_refl. cbn. destruct (A eq_refl) as [->| ->]; [done|].
    by destruct (i_allow i !! x) as [[]|]. }
  destruct (i_deny i !! x) as [[]|]; [done| |]; (destruct (i_deny i !! y) as [[]|]; [done|done|done]).
Qed.
Lemma c118_unstake md i0 b s l a x :
  greached md i0 b s l -> a <> md -> 0 < x <= tstaked (g_t s) a ->
  (t_dur (g_t s) = None -> 0 <= i_bal_of i0 md /\ taken md l = 0 /\ passes (g_i s) md a) ->
  (t_dur (g_t s) <> None -> Z.of_nat (length (claims_of (t_claims (g_t s)) a)) < 100) ->
  exists s' subs, g_handle md s b a (GTok (TUnstake x)) = Ok (s', subs) /\
    tstaked (g_t s') a = tstaked (g_t s) a - x /\
    i_bal_of (g_i s') a = i_bal_of (g_i s) a + match t_dur (g_t s) with None => x | Some _ => 0 end /\
    twaiting (g_t s') a = twaiting (g_t s) a + match t_dur (g_t s) with None => 0 | Some _ => x end.
Proof.
  intros HR Ha Hx Hn Hc. destruct (reached_ginv _ _ _ _ _ HR) as [HL HC _ Hs Hd HB Hg _].
  pose proof (ledger_le _ _ _ a HL) as Hle. pose proof (lg_max _ _ _ HL) as Hmax.
  assert (0 <= tunclaimed (g_t s)) as Hu.
  { apply msum_nonneg. intros k v Hk. apply lsum_nonneg. intros c Hin. apply (HC k). unfold claims_of. by rewrite Hk. }
  rewrite tstaked_get in *. rewrite ttotal_get in *.
  unfold g_handle. replace (a =? md)%N with false by (symmetry; by apply N.eqb_neq). cbn [negb apart pay_in has].
  cbn [t_handle]. rewrite (proj2 (fits_ok x)) by lia. unfold t_unstake. cbn [t_bals t_total t_dur t_claims t_dao t_denom t_thr t_hooks t_held hold].
  destruct (x =? 0) eqn:E0; [lia|]. cbn [negb]. rewrite !sub128_eq by lia. destruct (t_dur (g_t s)) as [d|].
  - unfold TOK_MAX_CLAIMS. rewrite (proj2 (Z.ltb_lt _ _)) by (specialize (Hc ltac:(done)); lia).
    unfold t_hook_msgs. rewrite pay_hooks. eexists _, _. split; [done|]. cbn [g_t g_i].
    rewrite tstaked_get. cbn [t_bals hold]. rewrite smap_get_save, decide_True by done. split; [done|]. split; [lia|].
    unfold twaiting, create_claim. cbn [t_claims hold]. unfold claims_of at 1. rewrite lookup_insert. cbn [default from_option id]. rewrite lsum_app. cbn. lia.
  - destruct (Hn eq_refl) as (H1 & H2 & H3). unfold t_leave. cbn [t_held]. rewrite (proj2 (Z.leb_le x _)) by lia.
    cbn [pay_out]. destruct (passes_send _ _ _ x H3) as [i' E]; [lia|]. rewrite E. unfold t_hook_msgs. rewrite pay_hooks.
    eexists _, _. split; [done|]. cbn [g_t g_i]. rewrite tstaked_get. cbn [t_bals hold].
    rewrite smap_get_save, decide_True by done. split; [done|]. apply send_bal in E as (_ & _ & E).
    rewrite E, decide_False, decide_True by done. split; [lia|]. unfold twaiting. cbn. lia.
Qed.
Lemma c118_collect md i0 b s l a :
  greached md i0 b s l -> a <> md -> 0 < due b (g_t s) a <= U128_MAX ->
  0 <= i_bal_of i0 md -> taken md l = 0 -> passes (g_i s) md a ->
  exists s' subs, g_handle md s b a (GTok TClaim) = Ok (s', subs) /\
    i_bal_of (g_i s') a = i_bal_of (g_i s) a + due b (g_t s) a /\
    twaiting (g_t s') a = twaiting (g_t s) a - due b (g_t s) a.
Proof.
  intros HR Ha Hx Hn Ht Hp. destruct (reached_ginv _ _ _ _ _ HR) as [HL HC _ Hs Hd HB Hg _].
  pose proof (ledger_le _ _ _ a HL) as Hle. rewrite ttotal_get in *.
  assert (due b (g_t s) a <= i_bal_of (g_i s) md) as Hb.
  { pose proof (lsum_filter_split cl_amount (mature b) (claims_of (t_claims (g_t s)) a)) as S.
    pose proof (claims_sum_ge _ a HC) as G. rewrite <-tunclaimed_get in G.
    assert (0 <= lsum cl_amount (List.filter (fun c => negb (mature b c)) (claims_of (t_claims (g_t s)) a))).
    { apply lsum_nonneg. intros c' [Hc' _]%elem_of_filter_b. by apply (HC a). }
    unfold due, mature in *. lia. }
  unfold g_handle. replace (a =? md)%N with false by (symmetry; by apply N.eqb_neq). cbn [negb apart pay_in has t_handle].
  unfold t_claim, claim_tokens. cbn [t_bals t_total t_dur t_claims t_dao t_denom t_thr t_hooks t_held hold].
  change (lsum cl_amount (List.filter (mature b) (claims_of (t_claims (g_t s)) a))) with (due b (g_t s) a). rewrite (proj2 (Z.leb_le (due _ _ _) U128_MAX)) by lia.
  destruct (due b (g_t s) a =? 0) eqn:E0; [lia|]. cbn [negb]. unfold t_leave. cbn [t_held].
  rewrite (proj2 (Z.leb_le _ _)) by done. cbn [pay_out]. destruct (passes_send _ _ _ _ Hp Hb) as [i' E]. rewrite E.
  eexists _, _. split; [done|]. cbn [g_t g_i]. apply send_bal in E as (_ & _ & E).
  rewrite E, decide_False, decide_True by done. split; [lia|].
  unfold twaiting, claims_of. cbn. rewrite lookup_insert. cbn. fold (claims_of (t_claims (g_t s)) a).
  pose proof (lsum_filter_split cl_amount (mature b) (claims_of (t_claims (g_t s)) a)) as S. unfold due, mature in *. lia.
Qed.

(** *** C118: a DAO that keeps its hands off *)
Definition calm (dao : addr) (i : istate) : Prop :=
  (i_own i = Own (Some dao) None None \/ i_own i = Own None None None) /\
  (forall a, allowance (i_burn i) a = 0) /\ i_bhook i = None /\ i_admin i = i_self i.
Lemma calm_rest dao i i' : rest i' = rest i -> calm dao i -> calm dao i'.
Proof.
  intros (E1 & E2 & _ & _ & _ & _ & _ & _ & _ & E3 & E4 & E5)%rest_fields (A & B & C & D).
  unfold calm. rewrite E1, E2, E3, E4, E5. done.
Qed.
Lemma calm_owner dao i a : calm dao i -> is_owner (i_own i) a = true -> a = dao.
Proof. intros ([E|E] & _) H; rewrite E in H; cbn in H; [|done]. symmetry. by apply N.eqb_eq. Qed.
Lemma calm_call dao i b a m i' subs : calm dao i -> i_handle i b a m = Ok (i', subs) ->
  (a = dao -> over_holders m = false) ->
  calm dao i' /\ (forall n x y, m <> IForce n x y) /\ (forall x n, m <> IBurn x n) /\ (forall x n, m <> XBurn x n).
Proof.
  intros HC H Hd. pose proof (calm_owner _ _ a HC) as Ho. destruct HC as (A & B & C & D).
  destruct m; cbn [i_handle] in H; cbn zeta in H.
  - res_inv H. split; [|done].
    repeat match goal with
    | F : bank_send _ _ _ _ = Ok _ |- _ => apply bank_send_ok in F as [F _]
    | F : move _ _ _ _ = Ok _ |- _ => apply move_ok in F as (F & _)
    | F : tf_mint _ _ _ _ = Ok _ |- _ => apply tf_mint_ok in F as (F & _)
    end.
    eapply calm_rest; [done|]. eapply calm_rest; [done|]. done.
  - res_inv H. rewrite B in *. match goal with F : fits128 _ = true |- _ => apply fits_ok in F end. lia.
  - res_inv H. done.
  - res_inv H. done.
  - res_inv H. done.
  - res_inv H; specialize (Hd (Ho eq_refl)); done.
  - res_inv H; specialize (Hd (Ho eq_refl)); done.
  - res_inv H. split; [|done]. unfold calm. cbn [i_own i_burn i_bhook i_admin i_self set_own].
    split; [|done]. match goal with F : update_ownership _ _ _ _ = Ok _ |- _ => rename F into U end.
    destruct act; cbn in U.
    + destruct (is_owner _ _) eqn:Eo; [|done]. by specialize (Hd (Ho eq_refl)).
    + destruct A as [A|A]; rewrite A in U; done.
    + res_inv U. by right.
  - res_inv H. done.
  - res_inv H; specialize (Hd (Ho eq_refl)); done.
  - res_inv H; specialize (Hd (Ho eq_refl)); done.
  - res_inv H. done.
  - res_inv H. split; [|done]. match goal with F : bank_send _ _ _ _ = Ok _ |- _ => apply send_bal in F as [F _] end.
    by eapply calm_rest.
  - res_inv H. split; [|done]. match goal with F : tf_mint _ _ _ _ = Ok _ |- _ => apply tf_mint_ok in F as (F & _) end.
    by eapply calm_rest.
  - res_inv H. match goal with F : tf_burn _ _ _ _ = Ok _ |- _ => apply tf_burn_ok in F as (_ & _ & F & _) end.
    rewrite D in *. subst. by rewrite N.eqb_refl in *.
  - res_inv H. rewrite D in *. destruct (a =? i_self i)%N; done.
  - res_inv H. rewrite D in *. destruct (a =? i_self i)%N; done.
Qed.
Lemma dreached_g md dao i0 b s l : dreached md dao i0 b s l ->
  greached md i0 b s l /\ calm dao i0 /\ 0 <= i_bal_of i0 md.
Proof.
  intros (b0 & issuer & denom & d & thr & nt & t0 & N1 & N2 & N3 & HS & HL).
  pose proof (c116_owner _ _ _ _ _ _ _ _ _ _ HS) as E3.
  pose proof (c116_setup _ _ _ _ _ _ _ _ _ _ _ HS) as (_ & _ & E1 & _ & _ & E2 & E4 & _ & _ & U).
  apply setup_inv in HS as HS'. destruct HS' as ((_ & _ & P1 & P2 & _) & _).
  destruct U as (_ & U2 & _ & _ & _ & _ & U3 & U4).
  split; [|split].
  - split; [congruence|].
    assert (exists src, t_instantiate dao denom src d thr = Ok t0) as [src Ht].
    { clear -HS. unfold new_setup in HS. destruct (_ && _); [|done]. destruct (sum128 _ _) as [n|]; [|done].
      destruct (add128 _ _); [|done]. destruct (t_instantiate _ _ _ _ _) as [t|] eqn:E; [|done].
      destruct (i_run _ _ _ (setup_msgs _ _ _ _)); [|done]. destruct (i_run _ _ _ _); [|done].
      injection HS as <- _. eauto. }
    exists b0, dao, src, d, thr, t0. split; [|exact HL]. by rewrite E1.
  - split; [by left|]. done.
  - rewrite E4. unfold due_to, listed. assert (0 <= lsum (fun x => if decide (x.1 = md) then x.2 else 0) (nt_bals nt)).
    { apply lsum_nonneg. intros x Hx. case_decide; [|done]. specialize (P1 x Hx). lia. }
    case_decide; lia.
Qed.
Lemma calm_leads md dao i0 b0 t0 b s l : i_self i0 <> md -> t_denom t0 = i_denom i0 -> calm dao i0 ->
  leads (g_handle md) b0 (g_start md t0 i0) b s l -> forallb (restrained dao) l = true ->
  i_self (g_i s) <> md /\ t_denom (g_t s) = i_denom (g_i s) /\ calm dao (g_i s) /\ taken md l = 0.
Proof.
  intros Hs Hd HC HL. revert HL. apply (leads_ind (g_handle md) (fun b s l => forallb (restrained dao) l = true ->
    i_self (g_i s) <> md /\ t_denom (g_t s) = i_denom (g_i s) /\ calm dao (g_i s) /\ taken md l = 0)).
  - intros b1 s1 l1 a m s' subs IH Hh Hr. rewrite forallb_app in Hr. apply andb_prop in Hr as [Hr1 Hr].
    destruct (IH Hr1) as (I1 & I2 & I3 & I4).
    unfold taken. rewrite lsum_app, lsum_one. fold (taken md l1). destruct m as [m|m].
    + apply tok_step in Hh as (_ & i1 & n & t' & ts & _ & _ & _ & _ & _ & E1 & _ & E3 & E4 & _); [|done..].
      pose proof (rest_id _ _ E3) as [E5 E6]. rewrite E1. cbn. split; [congruence|]. split; [congruence|].
      split; [by eapply calm_rest|lia].
    + apply iss_step in Hh as (Ha & xs & Ei & _ & E1).
      destruct (iss_bal md _ _ _ _ _ _ s1 s' subs Ei I1 Ha) as (_ & E3 & E4 & _).
      assert (a = dao -> over_holders m = false) as R.
      { intros ->. cbn in Hr. rewrite N.eqb_refl in Hr. by destruct (over_holders m). }
      destruct (calm_call _ _ _ _ _ _ _ I3 Ei R) as (C1 & C2 & C3 & C4).
      rewrite E1. cbn [t_denom hold]. split; [congruence|]. split; [congruence|]. split; [done|].
      rewrite I4. destruct m; cbn; try done; naive_solver.
  - intros b1 s1 l1 x IH Hr. unfold taken. rewrite lsum_app, lsum_one. fold (taken md l1). cbn [ev_taken].
    rewrite forallb_app in Hr. apply andb_prop in Hr as [Hr1 _]. destruct (IH Hr1) as (I1 & I2 & I3 & I4). rewrite I4. done.
  - auto.
  - intros _. done.
Qed.
Lemma c118_restraint md dao i0 b s l : dreached md dao i0 b s l -> forallb (restrained dao) l = true ->
  greached md i0 b s l /\ 0 <= i_bal_of i0 md /\ taken md l = 0 /\
  ttotal (g_t s) + tunclaimed (g_t s) <= i_bal_of (g_i s) md /\ forall x y, passes (g_i s) x y.
Proof.
  intros HD Hr. destruct (dreached_g _ _ _ _ _ _ HD) as (HG & HC & H0).
  pose proof HG as (Hs & b1 & dao' & src & d & thr & t1 & Ht & HL).
  assert (t_denom t1 = i_denom i0) as Hd by (unfold t_instantiate in Ht; by res_inv Ht).
  destruct (calm_leads _ _ _ _ _ _ _ _ Hs Hd HC HL Hr) as (_ & _ & (_ & _ & C & _) & T).
  split; [done|]. split; [done|]. split; [done|]. split.
  - pose proof (c118_backing _ _ _ _ _ HG). pose proof (gi_given _ _ _ _ _ (reached_ginv _ _ _ _ _ HG)). lia.
  - intros x y F. by rewrite C in F.
Qed.
