(** cw-fund-distributor together with a voting module: proofs. *)
From Verif Require Import Base BaseProofs Exec ExecProofs Plain PlainProofs Compose Project ComposeProofs
  StoreModel FundModel FundSpec FundProofs FundClaims FundOnModel FundOnSpec.

(** ** The distributor by itself *)
Lemma g_keeps w s b a m s' subs :
  g_handle w s b a m = Ok (s', subs) -> (forall h, m <> GRedistribute h) -> g_height s' = g_height s.
Proof.
  intros H Hm.
  assert (forall ts, g_do_claim w s b a ts = Ok (s', subs) -> g_height s' = g_height s) as K.
  { intros ts Hc. unfold g_do_claim in Hc. destruct (is_expired _ _); [|done].
    destruct (g_share w s b a) as [sh|]; [|done]. by apply loop_ok in Hc as (-> & _). }
  destruct m as [from n|funds|ts|ts| |h|t n]; cbn in H.
  - unfold fits128 in H. destruct (_ && _) eqn:Ef in H; [|done]. destruct (is_expired _ _); [done|]. cbn in H.
    destruct (g_add _ _ _) as [s1|] eqn:E; [|done]. injection H as <- <-.
    apply andb_true_iff in Ef as [Ef _]. apply add_ok in E as (-> & _); [done|lia].
  - destruct (is_expired _ _); [done|]. cbn in H. destruct (g_add_all _ _) as [s1|] eqn:E; [|done].
    injection H as <- <-. by apply add_all_ok in E as (-> & _).
  - destruct ts as [|x ts]; [done|]. exact (K (map (pair true) (x :: ts)) H).
  - destruct ts as [|x ts]; [done|]. exact (K (map (pair false) (x :: ts)) H).
  - exact (K _ H).
  - by destruct (Hm h).
  - unfold fits128 in H. destruct (_ && _) in H; [|done].
    destruct (g_arrive _ _ _) as [s1|] eqn:E; [|done]. injection H as <- <-. by apply arrive_ok in E as (-> & _).
Qed.
Lemma claimed_app a t l e :
  has_claimed a t (l ++ [e]) -> has_claimed a t l \/
  exists s b m s' subs, e = ECall s b a m s' subs /\ is_claim m = true /\ asks m t.
Proof.
  intros (s & b & m & s' & subs & [Hin|Hin]%elem_of_app & Hm & Ha).
  - left. exists s, b, m, s', subs. done.
  - right. apply elem_of_list_singleton in Hin as <-. exists s, b, m, s', subs. done.
Qed.
Lemma not_claimed_nil a t : ~ has_claimed a t [].
Proof. intros (s & b & m & s' & subs & Hin & _). by apply elem_of_nil in Hin. Qed.

(** Who has claimed holds the rounded share. *)
Definition settled (w : world) (b : block) (s : gstate) (l : glog) : Prop :=
  forall a t, has_claimed a t (this_round l) ->
    is_expired (g_dead s) b = true /\ g_height s <= height b /\
    g_claim s a t = floor_share (g_bal s t) (w_pow w b (g_height s) a) (g_total s).
Lemma settled_call w b s l a m s' subs :
  voting_ok w -> ginv w b s l -> g_handle w s b a m = Ok (s', subs) ->
  past_height (ECall s b a m s' subs) -> settled w b s l -> settled w b s' (l ++ [ECall s b a m s' subs]).
Proof.
  intros HV HI H HP HS. pose proof (ginv_call _ _ _ _ _ _ _ _ HV HI H) as HI'.
  destruct (c53_periods _ _ _ _ _ _ _ H) as (Q1 & Q2 & Q3 & Q4 & Q5).
  destruct (is_redist (ECall s b a m s' subs)) eqn:Er.
  { intros a' t Hc. rewrite round_app, Er in Hc. by apply not_claimed_nil in Hc. }
  assert (forall h, m <> GRedistribute h) as Hm by (intros h ->; by cbn in Er).
  pose proof (g_keeps _ _ _ _ _ _ _ H Hm) as Hh.
  intros a' t Hc. rewrite round_other in Hc by done. rewrite Q4, Q5, Hh.
  destruct (is_claim m) eqn:Em.
  - pose proof (HP Em) as Hp. split; [by apply Q1|]. split; [done|].
    destruct (handle_claim _ _ _ _ _ _ _ Em H) as (ts & Hd & B1 & B2).
    unfold g_do_claim in Hd. destruct (is_expired (g_dead s) b) eqn:Ex; [|done].
    destruct (g_share w s b a) as [sh|] eqn:Es; [|done].
    apply loop_ok in Hd as (_ & _ & _ & E4 & _ & E5 & _).
    assert (g_bal s' t = g_bal s t) as -> by (unfold g_bal; by rewrite E4).
    rewrite E5. destruct (decide (a' = a /\ t ∈ ts)) as [[-> Hin]|Hn].
    { apply full_floor; [apply HI|done]. }
    apply claimed_app in Hc as [Hc|(s1 & b1 & m1 & s2 & subs1 & [= <- <- <- <- <- <-] & _ & Ha)].
    { by apply HS. }
    destruct (g_bals s !! t) as [n|] eqn:Eb.
    { destruct Hn. split; [done|]. apply B1; [done|]. by exists n. }
    assert (g_claim s a t = 0) as ->.
    { destruct (Z.eq_dec (g_claim s a t) 0) as [|Hz]; [done|]. apply (gi_key _ _ _ _ HI) in Hz.
      rewrite Eb in Hz. by destruct Hz. }
    unfold floor_share, g_bal. rewrite Eb. done.
  - apply claimed_app in Hc as [Hc|(s1 & b1 & m1 & s2 & subs1 & [= <- <- <- <- <- <-] & Hx & _)]; [|congruence].
    destruct (HS _ _ Hc) as (C1 & C2 & C3). split; [done|]. split; [done|].
    assert (g_bal s' t = g_bal s t) as ->.
    { destruct (Z.eq_dec (g_bal s' t) (g_bal s t)) as [|Hz]; [done|].
      destruct (Q3 _ Hz) as [Hz'|[h ->]]; [congruence|by destruct (Hm h)]. }
    rewrite <-C3, (gi_claim _ _ _ _ HI'), (gi_claim _ _ _ _ HI), round_other by done.
    unfold paid_to. rewrite lsum_app. cbn.
    assert (subs = []) as ->; [|cbn; lia]. destruct subs as [|x subs]; [done|]. exfalso. by specialize (Q2 ltac:(done)).
Qed.
Lemma settled_all w b s l : greached w b s l -> Forall past_height l -> settled w b s l.
Proof.
  intros (b0 & h & period & s0 & HV & Hi & HL).
  assert (ginv w b s l /\ (Forall past_height l -> settled w b s l)) as [_ H]; [|exact H].
  assert (ginv w b0 s0 []) as H0.
  { apply greached_inv. exists b0, h, period, s0. split; [done|]. split; [done|].
    apply leads_refl, block_le_refl. }
  revert HL. apply (leads_ind (g_handle w) (fun b s l => ginv w b s l /\ (Forall past_height l -> settled w b s l))).
  - intros b1 s1 l1 a m s2 subs [HI HS] H. split; [exact (ginv_call _ _ _ _ _ _ _ _ HV HI H)|].
    intros [HP1 HP2]%Forall_app. exact (settled_call _ _ _ _ _ _ _ _ HV HI H (Forall_inv HP2) (HS HP1)).
  - intros b1 s1 l1 x [HI HS].
    assert (this_round (l1 ++ [ESub s1 b1 x true s1]) = this_round l1 ++ [ESub s1 b1 x true s1]) as Er
      by by rewrite round_app.
    split.
    { destruct HI as [A1 A2 A3 A4 A5 A6 A7 A0 A8 A9 A10 A11].
      assert (forall (f : gevent -> Z) (l0 : glog), lsum f (l0 ++ [ESub s1 b1 x true s1]) = lsum f l0 + f (ESub s1 b1 x true s1)) as Hs.
      { intros f l0. rewrite lsum_app. cbn. lia. }
      split; try done; unfold pool, funded, given, paid, paid_to; rewrite ?Er, ?Hs; cbn.
      - intros t. rewrite !Hs. cbn. rewrite !Z.add_0_r. apply A3.
      - intros a t. rewrite Hs. cbn. rewrite Z.add_0_r. apply A4.
      - intros t. rewrite Hs. cbn. rewrite Z.add_0_r. apply A5.
      - intros t. rewrite !Hs. cbn. rewrite !Z.add_0_r. apply A6.
      - intros t. rewrite Hs. cbn. rewrite Z.add_0_r. apply A7.
      - intros Hp. apply Forall_app in Hp as [Hp _]. by apply A10.
      - intros Hp Hg. apply Forall_app in Hp as [Hp _]. apply Forall_app in Hg as [Hg _]. by apply A11. }
    intros [HP _]%Forall_app a t Hc. rewrite Er in Hc. apply claimed_app in Hc as [Hc|Hc]; [by apply HS|naive_solver].
  - intros b1 b2 s1 l1 [HI HS] Hb. split; [by eapply ginv_time|]. intros HP a t Hc.
    destruct (HS HP a t Hc) as (C1 & C2 & C3). split; [by eapply is_expired_mono|].
    split; [destruct Hb; lia|]. rewrite C3. f_equal. symmetry. by apply HV.
  - split; [done|]. intros _ a t Hc. by apply not_claimed_nil in Hc.
Qed.

(** Claims of different people are at most what is recorded. *)
Lemma lsum_within (f : addr -> Z) (ks l : list addr) :
  (forall a, 0 <= f a) -> (forall a, a ∉ ks -> f a = 0) -> NoDup l -> lsum f l <= lsum f ks.
Proof.
  intros Hf Hz Hl.
  assert (lsum f l = lsum f (filter (fun a => a ∈ ks) l)) as ->.
  { clear Hl. induction l as [|x l IH]; [done|]. rewrite filter_cons. simpl.
    destruct (decide (x ∈ ks)) as [Hin|Hin]; simpl; [lia|]. rewrite (Hz x Hin). lia. }
  assert (filter (fun a => a ∈ ks) l ⊆+ ks) as (k & Hk)%submseteq_Permutation.
  { apply NoDup_submseteq; [by apply NoDup_filter|]. by intros x [? _]%elem_of_list_filter. }
  rewrite (lsum_perm _ _ _ Hk), lsum_app. pose proof (lsum_nonneg f k ltac:(auto)). lia.
Qed.
Lemma claims_within s t us :
  (forall a, 0 <= g_claim s a t) -> NoDup us -> lsum (fun a => g_claim s a t) us <= csum t s.
Proof.
  intros H0 Hn. unfold csum. destruct (csum_list (g_claims s) t) as (vs & _ & Hin & ->).
  apply (lsum_within (fun a => g_claim s a t) vs us); [done| |done].
  intros a Ha. unfold g_claim. destruct (g_claims s !! (a, t)) as [n|] eqn:E; [|done].
  destruct Ha. apply Hin. by exists n.
Qed.
Lemma lsum_shares (pow got : addr -> Z) (T P : Z) us :
  (forall a, a ∈ us -> P * pow a * DEC <= (got a + 1) * T * DEC + P * T) ->
  P * lsum pow us * DEC <= (lsum got us + Z.of_nat (length us)) * T * DEC + Z.of_nat (length us) * (P * T).
Proof.
  induction us as [|a us IH]; intros H; cbn [lsum length]; [lia|].
  pose proof (H a ltac:(by left)). assert (forall x, x ∈ us -> P * pow x * DEC <= (got x + 1) * T * DEC + P * T) as H'.
  { intros x Hx. apply H. by right. }
  apply IH in H'. rewrite Nat2Z.inj_succ. lia.
Qed.

(** What is paid, for one world. *)
Lemma pays_world w b s l :
  greached w b s l -> Forall past_height l -> Forall (fair w) l ->
  pays (w_pow w b (g_height s)) (g_total s) s l.
Proof.
  intros HR HP HF. pose proof (settled_all _ _ _ _ HR HP) as HS.
  pose proof (greached_inv _ _ _ _ HR) as [(V1 & _) HI].
  assert (forall t, 0 <= g_bal s t) as HB by (intros t; apply HI).
  assert (forall a t, has_claimed a t (this_round l) -> pool t l * w_pow w b (g_height s) a * 10 ^ 18 <=
    (paid_to a t (this_round l) + 1) * g_total s * 10 ^ 18 + pool t l * g_total s) as H3.
  { intros a t Hc. destruct (HS _ _ Hc) as (_ & _ & C).
    rewrite <-(gi_claim _ _ _ _ HI), <-(gi_pool _ _ _ _ HI), C. apply floor_share_gt; [done|done|apply HI]. }
  split; [|split; [|split; [exact H3|]]].
  - intros t. destruct (c53_total _ _ _ _ t HR HP HF) as (A & B & _). done.
  - intros a t. by apply (c53_share _ _ _ _ a t HR HP).
  - intros us t Hn HT Hc.
    pose proof (lsum_shares (w_pow w b (g_height s)) (fun a => paid_to a t (this_round l)) (g_total s) (pool t l) us) as K.
    specialize (K ltac:(intros a Ha; exact (H3 a t (Hc a Ha)))).
    assert (lsum (fun a => paid_to a t (this_round l)) us <= paid t (this_round l)) as Hle.
    { rewrite <-(gi_csum _ _ _ _ HI). etransitivity; [|apply claims_within; [intros a; apply HI|exact Hn]].
      apply Z.eq_le_incl, lsum_ext. intros a _. symmetry. apply HI. }
    pose proof (gi_total _ _ _ _ HI) as [HT0 _]. pose proof (HB t) as HB0. rewrite (gi_pool _ _ _ _ HI) in HB0.
    set (P := pool t l) in *. set (G := lsum (fun a => paid_to a t (this_round l)) us) in *. set (D := paid t (this_round l)) in *.
    set (n := Z.of_nat (length us)) in *. set (W := lsum (w_pow w b (g_height s)) us) in *. set (T := g_total s) in *.
    change (10 ^ 18) with DEC in *. pose proof DEC_pos as HD.
    assert (P * T * DEC <= P * W * DEC) as K1.
    { apply Z.mul_le_mono_nonneg_r; [lia|]. apply Z.mul_le_mono_nonneg_l; lia. }
    assert ((P * DEC) * T <= ((D + n) * DEC + n * P) * T) as K2.
    { assert ((G + n) * T * DEC <= (D + n) * T * DEC); [|lia].
      apply Z.mul_le_mono_nonneg_r; [lia|]. apply Z.mul_le_mono_nonneg_r; lia. }
    apply Z.mul_le_mono_pos_r in K2; [|lia]. lia.
Qed.

(** ** Joined *)
Definition own_height (h : Z) (a : addr) (m : gmsg) : Prop :=
  match m with GRedistribute h' => h' = h | _ => True end.
Lemma own_height_call w h s b a m s' subs :
  own_height h a m -> g_handle w s b a m = Ok (s', subs) -> g_height s = h -> g_height s' = h.
Proof.
  intros HP E A. destruct m as [from n|funds|ts|ts| |h1|tk n];
    try (rewrite (g_keeps _ _ _ _ _ _ _ E); [done|by intros]; fail).
  cbn in HP. subst h1. cbn in E. destruct (_ && _) in E; [|done]. destruct (g_settle _ _); [|done].
  by injection E as <- <-.
Qed.
Section on.
  Context {T MV XV : Type}.
  Variable handle_v : T -> block -> addr -> MV -> result (T * list XV).
  Variable power : T -> addr -> Z -> Z.
  Variable total : T -> Z -> Z.
  Variable vreached : block -> T -> log T MV XV -> Prop.
  Hypothesis v_stable : forall t b a m t' subs h,
    handle_v t b a m = Ok (t', subs) -> h <= height b ->
    (forall a', power t' a' h = power t a' h) /\ total t' h = total t h.
  Hypothesis v_app : forall b t l b' t' l',
    vreached b t l -> leads handle_v b t b' t' l' -> vreached b' t' (l ++ l').
  Hypothesis v_sane : forall b t l, vreached b t l ->
    (forall a h, 0 <= power t a h) /\ (forall h, total t h <= U128_MAX) /\
    (forall h vs, NoDup vs -> lsum (fun a => power t a h) vs <= total t h).
  Notation world_of := (fo_world power total).
  Notation from := (fo_from handle_v power total).
  Notation reached := (fo_reached handle_v power total vreached).

  Lemma world_ok bad b t l : vreached b t l -> voting_ok (world_of bad t).
  Proof.
    intros HV. destruct (v_sane _ _ _ HV) as (A & B & C). split; [|split; [|split]]; cbn; [auto| |auto|auto].
    intros _ h. split; [exact (C h [] NoDup_nil_2)|auto].
  Qed.
  Definition wagree (b : block) (w w' : world) : Prop :=
    w_bad w = w_bad w' /\ forall h, h <= height b ->
      (forall b1 a, w_pow w b1 h a = w_pow w' b1 h a) /\ (forall b1, w_tot w b1 h = w_tot w' b1 h).
  Lemma wagree_call b w w' s a m :
    wagree b w w' -> g_height s <= height b -> g_handle w s b a m = g_handle w' s b a m.
  Proof.
    intros [Hb HA] Hh.
    assert (forall ts, g_do_claim w s b a ts = g_do_claim w' s b a ts) as K.
    { intros ts. unfold g_do_claim. destruct (is_expired _ _); [|done].
      assert (g_share w s b a = g_share w' s b a) as ->.
      { unfold g_share. by destruct (HA _ Hh) as [-> _]. }
      destruct (g_share w' s b a) as [sh|]; [|done]. cbn. clear Hh. revert s. induction ts as [|t ts IH]; [done|].
      intros s. cbn [g_claim_loop].
      assert (g_claim1 w s a sh t = g_claim1 w' s a sh t) as ->; [|].
      { unfold g_claim1. by rewrite Hb. }
      destruct (g_claim1 w' s a sh t) as [[s1 p]|]; [|done]. cbn. by rewrite IH. }
    destruct m; cbn; try done; by rewrite K.
  Qed.
  Notation jrun bad := (fo_run handle_v power total bad).

  (** The module sees a history of its own. *)
  Lemma on_module bad h b0 t0 b s t l :
    from bad h b0 t0 b s t l -> leads handle_v b0 t0 b t (seen_v l).
  Proof.
    intros (period & s0 & hs & _ & Hh & _ & Hr & Hb). eapply leads_later; [|exact Hb].
    exact (pair_seen_v g_handle no_fail no_reply handle_v (world_of bad) (fun _ _ m => m) _ _ _ _ _ _ _ Hh Hr).
  Qed.
  Lemma leads_same b t b' t' l h :
    leads handle_v b t b' t' l -> h <= height b ->
    (forall a, power t' a h = power t a h) /\ total t' h = total t h.
  Proof.
    intros HL Hh. revert HL.
    apply (leads_rel_from handle_v (fun _ _ => True) ltac:(done) ltac:(done)
      (fun t t' => (forall a, power t' a h = power t a h) /\ total t' h = total t h)); [done| | |done].
    - intros x y z [P1 P2] [Q1 Q2]. split; [intros; by rewrite Q1, P1|by rewrite Q2, P2].
    - intros b1 t1 a m t2 subs [Hb _] _ H. eapply v_stable; [exact H|lia].
  Qed.

  (** The distributor sees a history of its own, with the answers of the module at the end. *)
  Lemma on_own bad h b0 b s t l :
    reached bad h b0 b s t l -> h <= height b0 ->
    greached (world_of bad t) b s (fo_own l) /\ g_height s = h /\
    g_total s = total t (height b0) /\ block_le b0 b /\ Forall past_height (fo_own l) /\
    (total t h <= total t (height b0) -> Forall (fair (world_of bad t)) (fo_own l)).
  Proof.
    intros (t0 & l0 & HV & HF) Hh0. pose proof (on_module _ _ _ _ _ _ _ _ HF) as HL.
    pose proof (leads_same _ _ _ _ _ (height b0) HL ltac:(lia)) as [_ Et].
    destruct HF as (period & s0 & hs & Hi & Hh & HM & Hr & Hb).
    assert (g_height s0 = h /\ g_total s0 = total t0 (height b0)) as [Eh0 Et0].
    { unfold g_instantiate in Hi. destruct (_ && _) in Hi; [|done]. destruct (fits_dur _); [|done].
      destruct (negb _); [|done]. by injection Hi as <-. }
    pose (own := fun (j : gstate * T) (b : block) (m : gmsg + MV) => match m with inl m => Some m | inr _ => None end).
    pose (osub := fun x : gsub + XV => match x with inl a => Some a | inr _ => None end).
    assert (fo_own l = keep (oev fst own osub) l) as Eo.
    { unfold fo_own, seen_p. apply keep_ext. intros [[s1 t1] b1 a [m|m] [s2 t2] subs|[s1 t1] b1 [x|x] k [s2 t2]]; done. }
    assert (exists hs', hist_ok b0 hs' /\ hist_all (own_height h) hs' /\ block_le (hist_end b0 hs') (hist_end b0 hs) /\
      run_hist (g_handle (world_of bad t)) no_fail no_reply s0 hs' = (s, fo_own l)) as (hs' & H1 & H2 & H3 & H4).
    { rewrite Eo.
      apply (project_hist (pair_handle g_handle handle_v (world_of bad) (fun _ _ m => m))
        (pair_fail (X := gsub) no_fail) (pair_ok (X := gsub) no_reply)
        (g_handle (world_of bad t)) no_fail no_reply fst own osub (same_height h) (own_height h)
        (fun b j => g_height j.1 = h /\ h <= height b) (fun b j => wagree b (world_of bad t) (world_of bad j.2)))
        with (j := (s0, t0)) (j' := (s, t)); try done.
      - intros b1 [s1 t1] a [m|m] j' subs HK1 HP Hc; cbn in *.
        + destruct (g_handle (world_of bad t1) s1 b1 a m) as [[s2 u]|] eqn:E; [|done].
          injection Hc as <- <-. cbn. split; [|done]. destruct HK1 as [A B]. split; [|done].
          exact (own_height_call _ _ _ _ _ _ _ _ HP E A).
        + destruct (handle_v t1 b1 a m) as [[t2 u]|] eqn:E; [|done].
          injection Hc as <- <-. cbn. split; [done|].
          split; intros [W1 W2]; (split; [done|]); intros h1 Hh1; destruct (W2 h1 Hh1) as [W3 W4];
            destruct (v_stable _ _ _ _ _ _ _ E Hh1) as [P1 P2]; cbn in *;
            (split; [intros _ a'; rewrite (W3 b1 a')|intros _; rewrite (W4 b1)]); rewrite ?P1, ?P2; done.
      - intros b1 [s1 t1] [x|x] j' HK1 Hc; cbn in *; done.
      - intros b1 [s1 t1] [x|x] d j' HK1 Hc; cbn in *; by injection Hc as <-.
      - intros b1 [s1 t1] a [m|m] j' subs [[HK1 HK2] HG1] HP Hc; cbn in *.
        + destruct (g_handle (world_of bad t1) s1 b1 a m) as [[s2 u]|] eqn:E; [|done].
          injection Hc as <- <-. cbn. rewrite keep_inl by done.
          split; [|split; [done|]].
          { rewrite (wagree_call _ _ _ _ _ _ HG1) by (cbn; lia). done. }
          apply Forall_fmap, Forall_true. cbn. eauto.
        + destruct (handle_v t1 b1 a m) as [[t2 u]|] eqn:E; [|done].
          injection Hc as <- <-. cbn. split; [done|]. by apply Forall_fmap, Forall_true.
      - intros b1 [s1 t1] [x|x] j' [HK1 HG1] Hc; cbn in *; done.
      - intros b1 [s1 t1] [x|x] d j' [HK1 HG1] Hc; cbn in *; by injection Hc as <-.
      - intros b1 b2 [s1 t1] [Hle _] [A B]. cbn in *. split; [done|lia].
      - intros b1 b2 [s1 t1] [Hle _] _ [W1 W2]. cbn in *. split; [done|]. intros h1 Hh1. apply W2. lia. }
    assert (vreached b t (l0 ++ seen_v l)) as HV' by (eapply v_app; eauto).
    assert (g_instantiate (world_of bad t) b0 h period = Ok s0) as Hi'.
    { unfold g_instantiate in *. cbn in *. by rewrite Et. }
    assert (leads (g_handle (world_of bad t)) b0 s0 b s (fo_own l)) as HL'.
    { exists hs'. split; [done|]. split; [done|]. by eapply block_le_trans. }
    split.
    { exists b0, h, period, s0. split; [by eapply world_ok|]. done. }
    pose (Inv := fun (b : block) (s : gstate) => g_height s = h /\ h <= height b /\ g_total s = total t (height b0)).
    assert (Inv (hist_end b0 hs') s /\ trace (g_handle (world_of bad t)) no_fail no_reply (own_height h) Inv
      (fun _ _ _ => True) b0 s0 (fo_own l) (hist_end b0 hs') s) as [(A1 & A2 & A3) HTr].
    { apply (run_hist_trace (g_handle (world_of bad t)) no_fail no_reply (own_height h) Inv (fun _ _ _ => True)); try done.
      - intros b1 s1 a m s2 subs (B1 & B2 & B3) HP Hg. split; [|done].
        split; [exact (own_height_call _ _ _ _ _ _ _ _ HP Hg B1)|]. split; [done|].
        apply c53_periods in Hg as (_ & _ & _ & _ & ->). done.
      - intros b1 s1 x d s2 HI _ Hx. unfold no_reply in Hx. by injection Hx as <-.
      - intros b1 b2 s1 [Hb1 _] (B1 & B2 & B3). split; [done|]. split; [lia|done].
      - split; [done|]. split; [done|]. by rewrite Et. }
    apply trace_forall in HTr. split; [done|]. split; [done|]. split; [by eapply leads_le|].
    split; [|intros Ht]; (eapply Forall_impl; [exact HTr|]); intros [pre b1 a m post subs|] HLe; cbn; try done;
      intros Hm; destruct HLe as ((B1 & B2 & B3) & _); cbn in *; rewrite B1; [done|]. by rewrite B3.
  Qed.
End on.
