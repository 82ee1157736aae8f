(** Statements about cw-fund-distributor. *)
From Verif Require Import Base BaseProofs Exec ExecProofs Plain PlainProofs StoreModel StoreProofs
  FundModel FundSpec FundProofs.

(** Never more than the share. *)
Lemma c53_share w b s l a t :
  greached w b s l -> Forall past_height l ->
  paid_to a t (this_round l) * g_total s <= pool t l * w_pow w b (g_height s) a /\
  0 <= paid_to a t (this_round l).
Proof.
  intros HR Hp. apply greached_inv in HR as [(V1 & _) [A1 A2 A3 A4 A5 A6 A7 A0 A8 A9 A10 A11]].
  rewrite <-A4, <-A3. split; [|done]. pose proof (V1 b (g_height s) a). pose proof (A2 t).
  destruct (decide (g_claim s a t = 0)) as [->|Hc]; [lia|].
  destruct (A10 Hp a t Hc) as [_ ->]. apply floor_share_le; lia.
Qed.
Lemma has_bal s t : 0 < g_bal s t -> is_Some (g_bals s !! t).
Proof. unfold g_bal. destruct (g_bals s !! t); cbn; [eauto|lia]. Qed.
Lemma handle_claim w s b a m s' subs :
  is_claim m = true -> g_handle w s b a m = Ok (s', subs) ->
  exists ts, g_do_claim w s b a ts = Ok (s', subs) /\
    (forall t, asks m t -> is_Some (g_bals s !! t) -> t ∈ ts) /\ (forall t, t ∈ ts -> asks m t).
Proof.
  intros Hm H. destruct m as [| |ts|ts| | |]; try done; cbn in H.
  - destruct ts as [|x ts]; [done|]. eexists. split; [exact H|]. split.
    + intros [k t] [E Hin] _. cbn in *. subst. change ((true, t) ∈ map (pair true) (x :: ts)).
      apply elem_of_list_fmap. eauto.
    + intros t Hin. change (t ∈ map (pair true) (x :: ts)) in Hin.
      apply elem_of_list_fmap in Hin as (y & -> & Hy). done.
  - destruct ts as [|x ts]; [done|]. eexists. split; [exact H|]. split.
    + intros [k t] [E Hin] _. cbn in *. subst. change ((false, t) ∈ map (pair false) (x :: ts)).
      apply elem_of_list_fmap. eauto.
    + intros t Hin. change (t ∈ map (pair false) (x :: ts)) in Hin.
      apply elem_of_list_fmap in Hin as (y & -> & Hy). done.
  - eexists. split; [exact H|]. split; [|done]. intros t _ [n Hn]. apply elem_of_list_fmap.
    exists (t, n). split; [done|]. by apply elem_of_map_to_list.
Qed.
(** A claim brings the member to the share, rounded to 18 decimals and then down. *)
Lemma c53_claim w b s l a m s' subs t :
  greached w b s l -> g_handle w s b a m = Ok (s', subs) -> is_claim m = true ->
  asks m t -> 0 < pool t l ->
  let l' := l ++ [ECall s b a m s' subs] in
  let p := w_pow w b (g_height s) a in
  let T := g_total s in
  let got := paid_to a t (this_round l') in
  pool t l' = pool t l /\
  got = pool t l * (p * 10 ^ 18 / T) / 10 ^ 18 /\
  got * T <= pool t l * p /\
  pool t l * p * 10 ^ 18 <= (got + 1) * T * 10 ^ 18 + pool t l * T /\
  (forall u, u <> a -> lsum (pay_to u t) subs = 0).
Proof.
  intros HR H Hm Ha Hp l' p T got. pose proof HR as HR'. apply greached_inv in HR as [HV HI].
  pose proof (ginv_call _ _ _ _ _ _ _ _ HV HI H) as HI'. fold l' in HI'.
  destruct (handle_claim _ _ _ _ _ _ _ Hm H) as (ts & Hd & Hin & _).
  unfold g_do_claim in Hd. destruct (is_expired _ _); [|done].
  destruct (g_share w s b a) as [share|] eqn:Es; [|done].
  apply loop_ok in Hd as (E1 & E2 & E3 & E4 & B1 & B2 & B3 & B4 & B5 & B6).
  assert (t ∈ ts) as Ht. { apply Hin; [done|]. apply has_bal. by rewrite (gi_pool _ _ _ _ HI). }
  assert (got = floor_share (pool t l) p T) as Eg.
  { unfold got. rewrite <-(gi_claim _ _ _ _ HI'), B2, decide_True by done.
    rewrite (full_floor _ _ _ _ _ _ (proj1 (gi_total _ _ _ _ HI)) Es).
    by rewrite (gi_pool _ _ _ _ HI). }
  assert (0 <= p) as Hpn by (apply HV). pose proof (gi_total _ _ _ _ HI) as HT. fold T in HT.
  split; [rewrite <-(gi_pool _ _ _ _ HI'), <-(gi_pool _ _ _ _ HI); unfold g_bal; by rewrite E4|].
  split; [exact Eg|]. rewrite Eg. split; [apply floor_share_le; lia|].
  split; [apply floor_share_gt; lia|].
  intros u Hu. rewrite B5, B2, decide_False by tauto. lia.
Qed.
Lemma lsum_nonzero {A} (f : A -> Z) l : lsum f l <> 0 -> exists x, x ∈ l /\ f x <> 0.
Proof.
  induction l as [|x l IH]; cbn; [done|]. intros H. destruct (Z.eq_dec (f x) 0) as [E|E].
  - destruct IH as (y & Hy & Hf); [lia|]. exists y. split; [by right|done].
  - exists x. split; [by left|done].
Qed.
(** The tokens suffice, and nothing beyond the funding is paid. *)
Lemma c53_total w b s l t :
  greached w b s l -> Forall past_height l -> Forall (fair w) l ->
  paid t l <= funded t l /\ g_has s t = funded t l + given t l - paid t l /\ 0 <= given t l.
Proof.
  intros HR Hp Hf. apply greached_inv in HR as [(V1 & _) [A1 A2 A3 A4 A5 A6 A7 A0 A8 A9 A10 A11]].
  split; [|split; [apply A6|apply A7]].
  assert (csum t s <= g_bal s t) as H; [|rewrite A3, A5 in H; unfold pool in H; lia].
  destruct (Z.eq_dec (csum t s) 0) as [->|Hne]; [apply A2|].
  assert (exists a, g_claim s a t <> 0) as [a Ha].
  { unfold csum in Hne. destruct (csum_list (g_claims s) t) as (us & _ & _ & E). rewrite E in Hne.
    by apply lsum_nonzero in Hne as (a & _ & Ha); exists a. }
  apply csum_le with (w_pow w b (g_height s)); [apply A2|apply A1|apply V1| |by apply (A11 Hp Hf a t)].
  intros u. destruct (decide (g_claim s u t = 0)) as [->|Hc].
  - apply floor_share_nonneg; [apply A2|apply V1|apply A1].
  - destruct (A10 Hp u t Hc) as [_ ->]. lia.
Qed.

(** ** Claims are accepted. *)
Record ready (w : world) (b : block) (s : gstate) : Prop := {
  rd_total : 0 < g_total s <= U128_MAX;
  rd_bal : forall t, 0 <= g_bal s t <= U128_MAX;
  rd_nn : forall a t, 0 <= g_claim s a t;
  rd_le : forall a t, g_claim s a t <= floor_share (g_bal s t) (w_pow w b (g_height s) a) (g_total s);
  rd_sum : forall us, NoDup us -> lsum (w_pow w b (g_height s)) us <= g_total s;
  rd_has : forall t, g_bal s t <= g_has s t + csum t s;
}.
Lemma pow_le w b s a : voting_ok w -> ready w b s -> 0 <= w_pow w b (g_height s) a <= g_total s.
Proof.
  intros (V1 & _) HR. split; [apply V1|]. pose proof (rd_sum _ _ _ HR [a] ltac:(apply NoDup_singleton)) as H.
  cbn in H. lia.
Qed.
Lemma floor_share_bal B p T : 0 <= B -> 0 <= p <= T -> 0 < T -> floor_share B p T <= B.
Proof.
  intros HB Hp HT. pose proof (floor_share_le B p T HB ltac:(lia) HT) as H.
  assert (B * p <= B * T) by (apply Z.mul_le_mono_nonneg_l; lia). nia.
Qed.
Lemma claim1_total w b s a share t :
  voting_ok w -> ready w b s -> g_share w s b a = Ok share -> is_Some (g_bals s !! t) ->
  (0 < g_bal s t -> refused w t = false) ->
  exists s' subs, g_claim1 w s a share t = Ok (s', subs) /\ ready w b s' /\ g_bals s' = g_bals s /\
    g_share w s' b a = Ok share.
Proof.
  intros HV HR Hs [bal Hb] Hbad. pose proof (pow_le _ _ _ a HV HR) as Hp.
  pose proof (rd_total _ _ _ HR) as HT. pose proof (rd_bal _ _ _ HR t) as HB.
  pose proof (full_floor s w b a share t ltac:(lia) Hs) as Ef.
  assert (g_bal s t = bal) as Eb by (unfold g_bal; by rewrite Hb).
  pose proof (floor_share_bal (g_bal s t) _ _ ltac:(lia) Hp ltac:(lia)) as Hfb.
  pose proof (rd_nn _ _ _ HR a t) as Hn. pose proof (rd_le _ _ _ HR a t) as Hle.
  assert (exists s' subs, g_claim1 w s a share t = Ok (s', subs)) as (s' & subs & H).
  { unfold g_claim1, g_entitlement. rewrite Hb.
    assert (bal * share / DEC = full s share t) as Ef' by (unfold full; by rewrite Eb).
    rewrite mul_ratio128_eq; [|done|rewrite Ef', Ef; lia]. rewrite Ef', Ef, sub128_eq by done.
    destruct (_ =? 0) eqn:E0; [eauto|].
    rewrite add128_eq by lia.
    assert (fst t && w_bad w (snd t) = false) as -> by (apply Hbad; lia). cbn [negb].
    (* the tokens are there: otherwise recording the claim would exceed the pool *)
    set (n := floor_share _ _ _ - g_claim s a t) in *.
    set (s1 := GState (g_height s) (g_dead s) (g_total s) (g_bals s)
      (<[(a, t) := g_claim s a t + n]> (g_claims s)) (g_held s)).
    assert (csum t s1 = csum t s + n) as Hc1.
    { unfold csum. cbn. rewrite msum_insert. cbn. rewrite decide_True by done.
      unfold g_claim. destruct (g_claims s !! (a, t)); cbn; [rewrite decide_True by done|]; lia. }
    assert (csum t s1 <= g_bal s t) as Hc2.
    { apply (csum_le s1 t (w_pow w b (g_height s))); [apply HB|apply HT|apply HV| |apply HR].
      intros u. unfold g_claim. cbn. destruct (decide (u = a)) as [->|Hu].
      - rewrite lookup_insert. cbn. unfold n. change (g_bal s1 t) with (g_bal s t). lia.
      - rewrite lookup_insert_ne by naive_solver. apply (rd_le _ _ _ HR u t). }
    pose proof (rd_has _ _ _ HR t). rewrite (proj2 (Z.leb_le n (g_has s t))) by lia. eauto. }
  exists s', subs. split; [done|].
  apply claim1_ok in H as (B1 & B2 & E1 & E2 & E3 & E4 & B3 & B4 & B5 & B6 & B7).
  split; [|split; [done|unfold g_share; by rewrite E1, E3]].
  assert (forall t, g_bal s' t = g_bal s t) as Eb' by (intros; unfold g_bal; by rewrite E4).
  split; rewrite ?E1, ?E3; try (apply HR).
  - intros t'. rewrite Eb'. apply HR.
  - intros a' t'. rewrite B3. case_decide; [lia|apply HR].
  - intros a' t'. rewrite B3, Eb'. case_decide as Hd; [|apply HR]. destruct Hd as [-> ->]. by rewrite Ef.
  - intros t'. rewrite Eb', B5, B4. pose proof (rd_has _ _ _ HR t'). lia.
Qed.
Lemma loop_total w b a share ts : forall s,
  voting_ok w -> ready w b s -> g_share w s b a = Ok share ->
  (forall t, t ∈ ts -> is_Some (g_bals s !! t) /\ (0 < g_bal s t -> refused w t = false)) ->
  exists s' subs, g_claim_loop w s a share ts = Ok (s', subs).
Proof.
  induction ts as [|t ts IH]; intros s HV HR Hs Hts; cbn; [eauto|].
  destruct (Hts t ltac:(by left)) as [Hi Hb].
  destruct (claim1_total _ _ _ _ _ _ HV HR Hs Hi Hb) as (s1 & p & -> & HR1 & E & Hs1).
  destruct (IH s1 HV HR1 Hs1) as (s2 & q & ->); [|eauto].
  intros t' Hin. unfold g_bal. rewrite E. apply Hts. by right.
Qed.
Lemma c53_accepted w b s l a m :
  greached w b s l -> Forall past_height l -> Forall (fair w) l -> is_claim m = true ->
  g_height s <= height b -> w_tot w b (g_height s) <= g_total s -> is_expired (g_dead s) b = true ->
  m <> GClaimCw20 [] -> m <> GClaimNative [] ->
  (forall t, asks m t -> m = GClaimAll \/ 0 < pool t l) ->
  (forall t, asks m t -> 0 < pool t l -> refused w t = false) ->
  exists s' subs, g_handle w s b a m = Ok (s', subs).
Proof.
  intros HR Hp Hf Hm Hh Hw He Hm1 Hm2 Hk Hb. apply greached_inv in HR as [HV HI].
  pose proof HV as (V1 & V2 & V3 & V4). pose proof HI as [A1 A2 A3 A4 A5 A6 A7 A0 A8 A9 A10 A11].
  assert (ready w b s) as HRd.
  { split; try done.
    - intros u t. destruct (decide (g_claim s u t = 0)) as [->|Hc].
      + apply floor_share_nonneg; [apply A2|apply V1|apply A1].
      + destruct (A10 Hp u t Hc) as [_ ->]. lia.
    - intros us Hn. specialize (V3 b (g_height s) us Hh Hn). lia.
    - intros t. apply A7. }
  assert (exists share, g_share w s b a = Ok share) as [share Hs].
  { unfold g_share. pose proof (pow_le _ _ _ a HV HRd). pose proof DEC_pos as HD.
    rewrite mul_ratio128_eq; [eauto|lia|]. apply Z.div_le_upper_bound; [lia|].
    assert (w_pow w b (g_height s) a * DEC <= g_total s * DEC) by (apply Z.mul_le_mono_nonneg_r; lia).
    assert (g_total s * DEC <= g_total s * U128_MAX) by (apply Z.mul_le_mono_nonneg_l; [lia|done]). lia. }
  assert (forall ts, (forall t, t ∈ ts -> asks m t /\ is_Some (g_bals s !! t)) ->
    exists s' subs, g_do_claim w s b a ts = Ok (s', subs)) as Hd.
  { intros ts Hts. unfold g_do_claim. rewrite He, Hs. apply (loop_total w b); [done|done|done|].
    intros t Hin. destruct (Hts t Hin) as [Ha Hi]. split; [done|]. intros Hpos. apply Hb; [done|].
    by rewrite <-A3. }
  assert (forall t, m <> GClaimAll -> asks m t -> is_Some (g_bals s !! t)) as Hi.
  { intros t Hne Ha. destruct (Hk t Ha); [done|]. apply has_bal. by rewrite A3. }
  destruct m as [| |ts|ts| | |]; try done; cbn [g_handle].
  - destruct ts as [|x ts]; [done|]. cbn [negb]. apply Hd. intros t Hin.
    apply elem_of_list_fmap in Hin as (y & -> & Hy). split; [done|by apply Hi].
  - destruct ts as [|x ts]; [done|]. cbn [negb]. apply Hd. intros t Hin.
    apply elem_of_list_fmap in Hin as (y & -> & Hy). split; [done|by apply Hi].
  - apply Hd. intros t Hin. split; [done|]. apply elem_of_list_fmap in Hin as ([t' n] & -> & Hin).
    apply elem_of_map_to_list in Hin. eauto.
Qed.
(** Funding before the deadline only, claims after it only. *)
Lemma c53_periods w s b a m s' subs :
  g_handle w s b a m = Ok (s', subs) ->
  (is_claim m = true -> is_expired (g_dead s) b = true) /\
  (subs <> [] -> is_claim m = true) /\
  (forall t, g_bal s' t <> g_bal s t -> is_expired (g_dead s) b = false \/ exists h, m = GRedistribute h) /\
  g_dead s' = g_dead s /\ g_total s' = g_total s.
Proof.
  intros H. assert (forall ts, g_do_claim w s b a ts = Ok (s', subs) ->
    is_expired (g_dead s) b = true /\ (forall t, g_bal s' t = g_bal s t) /\
    g_dead s' = g_dead s /\ g_total s' = g_total s) as Hc.
  { intros ts Hd. unfold g_do_claim in Hd. destruct (is_expired _ _); [|done].
    destruct (g_share w s b a); [|done].
    apply loop_ok in Hd as (E1 & E2 & E3 & E4 & _). split; [done|]. split; [|done].
    intros t. unfold g_bal. by rewrite E4. }
  destruct m as [from n|funds|ts|ts| |h|t n]; cbn in H.
  - unfold fits128 in H. destruct ((0 <=? n) && _) eqn:Ef; [|done]. destruct (is_expired _ _); [done|].
    cbn in H. destruct (g_add _ _ _) eqn:E; [|done]. simplify_eq.
    apply add_ok in E as (_ & E2 & E3 & _); [|lia]. repeat split; try done. by left.
  - destruct (is_expired _ _); [done|]. cbn in H. destruct (g_add_all _ _) eqn:E; [|done]. simplify_eq.
    apply add_all_ok in E as (_ & E2 & E3 & _). repeat split; try done. by left.
  - destruct ts; [done|]. apply Hc in H as (E1 & E2 & E3 & E4). repeat split; try done. intros ? E. by rewrite E2 in E.
  - destruct ts; [done|]. apply Hc in H as (E1 & E2 & E3 & E4). repeat split; try done. intros ? E. by rewrite E2 in E.
  - apply Hc in H as (E1 & E2 & E3 & E4). repeat split; try done. intros ? E. by rewrite E2 in E.
  - destruct (_ && _) in H; [|done]. destruct (g_settle _ _); [|done]. simplify_eq. repeat split; try done.
    intros. right. eauto.
  - destruct (fits128 _); [|done]. destruct (g_arrive _ _ _) eqn:E; [|done]. simplify_eq.
    apply arrive_ok in E as (E1 & E2 & E3 & E4 & _). repeat split; try done.
    intros t' E. unfold g_bal in E. by rewrite E4 in E.
Qed.

(** ** A distributor can be made, and unclaimed funds can be redistributed, for any height. *)
Lemma c53_made w b h period :
  0 <= h <= U64_MAX -> fits_dur (Some period) = true -> 0 < w_tot w b (height b) ->
  exists s, g_instantiate w b h period = Ok s /\ g_height s = h /\ g_dead s = after period b /\
    g_total s = w_tot w b (height b).
Proof.
  intros Hh Hp Ht. unfold g_instantiate. rewrite (proj2 (Z.leb_le 0 h)), (proj2 (Z.leb_le h _)) by lia.
  rewrite Hp, (proj2 (Z.eqb_neq _ 0)) by lia. cbn [andb negb]. eexists. split; [reflexivity|]. done.
Qed.
Definition kept (s : gstate) : Prop := forall k n, g_claims s !! k = Some n -> 0 < n.
Lemma kept_claim s a t : kept s -> 0 <= g_claim s a t.
Proof.
  intros HK. unfold g_claim. destruct (g_claims s !! (a, t)) as [n|] eqn:E; cbn; [|lia]. apply HK in E. lia.
Qed.
Lemma kept_claim1 w s a sh t s' q : kept s -> g_claim1 w s a sh t = Ok (s', q) -> kept s'.
Proof.
  intros HK H. unfold g_claim1 in H. destruct (g_bals s !! t) as [bal|]; [|done].
  destruct (g_entitlement bal sh (g_claim s a t)) as [n|] eqn:En; [|done].
  destruct (Z.eqb_spec n 0) as [|Hn]; [by injection H as <- _|].
  destruct (add128 (g_claim s a t) n) as [c|] eqn:Ec; [|done].
  destruct (negb _); [|done]. destruct (n <=? g_has s t); [|done]. injection H as <- _.
  unfold g_entitlement in En. destruct (mul_ratio128 bal sh DEC); [|done].
  apply sub128_ok in En as [-> Hp]. apply add128_ok in Ec as [-> _].
  intros k m Hk. cbn [g_claims] in Hk. apply lookup_insert_Some in Hk as [[_ <-]|[_ Hk]]; [|by eapply HK].
  pose proof (kept_claim s a t HK). lia.
Qed.
Lemma kept_loop w a sh ts : forall s s' q, kept s -> g_claim_loop w s a sh ts = Ok (s', q) -> kept s'.
Proof.
  induction ts as [|t ts IH]; intros s s' q HK H; cbn [g_claim_loop] in H; [by injection H as <- _|].
  destruct (g_claim1 w s a sh t) as [[s1 p]|] eqn:E; [|done].
  destruct (g_claim_loop w s1 a sh ts) as [[s2 r]|] eqn:E2; [|done]. injection H as <- _.
  eapply IH; [|exact E2]. by eapply kept_claim1.
Qed.
Lemma kept_same s s' : kept s -> g_claims s' = g_claims s -> kept s'.
Proof. intros HK E k n. rewrite E. apply HK. Qed.
Lemma kept_do w s b a ts s' q : kept s -> g_do_claim w s b a ts = Ok (s', q) -> kept s'.
Proof.
  intros HK H. unfold g_do_claim in H. destruct (is_expired _ _); [|done].
  destruct (g_share w s b a); [|done]. by eapply kept_loop.
Qed.
Lemma kept_handle w s b a m s' subs : kept s -> g_handle w s b a m = Ok (s', subs) -> kept s'.
Proof.
  intros HK H. destruct m as [from n|funds|ts|ts| |h|t n]; cbn [g_handle] in H.
  - destruct (fits128 n) eqn:Ef; [|done]. destruct (negb _); [|done].
    destruct (g_add _ _ _) as [s1|] eqn:E; [|done]. injection H as <- _.
    unfold fits128 in Ef. apply add_ok in E as (_ & _ & _ & E & _); [|lia]. by eapply kept_same.
  - destruct (negb _); [|done]. destruct (g_add_all _ _) as [s1|] eqn:E; [|done]. injection H as <- _.
    apply add_all_ok in E as (_ & _ & _ & E & _). by eapply kept_same.
  - destruct (negb _); [|done]. by eapply kept_do.
  - destruct (negb _); [|done]. by eapply kept_do.
  - by eapply kept_do.
  - destruct (_ && _); [|done]. destruct (g_settle _ _); [|done]. injection H as <- _.
    intros k n Hk. cbn in Hk. by rewrite lookup_empty in Hk.
  - destruct (fits128 n); [|done]. destruct (g_arrive _ _ _) as [s1|] eqn:E; [|done]. injection H as <- _.
    apply arrive_ok in E as (_ & _ & _ & _ & E & _). by eapply kept_same.
Qed.
Lemma greached_kept w b s l : greached w b s l -> kept s.
Proof.
  intros (b0 & h & period & s0 & _ & Hi & HL). revert HL.
  apply (leads_ind (g_handle w) (fun _ s _ => kept s)); [..|].
  - intros. by eapply kept_handle.
  - done.
  - done.
  - unfold g_instantiate in Hi. destruct (_ && _); [|done]. destruct (fits_dur _); [|done].
    destruct (negb _); [|done]. injection Hi as <-. intros k n Hk. cbn in Hk. by rewrite lookup_empty in Hk.
Qed.
Lemma settles cs : forall bals,
  (forall x, x ∈ cs -> is_Some (bals !! x.1.2) /\ 0 <= x.2) ->
  (forall t, lsum (fun c => if decide (snd (fst c) = t) then snd c else 0) cs <= default 0 (bals !! t)) ->
  exists bals', g_settle bals cs = Ok bals'.
Proof.
  induction cs as [|[[a t] n] cs IH]; intros bals Hk Hs; cbn [g_settle]; [eauto|].
  destruct (Hk ((a, t), n)) as [[bal Hb] Hn]; [by left|]. cbn in Hb, Hn. rewrite Hb.
  assert (0 <= lsum (fun c => if decide (snd (fst c) = t) then snd c else 0) cs) as H0.
  { apply lsum_nonneg. intros x Hx. destruct (decide _); [|lia]. apply Hk. by right. }
  pose proof (Hs t) as Ht. cbn [lsum fst snd] in Ht. rewrite decide_True, Hb in Ht by done. cbn in Ht.
  unfold sub128. rewrite (proj2 (Z.ltb_ge _ _)) by lia. apply IH.
  - intros x Hx. destruct (Hk x) as [Hb' Hn']; [by right|]. split; [|done].
    destruct (decide (t = x.1.2)) as [<-|]; [rewrite lookup_insert; eauto|by rewrite lookup_insert_ne].
  - intros t'. specialize (Hs t'). cbn [lsum fst snd] in Hs. destruct (decide (t = t')) as [->|Hne].
    + rewrite lookup_insert. cbn. lia.
    + rewrite lookup_insert_ne by done. lia.
Qed.
Lemma c53_redistributes w b s l a h :
  greached w b s l -> Forall past_height l -> Forall (fair w) l -> 0 <= h <= U64_MAX ->
  exists s', g_handle w s b a (GRedistribute h) = Ok (s', []) /\ g_height s' = h /\ g_total s' = g_total s /\
    (forall t, g_bal s' t = pool t l - paid t (this_round l)) /\ (forall x t, g_claim s' x t = 0).
Proof.
  intros HR Hp Hf Hh. pose proof (greached_kept _ _ _ _ HR) as HK. pose proof HR as HR'.
  apply greached_inv in HR' as [_ HI]. pose proof HI as [A1 A2 A3 A4 A5 A6 A7 A0 A8 A9 A10 A11].
  assert (forall t, lsum (fun c => if decide (snd (fst c) = t) then snd c else 0) (map_to_list (g_claims s)) = csum t s) as Hc.
  { intros t. unfold csum. by rewrite msum_to_list. }
  assert (exists bals, g_settle (g_bals s) (map_to_list (g_claims s)) = Ok bals) as [bals E].
  { apply settles.
    - intros [[x t] n] Hx%elem_of_map_to_list. cbn. pose proof (HK _ _ Hx) as Hn. split; [|lia].
      apply (A8 x t). unfold g_claim. rewrite Hx. cbn. lia.
    - intros t. rewrite Hc. change (csum t s <= g_bal s t). rewrite A5, A3.
      destruct (c53_total w b s l t HR Hp Hf) as [H _]. unfold pool. lia. }
  assert (g_handle w s b a (GRedistribute h) = Ok (GState h (g_dead s) (g_total s) bals ∅ (g_held s), [])) as EH.
  { cbn [g_handle]. rewrite (proj2 (Z.leb_le 0 h)), (proj2 (Z.leb_le h _)) by lia. cbn [andb]. by rewrite E. }
  eexists. split; [exact EH|]. split; [done|]. split; [done|]. split.
  - intros t. destruct (settle_ok _ _ _ E (fun t => proj1 (A2 t)) t) as [B _]. unfold g_bal at 1. cbn [g_bals].
    rewrite B, Hc. fold (g_bal s t). rewrite A5, A3. done.
  - intros x t. unfold g_claim. cbn. by rewrite lookup_empty.
Qed.
