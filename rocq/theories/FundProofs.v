(** Proofs about cw-fund-distributor. *)
From Verif Require Import Base BaseProofs Exec ExecProofs Plain PlainProofs StoreModel StoreProofs
  FundModel FundSpec.

Lemma DEC_pos : 0 < DEC.
Proof. done. Qed.

(** The sum of the recorded claims of a token. *)
Definition csum (t : gtok) (s : gstate) : Z :=
  msum (fun k n => if decide (snd k = t) then n else 0) (g_claims s).

Lemma round_app l e : this_round (l ++ [e]) = if is_redist e then [] else this_round l ++ [e].
Proof.
  induction l as [|x l IH]; simpl; [by destruct (is_redist e)|].
  rewrite existsb_app. cbn. rewrite orb_false_r. destruct (is_redist e) eqn:E.
  - by rewrite orb_true_r.
  - rewrite orb_false_r. destruct (existsb is_redist l) eqn:E1; [done|]. by destruct (is_redist x).
Qed.

(** ** One claim. *)
Definition full (s : gstate) (share : Z) (t : gtok) : Z := g_bal s t * share / DEC.
Lemma claim1_ok w s a share t s' subs :
  g_claim1 w s a share t = Ok (s', subs) ->
  is_Some (g_bals s !! t) /\ g_claim s a t <= full s share t <= U128_MAX /\
  g_height s' = g_height s /\ g_dead s' = g_dead s /\ g_total s' = g_total s /\ g_bals s' = g_bals s /\
  (forall a' t', g_claim s' a' t' = if decide (a' = a /\ t' = t) then full s share t else g_claim s a' t') /\
  (forall t', csum t' s' = csum t' s + lsum (pay t') subs) /\
  (forall t', g_has s' t' = g_has s t' - lsum (pay t') subs) /\
  (forall a' t', lsum (pay_to a' t') subs = g_claim s' a' t' - g_claim s a' t') /\
  (forall t to n, GPay t to n ∈ subs -> to = a /\ 0 < n <= g_has s t).
Proof.
  unfold g_claim1, g_entitlement. intros H.
  destruct (g_bals s !! t) as [bal|] eqn:Eb; [|done].
  assert (g_bal s t = bal) as Hb by (unfold g_bal; by rewrite Eb).
  destruct (mul_ratio128 bal share DEC) as [m|] eqn:Em; [|done].
  apply mul_ratio128_ok in Em as (_ & Em & Hm). cbn in H.
  destruct (sub128 m (g_claim s a t)) as [n|] eqn:Es; [|done]. apply sub128_ok in Es as [-> Hs].
  unfold full. rewrite Hb, <-Em. split; [eauto|]. split; [lia|].
  destruct (m - g_claim s a t =? 0) eqn:E0.
  - simplify_eq. repeat split; try done; intros; cbn; try lia.
    + case_decide as Hd; [|done]. destruct Hd as [-> ->]. lia.
    + by apply elem_of_nil in H.
    + by apply elem_of_nil in H.
    + by apply elem_of_nil in H.
  - destruct (add128 _ _) as [c|] eqn:Ea; [|done]. apply add128_ok in Ea as [-> _]. cbn in H.
    destruct (negb _) in H; [|done]. destruct (_ <=? g_has s t) eqn:Eh in H; [|done]. simplify_eq.
    assert (forall a' t', default 0 (<[(a, t) := g_claim s a t + (g_bal s t * share / DEC - g_claim s a t)]> (g_claims s) !! (a', t')) =
      if decide (a' = a /\ t' = t) then g_bal s t * share / DEC else g_claim s a' t') as Hc.
    { intros a' t'. case_decide as Hd.
      - destruct Hd as [-> ->]. rewrite lookup_insert. cbn. lia.
      - rewrite lookup_insert_ne; [done|]. intros ?. simplify_eq. tauto. }
    repeat split; try done; cbn.
    + intros t'. unfold csum. cbn. rewrite msum_insert. cbn.
      assert (match g_claims s !! (a, t) with Some v => if decide (t = t') then v else 0 | None => 0 end =
        if decide (t = t') then g_claim s a t else 0) as ->.
      { unfold g_claim. destruct (g_claims s !! (a, t)); cbn; [done|]. by case_decide. }
      case_decide; lia.
    + intros t'. unfold g_has. cbn. case_decide as Hd.
      * subst t'. rewrite lookup_insert. cbn. unfold g_has. lia.
      * rewrite lookup_insert_ne by done. lia.
    + intros a' t'. unfold g_claim at 2. cbn. rewrite Hc. destruct (decide (t = t' /\ a = a')) as [[-> ->]|Hd].
      * rewrite decide_True by done. lia.
      * rewrite decide_False by naive_solver. lia.
    + apply elem_of_list_singleton in H. by simplify_eq.
    + apply elem_of_list_singleton in H. simplify_eq. lia.
    + apply elem_of_list_singleton in H. simplify_eq. lia.
Qed.
Lemma full_eq s s' share t : g_bals s' = g_bals s -> full s' share t = full s share t.
Proof. intros E. unfold full, g_bal. by rewrite E. Qed.
Lemma loop_ok w a share ts : forall s s' subs,
  g_claim_loop w s a share ts = Ok (s', subs) ->
  g_height s' = g_height s /\ g_dead s' = g_dead s /\ g_total s' = g_total s /\ g_bals s' = g_bals s /\
  (forall t, t ∈ ts -> is_Some (g_bals s !! t) /\ g_claim s a t <= full s share t <= U128_MAX) /\
  (forall a' t', g_claim s' a' t' = if decide (a' = a /\ t' ∈ ts) then full s share t' else g_claim s a' t') /\
  (forall t', csum t' s' = csum t' s + lsum (pay t') subs) /\
  (forall t', g_has s' t' = g_has s t' - lsum (pay t') subs) /\
  (forall a' t', lsum (pay_to a' t') subs = g_claim s' a' t' - g_claim s a' t') /\
  (forall t to n, GPay t to n ∈ subs -> to = a /\ 0 < n).
Proof.
  induction ts as [|t ts IH]; intros s s' subs H; cbn in H.
  - simplify_eq. repeat split; try done; intros; cbn; try lia.
    + by apply elem_of_nil in H.
    + by apply elem_of_nil in H.
    + by apply elem_of_nil in H.
    + rewrite decide_False; [done|]. intros [_ ?%elem_of_nil]. done.
    + by apply elem_of_nil in H.
    + by apply elem_of_nil in H.
  - destruct (g_claim1 _ _ _ _ _) as [[s1 p]|] eqn:E1; [|done].
    destruct (g_claim_loop _ _ _ _ _) as [[s2 q]|] eqn:E2; [|done]. simplify_eq.
    apply claim1_ok in E1 as (A1 & A2 & A3 & A4 & A5 & A6 & A7 & A8 & A9 & A10 & A11).
    apply IH in E2 as (B3 & B4 & B5 & B6 & B1 & B7 & B8 & B9 & B10 & B11).
    split; [congruence|]. split; [congruence|]. split; [congruence|]. split; [congruence|].
    split.
    { intros t' [->|Hin]%elem_of_cons; [done|]. destruct (decide (t' = t)) as [->|Hne]; [done|].
      destruct (B1 t' Hin) as [C1 C2]. rewrite A6 in C1. rewrite (full_eq _ _ _ _ A6), A7 in C2.
      rewrite decide_False in C2 by tauto. done. }
    split.
    { intros a' t'. rewrite B7, A7, (full_eq _ _ _ _ A6).
      destruct (decide (a' = a /\ t' = t)) as [[-> ->]|Hd].
      - rewrite (decide_True (P := a = a /\ t ∈ t :: ts)) by (split; [done|by left]).
        by destruct (decide _).
      - destruct (decide (a' = a /\ t' ∈ ts)) as [[-> Hi]|Hi].
        + rewrite decide_True by (split; [done|by right]). done.
        + rewrite decide_False; [done|]. intros [-> [->|?]%elem_of_cons]; tauto. }
    split; [intros t'; rewrite B8, A8, lsum_app; lia|].
    split; [intros t'; rewrite B9, A9, lsum_app; lia|].
    split; [intros a' t'; rewrite lsum_app, A10, B10; lia|].
    intros t' to n [Hin|Hin]%elem_of_app; [|eauto]. apply A11 in Hin as [? ?]. split; [done|lia].
Qed.

(** ** Funding. *)
Lemma arrive_ok s t n s' :
  g_arrive s t n = Ok s' ->
  g_height s' = g_height s /\ g_dead s' = g_dead s /\ g_total s' = g_total s /\ g_bals s' = g_bals s /\
  g_claims s' = g_claims s /\ g_has s t + n <= U128_MAX /\
  (forall t', g_has s' t' = g_has s t' + if decide (t = t') then n else 0).
Proof.
  unfold g_arrive. intros H. destruct (_ <=? _) eqn:E in H; [|done]. simplify_eq.
  repeat split; try done; [lia|]. intros t'. unfold g_has. cbn. case_decide.
  - subst. rewrite lookup_insert. done.
  - rewrite lookup_insert_ne by done. lia.
Qed.
Lemma add_ok s t n s' :
  0 <= n -> g_add s t n = Ok s' ->
  g_height s' = g_height s /\ g_dead s' = g_dead s /\ g_total s' = g_total s /\
  g_claims s' = g_claims s /\ (forall t', is_Some (g_bals s !! t') -> is_Some (g_bals s' !! t')) /\
  (forall t', g_bal s' t' = g_bal s t' + if decide (t = t') then n else 0) /\
  (forall t', g_has s' t' = g_has s t' + if decide (t = t') then n else 0).
Proof.
  unfold g_add. intros Hn H. destruct (g_arrive s t n) as [s1|] eqn:Ea; [|done].
  apply arrive_ok in Ea as (A1 & A2 & A3 & A4 & A5 & A6 & A7).
  destruct (n =? 0) eqn:E0.
  - simplify_eq. rewrite A4. repeat split; try done. intros t'. unfold g_bal. rewrite A4. case_decide; lia.
  - destruct (add128 _ _) as [c|] eqn:Eq; [|done]. apply add128_ok in Eq as [-> _]. simplify_eq. cbn.
    rewrite A4. repeat split; try done.
    + intros t' ?. destruct (decide (t = t')) as [->|]; [rewrite lookup_insert; eauto|].
      by rewrite lookup_insert_ne.
    + intros t'. unfold g_bal. cbn. rewrite A4. case_decide.
      * subst. rewrite lookup_insert. done.
      * rewrite lookup_insert_ne by done. lia.
Qed.
Lemma add_all_ok funds : forall s s',
  g_add_all s funds = Ok s' ->
  g_height s' = g_height s /\ g_dead s' = g_dead s /\ g_total s' = g_total s /\
  g_claims s' = g_claims s /\ (forall t', is_Some (g_bals s !! t') -> is_Some (g_bals s' !! t')) /\
  (forall t', g_bal s' t' = g_bal s t' + if fst t' then 0 else coin_sum (snd t') funds) /\
  (forall t', g_has s' t' = g_has s t' + if fst t' then 0 else coin_sum (snd t') funds) /\
  (forall d, 0 <= coin_sum d funds).
Proof.
  induction funds as [|[d n] rest IH]; intros s s' H; cbn in H.
  - simplify_eq. repeat split; try done; intros t'; cbn; destruct (fst t'); unfold coin_sum; cbn; lia.
  - unfold fits128 in H. destruct ((0 <=? n) && _) eqn:Ef; [|done].
    destruct (g_add _ _ _) as [s1|] eqn:E1; [|done]. apply add_ok in E1; [|lia].
    destruct E1 as (A1 & A2 & A3 & A4 & A5 & A6 & A7).
    apply IH in H as (B1 & B2 & B3 & B4 & B5 & B6 & B7 & B8).
    assert (forall t' : gtok, (if decide ((false, d) = t') then n else 0) + (if fst t' then 0 else coin_sum (snd t') rest)
      = if fst t' then 0 else coin_sum (snd t') ((d, n) :: rest)) as Hs.
    { intros [[|] d']; unfold coin_sum; cbn.
      - rewrite decide_False by done. done.
      - destruct (d =? d')%N eqn:E.
        + apply N.eqb_eq in E as ->. by rewrite decide_True.
        + apply N.eqb_neq in E. rewrite decide_False by naive_solver. done. }
    split; [congruence|]. split; [congruence|]. split; [congruence|]. split; [congruence|].
    split; [eauto|]. split; [intros t'; rewrite B6, A6, <-(Hs t'); lia|].
    split; [intros t'; rewrite B7, A7, <-(Hs t'); lia|].
    intros d'. pose proof (B8 d'). unfold coin_sum in *. cbn. destruct (d =? d')%N; lia.
Qed.

(** ** Redistribution. *)
Lemma settle_ok cs : forall bals bals',
  g_settle bals cs = Ok bals' -> (forall t, 0 <= default 0 (bals !! t)) ->
  forall t, default 0 (bals' !! t) =
    default 0 (bals !! t) - lsum (fun c => if decide (snd (fst c) = t) then snd c else 0) cs /\
    0 <= default 0 (bals' !! t) /\ (is_Some (bals !! t) -> is_Some (bals' !! t)).
Proof.
  induction cs as [|[[a t] n] rest IH]; intros bals bals' H Hp t'; cbn in H.
  - simplify_eq. cbn. pose proof (Hp t'). repeat split; try done; lia.
  - destruct (bals !! t) as [bal|] eqn:Eb; [|done].
    destruct (sub128 bal n) as [c|] eqn:Es; [|done]. apply sub128_ok in Es as [-> Hs].
    pose proof (fun Hq => IH _ _ H Hq t') as IH'. cbn. destruct IH' as (A & B & C).
    { intros t1. destruct (decide (t = t1)) as [->|].
      - rewrite lookup_insert. cbn. lia.
      - by rewrite lookup_insert_ne. }
    rewrite A in *. destruct (decide (t = t')) as [->|Hne].
    + rewrite lookup_insert in *. rewrite Eb in *. cbn in *. split; [lia|]. split; [lia|].
      intros _. apply C. eauto.
    + rewrite lookup_insert_ne in * by done. split; [lia|]. split; [lia|]. done.
Qed.

(** ** The recorded claims of a token, member by member. *)
Lemma csum_list (m : gmap (addr * gtok) Z) t :
  exists us, NoDup us /\ (forall a, a ∈ us <-> is_Some (m !! (a, t))) /\
    msum (fun k n => if decide (snd k = t) then n else 0) m = lsum (fun a => default 0 (m !! (a, t))) us.
Proof.
  induction m as [|[a t'] n m Hk IH] using map_ind.
  - exists []. split; [constructor|]. split; [|done]. intros a. rewrite lookup_empty.
    split; [by intros ?%elem_of_nil|by intros [? ?]].
  - destruct IH as (us & Hn & Hin & Hs). rewrite msum_insert_new by done. cbn.
    destruct (decide (t' = t)) as [->|Hne].
    + exists (a :: us). split; [constructor; [rewrite Hin, Hk; by intros [? ?]|done]|]. split.
      * intros a'. rewrite elem_of_cons, Hin. destruct (decide (a' = a)) as [->|Hne].
        -- rewrite lookup_insert. split; eauto.
        -- rewrite lookup_insert_ne by naive_solver. naive_solver.
      * cbn. rewrite lookup_insert. cbn. rewrite Hs. f_equal. apply lsum_ext. intros a' Ha'.
        rewrite lookup_insert_ne; [done|]. intros E. simplify_eq. apply Hin in Ha'.
        rewrite Hk in Ha'. by destruct Ha'.
    + exists us. split; [done|]. assert (forall a', <[(a, t'):=n]> m !! (a', t) = m !! (a', t)) as E.
      { intros a'. rewrite lookup_insert_ne; [done|]. naive_solver. }
      split; [intros a'; by rewrite E|]. rewrite Hs. cbn. apply lsum_ext. intros a' _. by rewrite E.
Qed.
(** One member's share, rounded twice. *)
Definition floor_share (B p T : Z) : Z := B * (p * DEC / T) / DEC.
Lemma floor_share_le B p T : 0 <= B -> 0 <= p -> 0 < T -> floor_share B p T * T <= B * p.
Proof.
  intros HB Hp HT. unfold floor_share. pose proof DEC_pos as HD.
  pose proof (div_mul_le (p * DEC) T HT) as H1. set (x := p * DEC / T) in *.
  pose proof (div_mul_le (B * x) DEC HD) as H2. set (y := B * x / DEC) in *.
  assert (y * T * DEC <= B * p * DEC) as H3; [|nia].
  assert (B * (x * T) <= B * (p * DEC)) by (apply Z.mul_le_mono_nonneg_l; lia).
  assert (y * DEC * T <= B * x * T) by (apply Z.mul_le_mono_nonneg_r; lia). lia.
Qed.
Lemma floor_share_gt B p T : 0 <= B -> 0 <= p -> 0 < T ->
  B * p * DEC <= (floor_share B p T + 1) * T * DEC + B * T.
Proof.
  intros HB Hp HT. unfold floor_share. pose proof DEC_pos as HD.
  pose proof (div_mul_gt (p * DEC) T HT) as H1. set (x := p * DEC / T) in *.
  pose proof (div_mul_gt (B * x) DEC HD) as H2. set (y := B * x / DEC) in *.
  assert (B * (p * DEC) <= B * ((x + 1) * T)) by (apply Z.mul_le_mono_nonneg_l; lia).
  assert (B * x * T <= (y + 1) * DEC * T) by (apply Z.mul_le_mono_nonneg_r; lia). lia.
Qed.
Lemma floor_share_nonneg B p T : 0 <= B -> 0 <= p -> 0 < T -> 0 <= floor_share B p T.
Proof.
  intros. unfold floor_share. apply Z.div_pos; [|done]. apply Z.mul_nonneg_nonneg; [done|].
  apply Z.div_pos; [|done]. pose proof DEC_pos. lia.
Qed.
Lemma csum_le s t (p : addr -> Z) :
  0 <= g_bal s t -> 0 < g_total s -> (forall a, 0 <= p a) ->
  (forall a, g_claim s a t <= floor_share (g_bal s t) (p a) (g_total s)) ->
  (forall us, NoDup us -> lsum p us <= g_total s) -> csum t s <= g_bal s t.
Proof.
  intros HB HT Hp Hc Hs. unfold csum. destruct (csum_list (g_claims s) t) as (us & Hn & _ & ->).
  specialize (Hs us Hn).
  assert (lsum (fun a => default 0 (g_claims s !! (a, t))) us * g_total s <= g_bal s t * lsum p us) as H.
  { rewrite <-(lsum_scale (g_bal s t)), Z.mul_comm, <-lsum_scale. apply lsum_le. intros a _.
    pose proof (Hc a) as H1. unfold g_claim in H1.
    pose proof (floor_share_le (g_bal s t) (p a) (g_total s) HB (Hp a) HT). nia. }
  nia.
Qed.

(** ** The invariant. *)
Record ginv (w : world) (b : block) (s : gstate) (l : glog) : Prop := {
  gi_total : 0 < g_total s <= U128_MAX;
  gi_bal : forall t, 0 <= g_bal s t <= U128_MAX;
  gi_pool : forall t, g_bal s t = pool t l;
  gi_claim : forall a t, g_claim s a t = paid_to a t (this_round l);
  gi_csum : forall t, csum t s = paid t (this_round l);
  gi_held : forall t, g_has s t = funded t l + given t l - paid t l;
  gi_given : forall t, 0 <= given t l /\ g_bal s t <= g_has s t + csum t s;
  gi_nn : forall a t, 0 <= g_claim s a t;
  gi_key : forall a t, g_claim s a t <> 0 -> is_Some (g_bals s !! t);
  gi_open : forall a t, g_claim s a t <> 0 -> is_expired (g_dead s) b = true;
  gi_past : Forall past_height l -> forall a t, g_claim s a t <> 0 ->
    g_height s <= height b /\ g_claim s a t = floor_share (g_bal s t) (w_pow w b (g_height s) a) (g_total s);
  gi_fair : Forall past_height l -> Forall (fair w) l -> forall a t, g_claim s a t <> 0 ->
    forall us, NoDup us -> lsum (w_pow w b (g_height s)) us <= g_total s;
}.
Lemma round_other l e : is_redist e = false -> this_round (l ++ [e]) = this_round l ++ [e].
Proof. intros E. by rewrite round_app, E. Qed.
Lemma ginv_time w b b' s l : voting_ok w -> ginv w b s l -> block_le b b' -> ginv w b' s l.
Proof.
  intros (_ & _ & _ & Hf) [A1 A2 A3 A4 A5 A6 A7 A0 A8 A9 A10 A11] Hb. split; try done.
  - intros a t Hc. eapply is_expired_mono; eauto.
  - intros Hp a t Hc. destruct (A10 Hp a t Hc) as [B1 B2]. split; [destruct Hb; lia|].
    by rewrite (Hf b b').
  - intros Hp Hg a t Hc us Hn. destruct (A10 Hp a t Hc) as [B1 _].
    rewrite <-(A11 Hp Hg a t Hc us Hn) at 1. apply Z.eq_le_incl, lsum_ext. intros u _. by apply Hf.
Qed.
(** A call that records no claim. *)
Lemma ginv_quiet w b s l a m s' :
  ginv w b s l -> is_claim m = false -> is_redist (ECall s b a m s' []) = false ->
  g_height s' = g_height s -> g_dead s' = g_dead s -> g_total s' = g_total s ->
  g_claims s' = g_claims s -> (forall t, is_Some (g_bals s !! t) -> is_Some (g_bals s' !! t)) ->
  (forall t, g_bal s' t = g_bal s t + ev_funded t (ECall s b a m s' [])) ->
  (forall t, g_bal s' t <= U128_MAX) ->
  (forall t, 0 <= ev_funded t (ECall s b a m s' []) /\ 0 <= ev_given t (ECall s b a m s' [])) ->
  (forall t, ev_funded t (ECall s b a m s' []) <> 0 -> is_expired (g_dead s) b = false) ->
  (forall t, g_has s' t = g_has s t + ev_funded t (ECall s b a m s' []) + ev_given t (ECall s b a m s' [])) ->
  ginv w b s' (l ++ [ECall s b a m s' []]).
Proof.
  intros [A1 A2 A3 A4 A5 A6 A7 A0 A8 A9 A10 A11] Hm Hr E1 E2 E3 E4 Hk Eb Hu Hn Hd Eh.
  set (e := ECall s b a m s' []) in *.
  assert (forall a t, g_claim s' a t = g_claim s a t) as Ec by (intros; unfold g_claim; by rewrite E4).
  assert (forall t, csum t s' = csum t s) as Es by (intros; unfold csum; by rewrite E4).
  assert (forall t, funded t (l ++ [e]) = funded t l + ev_funded t e) as F1.
  { intros t. unfold funded. rewrite lsum_app. cbn [lsum]. lia. }
  assert (forall t, given t (l ++ [e]) = given t l + ev_given t e) as F2.
  { intros t. unfold given. rewrite lsum_app. cbn [lsum]. lia. }
  assert (forall t l, paid t (l ++ [e]) = paid t l) as F3.
  { intros t l0. unfold paid. rewrite lsum_app. cbn. lia. }
  assert (forall t a l, paid_to a t (l ++ [e]) = paid_to a t l) as F4.
  { intros t a0 l0. unfold paid_to. rewrite lsum_app. cbn. lia. }
  split; rewrite ?(round_other _ _ Hr).
  - by rewrite E3.
  - intros t. pose proof (Hu t). pose proof (A2 t). pose proof (Hn t). rewrite Eb in *. lia.
  - intros t. unfold pool. rewrite (round_other _ _ Hr), F1, !F3, Eb, A3. unfold pool. lia.
  - intros a0 t. by rewrite Ec, F4.
  - intros t. by rewrite Es, F3.
  - intros t. rewrite Eh, F1, F2, F3, A6. lia.
  - intros t. pose proof (Hn t). pose proof (A7 t). rewrite F2, Eb, Eh, Es. lia.
  - intros a0 t. by rewrite Ec.
  - intros a0 t. rewrite Ec. eauto.
  - intros a0 t. rewrite Ec, E2. eauto.
  - intros Hp a0 t. apply Forall_app in Hp as [Hp _]. rewrite Ec, E1, E3. intros Hc.
    destruct (A10 Hp a0 t Hc) as [B1 B2]. split; [done|]. rewrite Eb.
    destruct (decide (ev_funded t e = 0)) as [->|Hne]; [by rewrite Z.add_0_r|].
    apply Hd in Hne. rewrite (A9 _ _ Hc) in Hne. done.
  - intros Hp Hg a0 t. apply Forall_app in Hp as [Hp _]. apply Forall_app in Hg as [Hg _].
    rewrite Ec, E1, E3. eauto.
Qed.
Lemma full_floor s w b a share t :
  0 < g_total s -> g_share w s b a = Ok share ->
  full s share t = floor_share (g_bal s t) (w_pow w b (g_height s) a) (g_total s).
Proof. unfold g_share. intros HT H. apply mul_ratio128_ok in H as (_ & -> & _). done. Qed.
Lemma ginv_claim w b s l a m ts s' subs :
  voting_ok w -> ginv w b s l -> is_claim m = true -> g_do_claim w s b a ts = Ok (s', subs) ->
  ginv w b s' (l ++ [ECall s b a m s' subs]).
Proof.
  intros (V1 & V2 & V3 & V4) [A1 A2 A3 A4 A5 A6 A7 A0 A8 A9 A10 A11] Hm H. unfold g_do_claim in H.
  destruct (is_expired _ _) eqn:Ex; [|done]. destruct (g_share w s b a) as [share|] eqn:Es; [|done].
  apply loop_ok in H as (E1 & E2 & E3 & E4 & B1 & B2 & B3 & B4 & B5 & B6).
  set (e := ECall s b a m s' subs) in *.
  assert (is_redist e = false) as Hr by (by destruct m).
  assert (forall t, ev_funded t e = 0) as N1 by (intros; by destruct m).
  assert (forall t, ev_given t e = 0) as N2 by (intros; by destruct m).
  assert (forall t, g_bal s' t = g_bal s t) as Eb by (intros; unfold g_bal; by rewrite E4).
  assert (forall t, funded t (l ++ [e]) = funded t l) as F1.
  { intros t. unfold funded. rewrite lsum_app. cbn [lsum]. rewrite N1. lia. }
  assert (forall t, given t (l ++ [e]) = given t l) as F2.
  { intros t. unfold given. rewrite lsum_app. cbn [lsum]. rewrite N2. lia. }
  assert (forall t l, paid t (l ++ [e]) = paid t l + lsum (pay t) subs) as F3.
  { intros t l0. unfold paid. rewrite lsum_app. cbn. lia. }
  assert (forall t a l, paid_to a t (l ++ [e]) = paid_to a t l + lsum (pay_to a t) subs) as F4.
  { intros t a0 l0. unfold paid_to. rewrite lsum_app. cbn. lia. }
  split; rewrite ?(round_other _ _ Hr).
  - by rewrite E3.
  - intros t. by rewrite Eb.
  - intros t. unfold pool. rewrite (round_other _ _ Hr), F1, !F3, Eb, A3. unfold pool. lia.
  - intros a0 t. rewrite F4, B5, <-A4. lia.
  - intros t. by rewrite F3, B3, A5.
  - intros t. rewrite B4, F1, F2, F3, A6. lia.
  - intros t. pose proof (A7 t). rewrite F2, Eb, B4, B3. lia.
  - intros a0 t. rewrite B2. case_decide as Hd; [|done]. destruct Hd as [-> Hd].
    pose proof (A0 a t). pose proof (B1 t Hd). lia.
  - intros a0 t. rewrite B2, E4. case_decide as Hd; [|eauto]. intros _. apply B1, Hd.
  - intros a0 t _. by rewrite E2.
  - intros Hp a0 t. apply Forall_app in Hp as [Hp He]. rewrite B2, E1, E3, Eb. case_decide as Hd; [|eauto].
    intros _. apply Forall_inv in He. split; [by apply He|]. destruct Hd as [-> _].
    apply full_floor; [lia|done].
  - intros Hp Hg a0 t. apply Forall_app in Hp as [Hp He]. apply Forall_app in Hg as [Hg He'].
    rewrite B2, E1, E3. case_decide as Hd; [|eauto]. intros _ us Hn.
    apply Forall_inv in He. apply Forall_inv in He'. cbn in He, He'.
    specialize (He Hm). specialize (He' Hm). specialize (V3 b (g_height s) us He Hn). lia.
Qed.
Lemma ginv_redist w b s l a h s' subs :
  ginv w b s l -> g_handle w s b a (GRedistribute h) = Ok (s', subs) ->
  ginv w b s' (l ++ [ECall s b a (GRedistribute h) s' subs]).
Proof.
  intros [A1 A2 A3 A4 A5 A6 A7 A0 A8 A9 A10 A11] H. cbn in H. destruct (_ && _) in H; [|done].
  destruct (g_settle _ _) as [bals|] eqn:E; [|done]. simplify_eq.
  pose proof (settle_ok _ _ _ E (fun t => proj1 (A2 t))) as HS.
  assert (forall t, lsum (fun c => if decide (snd (fst c) = t) then snd c else 0) (map_to_list (g_claims s)) = csum t s) as Hc.
  { intros t. unfold csum. by rewrite msum_to_list. }
  set (s' := GState _ _ _ _ _ _). set (e := ECall s b a _ s' []).
  assert (forall t, g_bal s' t = g_bal s t - csum t s /\ 0 <= g_bal s' t) as Eb.
  { intros t. destruct (HS t) as (B1 & B2 & _). rewrite Hc in B1. done. }
  assert (forall t, 0 <= csum t s) as Hcn.
  { intros t. unfold csum. destruct (csum_list (g_claims s) t) as (us & _ & _ & ->).
    apply lsum_nonneg. intros u _. apply (A0 u t). }
  assert (forall a t, g_claim s' a t = 0) as Ec by (intros; unfold g_claim; cbn; by rewrite lookup_empty).
  assert (forall t, csum t s' = 0) as Es by (intros; unfold csum; cbn; apply msum_empty).
  assert (this_round (l ++ [e]) = []) as Er by (by rewrite round_app).
  assert (forall t, funded t (l ++ [e]) = funded t l) as F1.
  { intros t. unfold funded. rewrite lsum_app. cbn. lia. }
  assert (forall t, given t (l ++ [e]) = given t l) as F2.
  { intros t. unfold given. rewrite lsum_app. cbn. lia. }
  assert (forall t, paid t (l ++ [e]) = paid t l) as F3.
  { intros t. unfold paid. rewrite lsum_app. cbn. lia. }
  split; rewrite ?Er.
  - done.
  - intros t. pose proof (A2 t). pose proof (Hcn t). destruct (Eb t). lia.
  - intros t. unfold pool. rewrite Er, F1, F3. unfold paid at 2. cbn. destruct (Eb t) as [-> _].
    rewrite A3, A5. unfold pool. lia.
  - intros a0 t. by rewrite Ec.
  - intros t. by rewrite Es.
  - intros t. rewrite F1, F2, F3. apply A6.
  - intros t. rewrite F2, Es. destruct (Eb t) as [-> _]. pose proof (A7 t).
    assert (g_has s' t = g_has s t) as -> by done. lia.
  - intros a0 t. by rewrite Ec.
  - intros a0 t. by rewrite Ec.
  - intros a0 t. by rewrite Ec.
  - intros _ a0 t. by rewrite Ec.
  - intros _ _ a0 t. by rewrite Ec.
Qed.
Lemma ginv_call w b s l a m s' subs :
  voting_ok w -> ginv w b s l -> g_handle w s b a m = Ok (s', subs) ->
  ginv w b s' (l ++ [ECall s b a m s' subs]).
Proof.
  intros HV HI H. destruct m as [from n|funds|ts|ts| |h|t n].
  - cbn in H. unfold fits128 in H. destruct ((0 <=? n) && _) eqn:Ef; [|done].
    destruct (is_expired _ _) eqn:Ex; [done|]. cbn in H.
    destruct (g_add _ _ _) as [s1|] eqn:E; [|done]. simplify_eq.
    pose proof E as E'. apply add_ok in E as (E1 & E2 & E3 & E4 & E5 & E6 & E7); [|lia].
    assert (forall t : gtok, (if decide ((true, a) = t) then n else 0) = ev_funded t (ECall s b a (GReceive from n) s' [])) as Hs.
    { intros t. cbn. destruct (decide (t = (true, a))); [by rewrite decide_True|by rewrite decide_False]. }
    eapply ginv_quiet; try done.
    + intros t. rewrite <-Hs. apply E6.
    + intros t. rewrite E6. case_decide as Hd; [|rewrite Z.add_0_r; apply HI]. subst t.
      unfold g_add in E'. destruct (g_arrive _ _ _) as [s2|] eqn:Ea; [|done].
      apply arrive_ok in Ea as (_ & _ & _ & Eb & _). destruct (n =? 0) eqn:E0.
      * assert (n = 0) as -> by lia. rewrite Z.add_0_r. apply HI.
      * destruct (add128 _ _) eqn:Eq; [|done]. apply add128_ok in Eq as [_ Eq].
        unfold g_bal in *. by rewrite Eb in Eq.
    + intros t. rewrite <-Hs. cbn [ev_given]. case_decide; lia.
    + intros t. rewrite E7, Hs. cbn [ev_given]. lia.
  - cbn in H. destruct (is_expired _ _) eqn:Ex; [done|]. cbn in H.
    destruct (g_add_all _ _) as [s1|] eqn:E; [|done]. simplify_eq. pose proof E as E'.
    apply add_all_ok in E as (E1 & E2 & E3 & E4 & E5 & E6 & E7 & E8).
    eapply ginv_quiet; try done.
    + clear -E' HI. assert (forall t, g_bal s t <= U128_MAX) as Hu by apply HI. clear HI.
      revert s Hu E'. induction funds as [|[d n] rest IH]; intros s Hu H; cbn in H; [by simplify_eq|].
      unfold fits128 in H. destruct ((0 <=? n) && _) eqn:Ef; [|done].
      destruct (g_add _ _ _) as [s1|] eqn:Ea; [|done]. eapply IH; [|exact H]. clear IH.
      intros t. pose proof Ea as Ea'. apply add_ok in Ea as (_ & _ & _ & _ & _ & Eb & _); [|lia].
      rewrite Eb. case_decide as Hd; [|rewrite Z.add_0_r; apply Hu]. subst t.
      unfold g_add in Ea'. destruct (g_arrive _ _ _) as [s2|] eqn:Ear; [|done].
      apply arrive_ok in Ear as (_ & _ & _ & Eb' & _). destruct (n =? 0) eqn:E0.
      * assert (n = 0) as -> by lia. rewrite Z.add_0_r. apply Hu.
      * destruct (add128 _ _) eqn:Eq; [|done]. apply add128_ok in Eq as [_ Eq].
        unfold g_bal in *. by rewrite Eb' in Eq.
    + intros t. pose proof (E8 (snd t)). cbn. destruct (fst t); lia.
    + intros t. rewrite E7. cbn. lia.
  - cbn in H. destruct ts; [done|]. eapply ginv_claim; [exact HV|exact HI|reflexivity|exact H].
  - cbn in H. destruct ts; [done|]. eapply ginv_claim; [exact HV|exact HI|reflexivity|exact H].
  - cbn in H. eapply ginv_claim; [exact HV|exact HI|reflexivity|exact H].
  - by apply ginv_redist with (w := w).
  - cbn in H. unfold fits128 in H. destruct ((0 <=? n) && _) eqn:Ef; [|done].
    destruct (g_arrive _ _ _) as [s1|] eqn:E; [|done]. simplify_eq.
    apply arrive_ok in E as (E1 & E2 & E3 & E4 & E5 & E6 & E7).
    assert (forall t, g_bal s' t = g_bal s t) as Eb by (intros; unfold g_bal; by rewrite E4).
    eapply ginv_quiet; try done.
    + intros t'. by rewrite E4.
    + intros t'. cbn. rewrite Eb. lia.
    + intros t'. rewrite Eb. apply HI.
    + intros t'. cbn. case_decide; lia.
    + intros t'. rewrite E7. cbn. case_decide; lia.
Qed.
Lemma greached_inv w b s l : greached w b s l -> voting_ok w /\ ginv w b s l.
Proof.
  intros (b0 & h & period & s0 & HV & Hi & HL). split; [done|]. revert HL.
  apply (leads_ind (g_handle w) (fun b s l => ginv w b s l)).
  - intros. by eapply ginv_call.
  - intros b1 s1 l1 x [A1 A2 A3 A4 A5 A6 A7 A0 A8 A9 A10 A11].
    assert (this_round (l1 ++ [ESub s1 b1 x true s1]) = this_round l1 ++ [ESub s1 b1 x true s1]) as Er
      by by rewrite round_app.
    assert (forall (f : gevent -> Z) (l0 : glog), lsum f (l0 ++ [ESub s1 b1 x true s1]) = lsum f l0 + f (ESub s1 b1 x true s1)) as Hs.
    { intros f l0. rewrite lsum_app. cbn. lia. }
    split; try done; unfold pool, funded, given, paid, paid_to; rewrite ?Er, ?Hs; cbn.
    + intros t. rewrite !Hs. cbn. rewrite !Z.add_0_r. apply A3.
    + intros a t. rewrite Hs. cbn. rewrite Z.add_0_r. apply A4.
    + intros t. rewrite Hs. cbn. rewrite Z.add_0_r. apply A5.
    + intros t. rewrite !Hs. cbn. rewrite !Z.add_0_r. apply A6.
    + intros t. rewrite Hs. cbn. rewrite Z.add_0_r. apply A7.
    + intros Hp. apply Forall_app in Hp as [Hp _]. by apply A10.
    + intros Hp Hg. apply Forall_app in Hp as [Hp _]. apply Forall_app in Hg as [Hg _]. by apply A11.
  - intros. by eapply ginv_time.
  - unfold g_instantiate in Hi. destruct (_ && _) in Hi; [|done]. destruct (fits_dur _); [|done].
    destruct (_ =? 0) eqn:E0 in Hi; [done|]. cbn in Hi. simplify_eq. destruct HV as (_ & V2 & _).
    pose proof (V2 b0 (height b0)).
    split; cbn; unfold g_bal, g_claim, g_has, csum, pool, funded, given, paid, paid_to; cbn;
      intros; rewrite ?lookup_empty, ?msum_empty; cbn; try done; lia.
Qed.
