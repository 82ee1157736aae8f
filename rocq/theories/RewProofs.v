(** dao-rewards-distributor: the accounting invariant. *)
From Verif Require Import Base BaseProofs Exec ExecProofs Plain PlainProofs HooksModel StoreModel
  StoreProofs LedgerProofs StakeProofs ExtModel ExtProofs RewModel RewSpec.

(** ** Units: heights or times *)
Definition mk (u : duration) (x : Z) : expiration :=
  match u with DHeight _ => AtHeight x | DTime _ => AtTime x end.
Definition mkd (u : duration) (x : Z) : duration :=
  match u with DHeight _ => DHeight x | DTime _ => DTime x end.
Definition len (u : duration) : Z := match u with DHeight n | DTime n => n end.
Definition now (u : duration) (b : block) : Z :=
  match u with DHeight _ => height b | DTime _ => time b end.
Definition tick (u : duration) (x : Z) : Z :=
  match u with DHeight _ => x | DTime _ => x / NANOS end.

Lemma NANOS_pos : 0 < NANOS. Proof. done. Qed.
Lemma tick_mono u x y : x <= y -> tick u x <= tick u y.
Proof. destruct u; simpl; [done|]. intros. by apply Z.div_le_mono. Qed.
Lemma since_mk u x y :
  duration_since (mk u x) (mk u y) = Ok (mkd u (Z.max 0 (tick u x - tick u y))).
Proof.
  destruct u; simpl; do 2 f_equal.
  - destruct (_ <? _) eqn:E; lia.
  - destruct (_ <? _) eqn:E.
    + pose proof (Z.div_le_mono y x NANOS NANOS_pos). lia.
    + pose proof (Z.div_le_mono x y NANOS NANOS_pos). lia.
Qed.
Lemma div_mk u x : 0 < len u -> dur_div (mkd u x) u = Ok (x / len u).
Proof. destruct u; simpl; intros; destruct (_ =? 0) eqn:E; try lia; done. Qed.
Lemma zero_mk u x : dur_zero (mkd u x) = (x =? 0).
Proof. by destruct u. Qed.
Lemma until_mk u x b e : until (mk u x) b e = mk u (Z.min (now u b) x).
Proof. by destruct u. Qed.
Lemma expired_mk u x b : is_expired (mk u x) b = (x <=? now u b).
Proof. by destruct u. Qed.
Lemma start_mk amount u c b : start_now (EmLinear amount u c) b = mk u (now u b).
Proof. by destruct u. Qed.
Lemma plus_mk u x n e :
  exp_plus (mk u x) (mkd u n) = Ok e -> exists y, e = mk u y /\ tick u y = tick u x + n.
Proof.
  unfold exp_plus. destruct u; simpl; destruct (_ <=? _); intros [= <-].
  - eexists. split; [done|]. done.
  - eexists. split; [done|]. simpl. by rewrite Z.div_add.
Qed.
Lemma now_mono u b b' : block_le b b' -> now u b <= now u b'.
Proof. intros [? ?]. by destruct u. Qed.

Lemma DECIMAL_pos : 0 < DECIMAL. Proof. done. Qed.
Global Opaque DECIMAL.
(** The funded time never gives away more than the funds. *)
Lemma funded_dur_ok amount u c f x :
  funded_dur (EmLinear amount u c) f = Ok x -> 0 < amount -> 0 < len u -> 0 <= f ->
  exists n, x = Some (mkd u n) /\ 0 <= n /\ amount * (n / len u) <= f /\
    (forall k, 0 <= k -> k * amount <= f -> k * len u <= n).
Proof.
  intros H Ha Hu Hf. assert (exists n, funded_units (len u) amount f = Ok n /\ x = Some (mkd u n)) as (n & Hn & ->).
  { destruct u; simpl in *; destruct (funded_units _ _ _); try done; injection H as <-; eauto. }
  exists n. split; [done|]. clear H. unfold funded_units in Hn.
  destruct (mul_ratio128 f _ _) as [r|] eqn:Er; [|done]. apply mul_ratio128_ok in Er as (_ & Er & _).
  destruct (mul_ratio128 (len u) _ _) as [q|] eqn:Eq; [|done]. apply mul_ratio128_ok in Eq as (_ & Eq & _).
  destruct (_ <=? _); [|done]. injection Hn as <-. pose proof DECIMAL_pos as HD.
  assert (r * amount <= f * DECIMAL) as Hr by (subst r; apply div_mul_le; lia).
  assert (0 <= r) by (subst r; apply Z.div_pos; lia).
  assert (q * DECIMAL <= len u * r) as Hq by (subst q; apply div_mul_le; lia).
  assert (0 <= q) by (subst q; apply Z.div_pos; nia).
  split; [done|]. split.
  - assert (q / len u * len u <= q) as H1 by (apply div_mul_le; lia).
    assert (0 <= q / len u) by (apply Z.div_pos; lia). set (k := q / len u) in *.
    assert (k * DECIMAL <= r) by nia.
    assert (amount * (k * DECIMAL) <= amount * r) by nia. nia.
  - intros k Hk Hka. assert (k * DECIMAL <= r) as H1.
    { subst r. apply Z.div_le_lower_bound; [lia|]. nia. }
    subst q. apply Z.div_le_lower_bound; [lia|]. nia.
Qed.

(** ** The active epoch *)
Definition never_ran (p : epoch) : Prop := ep_start p = Never /\ ep_end p = Never /\ ep_last p = Never.
(** [c] periods have been credited. *)
Record running (b : block) (u : duration) (amount : Z) (p : epoch) (f c st en la : Z) : Prop := Running {
  ru_start : ep_start p = mk u st;
  ru_end : ep_end p = mk u en;
  ru_last : ep_last p = mk u la;
  ru_now : la <= now u b;
  ru_cl : c * len u <= tick u la - tick u st;
  ru_ce : c * len u <= tick u en - tick u st;
  ru_cf : c * amount <= f;
  ru_ef : amount * ((tick u en - tick u st) / len u) <= f;
  ru_c0 : c = 0 -> ep_puvp p = 0
}.
Definition shape (b : block) (p : epoch) (f c : Z) : Prop :=
  0 <= f /\ 0 <= c /\ 0 <= ep_puvp p /\
  match ep_rate p with
  | EmPaused => never_ran p /\ c = 0 /\ ep_puvp p = 0
  | EmImmediate => never_ran p /\ c = 0
  | EmLinear amount u _ =>
      0 < amount /\ 0 < len u /\
      ((never_ran p /\ f = 0 /\ c = 0 /\ ep_puvp p = 0) \/
       exists st en la, running b u amount p f c st en la)
  end.
Definition left (p : epoch) (f c : Z) : Z :=
  match ep_rate p with
  | EmPaused => f
  | EmImmediate => 0
  | EmLinear amount _ _ => f - c * amount
  end.
(** Nothing more will be credited in this block. *)
Definition fresh (b : block) (p : epoch) : Prop :=
  match ep_rate p with
  | EmLinear _ u _ =>
      forall en la, ep_end p = mk u en -> ep_last p = mk u la ->
        tick u (Z.min (now u b) en) <= tick u la
  | _ => True
  end.
Lemma mk_inj u x y : mk u x = mk u y -> x = y.
Proof. destruct u; simpl; congruence. Qed.
Lemma mk_not_never u x : mk u x <> Never.
Proof. by destruct u. Qed.
Lemma left_nonneg b p f c : shape b p f c -> 0 <= left p f c.
Proof.
  intros (H0 & H1 & H2 & H). unfold left. destruct (ep_rate p); try lia.
  destruct H as (_ & _ & [(_ & -> & -> & _)|(st & en & la & [])]); lia.
Qed.
Lemma shape_time b b' p f c : shape b p f c -> block_le b b' -> shape b' p f c.
Proof.
  intros (H0 & H1 & H2 & H) Hb. split; [done|]. split; [done|]. split; [done|].
  destruct (ep_rate p) as [| |amount u ct]; try done.
  destruct H as (Ha & Hu & [H|(st & en & la & [])]); (split; [done|]; split; [done|]); [by left|].
  right. exists st, en, la. pose proof (now_mono u _ _ Hb). split; try done. lia.
Qed.
Definition set_puvp (p : epoch) (x : Z) : epoch :=
  Epoch (ep_rate p) (ep_start p) (ep_end p) x (ep_last p).

(** Crediting the time that has passed. *)
Lemma active_ok s b vp v p f c x :
  active_puvp s b vp p = Ok x -> e_vps s !! vp = Some v -> 0 <= vp_total_at v b ->
  shape b p f c ->
  exists c', c <= c' /\ shape b (bump (set_puvp p x) b) f c' /\ ep_puvp p <= x /\
    vp_total_at v b * (x - ep_puvp p) <= SCALE * (left p f c - left p f c') /\
    (fresh b p -> x = ep_puvp p) /\ fresh b (bump (set_puvp p x) b).
Proof.
  intros H Hv HT (H0 & H1 & H2 & HS). pose proof SCALE_pos as Hsc. unfold active_puvp in H.
  unfold shape, left, fresh, bump, set_puvp, never_ran in *. cbn [ep_rate ep_start ep_end ep_puvp ep_last] in *.
  destruct (ep_rate p) as [| |amount u ct].
  { injection H as <-. destruct HS as ((A & B & C) & -> & D). exists 0. rewrite B. cbn [until]. repeat split; auto; lia. }
  { injection H as <-. destruct HS as ((A & B & C) & ->). exists 0. rewrite B. cbn [until]. repeat split; auto; lia. }
  destruct HS as (Ha & Hu & [((A & B & C) & -> & -> & D)|(st & en & la & R)]).
  { unfold latest in H. rewrite B, C in H. cbn [until] in H. injection H as <-. exists 0. rewrite B. cbn [until].
    repeat split; auto; try lia. intros ? ? E. symmetry in E. by apply mk_not_never in E. }
  destruct R as [R1 R2 R3 R4 R5 R6 R7 R8 R9].
  unfold latest in H. rewrite R2 in *. rewrite until_mk in *. set (lt := Z.min (now u b) en) in *.
  assert (exists d, (if dur_zero d then Ok (ep_puvp p) else
     do! v <- q_vp s vp;
     let total := vp_total_at v b in
     if total =? 0 then Ok (ep_puvp p)
     else do! n <- dur_div d u; do! x <- mul256 (amount * n) SCALE; add256 (ep_puvp p) (x / total)) = Ok x /\
     d = mkd u (Z.max 0 (tick u lt - tick u la))) as (d & H' & Ed).
  { exists (mkd u (Z.max 0 (tick u lt - tick u la))). split; [|done].
    rewrite R3 in H. pose proof (since_mk u lt la) as E. destruct u; cbn [mk] in H, E |- *; rewrite E in H; exact H. }
  clear H. rename H' into H. subst d.
  rewrite zero_mk in H. set (dl := Z.max 0 (tick u lt - tick u la)) in *.
  assert (tick u lt <= tick u en) as Hlt1 by (apply tick_mono; lia).
  assert (lt = en \/ tick u la <= tick u lt) as Hlt2.
  { destruct (Z_le_gt_dec la lt); [right; by apply tick_mono|]. left. lia. }
  (* the result for any number of credited periods that fits *)
  assert (forall k, 0 <= k -> k * len u <= dl -> (x = ep_puvp p /\ k = 0) \/
      (0 < dl /\ ep_puvp p <= x /\ vp_total_at v b * (x - ep_puvp p) <= SCALE * (k * amount) /\ (k = 0 -> x = ep_puvp p)) ->
    exists c', c <= c' /\
      (0 <= f /\ 0 <= c' /\ 0 <= x /\ 0 < amount /\ 0 < len u /\
       ((mk u st = Never /\ mk u en = Never /\ mk u lt = Never) /\ f = 0 /\ c' = 0 /\ x = 0 \/
        exists st0 en0 la0, running b u amount (Epoch (EmLinear amount u ct) (mk u st) (mk u en) x (mk u lt)) f c' st0 en0 la0)) /\
      ep_puvp p <= x /\ vp_total_at v b * (x - ep_puvp p) <= SCALE * (f - c * amount - (f - c' * amount)) /\
      ((forall en0 la0, mk u en = mk u en0 -> ep_last p = mk u la0 -> tick u (Z.min (now u b) en0) <= tick u la0) -> x = ep_puvp p) /\
      (forall en0 la0, mk u en = mk u en0 -> mk u lt = mk u la0 -> tick u (Z.min (now u b) en0) <= tick u la0)) as Hgo.
  { intros k Hk Hkd Hx.
    assert ((c + k) * len u <= tick u lt - tick u st) as Hck.
    { destruct (Z.eq_dec dl 0) as [E0|En].
      - assert (k = 0) as -> by nia. rewrite Z.add_0_r. destruct Hlt2 as [E|Hl]; [rewrite E; lia|]. lia.
      - rewrite Z.mul_add_distr_r. unfold dl in *. lia. }
    exists (c + k). split; [lia|]. split.
    { repeat split; try done; try lia.
      right. exists st, en, lt. split; cbn [ep_start ep_end ep_last ep_puvp]; try done; try lia.
        + destruct (Z.eq_dec k 0) as [->|Hk0]; [by rewrite Z.add_0_r|].
          assert (c + k <= (tick u en - tick u st) / len u).
          { apply Z.div_le_lower_bound; [lia|]. nia. }
          nia.
    }
    split. { destruct Hx as [[-> _]|(_ & ? & _)]; lia. }
    split. { replace (f - c * amount - (f - (c + k) * amount)) with (k * amount) by lia.
      destruct Hx as [[-> ->]|(_ & _ & ? & _)]; [|done]. rewrite Z.sub_diag, Z.mul_0_r. lia. }
    split.
    { intros Hf. specialize (Hf en la eq_refl R3). fold lt in Hf.
      destruct Hx as [[-> _]|(Hd & _)]; [done|]. unfold dl in Hd. lia. }
    intros en0 la0 E1%mk_inj E2%mk_inj. subst en0 la0. done. }
  rewrite R1.
  destruct (dl =? 0) eqn:Ed.
  { injection H as <-. apply (Hgo 0); lia. }
  unfold q_vp in H. rewrite Hv in H. cbn zeta in H.
  destruct (vp_total_at v b =? 0) eqn:Et.
  { injection H as <-. apply (Hgo 0); lia. }
  rewrite div_mk in H by done. set (k := dl / len u) in *.
  destruct (mul256 _ _) as [y|] eqn:Ey; [|done]. apply mul256_ok in Ey as [-> _].
  apply add256_ok in H as [-> _].
  assert (0 <= k) by (apply Z.div_pos; lia).
  assert (k * len u <= dl) by (apply div_mul_le; lia).
  assert (0 <= amount * k) as Hak by nia. assert (0 <= amount * k * SCALE) by nia.
  pose proof (Z.div_pos (amount * k * SCALE) (vp_total_at v b) ltac:(lia) ltac:(lia)).
  pose proof (div_mul_le (amount * k * SCALE) (vp_total_at v b) ltac:(lia)).
  apply (Hgo k); [lia|lia|]. right. split; [lia|]. split; [lia|]. split.
  - rewrite Z.add_simpl_l. nia.
  - intros ->. rewrite Z.mul_0_r, Z.mul_0_l, Z.div_0_l by lia. lia.
Qed.

(** Nothing is credited to nobody. *)
Lemma active_zero s b vp p v f c x :
  active_puvp s b vp p = Ok x -> e_vps s !! vp = Some v -> shape b p f c ->
  vp_total_at v b = 0 -> x = ep_puvp p.
Proof.
  intros H Hv (_ & _ & _ & HS) H0. unfold active_puvp in H.
  destruct (ep_rate p) as [| |amount u ct]; [destruct HS as (_ & _ & ->); congruence|congruence|].
  destruct (latest p b) as [n|n|] eqn:E; try congruence;
    destruct (duration_since _ _) as [d|]; try done; destruct (dur_zero d); try congruence;
    unfold q_vp in H; rewrite Hv in H; cbn zeta in H; rewrite H0 in H; cbn in H; congruence.
Qed.

(** ** One distribution *)
Definition tp (d : dist) : Z := di_hist d + ep_puvp (di_ep d).
Notation vled b v := (ledger (height b) (vp_pow v) (vp_tot v)).
Definition now_pow (v : vps) (u : addr) : Z := smap_get (vp_pow v) u.
Definition still (v : vps) (b : block) : Prop := forall u, now_pow v u = vp_power_at v b u.
Definition owed (b : block) (v : vps) (d : dist) (pf af : addr -> Z) (u : addr) : Z :=
  SCALE * pf u + vp_power_at v b u * (tp d - af u).
Record dinv (b : block) (v : vps) (d : dist) (wait : list addr) (pf af : addr -> Z) (pd fd : Z)
  : Prop := DInv {
  dv_hist : 0 <= di_hist d;
  dv_acc : forall u, 0 <= af u <= tp d;
  dv_pend : forall u, 0 <= pf u;
  dv_main : exists c, shape b (di_ep d) (di_funded d) c /\
    forall us, NoDup us -> SCALE * pd + lsum (owed b v d pf af) us +
      SCALE * left (di_ep d) (di_funded d) c <= SCALE * fd;
  dv_chg : forall u, u ∉ wait -> now_pow v u <> vp_power_at v b u ->
    af u = tp d /\ fresh b (di_ep d);
  dv_tp : exists c, shape b (di_ep d) (di_funded d) c /\
    tp d + SCALE * left (di_ep d) (di_funded d) c <= SCALE * fd;
  dv_paid : 0 <= pd
}.
Lemma pow_nonneg b v u : vled b v -> 0 <= vp_power_at v b u.
Proof. intros HL. apply (lg_hpos _ _ _ HL). Qed.
Lemma total_nonneg b v : vled b v -> 0 <= vp_total_at v b.
Proof.
  intros HL. unfold vp_total_at. rewrite <-(lg_snap _ _ _ HL). apply msum_nonneg.
  intros u x _. apply (lg_hpos _ _ _ HL).
Qed.
Lemma pows_le b v us : vled b v -> NoDup us -> lsum (vp_power_at v b) us <= vp_total_at v b.
Proof. intros HL Hn. by apply (ledger_at_list _ _ _ _ _ HL). Qed.

(** A change of the distribution that is paid for. *)
Lemma dinv_move b v d d' wait pf af pd fd pd' fd' :
  vled b v -> dinv b v d wait pf af pd fd -> 0 <= di_hist d' -> tp d <= tp d' ->
  pd <= pd' -> (vp_total_at v b = 0 -> tp d' = tp d) ->
  (forall c, shape b (di_ep d) (di_funded d) c -> exists c',
     shape b (di_ep d') (di_funded d') c' /\
     vp_total_at v b * (tp d' - tp d) + SCALE * pd' + SCALE * left (di_ep d') (di_funded d') c' + SCALE * fd <=
     SCALE * pd + SCALE * left (di_ep d) (di_funded d) c + SCALE * fd') ->
  (fresh b (di_ep d) -> tp d' = tp d /\ fresh b (di_ep d')) \/ still v b ->
  dinv b v d' wait pf af pd' fd'.
Proof.
  intros HL [A1 A2 A3 (c & A4 & A5) A6 (e & A7 & A8) A9] Hh Ht Hpd H0 Hc Hf. pose proof SCALE_pos as HS. split; try done.
  - intros u. pose proof (A2 u). lia.
  - destruct (Hc c A4) as (c' & S & B). exists c'. split; [done|]. intros us Hn. specialize (A5 us Hn).
    rewrite (lsum_ext (owed b v d' pf af) (fun u => owed b v d pf af u + (tp d' - tp d) * vp_power_at v b u)).
    2:{ intros u _. unfold owed. lia. }
    rewrite lsum_add, lsum_scale. pose proof (pows_le b v us HL Hn).
    assert ((tp d' - tp d) * lsum (vp_power_at v b) us <= (tp d' - tp d) * vp_total_at v b) by nia. lia.
  - intros u Hu Hne. destruct Hf as [Hf|Hf]; [|by specialize (Hf u)].
    destruct (A6 u Hu Hne) as [B1 B2]. destruct (Hf B2) as [-> B3]. by split.
  - destruct (Hc e A7) as (e' & S & B). exists e'. split; [done|]. pose proof (total_nonneg b v HL) as HT.
    destruct (Z.eq_dec (vp_total_at v b) 0) as [E|E]; [rewrite (H0 E) in *; nia|].
    assert (tp d' - tp d <= vp_total_at v b * (tp d' - tp d)) by nia. nia.
  - lia.
Qed.

(** The rewards of one member written down. *)
Lemma dinv_settle b v d wait wait' pf af pd fd a pf' af' :
  vled b v -> dinv b v d wait pf af pd fd -> fresh b (di_ep d) ->
  (forall u, pf' u = if decide (u = a) then pf a + vp_power_at v b a * (tp d - af a) / SCALE else pf u) ->
  (forall u, af' u = if decide (u = a) then tp d else af u) ->
  (forall u, u ∉ wait' -> u = a \/ u ∉ wait) ->
  dinv b v d wait' pf' af' pd fd.
Proof.
  intros HL [A1 A2 A3 (c & A4 & A5) A6] Hf Ep Ea Hw. pose proof SCALE_pos as HS.
  pose proof (pow_nonneg b v a HL) as Hp. pose proof (A2 a) as Haa.
  assert (0 <= vp_power_at v b a * (tp d - af a) / SCALE) by (apply Z.div_pos; nia).
  split; try done.
  - intros u. rewrite Ea. destruct (decide _); [|done]. lia.
  - intros u. rewrite Ep. destruct (decide _); [|done]. pose proof (A3 a). lia.
  - exists c. split; [done|]. intros us Hn. specialize (A5 us Hn).
    assert (lsum (owed b v d pf' af') us <= lsum (owed b v d pf af) us); [|lia].
    apply lsum_le. intros u _. unfold owed. rewrite Ep, Ea. destruct (decide (u = a)) as [->|]; [|lia].
    pose proof (Z.mul_div_le (vp_power_at v b a * (tp d - af a)) SCALE HS). nia.
  - intros u Hu Hne. rewrite Ea. destruct (decide (u = a)) as [->|Hua]; [done|].
    destruct (Hw u Hu) as [?|Hu']; [done|]. by apply A6.
Qed.
(** Paid out. *)
Lemma dinv_pay b v d wait pf af pd fd a pf' :
  dinv b v d wait pf af pd fd -> af a = tp d ->
  (forall u, pf' u = if decide (u = a) then 0 else pf u) ->
  dinv b v d wait pf' af (pd + pf a) fd.
Proof.
  intros [A1 A2 A3 (c & A4 & A5) A6 A7 A8] Ha Ep. pose proof SCALE_pos as HS. split; try done.
  - intros u. rewrite Ep. by destruct (decide _).
  - exists c. split; [done|]. intros us Hn.
    assert (forall u, u <> a -> owed b v d pf' af u = owed b v d pf af u) as Eo.
    { intros u Hu. unfold owed. by rewrite Ep, decide_False. }
    assert (owed b v d pf af a = SCALE * pf a) as E1 by (unfold owed; rewrite Ha; lia).
    assert (owed b v d pf' af a = 0) as E2 by (unfold owed; rewrite Ep, decide_True, Ha by done; lia).
    destruct (decide (a ∈ us)) as [Hin|Hin].
    + pose proof (A5 us Hn). rewrite (lsum_at _ (owed b v d pf af) a) by done. lia.
    + pose proof (A5 (a :: us) ltac:(by apply NoDup_cons)) as HM. simpl in HM.
      rewrite (lsum_ext (owed b v d pf' af) (owed b v d pf af)); [lia|].
      intros u Hu. apply Eo. by intros ->.
  - pose proof (A3 a). lia.
Qed.

(** A later block. *)
Lemma dinv_time b b' v d wait pf af pd fd :
  vled b v -> block_le b b' -> height b < height b' -> wait = [] ->
  dinv b v d wait pf af pd fd -> dinv b' v d wait pf af pd fd.
Proof.
  intros HL Hb Hh -> [A1 A2 A3 (c & A4 & A5) A6 (e & A7 & A8)].
  assert (forall u, vp_power_at v b' u = now_pow v u) as Eb.
  { intros u. unfold vp_power_at. eapply smap_at_now; [apply HL|lia]. }
  split; try done.
  - exists c. split; [by eapply shape_time|]. intros us Hn.
    rewrite (lsum_ext (owed b' v d pf af) (owed b v d pf af)); [by apply A5|].
    intros u _. unfold owed. rewrite Eb. destruct (decide (now_pow v u = vp_power_at v b u)) as [->|Hne]; [done|].
    destruct (A6 u ltac:(apply not_elem_of_nil) Hne) as [-> _]. lia.
  - intros u _ Hne. by rewrite Eb in Hne.
  - exists e. split; [by eapply shape_time|done].
Qed.

(** A change of powers in this block. *)
Lemma dinv_power b v d wait pf af pd fd a n t :
  vled b v -> dinv b v d wait pf af pd fd ->
  dinv b (VP (smap_save (vp_pow v) a (height b) n) (snap_save (vp_tot v) (height b) t) (height b)) d
    (wait ++ [a]) pf af pd fd.
Proof.
  intros HL [A1 A2 A3 (c & A4 & A5) A6].
  set (v' := VP _ _ _).
  assert (forall u, vp_power_at v' b u = vp_power_at v b u) as Eb.
  { intros u. unfold vp_power_at. cbn. by rewrite smap_at_save. }
  split; try done.
  - exists c. split; [done|]. intros us Hn. rewrite (lsum_ext (owed b v' d pf af) (owed b v d pf af)); [by apply A5|].
    intros u _. unfold owed. by rewrite Eb.
  - intros u [Hu1 Hu2]%not_elem_of_app Hne. rewrite Eb in Hne. apply A6; [done|].
    unfold now_pow in *. cbn in Hne. rewrite smap_get_save in Hne.
    destruct (decide (u = a)) as [->|]; [|done]. exfalso. apply Hu2, elem_of_list_here.
Qed.

(** ** The contract's functions on one distribution *)
Lemma set_ep_simpl d p f h :
  di_ep (set_ep d p f h) = p /\ di_funded (set_ep d p f h) = f /\ di_hist (set_ep d p f h) = h /\
  di_vp (set_ep d p f h) = di_vp d /\ di_hook (set_ep d p f h) = di_hook d.
Proof. done. Qed.
(** rewards.rs:33-36: up to date. *)
Lemma credit_step s b v d wait pf af pd fd x :
  e_vps s !! di_vp d = Some v -> vled b v -> dinv b v d wait pf af pd fd ->
  active_puvp s b (di_vp d) (di_ep d) = Ok x ->
  let d' := set_ep d (bump (set_puvp (di_ep d) x) b) (di_funded d) (di_hist d) in
  dinv b v d' wait pf af pd fd /\ fresh b (di_ep d').
Proof.
  intros Hv HL HI Hx d'. pose proof (total_nonneg b v HL) as HT.
  pose proof HI as [A1 A2 A3 (c & A4 & A5) A6].
  destruct (active_ok _ _ _ _ _ _ _ _ Hx Hv HT A4) as (c' & _ & _ & Hle & _ & _ & Hfr). split; [|done].
  assert (tp d' - tp d = x - ep_puvp (di_ep d)) as Et by (unfold tp, d'; cbn; lia).
  eapply dinv_move; [exact HL|exact HI|done|lia|lia|intros E0; pose proof (active_zero _ _ _ _ _ _ _ _ Hx Hv A4 E0); lia| |].
  - clear c c' A4 A5 Hle. intros c A4.
    destruct (active_ok _ _ _ _ _ _ _ _ Hx Hv HT A4) as (c' & _ & Hsh & _ & Hg & _).
    exists c'. split; [done|]. rewrite Et. change (left (di_ep d') (di_funded d') c') with (left (di_ep d) (di_funded d) c').
    lia.
  - left. intros Hf. destruct (active_ok _ _ _ _ _ _ _ _ Hx Hv HT A4) as (c1 & _ & _ & _ & _ & E & _).
    split; [|done]. specialize (E Hf). lia.
Qed.
Lemma mul128_le a b c : mul128 a b = Ok c -> c = a * b.
Proof. unfold mul128. destruct (_ <? _); congruence. Qed.
(** What is left after the rewards of the past. *)
Lemma until_now_ok b p x f c R :
  shape b (bump (set_puvp p x) b) f c -> rewards_until p f (latest p b) = Ok R ->
  f - R <= left p f c /\ 0 <= R.
Proof.
  intros (H0 & H1 & H2 & HS) HR. unfold rewards_until, left in *.
  unfold bump, set_puvp, never_ran in HS. cbn [ep_rate ep_start ep_end ep_puvp ep_last] in HS.
  destruct (ep_rate p) as [| |amount u ct].
  - injection HR as <-. lia.
  - injection HR as <-. lia.
  - destruct HS as (Ha & Hu & [((A & B & C) & -> & -> & D)|(st & en & la & [R1 R2 R3 R4 R5 R6 R7 R8 R9])]).
    + rewrite A in HR. injection HR as <-. lia.
    + cbn [ep_start ep_end ep_last] in *. unfold latest in HR. rewrite R2, until_mk in *. apply mk_inj in R3.
      assert (exists d, (do! n <- dur_div d u; mul128 amount n) = Ok R /\
        d = mkd u (Z.max 0 (tick u la - tick u st))) as (d & E & ->).
      { rewrite R1, R3 in HR. exists (mkd u (Z.max 0 (tick u la - tick u st))). split; [|done].
        pose proof (since_mk u la st) as E. destruct u; cbn [mk] in HR, E |- *; rewrite E in HR; exact HR. }
      rewrite div_mk in E by done. apply mul128_le in E as ->.
      assert (c <= Z.max 0 (tick u la - tick u st) / len u).
      { apply Z.div_le_lower_bound; [lia|]. nia. }
      split; nia.
Qed.

Lemma em_ok r : em_fits r = true -> em_validate r = Ok tt ->
  match r with EmLinear amount u _ => 0 < amount /\ 0 < len u | _ => True end.
Proof.
  destruct r as [| |amount u c]; try done. cbn [em_fits em_validate]. intros [H1 H2]%andb_true_iff.
  apply fits128_ok in H1. destruct (amount =? 0) eqn:E1; [done|]. cbn [negb].
  destruct (dur_zero u) eqn:E2; [done|]. intros _. split; [lia|]. destruct u; cbn in *; lia.
Qed.

Lemma transition_step s b v d wait pf af pd fd r d' :
  height b <= U64_MAX -> e_vps s !! di_vp d = Some v -> vled b v -> dinv b v d wait pf af pd fd ->
  em_fits r = true -> em_validate r = Ok tt ->
  (immediate r = true -> still v b) -> transition s b d r = Ok d' ->
  dinv b v d' wait pf af pd fd /\ di_vp d' = di_vp d /\ di_hook d' = di_hook d /\ di_denom d' = di_denom d.
Proof.
  intros Hhb Hv HL HI Hfit Hval Hq H. unfold transition in H. destruct (decide _) as [_|_]; [by injection H as <-|].
  destruct (active_puvp s b (di_vp d) (di_ep d)) as [x|] eqn:Ex; [|done]. cbn zeta in H.
  destruct (add256 _ _) as [hist|] eqn:Eh; [|done]. apply add256_ok in Eh as [-> _].
  destruct (rewards_until _ _ _) as [R|] eqn:ER; [|done].
  destruct (sub128 _ _) as [f|] eqn:Ef; [|done]. apply sub128_ok in Ef as [-> Hle].
  destruct (funded_dur _ _) as [ln|] eqn:El; [|done].
  destruct (match ln with Some _ => _ | None => _ end) as [e'|] eqn:Ee in H; [|done].
  destruct (match r with EmImmediate => _ | _ => _ end) as [x'|] eqn:Ex' in H; [|done].
  injection H as <-. split; [|done]. pose proof (total_nonneg b v HL) as HT. pose proof SCALE_pos as HS.
  pose proof (em_ok r Hfit Hval) as Hr.
  set (d' := set_ep _ _ _ _).
  assert (0 <= x' /\ vp_total_at v b * x' <= SCALE * (if immediate r then di_funded d - R else 0) /\
    (immediate r = false -> x' = 0) /\ (vp_total_at v b = 0 -> x' = 0)) as (X0 & X1 & X2 & X3).
  { destruct r as [| |a u ct]; cbn [immediate]; [injection Ex' as <-; split; [lia|split; [lia|done]]| |injection Ex' as <-; split; [lia|split; [lia|done]]].
    unfold immediate_puvp, q_vp in Ex'. rewrite Hv in Ex'. cbn zeta in Ex'.
    destruct (vp_total_at v b =? 0) eqn:Et; [done|]. cbn [negb] in Ex'.
    destruct (mul256 _ _) as [y|] eqn:Ey; [|done]. apply mul256_ok in Ey as [-> _].
    apply add256_ok in Ex' as [-> _].
    assert (0 <= (di_funded d - R) * SCALE) by nia.
    pose proof (Z.div_pos ((di_funded d - R) * SCALE) (vp_total_at v b) ltac:(lia) ltac:(lia)).
    pose proof (div_mul_le ((di_funded d - R) * SCALE) (vp_total_at v b) ltac:(lia)).
    split; [lia|]. split; [nia|]. split; [done|lia]. }
  assert (tp d' - tp d = x - ep_puvp (di_ep d) + x') as Et by (unfold tp, d'; cbn; lia).
  pose proof HI as [A1 A2 A3 (c & A4 & A5) A6].
  destruct (active_ok _ _ _ _ _ _ _ _ Ex Hv HT A4) as (c' & Hcc & Hsh & Hxx & Hg & Hfx & _).
  assert (0 <= ep_puvp (di_ep d)) as Hp0 by apply A4.
  eapply dinv_move; [exact HL|exact HI| |lia|lia|intros E0; pose proof (active_zero _ _ _ _ _ _ _ _ Ex Hv A4 E0); specialize (X3 E0); lia| |].
  - unfold d'. cbn. lia.
  - clear c c' Hcc A4 A5 Hsh Hxx Hg Hfx. intros c A4.
    destruct (active_ok _ _ _ _ _ _ _ _ Ex Hv HT A4) as (c' & Hcc & Hsh & Hxx & Hg & Hfx & _).
    destruct (until_now_ok _ _ _ _ _ _ Hsh ER) as [Hl HR]. exists 0.
    assert (shape b (di_ep d') (di_funded d') 0 /\ left (di_ep d') (di_funded d') 0 = if immediate r then 0 else di_funded d - R) as [Sh ->].
    { unfold shape, left, d', never_ran. cbn [di_ep di_funded set_ep ep_rate ep_start ep_end ep_puvp ep_last].
      destruct r as [| |a u ct]; cbn [immediate].
      - cbn in El. injection El as <-. injection Ee as <-. cbn. rewrite (X2 eq_refl). repeat split; try done; lia.
      - cbn in El. injection El as <-. injection Ee as <-. cbn. repeat split; try done; lia.
      - destruct Hr as [Ha Hu]. split; [|lia]. rewrite (X2 eq_refl). split; [lia|]. split; [lia|]. split; [lia|].
        split; [done|]. split; [done|]. right.
        destruct (funded_dur_ok _ _ _ _ _ El Ha Hu ltac:(lia)) as (n & -> & Hn & Hn2 & _).
        assert (exists en, e' = mk u en /\ 0 <= tick u en - tick u (now u b) <= n) as (en & -> & Hen).
        { destruct u as [k|k]; cbn in Ee.
          - injection Ee as <-. eexists. split; [done|]. cbn.
            destruct (_ <=? _) eqn:E; lia.
          - destruct (_ <=? _) eqn:E in Ee; [|done]. injection Ee as <-. eexists. split; [done|]. cbn.
            rewrite Z.div_add by done. lia. }
        exists (now u b), en, (now u b). split; cbn [ep_start ep_end ep_last ep_puvp]; try done; try lia.
        + by rewrite start_mk.
        + by rewrite start_mk.
        + assert ((tick u en - tick u (now u b)) / len u <= n / len u) by (apply Z.div_le_mono; lia). nia. }
    split; [done|]. rewrite Et.
    replace (vp_total_at v b * (x - ep_puvp (di_ep d) + x')) with (vp_total_at v b * (x - ep_puvp (di_ep d)) + vp_total_at v b * x') by lia.
    destruct (immediate r); nia.
  - destruct (immediate r) eqn:Ei; [right; by apply Hq|]. left. intros Hf. split.
    + specialize (Hfx Hf). specialize (X2 eq_refl). lia.
    + unfold fresh, d'. cbn [di_ep set_ep ep_rate ep_end ep_last]. destruct r as [| |a u ct]; try done.
      intros en la _ E. rewrite start_mk in E. apply mk_inj in E as <-. apply tick_mono. lia.
Qed.

Lemma fund_paused_step b v d wait pf af pd fd n :
  vled b v -> dinv b v d wait pf af pd fd -> ep_rate (di_ep d) = EmPaused -> 0 <= n ->
  dinv b v (set_ep d (di_ep d) (di_funded d + n) (di_hist d)) wait pf af pd (fd + n).
Proof.
  intros HL HI Hr Hn. pose proof HI as [A1 _ _ _ _].
  eapply dinv_move; [exact HL|exact HI|done|done|done|done| |left; done].
  intros c (H0 & H1 & H2 & HS). exists c. unfold shape, left, tp, set_ep in *. cbn in *. rewrite Hr in *.
  split; [|lia]. repeat split; try lia; apply HS.
Qed.
Lemma fund_immediate_step s b v d wait pf af pd fd n x :
  e_vps s !! di_vp d = Some v -> vled b v -> dinv b v d wait pf af pd fd ->
  ep_rate (di_ep d) = EmImmediate -> 0 <= n -> still v b ->
  immediate_puvp s b (di_vp d) (ep_puvp (di_ep d)) n = Ok x ->
  dinv b v (set_ep d (set_puvp (di_ep d) x) (di_funded d + n) (di_hist d)) wait pf af pd (fd + n).
Proof.
  intros Hv HL HI Hr Hn Hq Hx. pose proof HI as [A1 _ _ _ _]. pose proof SCALE_pos as HS.
  pose proof (total_nonneg b v HL) as HT.
  unfold immediate_puvp, q_vp in Hx. rewrite Hv in Hx. cbn zeta in Hx.
  destruct (vp_total_at v b =? 0) eqn:Et; [done|]. cbn [negb] in Hx.
  destruct (mul256 _ _) as [y|] eqn:Ey; [|done]. apply mul256_ok in Ey as [-> _].
  apply add256_ok in Hx as [-> _].
  assert (0 <= n * SCALE) by nia.
  pose proof (Z.div_pos (n * SCALE) (vp_total_at v b) ltac:(lia) ltac:(lia)) as H1.
  pose proof (div_mul_le (n * SCALE) (vp_total_at v b) ltac:(lia)) as H2.
  set (g := n * SCALE / vp_total_at v b) in *.
  eapply dinv_move; [exact HL|exact HI|done| |done|lia| |right; done].
  - unfold tp. cbn. lia.
  - intros c (B0 & B1 & B2 & B3). exists c. unfold shape, left, tp, set_ep, set_puvp in *. cbn in *. rewrite Hr in *.
    split; [repeat split; try lia; apply B3|].
    replace (di_hist d + (ep_puvp (di_ep d) + g) - (di_hist d + ep_puvp (di_ep d))) with g by lia. nia.
Qed.
Lemma fund_linear_step s b v d wait pf af pd fd n amount u ct d' :
  e_vps s !! di_vp d = Some v -> vled b v -> dinv b v d wait pf af pd fd ->
  ep_rate (di_ep d) = EmLinear amount u ct -> 0 <= n -> (ct = true -> di_funded d <> 0 -> still v b) ->
  fund_linear s b d ct n = Ok d' ->
  dinv b v d' wait pf af pd (fd + n) /\ di_vp d' = di_vp d /\ di_hook d' = di_hook d /\ di_denom d' = di_denom d.
Proof.
  intros Hv HL HI Hr Hn Hq H. pose proof HI as [A1 A2 A3 (c & A4 & A5) A6]. pose proof SCALE_pos as HS.
  pose proof (total_nonneg b v HL) as HT. unfold fund_linear in H. cbn zeta in H.
  destruct (negb (negb (di_funded d =? 0)) || (negb ct && is_expired (ep_end (di_ep d)) b)) eqn:Er.
  - (* starting anew *)
    destruct (if (negb ct && is_expired _ _) && _ then _ else _) as [hist|] eqn:Eh in H; [|done]. cbn [di_ep di_funded di_hist set_ep ep_rate ep_start ep_end ep_puvp ep_last] in H.
    assert (continuous_off : ct && negb (di_funded d =? 0) && is_expired (ep_end (di_ep d)) b = false).
    { destruct ct, (di_funded d =? 0); done. }
    rewrite continuous_off in H. rewrite Hr in H.
    destruct (funded_dur _ _) as [ln|] eqn:El; [|done].
    assert (0 < amount /\ 0 < len u) as [Ha Hu].
    { destruct A4 as (_ & _ & _ & A4). rewrite Hr in A4. tauto. }
    destruct (funded_dur_ok _ _ _ _ _ El Ha Hu Hn) as (m & -> & Hm & Hm2 & _).
    rewrite start_mk in H. destruct (exp_plus _ _) as [e'|] eqn:Ee; [|done].
    apply plus_mk in Ee as (en & -> & Hen). injection H as <-. split; [|done].
    set (d' := set_ep _ _ _ _).
    (* what is kept of the past *)
    assert (0 <= hist /\ tp d <= tp d' /\ (fresh b (di_ep d) -> tp d' = tp d) /\
      (vp_total_at v b = 0 -> tp d' = tp d) /\
      forall c, shape b (di_ep d) (di_funded d) c ->
        vp_total_at v b * (tp d' - tp d) <= SCALE * left (di_ep d) (di_funded d) c) as (P0 & P1 & P2 & P4 & P3).
    { assert (tp d' = hist) as -> by (unfold tp, d'; cbn; lia).
      destruct (di_funded d =? 0) eqn:E0.
      - rewrite andb_false_r in Eh. injection Eh as <-.
        assert (ep_puvp (di_ep d) = 0) as Ep.
        { destruct A4 as (_ & B1 & _ & A4). rewrite Hr in A4.
          destruct A4 as (_ & _ & [(_ & _ & _ & ->)|(st & en0 & la & [])]); [done|]. apply ru_c1. nia. }
        unfold tp. rewrite Ep. repeat split; try lia. intros c0 Hc0. apply left_nonneg in Hc0. nia.
      - cbn [negb andb orb] in Er, Eh. rewrite Er in Eh. cbn [andb negb] in Eh.
        destruct (active_puvp s b (di_vp d) (di_ep d)) as [x|] eqn:Ex; [|done].
        apply add256_ok in Eh as [-> _]. unfold tp.
        destruct (active_ok _ _ _ _ _ _ _ _ Ex Hv HT A4) as (c' & _ & _ & B1 & _ & B2 & _).
        assert (0 <= ep_puvp (di_ep d)) by apply A4.
        split; [lia|]. split; [lia|]. split; [intros Hf; specialize (B2 Hf); lia|].
        split; [intros E1; pose proof (active_zero _ _ _ _ _ _ _ _ Ex Hv A4 E1); lia|].
        intros c0 Hc0. destruct (active_ok _ _ _ _ _ _ _ _ Ex Hv HT Hc0) as (c1 & _ & Hs1 & _ & B3 & _).
        assert (0 <= left (di_ep d) (di_funded d) c1) by (apply (left_nonneg _ _ _ _ Hs1)).
        replace (di_hist d + x - (di_hist d + ep_puvp (di_ep d))) with (x - ep_puvp (di_ep d)) by lia. nia. }
    eapply dinv_move; [exact HL|exact HI|done|done|done|done| |].
    + intros c0 Hc0. exists 0. specialize (P3 c0 Hc0). split.
      * unfold shape, d'. cbn [di_ep di_funded set_ep ep_rate ep_puvp]. split; [lia|]. split; [done|]. split; [done|].
        split; [done|]. split; [done|]. right.
        exists (now u b), en, (now u b). split; cbn [ep_start ep_end ep_last ep_puvp]; try done; try lia.
        replace (tick u en - tick u (now u b)) with m by lia. done.
      * assert (left (di_ep d') (di_funded d') 0 = n) as -> by (unfold left, d'; cbn; lia). lia.
    + left. intros Hf. split; [by apply P2|]. unfold fresh, d'. cbn [di_ep set_ep ep_rate ep_end ep_last].
      intros en0 la _ E%mk_inj. subst la. apply tick_mono. lia.
  - (* going on *)
    apply orb_false_iff in Er as [E1 E2]. rewrite negb_involutive in E1. rewrite E1 in H. cbn [negb andb] in H.
    destruct (add128 _ _) as [f|] eqn:Ef; [|done]. apply add128_ok in Ef as [-> _].
    cbn [di_ep di_funded di_hist di_vp set_ep ep_rate ep_start ep_end ep_puvp ep_last] in H. rewrite Hr in H.
    destruct (funded_dur _ _) as [ln|] eqn:El; [|done].
    assert (0 <= di_funded d) as Hf0 by apply A4.
    assert (0 < amount /\ 0 < len u) as [Ha Hu].
    { destruct A4 as (_ & _ & _ & A4). rewrite Hr in A4. tauto. }
    destruct (funded_dur_ok _ _ _ _ _ El Ha Hu ltac:(lia)) as (m & -> & Hm & Hm2 & Hm3).
    destruct (exp_plus _ _) as [e'|] eqn:Ee; [|done].
    (* the distribution with its new end *)
    set (p2 := Epoch (EmLinear amount u ct) (ep_start (di_ep d)) e' (ep_puvp (di_ep d)) (ep_last (di_ep d))) in *.
    set (d2 := set_ep d p2 (di_funded d + n) (di_hist d)).
    assert (forall c0, shape b (di_ep d) (di_funded d) c0 -> shape b p2 (di_funded d + n) c0 /\
      (is_expired (ep_end (di_ep d)) b = false -> fresh b (di_ep d) -> fresh b p2)) as Hsh.
    { clear c A4 A5. intros c (B0 & B1 & B2 & B3). rewrite Hr in B3. destruct B3 as (_ & _ & [(_ & B & _)|(st & en & la & [R1 R2 R3 R4 R5 R6 R7 R8 R9])]); [lia|].
      rewrite R1 in Ee. apply plus_mk in Ee as (en' & -> & Hen). split.
      - unfold shape, p2. cbn [ep_rate ep_puvp]. split; [lia|]. split; [done|]. split; [done|]. split; [done|]. split; [done|].
        right. exists st, en', la. split; cbn [ep_start ep_end ep_last ep_puvp]; try done; try lia.
        + pose proof (Hm3 c B1 ltac:(lia)). lia.
        + replace (tick u en' - tick u st) with m by lia. lia.
      - rewrite R2, expired_mk. intros Hne Hfr. unfold fresh, p2 in *. rewrite Hr in Hfr.
        cbn [ep_rate ep_end ep_last]. specialize (Hfr en la R2 R3).
        intros en0 la0 _ Ela. rewrite R3 in Ela. apply mk_inj in Ela as <-.
        etrans; [|exact Hfr]. apply tick_mono. lia. }
    assert (is_expired (ep_end (di_ep d)) b = false \/ still v b -> dinv b v d2 wait pf af pd (fd + n)) as HI2.
    { intros Hcase. eapply dinv_move; [exact HL|exact HI|done|done|done|done| |].
      - intros c0 Hc0. exists c0. split; [by apply Hsh|]. unfold tp, left, d2. cbn. rewrite Hr. lia.
      - destruct Hcase as [Hne|Hst]; [|by right]. left. intros Hf. split; [done|]. by apply (Hsh c A4). }
    destruct (ct && true && is_expired (ep_end (di_ep d)) b) eqn:Ec.
    + rewrite andb_true_r in Ec. apply andb_true_iff in Ec as [-> Ex].
      destruct (active_puvp s b (di_vp d) p2) as [x|] eqn:Ea; [|done]. injection H as <-. split; [|done].
      specialize (HI2 ltac:(right; apply Hq; [done|lia])).
      destruct (credit_step s b v d2 wait pf af pd (fd + n) x Hv HL HI2 Ea) as [HI3 _]. exact HI3.
    + injection H as <-. split; [|done]. apply HI2. left. rewrite andb_true_r in Ec.
      destruct ct; [done|]. cbn in E2. done.
Qed.

Lemma withdraw_step b v d wait pf af pd fd R e' :
  vled b v -> dinv b v d wait pf af pd fd -> is_expired (ep_end (di_ep d)) b = false ->
  forall p, p = di_ep d ->
  e' = match ep_start p with
       | AtHeight _ => AtHeight (height b) | AtTime _ => AtTime (time b) | Never => Never end ->
  let p' := Epoch (ep_rate p) (ep_start p) e' (ep_puvp p) (ep_last p) in
  rewards_until p' (di_funded d) e' = Ok R -> R <= di_funded d ->
  dinv b v (set_ep d p' R (di_hist d)) wait pf af (pd + (di_funded d - R)) fd.
Proof.
  intros HL HI Hne p Ep Ee p' HR Hle. rewrite <-Ep in Hne. pose proof HI as [A1 A2 A3 (c & A4 & A5) A6]. pose proof SCALE_pos as HS.
  assert (forall c, shape b p (di_funded d) c -> shape b p' R c /\
    left p' R c + (di_funded d - R) <= left p (di_funded d) c /\ (fresh b p -> fresh b p')) as Hsh.
  { clear c A4 A5. intros c (B0 & B1 & B2 & B3). unfold shape, left, fresh, rewards_until, p' in *. cbn [ep_rate ep_start ep_end ep_puvp ep_last] in *.
    destruct (ep_rate p) as [| |amount u ct] eqn:Er.
    - injection HR as <-. destruct B3 as ((C1 & C2 & C3) & -> & C4). unfold never_ran. cbn. rewrite C1 in Ee |- *. cbn in Ee.
      subst e'. repeat split; try done; lia.
    - injection HR as <-. destruct B3 as ((C1 & C2 & C3) & ->). unfold never_ran. cbn. rewrite C1 in Ee |- *. cbn in Ee.
      subst e'. repeat split; try done; lia.
    - destruct B3 as (Ha & Hu & [((C1 & C2 & C3) & C4 & -> & C5)|(st & en & la & [R1 R2 R3 R4 R5 R6 R7 R8 R9])]).
      + rewrite C1 in *. cbn in *. injection HR as <-. unfold never_ran. cbn. subst e'.
        split; [|split; [lia|]].
        * split; [lia|]. split; [lia|]. split; [lia|]. split; [done|]. split; [done|]. left. by rewrite ?C1, ?C3.
        * intros _ ? ? E. symmetry in E. by apply mk_not_never in E.
      + assert (e' = mk u (now u b)) as -> by (rewrite Ee, R1; by destruct u).
        assert (R = amount * (Z.max 0 (tick u (now u b) - tick u st) / len u)) as ->.
        { rewrite R1 in HR. pose proof (since_mk u (now u b) st) as E. pose proof (div_mk u (Z.max 0 (tick u (now u b) - tick u st)) Hu) as E'.
          destruct u; cbn [mk] in HR, E, E' |- *; rewrite E, E' in HR; by apply mul128_le in HR. }
        assert (tick u la <= tick u (now u b)) as Hla by by apply tick_mono.
        assert (0 <= tick u (now u b) - tick u st) as Hst by nia.
        rewrite Z.max_r in * by lia.
        assert (c <= (tick u (now u b) - tick u st) / len u) as Hc.
        { apply Z.div_le_lower_bound; [lia|]. nia. }
        split; [|split; [lia|]].
        * split; [nia|]. split; [done|]. split; [done|]. split; [done|]. split; [done|]. right.
          exists st, (now u b), la. split; cbn [ep_start ep_end ep_last ep_puvp]; try done; try lia. nia.
        * intros Hf en0 la0 E%mk_inj E'. subst en0. specialize (Hf en la0 R2 E').
          rewrite R2, expired_mk in Hne. etrans; [|exact Hf]. apply tick_mono. lia. }
  subst p. eapply dinv_move; [exact HL|exact HI|done|done|lia|done| |].
  - intros c0 Hc0. exists c0. destruct (Hsh c0 Hc0) as (B1 & B2 & B3). split; [done|].
    assert (tp (set_ep d p' R (di_hist d)) = tp d) as -> by done.
    cbn [di_ep di_funded set_ep]. apply (Z.mul_le_mono_nonneg_l _ _ SCALE) in B2; lia.
  - left. intros Hf. split; [done|]. by apply (Hsh c A4).
Qed.

(** ** The whole contract, seen from one distribution *)
Definition wl (h : addr) (due : list (addr * addr)) : list addr :=
  map snd (List.filter (fun x => (x.1 =? h)%N) due).
Record core (id : Z) (s : estate) (due : list (addr * addr)) (pd fd : Z) : Prop := Core {
  co_vps : forall vp v, e_vps s !! vp = Some v ->
    ledger (vp_last v) (vp_pow v) (vp_tot v) /\ vp_last v <= height (e_block s);
  co_ids : forall i d, e_dists s !! i = Some d -> i <= e_count s;
  co_none : e_dists s !! id = None ->
    (forall u, pend s id u = 0 /\ acc s id u = 0) /\ pd = 0 /\ fd = 0;
  co_some : forall d, e_dists s !! id = Some d -> exists v, e_vps s !! di_vp d = Some v /\
    id ∈ registered s (di_hook d) /\
    dinv (e_block s) v d (wl (di_hook d) due) (pend s id) (acc s id) pd fd
}.
Lemma co_led id s due pd fd vp v :
  core id s due pd fd -> e_vps s !! vp = Some v -> vled (e_block s) v.
Proof. intros HC Hv. destruct (co_vps _ _ _ _ _ HC _ _ Hv). by eapply ledger_time. Qed.
Lemma calm_still id s due pd fd vp v b :
  core id s due pd fd -> e_vps s !! vp = Some v -> calm s b vp = true -> still v b.
Proof.
  intros HC Hv Hc. destruct (co_vps _ _ _ _ _ HC _ _ Hv) as [HL _]. unfold calm in Hc. rewrite Hv in Hc.
  intros u. unfold vp_power_at, now_pow. symmetry. eapply smap_at_now; [apply HL|lia].
Qed.
Lemma dinv_wait b v d wait wait' pf af pd fd :
  (forall u, u ∉ wait' -> u ∉ wait) -> dinv b v d wait pf af pd fd -> dinv b v d wait' pf af pd fd.
Proof. intros Hw [A1 A2 A3 A4 A5]. split; auto. Qed.
Lemma dinv_ext b v d wait pf af pf' af' pd fd :
  (forall u, pf' u = pf u) -> (forall u, af' u = af u) ->
  dinv b v d wait pf af pd fd -> dinv b v d wait pf' af' pd fd.
Proof.
  intros Ep Ea [A1 A2 A3 (c & A4 & A5) A6]. split; try done.
  - intros u. rewrite Ea. apply A2.
  - intros u. rewrite Ep. apply A3.
  - exists c. split; [done|]. intros us Hn. rewrite (lsum_ext _ (owed b v d pf af)); [by apply A5|].
    intros u _. unfold owed. by rewrite Ep, Ea.
  - intros u. rewrite Ea. apply A6.
Qed.

(** Another distribution changed. *)
Lemma core_other id s s' due pd fd :
  core id s due pd fd -> e_vps s' = e_vps s -> e_block s' = e_block s ->
  e_dists s' !! id = e_dists s !! id ->
  (forall u, pend s' id u = pend s id u /\ acc s' id u = acc s id u) ->
  (forall h, id ∈ registered s h -> id ∈ registered s' h) ->
  (forall i d, e_dists s' !! i = Some d -> i <= e_count s') -> core id s' due pd fd.
Proof.
  intros [C1 C2 C3 C4] Ev Eb Ed Eu Hr Hi. split.
  - intros vp v. rewrite Ev, Eb. apply C1.
  - done.
  - rewrite Ed. intros HN. destruct (C3 HN) as (B1 & B2 & B3). split; [|done].
    intros u. destruct (Eu u) as [-> ->]. apply B1.
  - rewrite Ed. intros d Hd. destruct (C4 d Hd) as (v & B1 & B2 & B3). exists v. rewrite Ev, Eb.
    split; [done|]. split; [by apply Hr|]. eapply dinv_ext; [| |exact B3]; intros u; apply Eu.
Qed.
(** This distribution changed. *)
Lemma core_this id s s' due due' pd fd pd' fd' d d' :
  core id s due pd fd -> e_vps s' = e_vps s -> e_block s' = e_block s ->
  e_dists s !! id = Some d -> e_dists s' !! id = Some d' ->
  (forall i, i <> id -> e_dists s' !! i = e_dists s !! i) -> e_count s' = e_count s ->
  di_vp d' = di_vp d -> di_hook d' = di_hook d ->
  (forall h, id ∈ registered s h -> id ∈ registered s' h) ->
  (forall v, e_vps s !! di_vp d = Some v ->
    dinv (e_block s) v d (wl (di_hook d) due) (pend s id) (acc s id) pd fd ->
    dinv (e_block s) v d' (wl (di_hook d) due') (pend s' id) (acc s' id) pd' fd') ->
  core id s' due' pd' fd'.
Proof.
  intros HC Ev Eb Ed Ed' Ei Ec Evp Eh Hr HI. pose proof HC as [C1 C2 C3 C4]. split.
  - intros vp v. rewrite Ev, Eb. apply C1.
  - intros i x Hx. rewrite Ec. destruct (decide (i = id)) as [->|Hne]; [by eapply C2|].
    rewrite Ei in Hx by done. by eapply C2.
  - rewrite Ed'. done.
  - intros d0 Hd0. rewrite Ed' in Hd0. injection Hd0 as <-.
    destruct (C4 d Ed) as (v & B1 & B2 & B3). exists v. rewrite Ev, Eb, Evp, Eh.
    split; [done|]. split; [by apply Hr|]. by apply HI.
Qed.

Lemma pend_insert s id a x i u o c ds ac hk vs hd du bl :
  pend (EState o c ds (<[(i, a) := x]> (e_pend s)) ac hk vs hd du bl) id u =
  if decide (i = id /\ u = a) then x else pend s id u.
Proof.
  unfold pend. cbn. destruct (decide _) as [[-> ->]|Hn]; [by rewrite lookup_insert|].
  rewrite lookup_insert_ne; [done|]. intros [= -> ->]. by apply Hn.
Qed.
Lemma acc_insert s id a x i u o c ds pe hk vs hd du bl :
  acc (EState o c ds pe (<[(i, a) := x]> (e_acc s)) hk vs hd du bl) id u =
  if decide (i = id /\ u = a) then x else acc s id u.
Proof.
  unfold acc. cbn. destruct (decide _) as [[-> ->]|Hn]; [by rewrite lookup_insert|].
  rewrite lookup_insert_ne; [done|]. intros [= -> ->]. by apply Hn.
Qed.

(** What one update does. *)
Lemma update_ok s b a i s' :
  update_rewards s b a i = Ok s' ->
  exists d x v, e_dists s !! i = Some d /\ active_puvp s b (di_vp d) (di_ep d) = Ok x /\
    e_vps s !! di_vp d = Some v /\ acc s i a <= x + di_hist d /\
    let d' := set_ep d (bump (set_puvp (di_ep d) x) b) (di_funded d) (di_hist d) in
    s' = EState (e_own s) (e_count s) (<[i := d']> (e_dists s))
      (<[(i, a) := pend s i a + vp_power_at v b a * (x + di_hist d - acc s i a) / SCALE]> (e_pend s))
      (<[(i, a) := x + di_hist d]> (e_acc s)) (e_hooks s) (e_vps s) (e_held s) (e_due s) (e_block s).
Proof.
  unfold update_rewards, get_dist. destruct (e_dists s !! i) as [d|] eqn:Ed; [|done].
  cbn zeta. destruct (active_puvp s b (di_vp d) (di_ep d)) as [x|] eqn:Ex; [|done].
  destruct (add256 _ _) as [t|] eqn:Et; [|done]. apply add256_ok in Et as [-> _].
  unfold accrued, q_vp. destruct (e_vps s !! di_vp d) as [v|] eqn:Ev; [|done].
  destruct (sub256 _ _) as [f|] eqn:E1; [|done]. apply sub256_ok in E1 as [-> ?].
  destruct (mul256 _ _) as [n|] eqn:E2; [|done]. apply mul256_ok in E2 as [-> _].
  destruct (_ <=? U128_MAX) eqn:E3; [|done].
  destruct (add128 _ _) as [p|] eqn:E4; [|done]. apply add128_ok in E4 as [-> _].
  intros [= <-]. exists d, x, v. split; [done|]. split; [done|]. split; [done|]. split; [lia|].
  cbn zeta. do 2 f_equal. lia.
Qed.

Lemma update_core id s b a i s' due due' pd fd :
  core id s due pd fd -> e_block s = b -> update_rewards s b a i = Ok s' ->
  (forall d, e_dists s !! id = Some d -> forall u, u ∉ wl (di_hook d) due' ->
     (u = a /\ i = id) \/ u ∉ wl (di_hook d) due) ->
  core id s' due' pd fd /\ e_block s' = b /\ e_due s' = e_due s /\ e_hooks s' = e_hooks s /\
  (forall d', e_dists s' !! id = Some d' -> exists d, e_dists s !! id = Some d /\ di_hook d' = di_hook d).
Proof.
  intros HC Eb H Hw. apply update_ok in H as (d & x & v & Hd & Hx & Hv & _ & ->). cbn zeta.
  set (d' := set_ep _ _ _ _). set (s' := EState _ _ _ _ _ _ _ _ _ _).
  assert (forall d', e_dists s' !! id = Some d' -> exists d, e_dists s !! id = Some d /\ di_hook d' = di_hook d) as Hh.
  { intros d0. cbn. destruct (decide (i = id)) as [->|Hne].
    - rewrite lookup_insert. intros [= <-]. eauto.
    - rewrite lookup_insert_ne by done. eauto. }
  split; [|done].
  destruct (decide (i = id)) as [->|Hne].
  - eapply (core_this id s s' due due' pd fd pd fd d d' HC); try done.
    + cbn. by rewrite lookup_insert.
    + intros j Hj. cbn. by rewrite lookup_insert_ne.
    + intros v' Hv' HI. rewrite Hv in Hv'. injection Hv' as <-.
      pose proof (co_led _ _ _ _ _ _ _ HC Hv) as HL. rewrite Eb in *.
      destruct (credit_step s b v d _ _ _ _ _ x Hv HL HI Hx) as [HI' Hfr]. fold d' in HI', Hfr.
      eapply (dinv_settle b v d'); [exact HL|exact HI'|exact Hfr| | |].
      * intros u. unfold s'. rewrite pend_insert. destruct (decide (id = id /\ u = a)) as [[_ E]|Hn].
        -- rewrite decide_True by done. unfold tp, d'. cbn. do 3 f_equal. lia.
        -- rewrite decide_False by (intros E; by apply Hn). done.
      * intros u. unfold s'. rewrite acc_insert. destruct (decide (id = id /\ u = a)) as [[_ E]|Hn].
        -- rewrite decide_True by done. unfold tp, d'. cbn. lia.
        -- rewrite decide_False by (intros E; by apply Hn). done.
      * intros u Hu. destruct (Hw d Hd u Hu) as [[? _]|?]; auto.
  - assert (core id s' due pd fd) as HC'.
    { eapply core_other; [exact HC|done|done| | | |].
      - cbn. by rewrite lookup_insert_ne.
      - intros u. unfold s'. rewrite pend_insert, acc_insert.
        rewrite !decide_False by (intros [? _]; done). done.
      - done.
      - intros j y. cbn. destruct (decide (i = j)) as [->|Hj].
        + intros _. by eapply (co_ids _ _ _ _ _ HC).
        + rewrite lookup_insert_ne by done. by apply (co_ids _ _ _ _ _ HC). }
    destruct HC' as [C1 C2 C3 C4]. split; try done. intros d0 Hd0.
    destruct (C4 d0 Hd0) as (v0 & B1 & B2 & B3). exists v0. split; [done|]. split; [done|].
    eapply dinv_wait; [|exact B3]. intros u Hu. destruct (Hh d0 Hd0) as (d1 & Hd1 & Eh). rewrite Eh in Hu |- *.
    destruct (Hw d1 Hd1 u Hu) as [[_ ?]|?]; done.
Qed.
Lemma update_ids_core id b a ids s s' due due' pd fd :
  core id s due pd fd -> e_block s = b -> update_ids s b a ids = Ok s' ->
  (forall d, e_dists s !! id = Some d -> forall u, u ∉ wl (di_hook d) due' ->
     (u = a /\ id ∈ ids) \/ u ∉ wl (di_hook d) due) ->
  core id s' due' pd fd /\ e_block s' = b /\ e_due s' = e_due s /\ e_hooks s' = e_hooks s /\
  (forall d', e_dists s' !! id = Some d' -> exists d, e_dists s !! id = Some d /\ di_hook d' = di_hook d).
Proof.
  revert s due. induction ids as [|i ids IH]; intros s due HC Eb H Hw; cbn in H.
  - injection H as <-. split; [|eauto 6]. destruct HC as [C1 C2 C3 C4]. split; try done.
    intros d Hd. destruct (C4 d Hd) as (v & B1 & B2 & B3). exists v. split; [done|]. split; [done|].
    eapply dinv_wait; [|exact B3]. intros u Hu. destruct (Hw d Hd u Hu) as [[_ E]|?]; [by apply elem_of_nil in E|done].
  - destruct (update_rewards s b a i) as [s1|] eqn:E; [|done].
    destruct (decide (i = id)) as [->|Hne].
    + destruct (update_core _ _ _ _ _ _ _ due' _ _ HC Eb E) as (HC1 & B1 & B2 & B3 & B4).
      { intros d Hd u Hu. destruct (Hw d Hd u Hu) as [[? _]|?]; auto. }
      destruct (IH s1 due' HC1 B1 H) as (D1 & D2 & D3 & D4 & D5).
      { intros d Hd u Hu. by right. }
      split; [done|]. split; [done|]. split; [congruence|]. split; [congruence|].
      intros d' Hd'. destruct (D5 d' Hd') as (d1 & Hd1 & ->). destruct (B4 d1 Hd1) as (d0 & ? & ->). eauto.
    + destruct (update_core _ _ _ _ _ _ _ due _ _ HC Eb E) as (HC1 & B1 & B2 & B3 & B4).
      { intros d Hd u Hu. by right. }
      destruct (IH s1 due HC1 B1 H) as (D1 & D2 & D3 & D4 & D5).
      { intros d1 Hd1 u Hu. destruct (B4 d1 Hd1) as (d0 & Hd0 & Eh). rewrite Eh in Hu |- *.
        destruct (Hw d0 Hd0 u Hu) as [[-> Hin]|?]; [left|by right]. split; [done|].
        by apply elem_of_cons in Hin as [->|?]. }
      split; [done|]. split; [done|]. split; [congruence|]. split; [congruence|].
      intros d' Hd'. destruct (D5 d' Hd') as (d1 & Hd1 & ->). destruct (B4 d1 Hd1) as (d0 & ? & ->). eauto.
Qed.
Lemma wl_drop h c a due u :
  u ∉ wl h (drop_due c a due) -> (u = a /\ c = h) \/ u ∉ wl h due.
Proof.
  unfold wl. induction due as [|[x y] t IH]; cbn; [auto|].
  destruct ((x =? c)%N && (y =? a)%N) eqn:E.
  - apply andb_true_iff in E as [->%N.eqb_eq ->%N.eqb_eq]. intros Hu. destruct (c =? h)%N eqn:E'.
    + apply N.eqb_eq in E'. destruct (decide (u = a)) as [->|Hne]; [by left|]. right. cbn.
      intros [?|?]%elem_of_cons; done.
    + by right.
  - cbn. destruct (x =? h)%N eqn:E'; [|done]. cbn. intros Hu. apply not_elem_of_cons in Hu as [Hu1 Hu2].
    destruct (IH Hu2) as [?|Hn]; [by left|]. right. by apply not_elem_of_cons.
Qed.
Lemma update_all_core id b c who s s' due pd fd ids :
  core id s due pd fd -> e_block s = b -> e_hooks s !! c = Some ids -> update_all s b who ids = Ok s' ->
  core id s' (fold_left (fun l a => drop_due c a l) who due) pd fd /\ e_block s' = b /\ e_due s' = e_due s /\
  e_hooks s' = e_hooks s.
Proof.
  revert s due. induction who as [|a who IH]; intros s due HC Eb Eh H; cbn in H |- *.
  - by injection H as <-.
  - destruct (update_ids s b a ids) as [s1|] eqn:E; [|done].
    destruct (update_ids_core _ _ _ _ _ _ _ (drop_due c a due) _ _ HC Eb E) as (HC1 & B1 & B2 & B3 & B4).
    { intros d Hd u Hu. destruct (wl_drop _ _ _ _ _ Hu) as [[-> Ec]|?]; [left|by right]. split; [done|].
      destruct (co_some _ _ _ _ _ HC d Hd) as (v & _ & Hin & _). unfold registered in Hin. rewrite <-Ec, Eh in Hin. done. }
    destruct (IH s1 _ HC1 B1 ltac:(congruence) H) as (D1 & D2 & D3 & D4).
    split; [done|]. split; [done|]. split; congruence.
Qed.

(** Funding. *)
Lemma take_ok s t n s' : take s t n = Ok s' -> s' = set_held s t (held s t + n).
Proof. unfold take. destruct (_ <=? _); [|done]. by intros [= <-]. Qed.
Lemma send_ok s t n s' : send s t n = Ok s' -> s' = set_held s t (held s t - n) /\ n <= held s t.
Proof. unfold send. destruct (_ <=? _) eqn:E; [|done]. intros [= <-]. split; [done|lia]. Qed.
Lemma fund_ok s b sender i d n s' :
  fund s b sender i d n = Ok s' ->
  exists d', s' = set_dist (set_held s (di_denom d) (held s (di_denom d) + n)) i d' /\
    match ep_rate (di_ep d) with
    | EmPaused => d' = set_ep d (di_ep d) (di_funded d + n) (di_hist d)
    | EmImmediate => exists x, immediate_puvp s b (di_vp d) (ep_puvp (di_ep d)) n = Ok x /\
        d' = set_ep d (set_puvp (di_ep d) x) (di_funded d + n) (di_hist d)
    | EmLinear _ _ ct => fund_linear s b d ct n = Ok d'
    end.
Proof.
  unfold fund. destruct (di_open d || _); [|done].
  destruct (ep_rate (di_ep d)) as [| |amount u ct] eqn:Er.
  - destruct (add128 _ _) as [f|] eqn:E; [|done]. apply add128_ok in E as [-> _].
    destruct (take _ _ _) as [s1|] eqn:Et; [|done]. apply take_ok in Et as ->. intros [= <-]. eauto.
  - destruct (add128 _ _) as [f|] eqn:E; [|done]. apply add128_ok in E as [-> _].
    destruct (immediate_puvp _ _ _ _ _) as [x|] eqn:Ex; [|done].
    destruct (take _ _ _) as [s1|] eqn:Et; [|done]. apply take_ok in Et as ->. intros [= <-].
    eexists. split; [done|]. exists x. split; [done|]. unfold set_puvp. by rewrite Er.
  - destruct (fund_linear _ _ _ _ _) as [d'|] eqn:Ed; [|done].
    destruct (take _ _ _) as [s1|] eqn:Et; [|done]. apply take_ok in Et as ->. intros [= <-]. eauto.
Qed.
Lemma core_held id s due pd fd t n : core id s due pd fd -> core id (set_held s t n) due pd fd.
Proof. by intros [C1 C2 C3 C4]. Qed.
Lemma fund_core id s b sender i d n s' due pd fd :
  core id s due pd fd -> e_block s = b -> e_dists s !! i = Some d -> 0 <= n ->
  (i = id -> at_once (ep_rate (di_ep d)) = true -> immediate (ep_rate (di_ep d)) = true \/ di_funded d <> 0 ->
     calm s b (di_vp d) = true) ->
  fund s b sender i d n = Ok s' ->
  core id s' due pd (fd + if i =? id then n else 0) /\ e_block s' = b /\ e_due s' = e_due s.
Proof.
  intros HC Eb Hd Hn Hq H. apply fund_ok in H as (d' & -> & Hd'). split; [|done].
  destruct (i =? id) eqn:E.
  - apply Z.eqb_eq in E as ->.
    destruct (co_some _ _ _ _ _ HC d Hd) as (v & Hv & _ & HI).
    pose proof (co_led _ _ _ _ _ _ _ HC Hv) as HL. rewrite Eb in HI, HL.
    assert (dinv b v d' (wl (di_hook d) due) (pend s id) (acc s id) pd (fd + n) /\
      di_vp d' = di_vp d /\ di_hook d' = di_hook d) as (HI' & E1 & E2).
    { destruct (ep_rate (di_ep d)) as [| |amount u ct] eqn:Er.
      - subst d'. split; [|done]. by apply fund_paused_step.
      - destruct Hd' as (x & Hx & ->). split; [|done].
        eapply fund_immediate_step; [exact Hv|exact HL|exact HI|done|done| |exact Hx].
        eapply calm_still; [exact HC|exact Hv|]. apply Hq; [done|done|by left].
      - destruct (fund_linear_step s b v d _ _ _ _ _ n amount u ct d' Hv HL HI Er Hn) as (B1 & B2 & B3 & B4); [|done|done].
        intros -> Hne. eapply calm_still; [exact HC|exact Hv|]. apply Hq; [done|done|by right]. }
    eapply (core_this id s _ due due pd fd pd (fd + n) d d' HC); try done.
    + cbn. by rewrite lookup_insert.
    + intros j Hj. cbn. by rewrite lookup_insert_ne.
    + intros v' Hv' _. rewrite Hv in Hv'. injection Hv' as <-. rewrite Eb. exact HI'.
  - rewrite Z.add_0_r. eapply core_other; [exact HC|done|done| |done|done|].
    + cbn. rewrite lookup_insert_ne; [done|lia].
    + intros j y. cbn. destruct (decide (i = j)) as [->|Hj].
      * intros _. by eapply (co_ids _ _ _ _ _ HC).
      * rewrite lookup_insert_ne by done. by apply (co_ids _ _ _ _ _ HC).
Qed.

Lemma fits_all funds : forallb (fun c : N * Z => fits128 c.2) funds = true -> 0 <= lsum snd funds.
Proof.
  intros H. apply lsum_nonneg. intros c Hc. rewrite forallb_forall in H.
  apply elem_of_list_In in Hc. specialize (H c Hc). apply fits128_ok in H. lia.
Qed.
Lemma native_core id s b sender i funds s' due pd fd :
  core id s due pd fd -> e_block s = b -> 0 <= lsum snd funds ->
  (forall d, i = id -> e_dists s !! id = Some d -> at_once (ep_rate (di_ep d)) = true -> calm s b (di_vp d) = true) ->
  fund_native s b sender i funds = Ok s' ->
  core id s' due pd (fd + if i =? id then lsum snd funds else 0) /\ e_block s' = b /\ e_due s' = e_due s.
Proof.
  intros HC Eb Hn Hq H. unfold fund_native, get_dist in H.
  destruct (e_dists s !! i) as [d|] eqn:Ed; [|done]. destruct (di_denom d) as [[] t]; [done|].
  destruct (must_pay funds t) as [n|] eqn:Em; [|done]. apply must_pay_ok in Em as [-> _].
  simpl in *. rewrite Z.add_0_r in *.
  eapply fund_core; [exact HC|exact Eb|exact Ed|lia| |exact H].
  intros -> Ha _. by eapply Hq.
Qed.
Lemma cw20_core id s b sender from i n s' due pd fd :
  core id s due pd fd -> e_block s = b -> 0 <= n ->
  (forall d, i = id -> e_dists s !! id = Some d -> at_once (ep_rate (di_ep d)) = true -> calm s b (di_vp d) = true) ->
  fund_cw20 s b sender from i n = Ok s' ->
  core id s' due pd (fd + if i =? id then n else 0) /\ e_block s' = b /\ e_due s' = e_due s.
Proof.
  intros HC Eb Hn Hq H. unfold fund_cw20, get_dist in H.
  destruct (e_dists s !! i) as [d|] eqn:Ed; [|done]. destruct (di_denom d) as [[] t]; [|done].
  destruct (t =? sender)%N; [|done].
  eapply fund_core; [exact HC|exact Eb|exact Ed|lia| |exact H].
  intros -> Ha _. by eapply Hq.
Qed.

(** Creating. *)
Lemma registered_subscribe m i h h' :
  i ∈ default [] (m !! h') \/ h' = h -> i ∈ default [] (subscribe m i h !! h').
Proof.
  unfold subscribe. destruct (decide (h' = h)) as [->|Hne].
  - rewrite lookup_insert. intros _. cbn. apply elem_of_app. right. apply elem_of_list_here.
  - rewrite lookup_insert_ne by done. intros [?|?]; done.
Qed.
Lemma registered_subscribe' m i j h h' :
  i ∈ default [] (m !! h') -> i ∈ default [] (subscribe m j h !! h').
Proof.
  unfold subscribe. destruct (decide (h' = h)) as [->|Hne].
  - rewrite lookup_insert. intros ?. cbn. apply elem_of_app. by left.
  - by rewrite lookup_insert_ne.
Qed.
Lemma registered_unsubscribe m i j h h' :
  i <> j -> i ∈ default [] (m !! h') -> i ∈ default [] (unsubscribe m j h !! h').
Proof.
  intros Hij Hi. unfold unsubscribe.
  assert (i ∈ default [] (m !! h) -> i ∈ List.filter (fun i => negb (i =? j)) (default [] (m !! h))) as Hf.
  { intros H. apply elem_of_list_In, filter_In. split; [by apply elem_of_list_In|]. lia. }
  destruct (List.filter _ _) as [|x l] eqn:E.
  - destruct (decide (h' = h)) as [->|Hne]; [|by rewrite lookup_delete_ne].
    apply Hf in Hi. by apply elem_of_nil in Hi.
  - destruct (decide (h' = h)) as [->|Hne]; [|by rewrite lookup_insert_ne].
    rewrite lookup_insert. cbn. by apply Hf.
Qed.
Lemma new_core id s rate denom vp hook op wd hist v due pd fd (i := e_count s + 1) :
  hist = 0 -> core id s due pd fd -> e_vps s !! vp = Some v -> em_fits rate = true -> em_validate rate = Ok tt ->
  e_dists s !! i = None ->
  core id (set_hooks (set_dist (set_count s i) i (Dist denom (Epoch rate Never Never 0 Never) vp hook op 0 wd hist))
     (subscribe (e_hooks s) i hook)) due pd fd.
Proof.
  intros -> HC Hv Hfit Hval HN. pose proof (em_ok _ Hfit Hval) as Hr.
  destruct (decide (i = id)) as [Ei|Hne].
  - destruct HC as [C1 C2 C3 C4]. split; [done| | |].
    + intros j y. cbn. destruct (decide (i = j)) as [->|Hj].
      * lia.
      * rewrite lookup_insert_ne by done. intros Hy. apply C2 in Hy. lia.
    + cbn. rewrite Ei, lookup_insert. done.
    + cbn. rewrite Ei, lookup_insert. intros d [= <-]. exists v. cbn. split; [done|]. split.
      { unfold registered. cbn. apply registered_subscribe. by right. }
      rewrite Ei in HN. destruct (C3 HN) as (B1 & -> & ->).
      assert (forall u, pend s id u = 0) as Bp by apply B1. assert (forall u, acc s id u = 0) as Ba by apply B1.
      split; cbn.
      * done.
      * intros u. unfold tp. cbn. change (0 <= acc s id u <= 0). rewrite Ba. lia.
      * intros u. change (0 <= pend s id u). rewrite Bp. lia.
      * exists 0. split.
        -- unfold shape. cbn. split; [lia|]. split; [lia|]. split; [lia|].
           destruct rate as [| |amount u ct]; cbn; [done|done|]. destruct Hr. split; [done|]. split; [done|]. by left.
        -- intros us _. rewrite (lsum_ext _ (fun u => 0 * 0)), lsum_scale.
           2:{ intros u _. unfold owed, tp. cbn [di_hist di_ep ep_puvp].
               change (SCALE * pend s id u + vp_power_at v (e_block s) u * (0 + 0 - acc s id u) = 0 * 0).
               rewrite Bp, Ba. lia. }
           unfold left. cbn. destruct rate; lia.
      * intros u _ _. split; [unfold tp; cbn; change (acc s id u = 0); by rewrite Ba|].
        unfold fresh. cbn. destruct rate as [| |amount u' ct]; try done.
        intros en la E. symmetry in E. by apply mk_not_never in E.
      * exists 0. split.
        -- unfold shape. cbn. split; [lia|]. split; [lia|]. split; [lia|].
           destruct rate as [| |amount u ct]; cbn; [done|done|]. destruct Hr. split; [done|]. split; [done|]. by left.
        -- unfold tp, left. cbn. destruct rate; lia.
      * done.
  - eapply core_other; [exact HC|done|done| |done| |].
    + cbn. by rewrite lookup_insert_ne.
    + intros h. unfold registered. cbn. apply registered_subscribe'.
    + intros j y. cbn. destruct (decide (i = j)) as [->|Hj].
      * lia.
      * rewrite lookup_insert_ne by done. intros Hy. apply (co_ids _ _ _ _ _ HC) in Hy. lia.
Qed.
Lemma create_core id s b sender denom rate vp hook op wd funds s' due pd fd :
  core id s due pd fd -> e_block s = b -> em_fits rate = true -> 0 <= lsum snd funds ->
  negb (id =? e_count s + 1) || negb (immediate rate) || calm s b vp = true ->
  create s b sender denom rate vp hook op wd funds = Ok s' ->
  core id s' due pd (fd + if e_count s + 1 =? id then lsum snd funds else 0) /\ e_block s' = b /\ e_due s' = e_due s.
Proof.
  intros HC Eb Hfit Hn Hq H. unfold create in H.
  destruct (is_owner _ _); [|done]. destruct (_ <=? U64_MAX) eqn:E1 in H; [|done]. cbn zeta in H.
  unfold q_vp in H. destruct (e_vps s !! vp) as [v|] eqn:Ev; [|done].
  destruct (em_validate rate) as [[]|] eqn:Er; [|done].
  destruct (e_dists s !! (e_count s + 1)) eqn:Ed; [done|].
  pose proof (new_core id s rate denom vp hook (default true op) (default sender wd) 0 v due pd fd eq_refl HC Ev Hfit Er Ed) as HC'.
  cbn zeta in HC'. set (i := e_count s + 1) in *. set (d := Dist _ _ _ _ _ _ _ _) in *.
  set (s1 := set_hooks _ _) in *.
  assert (e_block s1 = b /\ e_due s1 = e_due s /\ e_dists s1 !! i = Some d) as (F1 & F2 & F3).
  { split; [done|]. split; [done|]. cbn. by rewrite lookup_insert. }
  destruct funds as [|c funds].
  - injection H as <-. split; [|done]. cbn. destruct (i =? id); by rewrite Z.add_0_r.
  - destruct denom as [[] t]; [done|].
    destruct (must_pay _ t) as [n|] eqn:Em; [|done]. apply must_pay_ok in Em as [Em _]. rewrite Em in *.
    simpl lsum in *. rewrite Z.add_0_r in *.
    rewrite <-F2. eapply fund_core; [exact HC'|exact F1|exact F3|done| |exact H].
    intros -> Ha [Hi|Hi]; [|by cbn in Hi]. cbn in Hi. rewrite Z.eqb_refl, Hi in Hq. cbn in Hq. exact Hq.
Qed.

(** Changing the terms. *)
Lemma update_dist_core id s b sender i rate (vp hook : option addr) op wd s' due pd fd :
  core id s due pd fd -> e_block s = b -> height b <= U64_MAX ->
  match rate with Some r => em_fits r | None => true end = true ->
  negb (i =? id) || match vp, hook with None, None => true | _, _ => false end = true ->
  (forall r d, rate = Some r -> i = id -> e_dists s !! id = Some d -> immediate r = true -> calm s b (di_vp d) = true) ->
  update s b sender i rate vp hook op wd = Ok s' ->
  core id s' due pd fd /\ e_block s' = b /\ e_due s' = e_due s.
Proof.
  intros HC Eb Hb Hfit Hst Hq H. unfold update in H. destruct (is_owner _ _); [|done].
  unfold get_dist in H. destruct (e_dists s !! i) as [d|] eqn:Ed; [|done].
  destruct (match rate with Some r => _ | None => _ end) as [d1|] eqn:E1 in H; [|done].
  destruct (match vp with Some v => _ | None => _ end) as [vp'|] eqn:E2 in H; [|done].
  cbn zeta in H. injection H as <-. split; [|done].
  destruct (i =? id) eqn:E.
  - apply Z.eqb_eq in E as ->. destruct vp; [done|]. destruct hook; [done|]. injection E2 as <-. cbn [default].
    destruct (co_some _ _ _ _ _ HC d Ed) as (v & Hv & _ & HI).
    pose proof (co_led _ _ _ _ _ _ _ HC Hv) as HL. rewrite Eb in HI, HL.
    assert (dinv b v d1 (wl (di_hook d) due) (pend s id) (acc s id) pd fd /\
      di_vp d1 = di_vp d /\ di_hook d1 = di_hook d) as (HI' & F1 & F2).
    { destruct rate as [r|]; [|injection E1 as <-; done].
      destruct (em_validate r) as [[]|] eqn:Er; [|done].
      destruct (transition_step s b v d _ _ _ _ _ r d1 Hb Hv HL HI Hfit Er) as (B1 & B2 & B3 & B4); [|done|done].
      intros Hi. eapply calm_still; [exact HC|exact Hv|]. by eapply Hq. }
    eapply (core_this id s _ due due pd fd pd fd d); [exact HC|done|done|exact Ed| | |done| | |done|].
    + cbn. by rewrite lookup_insert.
    + intros j Hj. cbn. by rewrite lookup_insert_ne.
    + done.
    + done.
    + intros v' Hv' _. rewrite Hv in Hv'. injection Hv' as <-. rewrite Eb.
      destruct HI' as [A1 A2 A3 A4 A5]. by split.
  - assert (i <> id) as Hne by lia. eapply core_other; [exact HC|done|done| |done| |].
    + cbn. by rewrite lookup_insert_ne.
    + intros h. unfold registered. cbn. destruct hook as [h0|]; [|done].
      intros Hin. apply registered_subscribe'. by apply registered_unsubscribe.
    + intros j y. cbn. destruct (decide (i = j)) as [->|Hj].
      * intros _. by eapply (co_ids _ _ _ _ _ HC).
      * rewrite lookup_insert_ne by done. by apply (co_ids _ _ _ _ _ HC).
Qed.

(** Paying. *)
Lemma claim_core id s b sender i s' subs due pd fd :
  core id s due pd fd -> e_block s = b -> claim_rewards s b sender i = Ok (s', subs) ->
  core id s' due (pd + if i =? id then lsum pay subs else 0) fd /\ e_block s' = b /\ e_due s' = e_due s.
Proof.
  intros HC Eb H. unfold claim_rewards in H.
  destruct (update_rewards s b sender i) as [s1|] eqn:E1; [|done].
  destruct (update_core id s b sender i s1 due due pd fd HC Eb E1) as (HC1 & F1 & F2 & _ & _); [by right|].
  assert (forall d, e_dists s1 !! i = Some d -> acc s1 i sender = tp d) as Hacc.
  { intros d. apply update_ok in E1 as (d0 & x & v0 & _ & _ & _ & _ & ->). cbn zeta. cbn [e_dists].
    rewrite lookup_insert. intros [= <-]. rewrite acc_insert, decide_True by done. unfold tp. cbn. lia. }
  unfold get_dist in H. destruct (e_dists s1 !! i) as [d|] eqn:Ed; [|done]. cbn zeta in H.
  destruct (pend s1 i sender =? 0); [done|]. cbn [negb] in H. set (s2 := EState _ _ _ _ _ _ _ _ _ _) in H.
  destruct (send s2 _ _) as [s3|] eqn:Es; [|done]. apply send_ok in Es as [-> _]. injection H as <- <-.
  split; [|split; [done|exact F2]]. apply core_held. simpl lsum. rewrite Z.add_0_r.
  destruct (i =? id) eqn:E.
  - apply Z.eqb_eq in E as ->.
    eapply (core_this id s1 s2 due due pd fd _ fd d d HC1); try done.
    intros v Hv HI. eapply dinv_pay; [exact HI|by eapply Hacc|].
    intros u. unfold s2. rewrite pend_insert. destruct (decide (u = sender)) as [->|Hn].
    + by rewrite decide_True.
    + rewrite decide_False; [done|]. by intros [_ ?].
  - rewrite Z.add_0_r. eapply core_other; [exact HC1|done|done|done| |done|apply (co_ids _ _ _ _ _ HC1)].
    intros u. split; [|done]. unfold s2. rewrite pend_insert, decide_False; [done|]. intros [? _]. lia.
Qed.
Lemma withdraw_core id s b sender i s' subs due pd fd :
  core id s due pd fd -> e_block s = b -> withdraw s b sender i = Ok (s', subs) ->
  core id s' due (pd + if i =? id then lsum pay subs else 0) fd /\ e_block s' = b /\ e_due s' = e_due s.
Proof.
  intros HC Eb H. unfold withdraw in H. destruct (is_owner _ _); [|done].
  unfold get_dist in H. destruct (e_dists s !! i) as [d|] eqn:Ed; [|done]. cbn zeta in H.
  destruct (is_expired (ep_end (di_ep d)) b) eqn:Ex; [done|]. cbn [negb] in H.
  destruct (rewards_until _ _ _) as [R|] eqn:ER; [|done].
  destruct (sub128 _ _) as [back|] eqn:Eu; [|done]. apply sub128_ok in Eu as [-> HR].
  destruct (send _ _ _) as [s1|] eqn:Es; [|done]. apply send_ok in Es as [-> _]. injection H as <- <-.
  split; [|done]. simpl lsum. rewrite Z.add_0_r.
  destruct (i =? id) eqn:E.
  - apply Z.eqb_eq in E as ->.
    eapply (core_this id s _ due due pd fd _ fd d); [exact HC|done|done|exact Ed| | |done| | |done|].
    + cbn. by rewrite lookup_insert.
    + intros j Hj. cbn. by rewrite lookup_insert_ne.
    + done.
    + done.
    + intros v Hv HI. pose proof (co_led _ _ _ _ _ _ _ HC Hv) as HL. rewrite Eb in *.
      eapply (withdraw_step b v d _ _ _ _ _ R _ HL HI Ex (di_ep d) eq_refl eq_refl ER). lia.
  - rewrite Z.add_0_r. eapply core_other; [exact HC|done|done| |done|done|].
    + cbn. rewrite lookup_insert_ne; [done|lia].
    + intros j y. cbn. destruct (decide (i = j)) as [->|Hj].
      * intros _. by eapply (co_ids _ _ _ _ _ HC).
      * rewrite lookup_insert_ne by done. by apply (co_ids _ _ _ _ _ HC).
Qed.

(** Powers. *)
Lemma wl_app h l l' : wl h (l ++ l') = wl h l ++ wl h l'.
Proof.
  unfold wl. induction l as [|x l IH]; [done|]. cbn. destruct (_ =? _)%N; [cbn; by rewrite IH|done].
Qed.
Lemma power_core id s b (vp caller : addr) who n s' due pd fd :
  core id s due pd fd -> e_block s = b -> 0 <= n ->
  match e_dists s !! id with
  | Some d => negb (di_vp d =? vp)%N || (di_hook d =? caller)%N
  | None => true
  end = true -> set_power s b vp caller who n = Ok s' ->
  let more := match e_hooks s !! caller with Some _ => [(caller, who)] | None => [] end in
  core id s' (due ++ more) pd fd /\ e_block s' = b /\ e_due s' = e_due s ++ more.
Proof.
  intros HC Eb Hn Hr H more. unfold set_power in H. cbn zeta in H. set (v := default _ _) in *.
  destruct (_ <=? U128_MAX) eqn:Et; [|done]. injection H as <-.
  split; [|split; [done|]].
  2:{ cbn. unfold more. destruct (e_hooks s !! caller); [done|by rewrite app_nil_r]. }
  assert (vled b v) as HL.
  { assert (e_vps s !! vp = Some v \/ v = VP ∅ snap_empty 0) as [Ev|Ev].
    { unfold v. clear. destruct (e_vps s !! vp); [by left|by right]. }
    - rewrite <-Eb. eapply co_led; [exact HC|exact Ev].
    - rewrite Ev. apply ledger_empty. by left. }
  destruct HC as [C1 C2 C3 C4]. split.
  - intros vp0 v0. cbn. destruct (decide (vp = vp0)) as [->|Hne].
    + rewrite lookup_insert. intros [= <-]. cbn. split; [|rewrite Eb; lia].
      apply ledger_save; [exact HL|done|done|lia].
    + rewrite lookup_insert_ne by done. apply C1.
  - exact C2.
  - exact C3.
  - intros d Hd. cbn in Hd. destruct (C4 d Hd) as (v0 & B1 & B2 & B3). rewrite Hd in Hr. cbn [e_vps e_block].
    destruct (decide (vp = di_vp d)) as [->|Hne].
    + rewrite lookup_insert. eexists. split; [done|]. split; [exact B2|].
      rewrite N.eqb_refl in Hr. cbn in Hr. apply N.eqb_eq in Hr as Eh. unfold v in *. rewrite B1 in HL |- *. cbn [default] in *.
      rewrite wl_app. assert (more = [(caller, who)]) as ->.
      { unfold more. unfold registered in B2. rewrite Eh in B2. destruct (e_hooks s !! caller); [done|]. by apply elem_of_nil in B2. }
      unfold wl at 2. cbn. rewrite Eh, N.eqb_refl. cbn. rewrite <-Eh at 1. rewrite Eb in B3 |- *.
      by apply dinv_power.
    + rewrite lookup_insert_ne by done. exists v0. split; [done|]. split; [exact B2|].
      eapply dinv_wait; [|exact B3]. intros u Hu. rewrite wl_app in Hu. by apply not_elem_of_app in Hu as [? _].
Qed.

(** Every call. *)
Lemma core_step id s b sender m s' subs pd fd pre :
  core id s (e_due s) pd fd -> e_block s = b -> height b <= U64_MAX ->
  e_count s = e_count pre -> e_dists s = e_dists pre -> e_vps s = e_vps pre ->
  e_step s b sender m = Ok (s', subs) ->
  let e := ECall pre b sender m s' subs in
  reported id e && steady id e && quiet id e = true ->
  core id s' (e_due s') (pd + (ev_claimed id e + ev_withdrawn id e)) (fd + ev_funded id e) /\ e_block s' = b.
Proof.
  intros HC Eb Hb G1 G2 G3 H. cbn zeta. unfold reported, steady, quiet, ev_claimed, ev_withdrawn, ev_funded, funds_to.
  assert (forall vp, calm pre b vp = calm s b vp) as Gc by (intros; unfold calm; by rewrite G3).
  rewrite <-G1, <-G2.
  intros [[Hrep Hst]%andb_true_iff Hq]%andb_true_iff.
  destruct m as [denom rate vp hook op wd funds|i rate vp hook op wd|i funds|funds|from n i|i|i|who|act|vp caller who n|t n]; cbn [e_step] in H.
  - destruct (em_fits rate && _) eqn:Ef; [|done]. apply andb_true_iff in Ef as [Ef1 Ef2%fits_all].
    destruct (create _ _ _ _ _ _ _ _ _ _) as [s1|] eqn:E; [|done]. injection H as <- <-. rewrite Gc in Hq.
    destruct (create_core id s b sender denom rate vp hook op wd funds s1 _ _ _ HC Eb Ef1 Ef2 Hq E) as (B1 & B2 & B3).
    rewrite B3, !Z.add_0_r. done.
  - destruct (match rate with Some r => em_fits r | None => true end) eqn:Ef; [|done].
    destruct (update _ _ _ _ _ _ _ _ _) as [s1|] eqn:E; [|done]. injection H as <- <-.
    destruct (update_dist_core id s b sender i rate vp hook op wd s1 _ _ _ HC Eb Hb Ef Hst) as (B1 & B2 & B3); [|exact E|].
    { intros r d -> -> Hd Hi. rewrite Hd, Z.eqb_refl, Hi, Gc in Hq. exact Hq. }
    rewrite B3, !Z.add_0_r. done.
  - destruct (forallb _ _) eqn:Ef; [|done]. apply fits_all in Ef.
    destruct (fund_native _ _ _ _ _) as [s1|] eqn:E; [|done]. injection H as <- <-.
    destruct (native_core id s b sender i funds s1 _ _ _ HC Eb Ef) with (2 := E) as (B1 & B2 & B3).
    { intros d -> Hd Ha. rewrite Hd, Z.eqb_refl, Ha, Gc in Hq. exact Hq. }
    rewrite B3, !Z.add_0_r. done.
  - destruct (forallb _ _) eqn:Ef; [|done]. apply fits_all in Ef.
    destruct (fund_native _ _ _ _ _) as [s1|] eqn:E; [|done]. injection H as <- <-.
    destruct (native_core id s b sender (e_count s) funds s1 _ _ _ HC Eb Ef) with (2 := E) as (B1 & B2 & B3).
    { intros d Ei Hd Ha. rewrite Hd, Ei, Z.eqb_refl, Ha, Gc in Hq. exact Hq. }
    rewrite B3, !Z.add_0_r. done.
  - destruct (fits128 n) eqn:Ef; [|done]. apply fits128_ok in Ef.
    destruct (fund_cw20 _ _ _ _ _ _) as [s1|] eqn:E; [|done]. injection H as <- <-.
    destruct (cw20_core id s b sender from (default (e_count s) i) n s1 (e_due s) pd fd HC Eb ltac:(lia)) with (2 := E) as (B1 & B2 & B3).
    { intros d Ei Hd Ha. rewrite Hd, Ei, Z.eqb_refl, Ha, Gc in Hq. exact Hq. }
    rewrite B3, !Z.add_0_r. done.
  - destruct (claim_core id s b sender i s' subs _ _ _ HC Eb H) as (B1 & B2 & B3).
    rewrite B3, !Z.add_0_r. done.
  - destruct (withdraw_core id s b sender i s' subs _ _ _ HC Eb H) as (B1 & B2 & B3).
    rewrite B3, !Z.add_0_r, Z.add_0_l. done.
  - destruct (e_hooks s !! sender) as [ids|] eqn:Eh; [|done].
    destruct (update_all s b who ids) as [s1|] eqn:E; [|done]. injection H as <- <-.
    destruct (update_all_core id b sender who s s1 _ _ _ ids HC Eb Eh E) as (B1 & B2 & B3 & B4).
    rewrite !Z.add_0_r. cbn [set_due e_due e_block]. rewrite B3. split; [|done]. destruct B1 as [C1 C2 C3 C4]. by split.
  - destruct (update_ownership _ _ _ _) as [o|]; [|done]. injection H as <- <-. rewrite !Z.add_0_r. cbn. split; [|done].
    destruct HC as [C1 C2 C3 C4]. by split.
  - destruct (fits128 n) eqn:Ef; [|done]. apply fits128_ok in Ef.
    destruct (set_power _ _ _ _ _ _) as [s1|] eqn:E; [|done]. injection H as <- <-.
    destruct (power_core id s b vp caller who n s1 _ _ _ HC Eb ltac:(lia) Hrep E) as (B1 & B2 & B3).
    rewrite B3, !Z.add_0_r. done.
  - destruct (fits128 n) eqn:Ef; [|done].
    destruct (take _ _ _) as [s1|] eqn:E; [|done]. injection H as <- <-. apply take_ok in E as ->.
    rewrite !Z.add_0_r. split; [|done]. by apply core_held.
Qed.

(** A later block. *)
Lemma core_goes id s b pd fd :
  core id s (e_due s) pd fd -> block_le (e_block s) b -> e_goes s b = true ->
  core id (set_block s b) (e_due s) pd fd.
Proof.
  intros HC Hb Hg. unfold e_goes in Hg. apply andb_true_iff in Hg as [_ Hg].
  destruct (height b =? height (e_block s)) eqn:E.
  - assert (b = e_block s) as -> by (destruct b, (e_block s); cbn in *; f_equal; lia). by destruct s, HC.
  - destruct (e_due s) eqn:Ed; [|done]. assert (height (e_block s) < height b) as Hlt by (destruct Hb; lia).
    pose proof HC as [C1 C2 C3 C4]. split; try done.
    + intros vp v Hv. destruct (C1 vp v Hv). split; [done|]. cbn. lia.
    + intros d Hd. destruct (C4 d Hd) as (v & B1 & B2 & B3). exists v. split; [done|]. split; [done|].
      cbn [e_block set_block]. eapply dinv_time; [by eapply co_led|exact Hb|exact Hlt|done|exact B3].
Qed.

(** Every history. *)
Lemma tame_app id (l l' : elog) : tame id (l ++ l') = tame id l && tame id l'.
Proof. unfold tame. apply forallb_app. Qed.
Lemma core_reached id b0 owner vs b s l : 0 <= height b0 ->
  leads e_handle b0 (e_instantiate b0 owner vs) b s l -> tame id l = true ->
  block_le (e_block s) b /\ core id s (e_due s) (claimed id l + withdrawn id l) (funded id l).
Proof.
  intros H0. apply (leads_ind e_handle (fun b s l => tame id l = true ->
    block_le (e_block s) b /\ core id s (e_due s) (claimed id l + withdrawn id l) (funded id l))).
  - clear b s l. intros b s l a m s' subs IH H Ht. rewrite tame_app in Ht. apply andb_true_iff in Ht as [Ht He].
    destruct (IH Ht) as [Hb HC]. unfold e_handle in H. destruct (e_goes s b) eqn:Hg; [|done].
    pose proof (core_goes _ _ _ _ _ HC Hb Hg) as HC'.
    unfold tame in He. cbn in He. rewrite andb_true_r in He.
    assert (height b <= U64_MAX) as Hh by (unfold e_goes in Hg; lia).
    destruct (core_step id (set_block s b) b a m s' subs _ _ s HC' eq_refl Hh eq_refl eq_refl eq_refl H He) as [B1 B2].
    rewrite B2. split; [apply block_le_refl|]. unfold claimed, withdrawn, funded in *.
    rewrite !lsum_app. cbn [lsum]. rewrite !Z.add_0_r.
    match goal with |- core _ _ _ ?x _ => match type of B1 with core _ _ _ ?y _ => replace x with y by lia end end.
    exact B1.
  - clear b s l. intros b s l sub IH Ht. rewrite tame_app in Ht. apply andb_true_iff in Ht as [Ht _].
    unfold claimed, withdrawn, funded in *. rewrite !lsum_app. cbn. rewrite !Z.add_0_r. by apply IH.
  - clear b s l. intros b b' s l IH Hb Ht. destruct (IH Ht). split; [|done]. by eapply block_le_trans.
  - intros _. split; [apply block_le_refl|]. split; cbn.
    + intros vp v. rewrite lookup_gset_to_gmap_Some. intros [_ <-]. cbn.
      split; [apply ledger_empty; by left|done].
    + intros i d. by rewrite lookup_empty.
    + intros _. split; [|done]. intros u. unfold pend, acc. cbn. by rewrite !lookup_empty.
    + intros d. by rewrite lookup_empty.
Qed.
Lemma remaining_ok b p f c R :
  shape b p f c -> rewards_until p f (latest p b) = Ok R -> f - R <= left p f c.
Proof.
  intros (H0 & H1 & H2 & HS) HR. unfold rewards_until, left in *.
  destruct (ep_rate p) as [| |amount u ct].
  - injection HR as <-. lia.
  - injection HR as <-. lia.
  - destruct HS as (Ha & Hu & [((A & B & C) & -> & -> & D)|(st & en & la & [R1 R2 R3 R4 R5 R6 R7 R8 R9])]).
    + rewrite A in HR. injection HR as <-. lia.
    + unfold latest in HR. rewrite R2, until_mk in HR. set (lt := Z.min (now u b) en) in *.
      assert ((do! n <- dur_div (mkd u (Z.max 0 (tick u lt - tick u st))) u; mul128 amount n) = Ok R) as E.
      { rewrite R1 in HR. pose proof (since_mk u lt st) as E. destruct u; cbn [mk] in HR, E |- *; rewrite E in HR; exact HR. }
      rewrite div_mk in E by done. apply mul128_le in E as ->.
      assert (c * len u <= tick u lt - tick u st).
      { unfold lt. destruct (Z.min_spec (now u b) en) as [[_ ->]|[_ ->]]; [|lia].
        pose proof (tick_mono u la (now u b) R4). lia. }
      assert (c <= Z.max 0 (tick u lt - tick u st) / len u).
      { apply Z.div_le_lower_bound; [lia|]. lia. }
      nia.
Qed.
(** What the queries say. *)
Lemma pending_ok s b id a n :
  pending_rewards s b id a = Ok n ->
  exists d x v, e_dists s !! id = Some d /\ active_puvp s b (di_vp d) (di_ep d) = Ok x /\
    e_vps s !! di_vp d = Some v /\ acc s id a <= x + di_hist d /\
    n = pend s id a + vp_power_at v b a * (x + di_hist d - acc s id a) / SCALE.
Proof.
  unfold pending_rewards, get_dist. destruct (e_dists s !! id) as [d|] eqn:Ed; [|done].
  destruct (active_puvp s b (di_vp d) (di_ep d)) as [x|] eqn:Ex; [|done].
  destruct (add256 _ _) as [t|] eqn:Et; [|done]. apply add256_ok in Et as [-> _].
  unfold accrued, q_vp. destruct (e_vps s !! di_vp d) as [v|] eqn:Ev; [|done].
  destruct (sub256 _ _) as [f|] eqn:E1; [|done]. apply sub256_ok in E1 as [-> ?].
  destruct (mul256 _ _) as [y|] eqn:E2; [|done]. apply mul256_ok in E2 as [-> _].
  destruct (_ <=? U128_MAX) eqn:E3; [|done].
  intros E4. apply add128_ok in E4 as [-> _]. exists d, x, v. repeat split; auto; lia.
Qed.
Lemma solvent id s b pd fd us :
  core id s (e_due s) pd fd -> e_block s = b -> NoDup us -> e_dists s !! id <> None ->
  pd + lsum (claimable s b id) us + remaining s b id <= fd.
Proof.
  intros HC Eb Hn Hd. destruct (e_dists s !! id) as [d|] eqn:Ed; [|done]. clear Hd.
  destruct (co_some _ _ _ _ _ HC d Ed) as (v & Hv & _ & HI).
  pose proof (co_led _ _ _ _ _ _ _ HC Hv) as HL. rewrite Eb in HI, HL. pose proof SCALE_pos as HS.
  assert (forall p f, p = di_ep d -> f = di_funded d ->
    remaining s b id = match rewards_until p f (latest p b) with Ok R => if R <=? f then f - R else 0 | Err _ => 0 end) as Er.
  { intros ? ? -> ->. unfold remaining, undistributed, get_dist. rewrite Ed.
    destruct (rewards_until _ _ _) as [R|]; [|done]. unfold sub128. destruct (R <=? di_funded d) eqn:E, (di_funded d <? R) eqn:E'; lia. }
  destruct (active_puvp s b (di_vp d) (di_ep d)) as [x|] eqn:Ex.
  - destruct (credit_step s b v d _ _ _ _ _ x Hv HL HI Ex) as [HI' _].
    set (d' := set_ep _ _ _ _) in HI'. destruct HI' as [A1 A2 A3 (c & A4 & A5) _]. specialize (A5 us Hn).
    assert (remaining s b id <= left (di_ep d) (di_funded d) c) as Hr.
    { rewrite (Er _ _ eq_refl eq_refl). assert (0 <= left (di_ep d) (di_funded d) c) as H0.
      { apply (left_nonneg b) in A4. exact A4. }
      destruct (rewards_until _ _ _) as [R|] eqn:ER; [|done]. destruct (_ <=? _); [|done].
      eapply until_now_ok in ER; [|exact A4]. lia. }
    change (left (di_ep d') (di_funded d') c) with (left (di_ep d) (di_funded d) c) in A5.
    assert (SCALE * lsum (claimable s b id) us <= lsum (owed b v d' (pend s id) (acc s id)) us) as Hc.
    { rewrite <-lsum_scale. apply lsum_le. intros u _. unfold claimable, owed.
      pose proof (A2 u) as B2. pose proof (A3 u) as B3. pose proof (pow_nonneg b v u HL) as Hp.
      destruct (pending_rewards s b id u) as [n|] eqn:En.
      - apply pending_ok in En as (d0 & x0 & v0 & E1 & E2 & E3 & _ & ->).
        rewrite Ed in E1. injection E1 as <-. rewrite Ex in E2. injection E2 as <-. rewrite Hv in E3. injection E3 as <-.
        assert (tp d' = x + di_hist d) as -> by (unfold tp, d'; cbn; lia).
        pose proof (Z.mul_div_le (vp_power_at v b u * (x + di_hist d - acc s id u)) SCALE HS). lia.
      - assert (0 <= vp_power_at v b u * (tp d' - acc s id u)) by (apply Z.mul_nonneg_nonneg; lia). nia. }
    nia.
  - assert (forall u, claimable s b id u = 0) as E0.
    { intros u. unfold claimable, pending_rewards, get_dist. by rewrite Ed, Ex. }
    rewrite (lsum_ext _ (fun u => 0 * 0)), lsum_scale by (intros; by rewrite E0).
    destruct HI as [A1 A2 A3 (c & A4 & A5) _]. specialize (A5 [] (NoDup_nil_2)). cbn in A5.
    assert (remaining s b id <= left (di_ep d) (di_funded d) c) as Hr.
    { rewrite (Er _ _ eq_refl eq_refl). apply left_nonneg in A4 as H0.
      destruct (rewards_until _ _ _) as [R|] eqn:ER; [|done]. destruct (_ <=? _); [|done].
      by eapply remaining_ok in ER. }
    nia.
Qed.
Lemma claimable_nonneg id s b pd fd u :
  core id s (e_due s) pd fd -> e_block s = b -> 0 <= claimable s b id u.
Proof.
  intros HC Eb. unfold claimable. destruct (pending_rewards s b id u) as [n|] eqn:En; [|done].
  apply pending_ok in En as (d & x & v & Hd & Hx & Hv & Hle & ->).
  destruct (co_some _ _ _ _ _ HC d Hd) as (v' & Hv' & _ & [A1 A2 A3 A4 A5]). rewrite Hv in Hv'. injection Hv' as <-.
  pose proof (co_led _ _ _ _ _ _ _ HC Hv) as HL. rewrite Eb in HL. pose proof (pow_nonneg b v u HL).
  pose proof (A3 u). pose proof SCALE_pos.
  assert (0 <= vp_power_at v b u * (x + di_hist d - acc s id u) / SCALE) by (apply Z.div_pos; [apply Z.mul_nonneg_nonneg|]; lia).
  lia.
Qed.
