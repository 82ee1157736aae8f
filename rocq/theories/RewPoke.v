(** dao-rewards-distributor: what updates cost. *)
From Verif Require Import Base BaseProofs Exec Plain PlainProofs StoreModel StoreProofs LedgerProofs
  StakeProofs ExtModel ExtProofs RewModel RewSpec RewProofs.

Lemma active_ext s s' b vp p : e_vps s' = e_vps s -> active_puvp s' b vp p = active_puvp s b vp p.
Proof. intros E. unfold active_puvp, q_vp. by rewrite E. Qed.
Lemma active_idem s b vp p x :
  active_puvp s b vp p = Ok x -> active_puvp s b vp (bump (set_puvp p x) b) = Ok x.
Proof.
  unfold active_puvp. cbn [bump set_puvp ep_rate ep_puvp]. destruct (ep_rate p) as [| |amount u ct]; [done|done|].
  intros _. unfold latest. cbn [bump set_puvp ep_end ep_last]. destruct (ep_end p) as [h|t|]; cbn [until].
  - cbn [duration_since]. rewrite Z.ltb_irrefl. cbn. done.
  - cbn [duration_since]. rewrite Z.ltb_irrefl. cbn. done.
  - done.
Qed.
Lemma bump_idem p x b : bump (set_puvp (bump (set_puvp p x) b) x) b = bump (set_puvp p x) b.
Proof. done. Qed.

(** Within one block: the distribution is brought up to date once, the member settled once. *)
Definition bumped (d : dist) (b : block) (x : Z) : dist :=
  set_ep d (bump (set_puvp (di_ep d) x) b) (di_funded d) (di_hist d).
Definition rel (id : Z) (a : addr) (b : block) (v : vps) (d : dist) (s t : estate) : Prop :=
  e_vps t = e_vps s /\
  ((e_dists t !! id = Some d /\ pend t id a = pend s id a /\ acc t id a = acc s id a) \/
   exists x, active_puvp s b (di_vp d) (di_ep d) = Ok x /\ e_dists t !! id = Some (bumped d b x) /\
     ((pend t id a = pend s id a /\ acc t id a = acc s id a) \/
      (acc t id a = x + di_hist d /\
       pend t id a = pend s id a + vp_power_at v b a * (x + di_hist d - acc s id a) / SCALE))).
Lemma rel_update id a b v d s t w i t' :
  e_vps s !! di_vp d = Some v -> rel id a b v d s t -> update_rewards t b w i = Ok t' -> rel id a b v d s t'.
Proof.
  intros Hv [Ev HR] H. apply update_ok in H as (d1 & x1 & v1 & Hd1 & Hx1 & Hv1 & _ & ->). cbn zeta.
  split; [done|]. rewrite pend_insert, acc_insert. cbn [e_dists].
  destruct (decide (i = id)) as [->|Hne].
  2:{ rewrite lookup_insert_ne by done. rewrite !decide_False by (intros [? _]; done). done. }
  rewrite lookup_insert. right. rewrite (active_ext s) in Hx1 by done. rewrite Ev in Hv1.
  destruct HR as [(A & B & C)|(x & A & B & C)].
  - rewrite Hd1 in A. injection A as ->. rewrite Hv in Hv1. injection Hv1 as <-.
    exists x1. split; [done|]. split; [done|].
    destruct (decide (id = id /\ a = w)) as [[_ <-]|_]; [right|by left]. by rewrite B, C.
  - rewrite Hd1 in B. injection B as ->. cbn [bumped set_ep di_vp di_ep di_hist di_funded] in *.
    rewrite Hv in Hv1. injection Hv1 as <-.
    rewrite (active_idem _ _ _ _ _ A) in Hx1. injection Hx1 as <-.
    exists x. split; [done|]. split; [done|].
    destruct (decide (id = id /\ a = w)) as [[_ <-]|_]; [right|done].
    destruct C as [[-> ->]|[-> ->]]; [done|]. split; [done|].
    rewrite Z.sub_diag, Z.mul_0_r, Z.div_0_l by (pose proof SCALE_pos; lia). lia.
Qed.
Lemma rel_ids id a b v d s w ids t t' :
  e_vps s !! di_vp d = Some v -> rel id a b v d s t -> update_ids t b w ids = Ok t' -> rel id a b v d s t'.
Proof.
  intros Hv. revert t. induction ids as [|i ids IH]; intros t HR H; cbn in H; [by injection H as <-|].
  destruct (update_rewards t b w i) as [t1|] eqn:E; [|done]. eapply IH; [|exact H]. by eapply rel_update.
Qed.
Lemma rel_all id a b v d s who ids t t' :
  e_vps s !! di_vp d = Some v -> rel id a b v d s t -> update_all t b who ids = Ok t' -> rel id a b v d s t'.
Proof.
  intros Hv. revert t. induction who as [|w who IH]; intros t HR H; cbn in H; [by injection H as <-|].
  destruct (update_ids t b w ids) as [t1|] eqn:E; [|done]. eapply IH; [|exact H]. by eapply rel_ids.
Qed.
Lemma poke_step id a s b sender m s' subs v d pre :
  e_vps s !! di_vp d = Some v -> e_dists s !! id = Some d ->
  e_step s b sender m = Ok (s', subs) -> let e := ECall pre b sender m s' subs in poke e = true ->
  exists t, rel id a b v d s t /\ e_vps s' = e_vps s /\ e_dists s' !! id = e_dists t !! id /\
    acc s' id a = acc t id a /\ pend s' id a + ev_earned id a e = pend t id a.
Proof.
  intros Hv Hd H e He. unfold e, poke, ev_earned in *.
  assert (rel id a b v d s s) as H0 by (split; [done|]; by left).
  destruct m as [denom rate vp hook op wd funds|i rate vp hook op wd|i funds|funds|from n i|i|i|who|act|vp caller who n|t n]; try done; cbn [e_step] in H.
  - unfold claim_rewards in H. destruct (update_rewards s b sender i) as [t|] eqn:E1; [|done].
    pose proof (rel_update _ _ _ _ _ _ _ _ _ _ Hv H0 E1) as HR. exists t. split; [done|].
    unfold get_dist in H. destruct (e_dists t !! i) as [dt|] eqn:Ed; [|done]. cbn zeta in H.
    destruct (pend t i sender =? 0); [done|]. cbn [negb] in H. set (s2 := EState _ _ _ _ _ _ _ _ _ _) in H.
    destruct (send s2 _ _) as [s3|] eqn:Es; [|done]. apply send_ok in Es as [-> _]. injection H as <- <-.
    split; [apply HR|]. split; [done|]. split; [done|]. simpl lsum. rewrite Z.add_0_r.
    change (pend (set_held s2 _ _) id a) with (pend s2 id a). unfold s2. rewrite pend_insert.
    destruct (i =? id) eqn:Ei, (sender =? a)%N eqn:Ea; cbn.
    + apply Z.eqb_eq in Ei as ->. apply N.eqb_eq in Ea as ->. by rewrite decide_True.
    + apply N.eqb_neq in Ea. rewrite decide_False; [lia|]. intros [_ ?]. by apply Ea.
    + apply Z.eqb_neq in Ei. rewrite decide_False; [lia|]. by intros [? _].
    + apply Z.eqb_neq in Ei. rewrite decide_False; [lia|]. by intros [? _].
  - destruct (e_hooks s !! sender) as [ids|] eqn:Eh; [|done].
    destruct (update_all s b who ids) as [s1|] eqn:E; [|done]. injection H as <- <-.
    pose proof (rel_all _ _ _ _ _ _ _ _ _ _ Hv H0 E) as HR. exists s1. split; [done|].
    split; [apply HR|]. split; [done|]. split; [done|]. apply Z.add_0_r.
  - destruct (update_ownership _ _ _ _) as [o|]; [|done]. injection H as <- <-. exists s.
    repeat split; auto. apply Z.add_0_r.
  - destruct (fits128 n) eqn:Ef; [|done].
    destruct (take _ _ _) as [s1|] eqn:E; [|done]. injection H as <- <-. apply take_ok in E as ->. exists s.
    repeat split; auto. apply Z.add_0_r.
Qed.

(** The accrual of a running distribution. *)
Lemma active_lin s b vp v p amount u ct en la x :
  ep_rate p = EmLinear amount u ct -> ep_end p = mk u en -> ep_last p = mk u la -> 0 < len u ->
  e_vps s !! vp = Some v -> active_puvp s b vp p = Ok x ->
  x = ep_puvp p + (if vp_total_at v b =? 0 then 0 else
    amount * (Z.max 0 (tick u (Z.min (now u b) en) - tick u la) / len u) * SCALE / vp_total_at v b).
Proof.
  intros Er Ee El Hu Hv H. unfold active_puvp in H. rewrite Er in H. unfold latest in H. rewrite Ee, until_mk in H.
  set (lt := Z.min (now u b) en) in *. set (n := Z.max 0 _) in *.
  assert ((if dur_zero (mkd u n) then Ok (ep_puvp p) else
    do! v <- q_vp s vp; let total := vp_total_at v b in
    if total =? 0 then Ok (ep_puvp p)
    else do! n <- dur_div (mkd u n) u; do! x <- mul256 (amount * n) SCALE; add256 (ep_puvp p) (x / total)) = Ok x) as E.
  { rewrite El in H. pose proof (since_mk u lt la) as E. fold n in E. destruct u; cbn [mk] in H, E |- *; rewrite E in H; exact H. }
  rewrite zero_mk in E. destruct (n =? 0) eqn:En.
  - injection E as <-. apply Z.eqb_eq in En as ->. rewrite Z.div_0_l by lia.
    destruct (_ =? 0) eqn:Et; [lia|]. rewrite Z.mul_0_r, Z.mul_0_l, Z.div_0_l by lia. lia.
  - unfold q_vp in E. rewrite Hv in E. cbn zeta in E. destruct (vp_total_at v b =? 0) eqn:Et.
    + injection E as <-. lia.
    + rewrite div_mk in E by done. destruct (mul256 _ _) as [y|] eqn:Ey; [|done]. apply mul256_ok in Ey as [-> _].
      apply add256_ok in E as [-> _]. done.
Qed.
Lemma split_periods l x y : 0 < l -> 0 <= x -> 0 <= y ->
  (x + y) / l <= x / l + y / l + (if x mod l =? 0 then 0 else 1).
Proof.
  intros Hl Hx Hy. destruct (x mod l =? 0) eqn:E.
  - apply Z.eqb_eq in E. rewrite (Z.div_mod x l) at 1 by lia. rewrite E, Z.add_0_r.
    rewrite Z.mul_comm, Z.add_comm, Z.div_add by lia. lia.
  - pose proof (Z.div_mod x l ltac:(lia)). pose proof (Z.div_mod y l ltac:(lia)).
    pose proof (Z.mod_pos_bound x l Hl). pose proof (Z.mod_pos_bound y l Hl).
    assert ((x + y) / l < x / l + y / l + 2); [|lia]. apply Z.div_lt_upper_bound; [done|]. nia.
Qed.
Lemma passed_mk p b u en la :
  ep_end p = mk u en -> ep_last p = mk u la ->
  passed p b = Z.max 0 (tick u (Z.min (now u b) en) - tick u la).
Proof. intros Ee El. unfold passed. rewrite Ee, El. by destruct u. Qed.
Lemma period_len u : period u = len u.
Proof. done. Qed.

Section pokes.
  Context (id : Z) (a : addr) (b0 : block) (s : estate) (d : dist) (v : vps).
  Context (amount : Z) (u : duration) (ct : bool) (T W : Z).
  Hypothesis Hd : e_dists s !! id = Some d.
  Hypothesis Hv : e_vps s !! di_vp d = Some v.
  Hypothesis Hr : ep_rate (di_ep d) = EmLinear amount u ct.
  Hypothesis Ha : 0 < amount.
  Hypothesis Hu : 0 < len u.
  Hypothesis HT : 0 < T.
  Hypothesis HW : 0 <= W.
  Hypothesis Hst : forall b, block_le b0 b -> vp_total_at v b = T /\ vp_power_at v b a = W.

  Definition at_point (pu la : Z) : dist :=
    let p := di_ep d in
    set_ep d (Epoch (ep_rate p) (ep_start p) (ep_end p) pu (mk u la)) (di_funded d) (di_hist d).
  Definition gain (en la pu : Z) (b : block) : Z :=
    T * pu + amount * SCALE * (Z.max 0 (tick u (Z.min (now u b) en) - tick u la) / len u).
  Definition keeps (en la : Z) (b : block) (s' : estate) (l : elog) : Prop :=
    exists pu la', e_dists s' !! id = Some (at_point pu la') /\
      forall b', block_le b b' -> gain en la (ep_puvp (di_ep d)) b' <=
        gain en la' pu b' + amount * SCALE * cuts id l + T * calls l.
  Definition settled (s' : estate) (l : elog) : Prop :=
    SCALE * pend s id a - W * acc s id a <=
    SCALE * (pend s' id a + earned id a l) - W * acc s' id a + SCALE * calls l.

  Lemma earned_app (l l' : elog) : earned id a (l ++ l') = earned id a l + earned id a l'.
  Proof. apply lsum_app. Qed.
  Lemma calls_app (l l' : elog) : calls (l ++ l') = calls l + calls l'.
  Proof. apply lsum_app. Qed.
  Lemma cuts_app (l l' : elog) : cuts id (l ++ l') = cuts id l + cuts id l'.
  Proof. apply lsum_app. Qed.

  Lemma settle_step (s1 s2 t : estate) b1 d1 l e :
    block_le b0 b1 -> settled s1 l -> rel id a b1 v d1 s1 t ->
    acc s2 id a = acc t id a -> pend s2 id a + ev_earned id a e = pend t id a ->
    (match e with ECall _ _ _ _ _ _ => True | _ => False end) -> settled s2 (l ++ [e]).
  Proof.
    intros Hb HS [_ HR] Ea Ep He. unfold settled in *. rewrite earned_app, calls_app, Ea.
    assert (earned id a [e] = ev_earned id a e) as -> by (unfold earned; cbn; lia).
    assert (calls [e] = 1) as -> by (unfold calls; cbn; destruct e; [done|done]).
    assert (pend s2 id a = pend t id a - ev_earned id a e) as -> by lia.
    pose proof SCALE_pos as Hs. destruct (Hst b1 Hb) as [_ Ew].
    assert (SCALE * pend s1 id a - W * acc s1 id a <= SCALE * pend t id a - W * acc t id a + SCALE) as H; [|lia].
    destruct HR as [(_ & -> & ->)|(x & _ & _ & [[-> ->]|[-> ->]])]; [lia|lia|].
    rewrite Ew. set (f := x + di_hist d1 - acc s1 id a) in *.
    pose proof (div_mul_gt (W * f) SCALE Hs). assert (x + di_hist d1 = f + acc s1 id a) as -> by (unfold f; lia).
    lia.
  Qed.

  Lemma keep_step en la (s1 s2 t : estate) b1 m sender subs l pre :
    ep_end (di_ep d) = mk u en ->
    e_dists pre = e_dists s1 ->
    block_le b0 b1 -> e_vps s1 = e_vps s -> keeps en la b1 s1 l ->
    (forall d1, e_dists s1 !! id = Some d1 -> rel id a b1 v d1 s1 t) ->
    e_dists s2 !! id = e_dists t !! id ->
    keeps en la b1 s2 (l ++ [ECall pre b1 sender m s2 subs]).
  Proof.
    intros Ee Epre Hb Ev (pu & la1 & Hd1 & Hg) HR Ed2. destruct (HR _ Hd1) as [_ HR'].
    set (e := ECall _ _ _ _ _ _). pose proof SCALE_pos as Hs.
    assert (calls [e] = 1) as Ec by done.
    assert (cuts id [e] = if passed (Epoch (ep_rate (di_ep d)) (ep_start (di_ep d)) (ep_end (di_ep d)) pu (mk u la1)) b1 mod len u =? 0 then 0 else 1) as Eq.
    { unfold cuts. cbn. rewrite Epre, Hd1. cbn [di_ep at_point set_ep ep_rate]. rewrite Hr.
      rewrite period_len. destruct (_ =? 0); done. }
    assert (0 <= cuts id [e]) as Hq by (rewrite Eq; by destruct (_ =? 0)).
    assert (0 <= amount * SCALE) as HA by nia.
    destruct HR' as [(E & _)|(x & Hx & E & _)].
    - exists pu, la1. rewrite Ed2, E. split; [done|]. intros b2 Hb2. rewrite cuts_app, calls_app, Ec.
      specialize (Hg b2 Hb2).
      assert (0 <= amount * SCALE * cuts id [e]) by (apply Z.mul_nonneg_nonneg; lia). lia.
    - set (lb := Z.min (now u b1) en).
      exists x, lb. rewrite Ed2, E. split.
      { unfold bumped, at_point, bump, set_puvp. cbn [di_ep set_ep ep_rate ep_start ep_end ep_puvp ep_last]. rewrite Ee, until_mk. done. }
      intros b2 Hb2. rewrite cuts_app, calls_app, Ec. specialize (Hg b2 Hb2).
      assert (e_vps s1 !! di_vp d = Some v) as Hv1 by by rewrite Ev.
      pose proof (active_lin s1 b1 _ v (di_ep (at_point pu la1)) amount u ct en la1 x Hr Ee eq_refl Hu Hv1 Hx) as Ex.
      cbn [at_point set_ep di_ep ep_puvp] in Ex. destruct (Hst b1 Hb) as [ET _]. rewrite ET in Ex.
      replace (T =? 0) with false in Ex by lia. fold lb in Ex.
      rewrite Eq, (passed_mk _ b1 u en la1) by done. fold lb.
      set (X := Z.max 0 (tick u lb - tick u la1)) in *. unfold gain in *.
      set (t2 := tick u (Z.min (now u b2) en)) in *.
      assert (tick u lb <= t2) as Hle by (apply tick_mono; pose proof (now_mono u _ _ Hb2); lia).
      pose proof (split_periods (len u) X (Z.max 0 (t2 - tick u lb)) Hu ltac:(lia) ltac:(lia)) as Hsp.
      assert (Z.max 0 (t2 - tick u la1) / len u <= (X + Z.max 0 (t2 - tick u lb)) / len u) as Hm by (apply Z.div_le_mono; lia).
      set (c := if X mod len u =? 0 then 0 else 1) in *.
      set (n0 := Z.max 0 (t2 - tick u la1) / len u) in *. set (n1 := Z.max 0 (t2 - tick u lb) / len u) in *.
      set (n2 := X / len u) in *. set (n3 := Z.max 0 (t2 - tick u la) / len u) in *.
      pose proof (div_mul_gt (amount * n2 * SCALE) T HT) as Hdg. set (g := amount * n2 * SCALE / T) in *.
      assert (amount * SCALE * n0 <= amount * SCALE * (n2 + n1 + c)) by (apply Z.mul_le_mono_nonneg_l; lia).
      rewrite Ex. lia.
  Qed.

  Lemma pokes_run en la b s' l :
    ep_end (di_ep d) = mk u en -> ep_last (di_ep d) = mk u la ->
    leads e_handle b0 s b s' l -> forallb poke l = true ->
    block_le b0 b /\ e_vps s' = e_vps s /\ settled s' l /\ keeps en la b s' l.
  Proof.
    intros Ee El. apply (leads_ind e_handle (fun b s' l => forallb poke l = true ->
      block_le b0 b /\ e_vps s' = e_vps s /\ settled s' l /\ keeps en la b s' l)).
    - clear b s' l. intros b s1 l w m s2 subs IH H Hp. rewrite forallb_app in Hp. apply andb_true_iff in Hp as [Hp He].
      cbn [forallb] in He. rewrite andb_true_r in He. destruct (IH Hp) as (B1 & B2 & B3 & B4).
      unfold e_handle in H. destruct (e_goes s1 b); [|done].
      pose proof B4 as (pu & la1 & Hd1 & _).
      destruct (poke_step id a (set_block s1 b) b w m s2 subs v (at_point pu la1) s1) as (t & R1 & R2 & R3 & R4 & R5);
        [cbn; by rewrite B2|exact Hd1|exact H|exact He|].
      split; [done|]. split; [by rewrite R2|]. split.
      + eapply settle_step; [exact B1|exact B3| |exact R4|exact R5|done].
        exact R1.
      + eapply (keep_step en la s1 s2 t); [exact Ee|done|exact B1|exact B2|exact B4| |exact R3].
        intros d1 E1. rewrite Hd1 in E1. injection E1 as <-. exact R1.
    - clear b s' l. intros b s1 l x IH Hp. rewrite forallb_app in Hp. apply andb_true_iff in Hp as [Hp _].
      destruct (IH Hp) as (B1 & B2 & B3 & pu & la1 & Hd1 & Hg). split; [done|]. split; [done|].
      unfold settled in *. rewrite earned_app, calls_app. split.
      + change (earned id a [ESub s1 b x true s1]) with 0. change (calls [ESub s1 b x true s1]) with 0. rewrite !Z.add_0_r. exact B3.
      + exists pu, la1. split; [done|]. intros b' Hb'. rewrite cuts_app, calls_app.
        change (cuts id [ESub s1 b x true s1]) with 0. change (calls [ESub s1 b x true s1]) with 0. rewrite !Z.add_0_r. by apply Hg.
    - clear b s' l. intros b b' s1 l IH Hb Hp. destruct (IH Hp) as (B1 & B2 & B3 & pu & la1 & Hd1 & Hg).
      split; [by eapply block_le_trans|]. split; [done|]. split; [done|].
      exists pu, la1. split; [done|]. intros b'' Hb''. apply Hg. by eapply block_le_trans.
    - intros _. split; [apply block_le_refl|]. split; [done|]. split.
      + unfold settled, earned, calls. cbn. lia.
      + exists (ep_puvp (di_ep d)), la. split.
        * unfold at_point. rewrite <-El. rewrite Hd. f_equal. by destruct d as [? [] ? ? ? ? ? ?].
        * intros b' _. unfold cuts, calls. cbn. lia.
  Qed.
  (** A distribution never funded. *)
  Lemma pokes_idle b s' l :
    never_ran (di_ep d) -> leads e_handle b0 s b s' l -> forallb poke l = true ->
    block_le b0 b /\ e_vps s' = e_vps s /\ settled s' l /\ e_dists s' !! id = Some d.
  Proof.
    intros (N1 & N2 & N3). apply (leads_ind e_handle (fun b s' l => forallb poke l = true ->
      block_le b0 b /\ e_vps s' = e_vps s /\ settled s' l /\ e_dists s' !! id = Some d)).
    - clear b s' l. intros b s1 l w m s2 subs IH H Hp. rewrite forallb_app in Hp. apply andb_true_iff in Hp as [Hp He].
      cbn [forallb] in He. rewrite andb_true_r in He. destruct (IH Hp) as (B1 & B2 & B3 & B4).
      unfold e_handle in H. destruct (e_goes s1 b); [|done].
      destruct (poke_step id a (set_block s1 b) b w m s2 subs v d s1) as (t & R1 & R2 & R3 & R4 & R5);
        [cbn; by rewrite B2|exact B4|exact H|exact He|].
      split; [done|]. split; [by rewrite R2|]. split.
      + eapply settle_step; [exact B1|exact B3| |exact R4|exact R5|done]. exact R1.
      + rewrite R3. destruct R1 as [_ [(E & _)|(x & Hx & E & _)]]; [done|]. rewrite E. f_equal.
        unfold active_puvp, latest in Hx. rewrite Hr, N2, N3 in Hx. cbn [until] in Hx. injection Hx as <-.
        unfold bumped, bump, set_puvp. cbn [ep_end ep_rate ep_start ep_puvp]. rewrite N2. cbn [until]. rewrite <-N2 at 1.
        destruct d as [? [] ? ? ? ? ? ?]. cbn in *. by subst.
    - clear b s' l. intros b s1 l x IH Hp. rewrite forallb_app in Hp. apply andb_true_iff in Hp as [Hp _].
      destruct (IH Hp) as (B1 & B2 & B3 & B4). split; [done|]. split; [done|]. split; [|done].
      unfold settled in *. rewrite earned_app, calls_app.
      change (earned id a [ESub s1 b x true s1]) with 0. change (calls [ESub s1 b x true s1]) with 0. rewrite !Z.add_0_r. exact B3.
    - clear b s' l. intros b b' s1 l IH Hb Hp. destruct (IH Hp) as (B1 & B2). split; [by eapply block_le_trans|done].
    - intros _. split; [apply block_le_refl|]. split; [done|]. split; [|done]. unfold settled, earned, calls. cbn. lia.
  Qed.
  (** The settlements alone. *)
  Lemma pokes_settled b s' l :
    leads e_handle b0 s b s' l -> forallb poke l = true ->
    block_le b0 b /\ e_vps s' = e_vps s /\ settled s' l /\
    exists d1, e_dists s' !! id = Some d1 /\ di_vp d1 = di_vp d /\ di_hist d1 = di_hist d.
  Proof.
    apply (leads_ind e_handle (fun b s' l => forallb poke l = true ->
      block_le b0 b /\ e_vps s' = e_vps s /\ settled s' l /\
      exists d1, e_dists s' !! id = Some d1 /\ di_vp d1 = di_vp d /\ di_hist d1 = di_hist d)).
    - clear b s' l. intros b s1 l w m s2 subs IH H Hp. rewrite forallb_app in Hp. apply andb_true_iff in Hp as [Hp He].
      cbn [forallb] in He. rewrite andb_true_r in He. destruct (IH Hp) as (B1 & B2 & B3 & d1 & B4 & B5 & B6).
      unfold e_handle in H. destruct (e_goes s1 b); [|done].
      destruct (poke_step id a (set_block s1 b) b w m s2 subs v d1 s1) as (t & R1 & R2 & R3 & R4 & R5);
        [cbn; by rewrite B2, B5|exact B4|exact H|exact He|].
      split; [done|]. split; [by rewrite R2|]. split.
      + eapply settle_step; [exact B1|exact B3| |exact R4|exact R5|done]. exact R1.
      + rewrite R3. destruct R1 as [_ [(E & _)|(x & Hx & E & _)]]; rewrite E; eauto.
    - clear b s' l. intros b s1 l x IH Hp. rewrite forallb_app in Hp. apply andb_true_iff in Hp as [Hp _].
      destruct (IH Hp) as (B1 & B2 & B3 & B4). split; [done|]. split; [done|]. split; [|done].
      unfold settled in *. rewrite earned_app, calls_app.
      change (earned id a [ESub s1 b x true s1]) with 0. change (calls [ESub s1 b x true s1]) with 0. rewrite !Z.add_0_r. exact B3.
    - clear b s' l. intros b b' s1 l IH Hb Hp. destruct (IH Hp) as (B1 & B2). split; [by eapply block_le_trans|done].
    - intros _. split; [apply block_le_refl|]. split; [done|]. split; [|eauto]. unfold settled, earned, calls. cbn. lia.
  Qed.
End pokes.
