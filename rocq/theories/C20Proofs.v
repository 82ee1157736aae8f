(** Lemmas about dao-voting-cw20-staked. *)
From Verif Require Import Base BaseProofs Exec ExecProofs Plain PlainProofs HooksModel
  VotingModel StoreModel StoreProofs StakeModel StakeSpec StakeProofs ActiveModel C20Model C20Spec.

(** ** One more call *)
Lemma quiet_same {S M X : Type} (b : block) (s : S) (subs : list X) :
  exists l, run_quiet (Msg := M) no_reply b s subs = Ok (s, l).
Proof.
  induction subs as [|x subs [l IH]]; [by exists []|]. simpl. rewrite IH. eexists. reflexivity.
Qed.
Lemma leads_step {S M X : Type} (h : S -> block -> addr -> M -> result (S * list X))
    b0 s0 b s l a m s' subs :
  leads h b0 s0 b s l -> h s b a m = Ok (s', subs) -> exists l', leads h b0 s0 b s' l'.
Proof.
  intros (hs & A & B & C) H. destruct (quiet_same (M := M) b s' subs) as [lq Hq].
  eexists. exists (hs ++ [(b, Call a m [])]). split; [apply hist_ok_app; split; [done|by split]|].
  split; [|rewrite hist_end_app; apply block_le_refl].
  rewrite run_hist_app, B. simpl. rewrite H. cbn beta iota. rewrite Hq. simpl. reflexivity.
Qed.
Lemma kreached_step b s l a m s' subs :
  kreached b s l -> k_handle s b a m = Ok (s', subs) -> exists l', kreached b s' l'.
Proof.
  intros (b0 & token & d & owner & s0 & Hd & Hi & HL) H.
  destruct (leads_step _ _ _ _ _ _ _ _ _ _ HL H) as [l' HL']. exists l'.
  by exists b0, token, d, owner, s0.
Qed.
Lemma kreached_later b s l b' : kreached b s l -> block_le b b' -> kreached b' s l.
Proof.
  intros (b0 & token & d & owner & s0 & Hd & Hi & HL) H. exists b0, token, d, owner, s0.
  split; [done|]. split; [done|]. by eapply leads_later.
Qed.
Lemma arrive_donate k b a n k' : 0 <= n -> k_arrive k n = Ok k' -> k_held k + n <= U128_MAX ->
  0 <= k_held k -> k_handle k b a (KDonate n) = Ok (k', []).
Proof.
  intros Hn H Hm Hk. cbn [k_handle]. rewrite (proj2 (fits128_ok n)) by lia. by rewrite H.
Qed.

(** ** Balances *)
Definition cpos (m : gmap addr Z) : Prop := forall a n, m !! a = Some n -> 0 <= n.
Lemma cbal_pos (m : gmap addr Z) (a : addr) : cpos m -> 0 <= cbal m a.
Proof. intros H. unfold cbal. destruct (m !! a) eqn:E; simpl; [by eapply H|lia]. Qed.
Lemma cbal_add (m : gmap addr Z) (a x : addr) (n : Z) :
  cbal (cadd m a n) x = if decide (x = a) then cbal m a + n else cbal m x.
Proof.
  unfold cadd. unfold cbal at 1. destruct (decide (x = a)) as [->|Hne].
  - by rewrite lookup_insert.
  - by rewrite lookup_insert_ne by done.
Qed.
Lemma csupply_add (m : gmap addr Z) (a : addr) (n : Z) : csupply (cadd m a n) = csupply m + n.
Proof. unfold csupply, cadd. rewrite msum_insert. unfold cbal. destruct (m !! a); simpl; lia. Qed.
Lemma cpos_add (m : gmap addr Z) (a : addr) (n : Z) : cpos m -> 0 <= cbal m a + n -> cpos (cadd m a n).
Proof.
  intros H Hn x v. unfold cadd. intros [[<- <-]|[_ Hv]]%lookup_insert_Some; [done|by eapply H].
Qed.
Lemma cbal_le (m : gmap addr Z) (a : addr) : cpos m -> cbal m a <= csupply m.
Proof.
  intros H. unfold cbal. destruct (m !! a) as [v|] eqn:E; simpl.
  - apply (msum_ge_one (fun _ n => n) m a v); [|done]. intros k w. apply H.
  - apply msum_nonneg. intros k w. apply H.
Qed.
Lemma cbal_two (m : gmap addr Z) (a x : addr) : cpos m -> a <> x -> cbal m a + cbal m x <= csupply m.
Proof.
  intros H Hne. pose proof (cbal_le m a H) as Ha. pose proof (cbal_le m x H) as Hx.
  unfold cbal in *. destruct (m !! a) as [v|] eqn:E, (m !! x) as [w|] eqn:E2; simpl in *; try lia.
  by apply (msum_ge_two (fun _ n => n) m a v x w).
Qed.
Lemma cmove_ok (m : gmap addr Z) (from to : addr) (n : Z) m' :
  cmove m from to n = Ok m' -> 0 <= n -> cpos m ->
  n <= cbal m from /\ cpos m' /\ csupply m' = csupply m /\
  (forall x, cbal m' x = cbal m x - (if decide (x = from) then n else 0)
                                  + (if decide (x = to) then n else 0)).
Proof.
  unfold cmove. intros H Hn Hp. destruct (n <=? cbal m from) eqn:E; [|done]. injection H as <-.
  split; [lia|]. split; [|split].
  - assert (cpos (cadd m from (- n))) as Hp1 by (apply cpos_add; [done|lia]).
    apply cpos_add; [done|]. pose proof (cbal_pos _ to Hp1). lia.
  - rewrite !csupply_add. lia.
  - intros x. rewrite !cbal_add. repeat destruct (decide _); subst; try done; lia.
Qed.
(** What the staking contract pays. *)
Definition paid (x : ksub) : Z := match x with KPay _ n => n | _ => 0 end.
Lemma cpay_ok subs : forall (m : gmap addr Z) (from : addr) m',
  cpay m from subs = Ok m' -> cpos m -> (forall to n, KPay to n ∈ subs -> 0 <= n /\ to <> from) ->
  cpos m' /\ csupply m' = csupply m /\ cbal m' from = cbal m from - lsum paid subs /\
  (forall x, (forall to n, KPay to n ∈ subs -> to <> x) -> x <> from -> cbal m' x = cbal m x).
Proof.
  induction subs as [|[to n|] subs IH]; intros m from m' H Hp Hs; simpl in H |- *.
  - injection H as <-. split; [done|]. split; [done|]. split; [lia|done].
  - destruct (cmove m from to n) as [m1|] eqn:E1; [|done].
    destruct (Hs to n) as [Hn Hne]; [by left|].
    destruct (cmove_ok _ _ _ _ _ E1 Hn Hp) as (Hle & Hp1 & Hs1 & Hb1).
    destruct (IH _ _ _ H Hp1) as (Hp2 & Hs2 & Hb2 & Ho2).
    { intros t0 n0 Hin. apply Hs. by right. }
    split; [done|]. split; [congruence|]. split.
    + rewrite Hb2, Hb1. rewrite decide_True by done. rewrite decide_False by done. lia.
    + intros x Hx Hxf. rewrite Ho2; [|intros t0 n0 Hin; apply (Hx t0 n0); by right|done].
      rewrite Hb1, !decide_False; [lia|by apply not_eq_sym, (Hx to n); left|done].
  - destruct (IH _ _ _ H Hp) as (Hp2 & Hs2 & Hb2 & Ho2).
    { intros t0 n0 Hin. apply Hs. by right. }
    split; [done|]. split; [done|]. split; [lia|].
    intros x Hx Hxf. apply Ho2; [|done]. intros t0 n0 Hin. apply (Hx t0 n0). by right.
Qed.
Lemma hooks_no_pay (s : kstate) w x n to p :
  KPay to p ∈ map (fun h => KHook h w x n) (k_hooks s) -> False.
Proof. intros (h & [=] & _)%elem_of_list_fmap. Qed.
Lemma hooks_paid (s : kstate) w x n : lsum paid (map (fun h => KHook h w x n) (k_hooks s)) = 0.
Proof. induction (k_hooks s); simpl; lia. Qed.
(** The staking contract pays the caller only, out of its holdings. *)
Lemma k_pays b s a m s' subs :
  kinv b s -> k_handle s b a m = Ok (s', subs) ->
  match m with KReceive _ _ _ | KDonate _ => False | _ => True end ->
  (forall to n, KPay to n ∈ subs -> to = a /\ 0 <= n) /\
  k_held s' = k_held s - lsum paid subs /\ k_token s' = k_token s.
Proof.
  intros HI H Hm. pose proof (total_nonneg _ _ HI) as Ht0. pose proof (ki_pool _ _ HI) as Hp0.
  destruct m as [| x| |d|h|h|act|]; try done.
  - apply unstake_step in H as (H0 & Ha & Hat & Has & Hb & Hn & Eb & Et & Ep & Htk & _ & _ & _ & Hc).
    destruct Hc as [(_ & _ & Eh & _ & ->)|(d & _ & _ & Eh & _ & ->)].
    + split.
      { intros to n [[= -> ->]|Hin]%elem_of_cons; [|by apply hooks_no_pay in Hin].
        split; [done|]. apply Z.div_pos; nia. }
      simpl. rewrite hooks_paid. split; [lia|done].
    + split; [intros to n Hin; by apply hooks_no_pay in Hin|]. rewrite hooks_paid. split; [lia|done].
  - apply claim_step in H as (H0 & Hh & _ & -> & ->). simpl. split; [|split; [lia|done]].
    intros to n [= -> ->]%elem_of_list_singleton. split; [done|].
    apply lsum_nonneg. intros c [Hin _]%elem_of_list_In%filter_In.
    apply elem_of_list_In in Hin. by eapply (ki_cpos _ _ HI).
  - apply quiet_step in H as (_ & _ & _ & _ & -> & -> & ->); [|done]. simpl.
    split; [by intros ?? ?%elem_of_nil|]. split; [lia|done].
  - apply quiet_step in H as (_ & _ & _ & _ & -> & -> & ->); [|done]. simpl.
    split; [by intros ?? ?%elem_of_nil|]. split; [lia|done].
  - apply quiet_step in H as (_ & _ & _ & _ & -> & -> & ->); [|done]. simpl.
    split; [by intros ?? ?%elem_of_nil|]. split; [lia|done].
  - apply quiet_step in H as (_ & _ & _ & _ & -> & -> & ->); [|done]. simpl.
    split; [by intros ?? ?%elem_of_nil|]. split; [lia|done].
Qed.

(** ** The invariant *)
Record cinv (b : block) (s : cstate) : Prop := CInv {
  ci_k : exists l, kreached b (c_stake s) l;
  ci_tok : k_token (c_stake s) = c_token s;
  ci_held : k_held (c_stake s) = cbal (c_bals s) (c_staker s);
  ci_pos : cpos (c_bals s);
  ci_max : csupply (c_bals s) <= U128_MAX }.

Lemma percent_ok t : fits_active t = true ->
  c_percent_ok t = Ok tt <-> match t with Some (APercent p) => 0 < p <= 10 ^ 18 | _ => True end.
Proof.
  destruct t as [[n|p]|]; try done. cbn [fits_active c_percent_ok]. intros H%fits128_ok.
  unfold assert_valid_percentage, DEC_ONE. destruct (p =? 0) eqn:E; cbn; [split; [done|lia]|].
  destruct (p <=? _) eqn:E2; split; done || lia.
Qed.
Lemma count_ok t sup : fits_active t = true ->
  c_count_ok t sup = Ok tt <-> match t with Some (ACount n) => 0 < n <= sup | _ => True end.
Proof.
  destruct t as [[n|p]|]; try done. cbn [fits_active c_count_ok]. intros H%fits128_ok.
  unfold assert_valid_absolute_count. destruct (n =? 0) eqn:E; cbn; [split; [done|lia]|].
  destruct (n <=? _) eqn:E2; split; done || lia.
Qed.

(** What each call does.  [km] is what the staking contract sees, with its caller. *)
Definition seen (s : cstate) (b : block) (a : addr) (km : kmsg) (s' : cstate) (subs : list ksub) : Prop :=
  k_handle (c_stake s) b a km = Ok (c_stake s', subs).
Definition arrives (s : cstate) (b : block) (a to : addr) (n : Z) (s' : cstate) (subs : list ksub) : Prop :=
  subs = [] /\
  (to <> c_staker s /\ c_stake s' = c_stake s \/ to = c_staker s /\ seen s b a (KDonate n) s' []).
Definition effect (s : cstate) (b : block) (a : addr) (m : cmsg) (s' : cstate) (subs : list ksub) : Prop :=
  match m with
  | CActive t => a = c_dao s /\ sensible t (supply s) /\ fits_active t = true /\ c_active s' = t /\
      c_minter s' = c_minter s /\ c_bals s' = c_bals s /\ c_stake s' = c_stake s /\ subs = []
  | CTransfer from to n => 0 <= n /\ from <> c_staker s /\ cmove (c_bals s) from to n = Ok (c_bals s') /\
      arrives s b a to n s' subs /\ c_active s' = c_active s /\ c_minter s' = c_minter s
  | CSend from n stake => 0 <= n /\ from <> c_staker s /\
      cmove (c_bals s) from (c_staker s) n = Ok (c_bals s') /\
      seen s b (c_token s) (KReceive a n stake) s' subs /\
      c_active s' = c_active s /\ c_minter s' = c_minter s
  | CMint to n => 0 <= n /\ c_minter s = Some a /\ supply s + n <= U128_MAX /\
      c_bals s' = cadd (c_bals s) to n /\ arrives s b a to n s' subs /\
      c_active s' = c_active s /\ c_minter s' = c_minter s
  | CBurn from n => 0 <= n <= tokens s from /\ from <> c_staker s /\
      c_bals s' = cadd (c_bals s) from (- n) /\ c_stake s' = c_stake s /\ subs = [] /\
      c_active s' = c_active s /\ c_minter s' = c_minter s
  | CMinter x => c_minter s = Some a /\ c_minter s' = x /\ c_active s' = c_active s /\
      c_bals s' = c_bals s /\ c_stake s' = c_stake s /\ subs = []
  | CStake m => match m with KReceive _ _ _ | KDonate _ => False | _ => True end /\
      seen s b a m s' subs /\ cpay (c_bals s) (c_staker s) subs = Ok (c_bals s') /\
      c_active s' = c_active s /\ c_minter s' = c_minter s
  end.
Lemma c_arrives s b a to n k s' :
  cinv b s -> 0 <= n -> carrive s to n = Ok k -> c_stake s' = k -> arrives s b a to n s' [].
Proof.
  intros HI Hn H E. split; [done|]. unfold carrive in H.
  destruct (to =? c_staker s)%N eqn:Et.
  - right. apply N.eqb_eq in Et. split; [done|]. unfold seen. rewrite E.
    apply arrive_donate; [done|done| |].
    + unfold k_arrive in H. destruct (_ <=? U128_MAX) eqn:Em; [|done]. lia.
    + rewrite (ci_held _ _ HI). apply cbal_pos, HI.
  - left. apply N.eqb_neq in Et. injection H as H. split; [done|]. congruence.
Qed.
Lemma c_effect b s a m s' subs :
  cinv b s -> c_handle s b a m = Ok (s', subs) ->
  effect s b a m s' subs /\ a <> c_staker s /\ a <> c_token s /\
  c_dao s' = c_dao s /\ c_token s' = c_token s /\ c_staker s' = c_staker s.
Proof.
  intros HI H. unfold c_handle in H.
  destruct (a =? c_staker s)%N eqn:Ea; [done|]. destruct (a =? c_token s)%N eqn:Ea2; [done|].
  apply N.eqb_neq in Ea, Ea2. cbn [negb andb] in H.
  assert (forall P : Prop, P -> c_dao s' = c_dao s /\ c_token s' = c_token s /\ c_staker s' = c_staker s ->
    P /\ a <> c_staker s /\ a <> c_token s /\
    c_dao s' = c_dao s /\ c_token s' = c_token s /\ c_staker s' = c_staker s) as X by tauto.
  destruct m as [t|from to n|from n stake|to n|from n|x|m]; cbn [effect].
  - destruct (a =? c_dao s)%N eqn:Ed; [|done]. apply N.eqb_eq in Ed.
    destruct (fits_active t) eqn:Ef; [|done].
    destruct (c_percent_ok t) as [[]|] eqn:Ep; [|done].
    destruct (c_count_ok t _) as [[]|] eqn:Ec; [|done]. injection H as <- <-.
    apply (percent_ok _ Ef) in Ep. apply (count_ok _ _ Ef) in Ec. apply X; [|done].
    split; [done|]. split; [by destruct t as [[]|]|]. done.
  - destruct (fits128 n) eqn:Ef; [|done]. apply fits128_ok in Ef.
    destruct (from =? c_staker s)%N eqn:Efr; [done|]. apply N.eqb_neq in Efr. cbn [negb] in H.
    destruct (cmove _ _ _ _) as [m|] eqn:Em; [|done].
    destruct (carrive s to n) as [k|] eqn:Ek; [|done]. injection H as <- <-. apply X; [|done].
    split; [lia|]. split; [done|]. split; [done|]. split; [eapply c_arrives; [done|lia|done|done]|done].
  - destruct (fits128 n) eqn:Ef; [|done]. apply fits128_ok in Ef.
    destruct (from =? c_staker s)%N eqn:Efr; [done|]. apply N.eqb_neq in Efr. cbn [negb] in H.
    destruct (cmove _ _ _ _) as [m|] eqn:Em; [|done].
    destruct (k_handle _ _ _ _) as [[k ks]|] eqn:Ek; [|done]. injection H as <- <-. apply X; [|done].
    split; [lia|]. done.
  - destruct (fits128 n) eqn:Ef; [|done]. apply fits128_ok in Ef.
    destruct (bool_decide_reflect (c_minter s = Some a)); [|done].
    destruct (_ <=? U128_MAX) eqn:Em; [|done].
    destruct (carrive s to n) as [k|] eqn:Ek; [|done]. injection H as <- <-. apply X; [|done].
    split; [lia|]. split; [done|]. split; [apply Z.leb_le, Em|]. split; [done|].
    split; [eapply c_arrives; [done|lia|done|done]|done].
  - destruct (fits128 n) eqn:Ef; [|done]. apply fits128_ok in Ef.
    destruct (from =? c_staker s)%N eqn:Efr; [done|]. apply N.eqb_neq in Efr. cbn [negb] in H.
    destruct (n <=? _) eqn:En; [|done]. injection H as <- <-. apply X; [|done].
    split; [split; [lia|apply Z.leb_le, En]|]. done.
  - destruct (bool_decide_reflect (c_minter s = Some a)); [|done]. injection H as <- <-.
    by apply X.
  - destruct (match m with KDonate _ => false | _ => true end) eqn:Em; [|done].
    destruct (k_handle _ _ _ _) as [[k ks]|] eqn:Ek; [|done].
    destruct (cpay _ _ _) as [m'|] eqn:Ep; [|done]. injection H as <- <-. apply X; [|done].
    split; [|done]. destruct m; try done. cbn [k_handle] in Ek.
    destruct (fits128 _); [|done]. unfold k_receive in Ek. rewrite (ci_tok _ _ HI) in Ek.
    apply N.eqb_neq in Ea2. by rewrite Ea2 in Ek.
Qed.
Lemma c_seen b s a m s' subs :
  cinv b s -> c_handle s b a m = Ok (s', subs) ->
  c_stake s' = c_stake s \/ exists x km ks, seen s b x km s' ks.
Proof.
  intros HI H. apply (c_effect _ _ _ _ _ _ HI) in H as [H _].
  destruct m as [t|from to n|from n stake|to n|from n|x|m]; cbn [effect] in H.
  - left. tauto.
  - destruct H as (_ & _ & _ & (_ & [[_ H]|[_ H]]) & _); [by left|right; eauto].
  - right. destruct H as (_ & _ & _ & H & _). eauto.
  - destruct H as (_ & _ & _ & _ & (_ & [[_ H]|[_ H]]) & _); [by left|right; eauto].
  - left. tauto.
  - left. tauto.
  - right. destruct H as (_ & H & _). eauto.
Qed.
Lemma kinv_of b s : cinv b s -> kinv b (c_stake s).
Proof. intros HI. destruct (ci_k _ _ HI) as [l Hl]. by eapply kreached_inv. Qed.
Lemma receive_held k b a from n stake k' subs :
  k_handle k b a (KReceive from n stake) = Ok (k', subs) ->
  k_held k' = k_held k + n /\ k_token k' = k_token k.
Proof.
  destruct stake.
  - intros (x & _ & _ & _ & _ & _ & _ & -> & _)%stake_step. done.
  - intros (_ & _ & _ & -> & _)%fund_step. done.
Qed.
Lemma cinv_call b s a m s' subs : cinv b s -> c_handle s b a m = Ok (s', subs) -> cinv b s'.
Proof.
  intros HI H. pose proof (kinv_of _ _ HI) as HK.
  assert (exists l, kreached b (c_stake s') l) as Hk.
  { destruct (c_seen _ _ _ _ _ _ HI H) as [->|(x & km & ks & Hs)]; [apply HI|].
    destruct (ci_k _ _ HI) as [l Hl]. by eapply kreached_step. }
  apply (c_effect _ _ _ _ _ _ HI) in H as (H & Ha & _ & Ed & Et & Es).
  destruct HI as [_ Htok Hheld Hpos Hmax].
  assert (forall x n, n <= cbal (c_bals s) x -> 0 <= n -> x <> c_staker s ->
    cbal (c_bals s) (c_staker s) <= csupply (c_bals s) - n) as Hroom.
  { intros x n Hn _ Hx. pose proof (cbal_two _ x (c_staker s) Hpos Hx). lia. }
  destruct m as [t|from to n|from n stake|to n|from n|x|m]; cbn [effect] in H.
  - destruct H as (_ & _ & _ & _ & _ & Eb & Ek & _). split; [done|..]; rewrite ?Eb, ?Ek, ?Et, ?Es; done || congruence.
  - destruct H as (Hn & Hf & Hm & (_ & Hk') & _).
    destruct (cmove_ok _ _ _ _ _ Hm Hn Hpos) as (Hle & Hp' & Hs' & Hb').
    split; [done| | |done|congruence]; rewrite ?Et, ?Es.
    + destruct Hk' as [[_ ->]|[_ Hd]]; [done|]. by apply donate_step in Hd as (_ & _ & _ & ->).
    + rewrite Hb', decide_False by done. destruct Hk' as [[Hto ->]|[Hto Hd]].
      * rewrite decide_False by done. lia.
      * rewrite decide_True by done. apply donate_step in Hd as (_ & _ & _ & ->). cbn. lia.
  - destruct H as (Hn & Hf & Hm & Hr & _).
    destruct (cmove_ok _ _ _ _ _ Hm Hn Hpos) as (Hle & Hp' & Hs' & Hb').
    apply receive_held in Hr as [Hh Ht].
    split; [done| | |done|congruence]; rewrite ?Et, ?Es; [congruence|].
    rewrite Hb', decide_False, decide_True by done. lia.
  - destruct H as (Hn & _ & Hsup & Eb & (_ & Hk') & _). unfold supply in Hsup.
    split; [done| | | |]; rewrite ?Et, ?Es, ?Eb.
    + destruct Hk' as [[_ ->]|[_ Hd]]; [done|]. by apply donate_step in Hd as (_ & _ & _ & ->).
    + rewrite cbal_add. destruct Hk' as [[Hto ->]|[Hto Hd]].
      * rewrite decide_False by done. done.
      * rewrite decide_True by done. apply donate_step in Hd as (_ & _ & _ & ->). cbn. subst to. lia.
    + apply cpos_add; [done|]. pose proof (cbal_pos _ to Hpos). lia.
    + rewrite csupply_add. apply Hsup.
  - destruct H as (Hn & Hf & Eb & Ek & _). unfold tokens in Hn.
    change (default 0 (c_bals s !! from)) with (cbal (c_bals s) from) in Hn.
    split; [done| | | |]; rewrite ?Et, ?Es, ?Eb, ?Ek; [done| | |].
    + rewrite cbal_add, decide_False by done. done.
    + apply cpos_add; [done|lia].
    + rewrite csupply_add. lia.
  - destruct H as (_ & _ & _ & Eb & Ek & _). split; [done|..]; rewrite ?Eb, ?Ek, ?Et, ?Es; done || congruence.
  - destruct H as (Hm & Hs & Hp & _). destruct (k_pays _ _ _ _ _ _ HK Hs Hm) as (Hpay & Hh & Htk).
    destruct (cpay_ok _ _ _ _ Hp Hpos) as (Hp' & Hs' & Hb' & _).
    { intros to n Hin. destruct (Hpay _ _ Hin) as [-> ?]. done. }
    split; [done| | |done|congruence]; rewrite ?Et, ?Es; [congruence|lia].
Qed.
Lemma cinv_time b b' s : cinv b s -> block_le b b' -> cinv b' s.
Proof.
  intros [[l Hl] ? ? ? ?] Hb. split; try done. exists l. by eapply kreached_later.
Qed.
Lemma c_fresh_ok b dao token at_ d m k :
  c_fresh b dao token at_ d m = Ok k -> fits_dur d = true -> cpos m ->
  (exists l, kreached b k l) /\ k_token k = token /\ k_held k = cbal m at_ /\
  k_dur k = d /\ o_owner (k_own k) = Some dao /\ total_staked k = 0 /\ k_pool k = 0 /\
  (forall a, staked k a = 0) /\ k_hooks k = [].
Proof.
  unfold c_fresh. intros H Hd Hp. destruct (k_instantiate b token d (Some dao)) as [k0|] eqn:E0; [|done].
  assert (kreached b k0 []) as HR.
  { exists b, token, d, (Some dao), k0. split; [done|]. split; [done|]. apply leads_refl, block_le_refl. }
  assert (k_handle k0 b 0%N (KDonate (cbal m at_)) = Ok (k, [])) as Hk.
  { apply arrive_donate; [by apply cbal_pos|done| |].
    - unfold k_arrive in H. destruct (_ <=? U128_MAX) eqn:Em; [|done]. lia.
    - unfold k_instantiate in E0. res_inv E0. done. }
  split; [by eapply kreached_step|]. apply donate_step in Hk as (_ & _ & _ & ->).
  unfold k_instantiate in E0. res_inv E0. cbn. do 6 (split; [done|]).
  split; [|done]. intros a0. unfold staked. cbn. by rewrite lookup_empty.
Qed.
Lemma lsum_list_to_map (l : list (addr * Z)) :
  NoDup (map fst l) -> csupply (list_to_map l) = lsum snd l.
Proof.
  induction l as [|[a n] l IH]; [done|]. simpl. intros [Ha Hn]%NoDup_cons. unfold csupply in *.
  rewrite msum_insert_new; [rewrite IH by done; lia|]. apply not_elem_of_list_to_map_1. exact Ha.
Qed.
Lemma caccounts_ok l m : caccounts l = Ok m -> forallb (fun x => fits128 x.2) l = true ->
  NoDup (map fst l) /\ m = list_to_map l /\ cpos m /\ csupply m = lsum snd l /\ lsum snd l <= U128_MAX.
Proof.
  unfold caccounts. intros H Hf. destruct (bool_decide_reflect (NoDup (map fst l))); [|done].
  destruct (_ <=? U128_MAX) eqn:E; [|done]. injection H as <-. split; [done|]. split; [done|]. split.
  - intros a z Ha. apply elem_of_list_to_map_2, elem_of_list_In in Ha.
    rewrite forallb_forall in Hf. apply Hf, fits128_ok in Ha. simpl in Ha. lia.
  - split; [by apply lsum_list_to_map|lia].
Qed.
(** ** Setting up *)
Lemma c_init b dao t i ntoken nstaker s :
  csound b i -> c_instantiate b dao t i ntoken nstaker = Ok s ->
  cinv b s /\ c_dao s = dao /\ c_active s = t /\ fits_active t = true /\ sensible t (supply s).
Proof.
  intros Hs H. unfold c_instantiate in H. destruct (fits_active t) eqn:Ef; [|done].
  destruct (c_percent_ok t) as [[]|] eqn:Ep; [|done]. apply (percent_ok _ Ef) in Ep.
  assert (forall sup, c_count_ok t sup = Ok tt -> sensible t sup) as Hc.
  { intros sup Hc. apply (count_ok _ _ Ef) in Hc. by destruct t as [[]|]. }
  destruct i as [token minter m st|l db d].
  - destruct Hs as (Hpos & Hmax & Hst). destruct (c_count_ok t _) as [[]|] eqn:Ec; [|done].
    destruct st as [a k|d].
    + destruct (token =? k_token k)%N eqn:Et; [|done]. apply N.eqb_eq in Et. injection H as <-.
      destruct Hst as [Hk Hh]. split; [by split|]. split; [done|]. split; [done|]. split; [done|].
      by apply Hc.
    + destruct (fits_dur d) eqn:Ed; [|done]. destruct (c_fresh _ _ _ _ _ _) as [k|] eqn:Ek; [|done].
      injection H as <-. destruct (c_fresh_ok _ _ _ _ _ _ _ Ek Ed Hpos) as (Hk & Ht & Hh & _).
      split; [by split|]. split; [done|]. split; [done|]. split; [done|]. by apply Hc.
  - destruct (_ && _ && _) eqn:Eb; [|done]. apply andb_true_iff in Eb as [[Eb1 Eb2]%andb_true_iff Eb3].
    destruct (lsum snd l <=? U128_MAX) eqn:El; [|done]. destruct (lsum snd l =? 0) eqn:E0; [done|].
    cbn [negb] in H. cbv zeta in H.
    destruct (caccounts _) as [m|] eqn:Em; [|done].
    destruct (c_count_ok t _) as [[]|] eqn:Ec; [|done].
    destruct (c_fresh _ _ _ _ _ _) as [k|] eqn:Ek; [|done]. injection H as <-.
    apply caccounts_ok in Em as (_ & -> & Hpos & Hsup & Hmax).
    2: { destruct db as [n|]; [|done]. destruct (0 <? n); [|done].
         rewrite forallb_app, Eb1. cbn. by rewrite Eb2. }
    destruct (c_fresh_ok _ _ _ _ _ _ _ Ek Eb3 Hpos) as (Hk & Ht & Hh & _).
    split; [split; try done; cbn; lia|]. split; [done|]. split; [done|]. split; [done|]. by apply Hc.
Qed.
Lemma creached_inv b s l : creached b s l -> cinv b s.
Proof.
  intros (b0 & dao & t & i & nt & ns & s0 & Hs & Hi & HL).
  eapply (leads_inv c_handle cinv); [exact cinv_call|exact cinv_time| |exact HL].
  by eapply (c_init _ _ _ _ _ _ _ Hs Hi).
Qed.
Lemma creached_call b s l pre b1 a m post subs :
  creached b s l -> ECall pre b1 a m post subs ∈ l ->
  cinv b1 pre /\ c_handle pre b1 a m = Ok (post, subs).
Proof.
  intros (b0 & dao & t & i & nt & ns & s0 & Hs & Hi & HL) Hin.
  destruct (leads_call c_handle cinv cinv_call cinv_time _ _ _ _ _
    (proj1 (c_init _ _ _ _ _ _ _ Hs Hi)) HL _ _ _ _ _ _ Hin) as (A & B & _). done.
Qed.
