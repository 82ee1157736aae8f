(** Proofs about a DAO with its voting module. *)
From stdpp Require Import gmap strings.
From Verif Require Import Base BaseProofs Exec ExecProofs Plain PlainProofs VotingModel VotingSpec
  CondModel CondSpec CondProofs CondLife CoreModel CoreSpec
  CoreProofs CDaoModel CDaoSpec CDaoProofs CDaoClaims JointModel JointProofs CWholeModel CWholeSpec.
From Verif Require C20Proofs ElectProofs.

(** ** Voters *)
Lemma voters_sum s id (P : list Z -> bool) (f : addr -> Z) :
  msum (fun k l => if (k.1 =? id) && P l then f k.2 else 0) (s_votes s) = lsum f (voters_who s id P).
Proof.
  unfold voters_who. rewrite msum_to_list, lsum_map. generalize (map_to_list (s_votes s)) as l.
  induction l as [|[[i a] v] l IH]; [done|].
  cbn [lsum]. rewrite filter_cons. cbn [fst snd]. rewrite IH.
  destruct (Z.eqb_spec i id) as [->|Hn].
  - destruct (P v) eqn:E; cbn [andb].
    + rewrite decide_True by done. done.
    + rewrite decide_False; [lia|]. by intros [_ ?].
  - rewrite decide_False; [done|]. by intros [? _].
Qed.
Lemma voters_in s id P a :
  a ∈ voters_who s id P -> exists l, s_votes s !! (id, a) = Some l /\ P l = true.
Proof.
  unfold voters_who. intros ([[i a'] l] & -> & Hx)%elem_of_list_fmap.
  apply elem_of_list_filter in Hx as [[E Hv] Hx]. cbn in *. subst i.
  apply elem_of_map_to_list in Hx. by exists l.
Qed.
Lemma voters_nodup s id P : NoDup (voters_who s id P).
Proof.
  unfold voters_who. pose proof (NoDup_fst_map_to_list (s_votes s)) as HN.
  revert HN. generalize (map_to_list (s_votes s)) as l.
  induction l as [|[[i a] v] l IH]; intros HN; [constructor|].
  rewrite fmap_cons in HN. apply NoDup_cons in HN as [Hn HN]. specialize (IH HN).
  rewrite filter_cons. cbn [fst snd].
  destruct (decide (i = id /\ P v = true)) as [[-> Hv]|?]; [|done].
  cbn [map fst snd]. constructor; [|done]. intros ([[i' a'] v'] & E & Hx)%elem_of_list_fmap.
  apply elem_of_list_filter in Hx as [[E' _] Hx]. cbn in *. subst i' a'.
  apply Hn. apply elem_of_list_fmap. by exists ((id, a), v').
Qed.

(** ** The terms of proposals *)
Definition all_ok (P : proposal -> Prop) (s : state) : Prop :=
  forall id p, s_props s !! id = Some p -> P p.
(** Only the terms matter. *)
Definition steady (P : proposal -> Prop) : Prop := forall p st, P p -> P (set_status p st).
Definition made_ok (O : oracle) (P : proposal -> Prop) (b : block) (s : state) : Prop :=
  forall a id choices st, P (new_prop O s b a id choices st).
Lemma handle_all O s b a m s' subs P :
  steady P -> all_ok P s -> made_ok O P b s -> handle O s b a m = Ok (s', subs) -> all_ok P s'.
Proof.
  intros HS HA Hc H. apply handle_prim in H.
  destruct H as [s a' id choices t st|s a' id t vote t'|s id t p st st' Ht Hp Hst Hcase|s c c'];
    intros j q Hl; cbn in Hl; try (by eapply HA).
  - apply lookup_insert_Some in Hl as [[_ <-]|[_ Hl]]; [apply Hc|by eapply HA].
  - apply lookup_insert_Some in Hl as [[_ <-]|[_ Hl]]; [apply HS|]; by eapply HA.
Qed.
Lemma fail_all s b x s' t : steady t -> all_ok t s -> on_fail s b x = Ok s' -> all_ok t s'.
Proof.
  intros HS HA H. apply on_fail_shape in H as (d & id & ms & p & -> & Hp & ->).
  intros i q Hl. cbn in Hl. apply lookup_insert_Some in Hl as [[_ <-]|[_ Hl]]; [apply HS|]; by eapply HA.
Qed.
Lemma ok_all s b x d s' t : all_ok t s -> on_ok s b x d = Ok s' -> all_ok t s'.
Proof. intros HA [= <-]. done. Qed.
Lemma event_all K O s b e s' t :
  steady t -> all_ok t (d_prop s) -> made_ok O t b (d_prop s) -> d_event K O s b e = Ok s' ->
  all_ok t (d_prop s').
Proof.
  intros HS HA Hc H.
  assert (forall a m rest s2, to_core s b a m rest = Ok s2 -> all_ok t (d_prop s2)) as TC.
  { intros a m rest s2 H2. unfold to_core in H2. destruct (k_execute _ _ _ _) as [[c l]|]; [|done].
    by injection H2 as <-. }
  assert (forall a m rest s2, to_prop O s b a m rest = Ok s2 -> all_ok t (d_prop s2)) as TP.
  { intros a m rest s2 H2. unfold to_prop in H2.
    destruct (handle _ _ _ _ _) as [[c l]|] eqn:E; [|done].
    injection H2 as <-. cbn. by eapply handle_all. }
  destruct e as [a m|a m| | |a msgs| | |a]; cbn in H.
  - destruct (outside s a); [|done]. by eapply TC.
  - destruct (outside s a); [|done]. by eapply TP.
  - destruct (d_todo s) as [|[[id0 i0|[m|n]]|x0|x0] rest]; try done. by eapply TC.
  - destruct (d_todo s) as [|[[id0 i0|[m|n]]|x0|x0] rest]; try done.
    destruct (call_of K n) as [m|]; [by eapply TP|]. by injection H as <-.
  - destruct (d_todo s) as [|[[id i|x0]|x0|x0] rest]; try done.
    destruct (k_mods _ !! a); [done|]. destruct (outside s a); [|done].
    destruct (k_reply _ _ _ _) as [[c l]|]; [|done]. by injection H as <-.
  - destruct (d_todo s) as [|[|x|] rest]; try done.
    destruct x as [d0 i0 ms0 c0].
    destruct (_ =? _)%N; [by eapply TC|]. by injection H as <-.
  - destruct (d_todo s) as [|[|x|] rest]; try done.
    destruct (on_fail _ _ _) as [q|] eqn:E; [|done]. injection H as <-. by eapply fail_all.
  - destruct (d_todo s) as [|[| |x] rest]; try done.
    by injection H as <-.
Qed.

(** ** Answers about begun blocks *)
Lemma d_event_agree K o o' s b e :
  cstarted b (d_prop s) -> cagree b o o' -> d_event K o s b e = d_event K o' s b e.
Proof.
  intros HS HA. destruct e; cbn; try done.
  - unfold to_prop. by rewrite (cagree_call _ _ _ _ _ _ HS HA).
  - destruct (d_todo s) as [|[[id0 i0|[m|n]]|x0|x0] rest]; try done.
    destruct (call_of K n) as [m|]; [|done]. unfold to_prop. by rewrite (cagree_call _ _ _ _ _ _ HS HA).
Qed.
Lemma cstarted_event K O s b e s' :
  cstarted b (d_prop s) -> d_event K O s b e = Ok s' -> cstarted b (d_prop s').
Proof.
  intros HA H.
  assert (forall a m rest s2, to_core s b a m rest = Ok s2 -> cstarted b (d_prop s2)) as TC.
  { intros a m rest s2 H2. unfold to_core in H2. destruct (k_execute _ _ _ _) as [[c l]|]; [|done].
    by injection H2 as <-. }
  assert (forall a m rest s2, to_prop O s b a m rest = Ok s2 -> cstarted b (d_prop s2)) as TP.
  { intros a m rest s2 H2. unfold to_prop in H2.
    destruct (handle _ _ _ _ _) as [[c l]|] eqn:E; [|done].
    injection H2 as <-. cbn. by eapply cstarted_call. }
  destruct e as [a m|a m| | |a msgs| | |a]; cbn in H.
  - destruct (outside s a); [|done]. by eapply TC.
  - destruct (outside s a); [|done]. by eapply TP.
  - destruct (d_todo s) as [|[[id0 i0|[m|n]]|x0|x0] rest]; try done. by eapply TC.
  - destruct (d_todo s) as [|[[id0 i0|[m|n]]|x0|x0] rest]; try done.
    destruct (call_of K n) as [m|]; [by eapply TP|]. by injection H as <-.
  - destruct (d_todo s) as [|[[id i|x0]|x0|x0] rest]; try done.
    destruct (k_mods _ !! a); [done|]. destruct (outside s a); [|done].
    destruct (k_reply _ _ _ _) as [[c l]|]; [|done]. by injection H as <-.
  - destruct (d_todo s) as [|[|x|] rest]; try done.
    destruct x as [d0 i0 ms0 c0].
    destruct (_ =? _)%N; [by eapply TC|]. by injection H as <-.
  - destruct (d_todo s) as [|[|x|] rest]; try done.
    destruct (on_fail _ _ _) as [q|] eqn:E; [|done]. injection H as <-. by eapply cstarted_fail.
  - destruct (d_todo s) as [|[| |x] rest]; try done.
    by injection H as <-.
Qed.
Lemma dleads_agree K o o' b0 s0 b s l :
  dleads K o b0 s0 b s l -> cstarted b0 (d_prop s0) -> cagree b o o' ->
  dleads K o' b0 s0 b s l /\ cstarted b (d_prop s).
Proof.
  intros H HS. induction H as [|b s l b' e s' H IH Hb Hd He]; intros HA; [split; [constructor|done]|].
  destruct (IH (cagree_time _ _ _ _ Hb HA)) as [I1 I2].
  pose proof (cstarted_time _ _ _ Hb I2) as I3. split; [|by eapply cstarted_event].
  econstructor; [exact I1|done..|]. by rewrite <-(d_event_agree K o o').
Qed.

(** ** A whole history is a history of the DAO *)
Section whole.
  Context {T MV XV : Type}.
  Variable handle_v : T -> block -> addr -> MV -> result (T * list XV).
  Variable power : T -> addr -> Z -> Z.
  Variable total : T -> Z -> Z.
  Variable vreached : block -> T -> log T MV XV -> Prop.
  Hypothesis v_stable : forall t b a m t' subs h,
    handle_v t b a m = Ok (t', subs) -> h <= height b ->
    (forall a', power t' a' h = power t a' h) /\ total t' h = total t h.
  Hypothesis v_app : forall b t l b' t' l',
    vreached b t l -> leads handle_v b t b' t' l' -> vreached b' t' (l ++ l').
  Hypothesis v_sane : forall b t l, vreached b t l ->
    (forall a h, 0 <= power t a h) /\ (forall h, total t h <= U128_MAX) /\
    (forall h vs, NoDup vs -> lsum (fun a => power t a h) vs <= total t h).
  Variable hold : T -> addr -> Z.
  Variable hold_all : T -> Z.
  Hypothesis v_reported : forall b1 t1 l1 b' b2 t2 l2 h,
    vreached b1 t1 l1 -> height b1 < h -> block_le b1 b' -> h <= height b' ->
    leads handle_v b' t1 b2 t2 l2 ->
    (forall a, power t2 a h = hold t1 a) /\ total t2 h = hold_all t1.
  Variable for_v : N -> option MV.
  Variable K : codes.
  Notation ask := (cond_ask power total).
  Notation wleads := (wleads handle_v power total for_v K).
  Notation wreached := (wreached handle_v power total vreached for_v K).
  Notation wstart := (wstart vreached).

  Lemma whole_sane b t l : vreached b t l -> typed (ask t).
  Proof.
    intros H. destruct (v_sane _ _ _ H) as (S1 & S2 & S3).
    split; [intros d a h; apply S1|]. intros d b' id. cbn. split; [|apply S2].
    pose proof (S3 (height b') [] (NoDup_nil_2)) as H0. cbn in H0. exact H0.
  Qed.
  Lemma start_started b s : dstart b s -> cstarted b (d_prop s).
  Proof. intros (_ & _ & (E & _) & _) i p Hl. rewrite E in Hl. by apply lookup_empty_Some in Hl. Qed.
  Lemma whole_votes b0 s0 b s l :
    wleads b0 s0 b s l -> exists lv, leads handle_v b0 (w_v s0) b (w_v s) lv.
  Proof.
    intros H. induction H as [|b s l b' e s' H [lv IH] Hb Hd Hv He].
    { exists []. apply leads_refl, block_le_refl. }
    pose proof (leads_later _ _ _ _ _ _ _ IH Hb) as L.
    destruct e as [e|a m]; cbn in He.
    - destruct (d_event _ _ _ _ _) as [d|] eqn:E; [|done]. cbn in He.
      destruct (said for_v K (w_dao s) e) as [m|].
      + destruct (handle_v _ _ _ _) as [[t subs]|] eqn:Eh; [|done]. injection He as <-. cbn.
        exact (C20Proofs.leads_step _ _ _ _ _ _ _ _ _ _ L Eh).
      + injection He as <-. cbn. by exists lv.
    - destruct (outside _ a); [|done].
      destruct (handle_v _ _ _ _) as [[t subs]|] eqn:Eh; [|done]. injection He as <-. cbn.
      exact (C20Proofs.leads_step _ _ _ _ _ _ _ _ _ _ L Eh).
  Qed.
  Lemma whole_part b0 s0 b s l :
    cstarted b0 (d_prop (w_dao s0)) -> wleads b0 s0 b s l ->
    exists b1, block_le b1 b /\ (d_todo (w_dao s) = [] \/ b1 = b) /\
      dleads K (ask (w_v s)) b0 (w_dao s0) b1 (w_dao s) (dao_log l).
  Proof.
    intros HS H. induction H as [|b s l b' e s' H IH Hb Hd Hv He].
    { exists b0. split; [apply block_le_refl|]. split; [by right|]. constructor. }
    destruct IH as (b1 & L1 & T1 & D1).
    assert (block_le b1 b') as L2 by (by eapply block_le_trans).
    assert (forall t' a m subs, handle_v (w_v s) b' a m = Ok (t', subs) ->
      cagree b' (ask (w_v s)) (ask t')) as AG.
    { intros t' a m subs Eh. by eapply (cond_stable handle_v power total v_stable). }
    unfold dao_log. rewrite omap_app. destruct e as [e|a m]; cbn in He.
    - destruct (d_event _ _ _ _ _) as [d|] eqn:E; [|done]. cbn in He.
      assert (dleads K (ask (w_v s)) b0 (w_dao s0) b' d
        (dao_log l ++ [DEntry (w_dao s) b' e d])) as D2.
      { econstructor; [exact D1|done| |done].
        destruct T1 as [T1| ->]; [by left|]. destruct Hd as [Hd|Hd]; [by left|by right]. }
      destruct (said for_v K (w_dao s) e) as [m|].
      + destruct (handle_v _ _ _ _) as [[t subs]|] eqn:Eh; [|done]. injection He as <-.
        exists b'. split; [apply block_le_refl|]. split; [by right|]. cbn.
        eapply dleads_agree; [exact D2|done|]. by eapply AG.
      + injection He as <-. exists b'. split; [apply block_le_refl|]. split; [by right|]. exact D2.
    - destruct (outside _ a); [|done].
      destruct (handle_v _ _ _ _) as [[t subs]|] eqn:Eh; [|done]. injection He as <-. cbn.
      rewrite app_nil_r. exists b1. split; [done|]. split.
      + destruct Hd as [Hd| ->]; [by left|done].
      + eapply dleads_agree; [exact D1|done|]. eapply cagree_time; [exact L2|]. by eapply AG.
  Qed.
  Lemma whole_reached b s l : wreached b s l ->
    exists b1, block_le b1 b /\ dreached K (ask (w_v s)) b1 (w_dao s) (dao_log l).
  Proof.
    intros (b0 & s0 & (Hs & lv0 & Hv) & Hl).
    destruct (whole_part _ _ _ _ _ (start_started _ _ Hs) Hl) as (b1 & L1 & _ & D).
    exists b1. split; [done|]. exists b0, (w_dao s0). split; [done|]. split; [|done].
    destruct (whole_votes _ _ _ _ _ Hl) as [lv HL].
    eapply whole_sane, v_app; [exact Hv|exact HL].
  Qed.
  Lemma whole_vreached b s l : wreached b s l -> exists lv, vreached b (w_v s) lv.
  Proof.
    intros (b0 & s0 & (Hs & lv0 & Hv) & Hl). destruct (whole_votes _ _ _ _ _ Hl) as [lv HL].
    eexists. by eapply v_app.
  Qed.
  Lemma whole_log (l : list (@wentry T MV)) (e : wentry) d : e ∈ l -> dao_entry e = Some d -> d ∈ dao_log l.
  Proof. intros He E. apply elem_of_list_omap. eauto. Qed.

  (** ** What is behind the messages carried *)
  Lemma margin_behind t s id x y :
    margin (ask t) s id x y =
    behind power t s id (start_of s id) x y - behind power t s id (start_of s id) y x.
  Proof.
    unfold margin, behind. rewrite <-!voters_sum, <-msum_sub. apply msum_ext.
    intros [i a] l _. cbn. unfold sg. destruct (i =? id); cbn; [|lia].
    destruct (prefers l x y), (prefers l y x); lia.
  Qed.
  Lemma voted_behind t s id :
    voted_power (ask t) s id = behind_all power t s id (start_of s id).
  Proof.
    unfold voted_power, behind_all. rewrite <-voters_sum. apply msum_ext.
    intros [i a] l _. cbn. by destruct (i =? id).
  Qed.
  Lemma mandate_backed t s id msgs :
    mandate (ask t) s id msgs ->
    exists p tl w, s_props (d_prop s) !! id = Some p /\ s_tallies (d_prop s) !! id = Some tl /\
      p_choices p !! Z.to_nat w = Some msgs /\ backed power total t (d_prop s) id p (t_start tl) w.
  Proof.
    intros (p & tl & w & Hp & Ht & Hc & _ & _ & (b & Hb & Htot) & _ & Hsh & [Hw Hbe]).
    exists p, tl, w. do 3 (split; [done|]).
    assert (start_of (d_prop s) id = t_start tl) as Hst by (unfold start_of; by rewrite Ht).
    split; [apply voters_nodup|]. split; [done|]. split.
    - intros y Hy Hne. specialize (Hbe y Hy Hne). rewrite margin_behind, Hst in Hbe. lia.
    - rewrite voted_behind, Hst in Hsh. rewrite Htot in Hsh. cbn in Hsh. by rewrite Hb in Hsh.
  Qed.
  Lemma whole_backed b s l e id msgs : wreached b s l -> e ∈ l -> wcarries e id msgs ->
    exists p tl w, s_props (d_prop (w_dao (we_pre e))) !! id = Some p /\
      s_tallies (d_prop (w_dao (we_pre e))) !! id = Some tl /\
      p_choices p !! Z.to_nat w = Some msgs /\
      backed power total (w_v s) (d_prop (w_dao (we_pre e))) id p (t_start tl) w.
  Proof.
    intros HR He (d & Ed & Hc). destruct (whole_reached _ _ _ HR) as (b1 & _ & (b0 & s0 & Hs & HS & Hl)).
    pose proof (whole_log _ _ _ He Ed) as Hd.
    destruct (dleads_inv _ _ _ _ _ _ _ HS (dstart_inv _ _ _ Hs) Hl) as [_ H].
    destruct (H d Hd) as (I1 & I2 & _).
    assert (de_pre d = w_dao (we_pre e)) as E.
    { unfold dao_entry in Ed. destruct (we_ev e); [|done]. by injection Ed as <-. }
    rewrite <-E. apply mandate_backed.
    destruct Hc as (_ & c & rest & Et).
    eapply exec_mandate; [exact I1|done|exact Et].
  Qed.
  Lemma whole_stakes b0 s0 b1 s1 l1 b' b s l2 h :
    wstart b0 s0 -> wleads b0 s0 b1 s1 l1 -> block_le b1 b' -> wleads b' s1 b s l2 ->
    height b1 < h <= height b' ->
    (forall a, power (w_v s) a h = hold (w_v s1) a) /\ total (w_v s) h = hold_all (w_v s1).
  Proof.
    intros Hs H1 Hb H2 Hh. destruct (whole_vreached b1 s1 l1) as [lv HV]; [by exists b0, s0|].
    destruct (whole_votes _ _ _ _ _ H2) as [lv2 HL].
    eapply v_reported; [exact HV| |exact Hb| |exact HL]; lia.
  Qed.

  (** ** Those who do not meet the threshold *)
  Lemma some_le_all t (C l : list addr) h : (forall a, 0 <= power t a h) -> NoDup l ->
    (forall a, a ∈ l -> a ∈ C) ->
    lsum (fun a => power t a h) l <= lsum (fun a => power t a h) C.
  Proof.
    intros P ND HC. apply ElectProofs.lsum_le_lsum; [done|]. by apply NoDup_submseteq.
  Qed.
  Lemma prefers_head l x y : head l = Some x -> y ∈ l -> y <> x -> prefers l x y = true.
  Proof.
    destruct l as [|z l]; [done|]. intros [= ->] Hy Hn. cbn. rewrite Z.eqb_refl.
    apply elem_of_cons in Hy as [?|Hy]; [done|]. apply existsb_exists. exists y.
    split; [by apply elem_of_list_In|]. apply Z.eqb_refl.
  Qed.
  Lemma prefers_not_head l x y : NoDup l -> head l = Some x -> prefers l y x = true -> False.
  Proof.
    destruct l as [|z l]; [done|]. intros HN [= ->] Hp. apply NoDup_cons in HN as [Hx HN]. cbn in Hp.
    assert (forall l', x ∉ l' -> prefers l' y x = true -> False) as HQ.
    { induction l' as [|z l' IH]; [done|]. intros Hn Hq. cbn in Hq.
      apply not_elem_of_cons in Hn as [Hn1 Hn2]. destruct (z =? y); [|by apply IH].
      apply existsb_exists in Hq as (q & Hq & E). apply Z.eqb_eq in E. subst q.
      by apply Hn2, elem_of_list_In. }
    destruct (x =? y); [|by apply (HQ l)].
    apply existsb_exists in Hp as (q & Hq & E). apply Z.eqb_eq in E. subst q.
    by apply Hx, elem_of_list_In.
  Qed.
  Definition first_is (z : Z) (l : list Z) : bool :=
    match head l with Some y => y =? z | None => false end.
  Lemma decline_short t s id msgs C b lv :
    vreached b t lv -> mandate (ask t) s id msgs ->
    (forall p, s_props (d_prop s) !! id = Some p -> last (p_choices p) = Some []) ->
    others_decline C (d_prop s) ->
    msgs = [] \/
    exists p tl n, s_props (d_prop s) !! id = Some p /\ s_tallies (d_prop s) !! id = Some tl /\
      0 <= n < lsum (fun a => power t a (t_start tl)) C /\
      share_near (lsum (fun a => power t a (t_start tl)) C + n) (total t (t_start tl)) (p_quorum p).
  Proof.
    intros HV HM HL HC.
    pose proof HM as (p0 & t0 & w0 & Hp0 & Ht0 & _ & _ & _ & _ & Hrk & _).
    destruct (mandate_backed _ _ _ _ HM) as (p & tl & w & Hp & Ht & Hch & (_ & Hw & Hb & Hsh)).
    rewrite Hp in Hp0. injection Hp0 as <-. clear t0 w0 Ht0.
    destruct (v_sane _ _ _ HV) as (P & _ & _).
    set (z := Z.of_nat (length (p_choices p)) - 1).
    assert (z = Z.of_nat (length (p_choices p)) - 1) as Ez by done. clearbody z.
    destruct (decide (w = z)) as [->|Hwz].
    { left. specialize (HL p Hp). rewrite last_lookup in HL.
      replace (Z.to_nat z) with (pred (length (p_choices p))) in Hch by (rewrite Ez; lia). congruence. }
    right. set (f := fun a => power t a (t_start tl)) in *.
    assert (forall l, 0 <= lsum f l) as Hnn by (intros l; apply lsum_nonneg; intros a _; apply P).
    assert (forall l, NoDup l -> (forall a, a ∈ l -> a ∈ C) -> lsum f l <= lsum f C) as HLe.
    { intros l ND Hin. apply some_le_all; [|done|done]. intros a. apply P. }
    exists p, tl, (lsum f (voters_who (d_prop s) id (first_is z))). do 2 (split; [done|]).
    assert (forall a l, s_votes (d_prop s) !! (id, a) = Some l -> first_is z l = false -> a ∈ C) as HinC.
    { intros a l Hl Hf. destruct (HC _ _ _ _ Hl Hp) as [?|Hh]; [done|].
      unfold first_is in Hf. rewrite Hh, <-Ez in Hf. by rewrite Z.eqb_refl in Hf. }
    assert (lsum f (voters_who (d_prop s) id (first_is z)) <= behind power t (d_prop s) id (t_start tl) z w) as L1.
    { unfold behind. fold f. rewrite <-!voters_sum. apply msum_le. intros [i a] l Hl. cbn.
      destruct (Z.eqb_spec i id) as [->|]; [|done]. cbn.
      destruct (first_is z l) eqn:Ef.
      - unfold first_is in Ef. destruct (head l) as [y|] eqn:Eh; [|done]. apply Z.eqb_eq in Ef. subst y.
        rewrite (prefers_head l z w Eh); [done| |done]. apply (Hrk a l Hl). lia.
      - destruct (prefers l z w); [apply P|done]. }
    assert (behind power t (d_prop s) id (t_start tl) w z <= lsum f C) as L2.
    { unfold behind. apply HLe; [apply voters_nodup|]. intros a (l & El & Ep)%voters_in.
      apply (HinC a l El). destruct (first_is z l) eqn:Ef; [|done]. exfalso.
      unfold first_is in Ef. destruct (head l) as [y|] eqn:Eh; [|done]. apply Z.eqb_eq in Ef. subst y.
      eapply prefers_not_head; [apply (Hrk a l El)|exact Eh|exact Ep]. }
    pose proof (Hb z ltac:(lia) ltac:(lia)) as L3. fold f. split; [split; [apply Hnn|lia]|].
    assert (lsum f (voters_who (d_prop s) id (fun l => negb (first_is z l))) <= lsum f C) as L4.
    { apply HLe; [apply voters_nodup|]. intros a (l & El & Ef)%voters_in.
      apply (HinC a l El). by apply negb_true_iff. }
    assert (behind_all power t (d_prop s) id (t_start tl) =
      lsum f (voters_who (d_prop s) id (first_is z)) +
      lsum f (voters_who (d_prop s) id (fun l => negb (first_is z l)))) as E.
    { unfold behind_all. fold f. rewrite <-!voters_sum, <-msum_add. apply msum_ext.
      intros [i a] l _. cbn. destruct (i =? id); cbn; [|done]. destruct (first_is z l); cbn; lia. }
    rewrite E in Hsh. clear - Hsh L4. destruct Hsh as [H0 Ho]. split; [done|].
    destruct (p_quorum p); [lia|nia].
  Qed.
  Lemma no_carry t b lv C r b0 s0 b1 s l :
    vreached b t lv -> dstart b0 s0 -> sovereign s0 -> c_quorum (s_cfg (d_prop s0)) = r ->
    short power total t b r C ->
    dleads K (ask t) b0 s0 b1 s l -> block_le b1 b ->
    (forall e, e ∈ l -> others_decline C (d_prop (de_pre e))) ->
    (forall e id msgs, e ∈ l -> carries e id msgs -> msgs = []) /\
    all_ok (fun p => p_quorum p = r /\ last (p_choices p) = Some []) (d_prop s).
  Proof.
    intros HV Hs HO Hc HC H.
    pose proof (whole_sane _ _ _ HV) as HS.
    induction H as [|b1 s l b' e s' H IH Hb Hd He]; intros Hle Hdec.
    { split; [by intros e id msgs ?%elem_of_nil|]. intros id p Hp.
      destruct Hs as (_ & _ & (_ & E & _) & _). rewrite E in Hp. by apply lookup_empty_Some in Hp. }
    destruct IH as [N HT].
    { by eapply block_le_trans. }
    { intros x Hx. apply Hdec, elem_of_app. by left. }
    destruct (c126_nothing_before K (ask t) b0 s0 b1 s l Hs HS HO H N) as [G _].
    assert (s_cfg (d_prop s) = s_cfg (d_prop s0)) as Ec by (by apply (f_equal snd) in G).
    assert (c_quorum (s_cfg (d_prop s)) = r) as Hc' by (by rewrite Ec).
    split.
    2:{ eapply event_all; [|exact HT| |exact He]; [intros p st; done|].
        intros a id choices st. split; [exact Hc'|]. cbn. by rewrite last_snoc. }
    intros x id msgs [Hx|Hx]%elem_of_app Hcar; [by eapply N|].
    apply elem_of_list_singleton in Hx. subst x. destruct Hcar as (_ & c & rest & Et). cbn in Et.
    destruct (dleads_inv _ _ _ _ _ _ _ HS (dstart_inv _ _ _ Hs) H) as [(I1 & I2 & _) _].
    pose proof (exec_mandate _ _ _ _ _ _ _ _ I1 HS Et) as HM.
    destruct (dleads_agree _ _ _ _ _ _ _ _ H (start_started _ _ Hs) (cagree_refl _ _)) as [_ HK].
    destruct (decline_short t s id msgs C b lv HV HM) as [->|(p & tl & n & Hp & Ht & Hn & Hsh)];
      [intros p Hp; apply (HT _ _ Hp)| |done|].
    { apply (Hdec (DEntry s b' e s')), elem_of_app. right. left. }
    exfalso. apply (HC (t_start tl) n); [|done|].
    { pose proof (HK _ _ Ht) as L. destruct Hb, Hle. lia. }
    pose proof (proj1 (HT _ _ Hp)) as E. by rewrite E in Hsh.
  Qed.
  Lemma whole_powerless b0 s0 b s l C :
    wstart b0 s0 -> sovereign (w_dao s0) -> wleads b0 s0 b s l ->
    short power total (w_v s) b (c_quorum (s_cfg (d_prop (w_dao s0)))) C ->
    (forall e, e ∈ l -> others_decline C (d_prop (w_dao (we_pre e)))) ->
    governed (w_dao s) = governed (w_dao s0) /\
    forall e d, e ∈ l -> dao_entry e = Some d -> act d = None.
  Proof.
    intros Hs HO Hl HC Hdec.
    assert (wreached b s l) as HR by (by exists b0, s0).
    destruct (whole_vreached _ _ _ HR) as [lv HV].
    destruct Hs as (Hs & lv0 & HV0).
    destruct (whole_part _ _ _ _ _ (start_started _ _ Hs) Hl) as (b1 & L1 & _ & D).
    assert (forall d, d ∈ dao_log l -> others_decline C (d_prop (de_pre d))) as Hdec'.
    { intros d (e & He & Ed)%elem_of_list_omap. specialize (Hdec e He).
      unfold dao_entry in Ed. destruct (we_ev e); [|done]. by injection Ed as <-. }
    destruct (no_carry _ _ _ _ _ _ _ _ _ _ HV Hs HO eq_refl HC D L1 Hdec') as [N _].
    destruct (c126_nothing_before K _ _ _ _ _ _ Hs (whole_sane _ _ _ HV) HO D N) as [G A].
    split; [done|]. intros e d He Ed. by eapply A, whole_log.
  Qed.
  (** ** Calls of the voting module *)
  Lemma whole_lawful b0 s0 b s l e : wleads b0 s0 b s l -> e ∈ l -> v_lawful handle_v for_v K e.
  Proof.
    intros H. induction H as [|b s l b' v s' H IH Hb Hd Hv He]; [by intros ?%elem_of_nil|].
    intros [Hx|Hx]%elem_of_app; [by apply IH|]. apply elem_of_list_singleton in Hx. subst e.
    unfold v_lawful, called_by, dao_entry. cbn [we_pre we_post we_ev we_block].
    destruct v as [v|a m]; cbn in He.
    - destruct (d_event _ _ _ _ _) as [d|] eqn:E; [|done]. cbn in He.
      destruct (said for_v K (w_dao s) v) as [m|] eqn:Es.
      + destruct (handle_v _ _ _ _) as [[t subs]|] eqn:Eh; [|done]. injection He as <-. cbn [w_v].
        right. exists (k_self (d_core (w_dao s))), m, subs. split; [|done]. right.
        unfold said in Es. destruct v; try done.
        destruct (d_todo (w_dao s)) as [|[[|[|n]]| |] rest] eqn:Et; try done.
        destruct (call_of K n) eqn:Ec; [done|].
        eexists _, n. split; [reflexivity|]. unfold act. cbn. rewrite Et. done.
      + injection He as <-. by left.
    - destruct (outside _ a) eqn:Eo; [|done].
      destruct (handle_v _ _ _ _) as [[t subs]|] eqn:Eh; [|done]. injection He as <-. cbn [w_v].
      right. exists a, m, subs. split; [|done]. left. split; [done|].
      unfold outside in Eo. apply andb_true_iff in Eo as [E1 E2].
      apply negb_true_iff in E1, E2. apply N.eqb_neq in E1, E2. done.
  Qed.
End whole.
