(** Joint histories under the answers of the voting module's final state. *)
From Verif Require Import Base BaseProofs Exec ExecProofs Plain PlainProofs VotingModel HooksModel
  Compose Project ComposeProofs JointModel.
From Verif Require SingleModel SingleSpec SingleProofs SingleTally SingleFinal SingleClaims
  MultModel MultSpec MultProofs MultTally MultFinal MultClaims CondModel CondSpec CondProofs CondClaims.

(** ** The modules look at no height beyond the current block *)
Definition sstarted (b : block) (s : SingleModel.state) : Prop :=
  forall id p, SingleModel.s_props s !! id = Some p -> SingleModel.p_start p <= height b.
Definition mstarted (b : block) (s : MultModel.state) : Prop :=
  forall id p, MultModel.s_props s !! id = Some p -> MultModel.p_start p <= height b.
Definition cstarted (b : block) (s : CondModel.state) : Prop :=
  forall id t, CondModel.s_tallies s !! id = Some t -> CondModel.t_start t <= height b.

Lemma sstarted_time b b' s : block_le b b' -> sstarted b s -> sstarted b' s.
Proof. intros [Hb _] H id p Hp. specialize (H _ _ Hp). lia. Qed.
Lemma mstarted_time b b' s : block_le b b' -> mstarted b s -> mstarted b' s.
Proof. intros [Hb _] H id p Hp. specialize (H _ _ Hp). lia. Qed.
Lemma cstarted_time b b' s : block_le b b' -> cstarted b s -> cstarted b' s.
Proof. intros [Hb _] H id p Hp. specialize (H _ _ Hp). lia. Qed.

Lemma sstarted_prim O b s s' : SingleProofs.prim O b s s' -> sstarted b s -> sstarted b s'.
Proof.
  intros Hp H. destruct Hp; intros id' p' Hl; cbn in Hl.
  - apply lookup_insert_Some in Hl as [[_ <-]|[_ Hl]]; [cbn; lia|eauto].
  - apply lookup_insert_Some in Hl as [[_ <-]|[_ Hl]]; cbn; eauto.
  - apply lookup_insert_Some in Hl as [[_ <-]|[_ Hl]]; cbn; eauto.
  - eauto.
  - rewrite H0 in Hl. eauto.
Qed.
Lemma sstarted_call O b s a m s' subs :
  sstarted b s -> SingleModel.handle O s b a m = Ok (s', subs) -> sstarted b s'.
Proof.
  intros H Hc. apply SingleProofs.handle_prims in Hc. induction Hc; [done|].
  eauto using sstarted_prim.
Qed.
Lemma sstarted_ok b s x d s' :
  sstarted b s -> SingleModel.on_ok s b x d = Ok s' -> sstarted b s'.
Proof.
  intros H Hc. apply (SingleProofs.on_ok_prims (SingleModel.Oracle (fun _ _ _ => 0) (fun _ _ => 0))) in Hc.
  eauto using sstarted_prim.
Qed.
Lemma sstarted_fail b s x s' :
  sstarted b s -> SingleModel.on_fail s b x = Ok s' -> sstarted b s'.
Proof.
  intros H. destruct x as [d id ms [|]|i a e|i a id w v|a id st|info]; cbn; intros Hc; try done.
  - destruct (SingleModel.s_props s !! id) as [p|] eqn:E; [|done]. injection Hc as <-.
    intros id' p' Hl. cbn in Hl. apply lookup_insert_Some in Hl as [[_ <-]|[_ Hl]]; cbn; eauto.
  - destruct (remove_hook_by_index _ _); [|done]. injection Hc as <-. done.
  - destruct (remove_hook_by_index _ _); [|done]. injection Hc as <-. done.
  - destruct (SingleModel.s_policy s); [done|]. injection Hc as <-. done.
Qed.
Lemma mstarted_prim O b s s' : MultProofs.prim O b s s' -> mstarted b s -> mstarted b s'.
Proof.
  intros Hp H. destruct Hp; intros id' p' Hl; cbn in Hl.
  - apply lookup_insert_Some in Hl as [[_ <-]|[_ Hl]]; [cbn; lia|eauto].
  - apply lookup_insert_Some in Hl as [[_ <-]|[_ Hl]]; cbn; eauto.
  - apply lookup_insert_Some in Hl as [[_ <-]|[_ Hl]]; cbn; eauto.
  - eauto.
  - rewrite H0 in Hl. eauto.
Qed.
Lemma mstarted_call O b s a m s' subs :
  mstarted b s -> MultModel.handle O s b a m = Ok (s', subs) -> mstarted b s'.
Proof.
  intros H Hc. apply MultProofs.handle_prims in Hc. induction Hc; [done|].
  eauto using mstarted_prim.
Qed.
Lemma mstarted_ok b s x d s' :
  mstarted b s -> MultModel.on_ok s b x d = Ok s' -> mstarted b s'.
Proof.
  intros H Hc. apply (MultProofs.on_ok_prims (MultModel.Oracle (fun _ _ _ => 0) (fun _ _ _ => 0))) in Hc.
  eauto using mstarted_prim.
Qed.
Lemma mstarted_fail b s x s' :
  mstarted b s -> MultModel.on_fail s b x = Ok s' -> mstarted b s'.
Proof.
  intros H. destruct x as [d id ms [|]|i a e|i a id w v|a id st|info]; cbn; intros Hc; try done.
  - destruct (MultModel.s_props s !! id) as [p|] eqn:E; [|done]. injection Hc as <-.
    intros id' p' Hl. cbn in Hl. apply lookup_insert_Some in Hl as [[_ <-]|[_ Hl]]; cbn; eauto.
  - destruct (remove_hook_by_index _ _); [|done]. injection Hc as <-. done.
  - destruct (remove_hook_by_index _ _); [|done]. injection Hc as <-. done.
  - destruct (MultModel.s_policy s); [done|]. injection Hc as <-. done.
Qed.
Lemma cstarted_call O b s a m s' subs :
  cstarted b s -> CondModel.handle O s b a m = Ok (s', subs) -> cstarted b s'.
Proof.
  intros H Hc. apply CondProofs.handle_prim in Hc. destruct Hc; intros id' p' Hl; cbn in Hl.
  - apply lookup_insert_Some in Hl as [[_ <-]|[_ Hl]]; [|eauto].
    unfold CondModel.tally_new in *. res_inv H2. cbn. lia.
  - apply lookup_insert_Some in Hl as [[_ <-]|[_ Hl]]; [|eauto].
    unfold CondModel.tally_add_vote in *. res_inv H5. cbn. eauto.
  - eauto.
  - eauto.
Qed.
Lemma cstarted_fail b s x s' :
  cstarted b s -> CondModel.on_fail s b x = Ok s' -> cstarted b s'.
Proof.
  intros H Hc. apply CondProofs.on_fail_shape in Hc as (d & id & ms & p & -> & Hp & ->). done.
Qed.
Lemma cstarted_ok b s x d s' :
  cstarted b s -> CondModel.on_ok s b x d = Ok s' -> cstarted b s'.
Proof. intros H [= <-]. done. Qed.

(** ** Equal answers about blocks up to the current one *)
Definition sagree (b : block) (o o' : SingleModel.oracle) : Prop :=
  forall d h, h <= height b ->
    (forall a, SingleModel.vp o d a h = SingleModel.vp o' d a h) /\
    SingleModel.tp o d h = SingleModel.tp o' d h.
Definition magree (b : block) (o o' : MultModel.oracle) : Prop :=
  forall d, (forall a h, h <= height b -> MultModel.vp o d a h = MultModel.vp o' d a h) /\
    (forall b' id, height b' <= height b -> MultModel.tnow o d b' id = MultModel.tnow o' d b' id).
Definition cagree (b : block) (o o' : CondModel.oracle) : Prop :=
  forall d, (forall a h, h <= height b -> CondModel.vp o d a h = CondModel.vp o' d a h) /\
    (forall a b' id, height b' <= height b -> CondModel.vnow o d a b' id = CondModel.vnow o' d a b' id) /\
    (forall b' id, height b' <= height b -> CondModel.tnow o d b' id = CondModel.tnow o' d b' id).

Lemma sagree_vote b s o o' a id v r :
  sstarted b s -> sagree b o o' ->
  SingleModel.execute_vote o s b a id v r = SingleModel.execute_vote o' s b a id v r.
Proof.
  intros HK HA. unfold SingleModel.execute_vote.
  destruct (SingleModel.s_props s !! id) as [p|] eqn:E; [|done].
  destruct (HA (SingleModel.c_dao (SingleModel.s_cfg s)) (SingleModel.p_start p) (HK _ _ E)) as [-> _].
  done.
Qed.
Lemma sagree_call b s o o' a m :
  sstarted b s -> sagree b o o' -> SingleModel.handle o s b a m = SingleModel.handle o' s b a m.
Proof.
  intros HK HA. destruct m as [pm|id v r|id r|id|id|id|c|i|h|h|h|h]; try done; cbn.
  - unfold SingleModel.execute_propose.
    destruct (HA (SingleModel.c_dao (SingleModel.s_cfg s)) (height b) ltac:(lia)) as [_ ->].
    destruct (is_permitted _ _); [|done].
    destruct (SingleModel.decide_proposer _ _ _) as [pr|]; [|done].
    destruct (SingleModel.pm_active pm); [|done].
    destruct (SingleModel.update_status _ _) as [p|] eqn:Eu; [|done].
    destruct (SingleModel.pm_fits pm); [|done].
    destruct (SingleModel.pm_vote pm) as [[v r]|]; [|done].
    erewrite sagree_vote; [done| |done].
    intros id' p' Hl. cbn in Hl. apply lookup_insert_Some in Hl as [[_ <-]|[_ Hl]]; [|eauto].
    unfold SingleModel.update_status in Eu. res_inv Eu. cbn. lia.
  - by apply sagree_vote.
  - unfold SingleModel.execute_execute.
    destruct (SingleModel.s_props s !! id) as [p|] eqn:E; [|done].
    unfold SingleModel.sender_can_execute.
    destruct (HA (SingleModel.c_dao (SingleModel.s_cfg s)) (SingleModel.p_start p) (HK _ _ E)) as [-> _].
    done.
Qed.
Lemma magree_vote b s o o' a id v r :
  mstarted b s -> magree b o o' ->
  MultModel.execute_vote o s b a id v r = MultModel.execute_vote o' s b a id v r.
Proof.
  intros HK HA. unfold MultModel.execute_vote.
  destruct (MultModel.s_props s !! id) as [p|] eqn:E; [|done].
  destruct (HA (MultModel.c_dao (MultModel.s_cfg s))) as [H _]. by rewrite (H _ _ (HK _ _ E)).
Qed.
Lemma magree_call b s o o' a m :
  mstarted b s -> magree b o o' -> MultModel.handle o s b a m = MultModel.handle o' s b a m.
Proof.
  intros HK HA. destruct m as [pm|id v r|id r|id|id|id|c|i|h|h|h|h]; try done; cbn.
  - unfold MultModel.execute_propose.
    destruct (HA (MultModel.c_dao (MultModel.s_cfg s))) as [_ H]. rewrite H by lia. clear H.
    destruct (is_permitted _ _); [|done].
    destruct (MultModel.decide_proposer _ _ _) as [pr|]; [|done].
    destruct (MultModel.pm_active pm); [|done].
    destruct (MultModel.into_checked _) as [ch|]; [|done].
    destruct (MultModel.update_status _ _) as [p|] eqn:Eu; [|done].
    destruct (MultModel.pm_fits pm); [|done].
    destruct (MultModel.pm_vote pm) as [[v r]|]; [|done].
    erewrite magree_vote; [done| |done].
    intros id' p' Hl. cbn in Hl. apply lookup_insert_Some in Hl as [[_ <-]|[_ Hl]]; [|eauto].
    unfold MultModel.update_status in Eu. res_inv Eu. cbn. lia.
  - by apply magree_vote.
  - unfold MultModel.execute_execute.
    destruct (MultModel.s_props s !! id) as [p|] eqn:E; [|done].
    unfold MultModel.sender_can_execute.
    destruct (HA (MultModel.c_dao (MultModel.s_cfg s))) as [H _]. by rewrite (H _ _ (HK _ _ E)).
Qed.
Lemma cagree_call b s o o' a m :
  cstarted b s -> cagree b o o' -> CondModel.handle o s b a m = CondModel.handle o' s b a m.
Proof.
  intros HK HA. destruct (HA (CondModel.s_dao s)) as (H1 & H2 & H3).
  destruct m as [ch|id v|id|id|c]; try done; cbn.
  - unfold CondModel.execute_propose. destruct (CondModel.next_proposal_id s) as [id|]; [|done].
    by rewrite H2, H3 by lia.
  - unfold CondModel.execute_vote. destruct (CondModel.s_tallies s !! id) as [t|] eqn:E; [|done].
    by rewrite (H1 _ _ (HK _ _ E)).
  - unfold CondModel.execute_execute. destruct (CondModel.s_tallies s !! id) as [t|] eqn:E; [|done].
    by rewrite (H1 _ _ (HK _ _ E)).
Qed.

Lemma sagree_sym b o o' : sagree b o o' -> sagree b o' o.
Proof. intros H d h Hh. destruct (H d h Hh) as [A ->]. split; [|done]. intros; by rewrite A. Qed.
Lemma sagree_trans b o o' o'' : sagree b o o' -> sagree b o' o'' -> sagree b o o''.
Proof.
  intros H H' d h Hh. destruct (H d h Hh) as [A ->], (H' d h Hh) as [B ->].
  split; [|done]. intros; by rewrite A.
Qed.
Lemma sagree_time b b' o o' : block_le b b' -> sagree b' o o' -> sagree b o o'.
Proof. intros [Hb _] H d h Hh. apply H. lia. Qed.
Lemma sagree_refl b o : sagree b o o.
Proof. done. Qed.
Lemma magree_sym b o o' : magree b o o' -> magree b o' o.
Proof. intros H d. destruct (H d) as [A B]. split; intros; symmetry; eauto. Qed.
Lemma magree_trans b o o' o'' : magree b o o' -> magree b o' o'' -> magree b o o''.
Proof.
  intros H H' d. destruct (H d) as [A B], (H' d) as [A' B'].
  split; intros; [rewrite A by done; eauto|rewrite B by done; eauto].
Qed.
Lemma magree_time b b' o o' : block_le b b' -> magree b' o o' -> magree b o o'.
Proof. intros [Hb _] H d. destruct (H d) as [A B]. split; intros; [apply A|apply B]; lia. Qed.
Lemma magree_refl b o : magree b o o.
Proof. done. Qed.
Lemma cagree_sym b o o' : cagree b o o' -> cagree b o' o.
Proof. intros H d. destruct (H d) as (A & B & C). split; [|split]; intros; symmetry; eauto. Qed.
Lemma cagree_trans b o o' o'' : cagree b o o' -> cagree b o' o'' -> cagree b o o''.
Proof.
  intros H H' d. destruct (H d) as (A & B & C), (H' d) as (A' & B' & C').
  split; [|split]; intros; [rewrite A by done|rewrite B by done|rewrite C by done]; eauto.
Qed.
Lemma cagree_time b b' o o' : block_le b b' -> cagree b' o o' -> cagree b o o'.
Proof.
  intros [Hb _] H d. destruct (H d) as (A & B & C).
  split; [|split]; intros; [apply A|apply B|apply C]; lia.
Qed.
Lemma cagree_refl b o : cagree b o o.
Proof. done. Qed.

Lemma sinit_started b s : SingleSpec.fresh s -> sstarted b s.
Proof. intros (_ & H & _) id p Hp. by rewrite H in Hp. Qed.
Lemma minit_started b s : MultSpec.fresh s -> mstarted b s.
Proof. intros (_ & H & _) id p Hp. by rewrite H in Hp. Qed.
Lemma cinit_started b s : CondSpec.fresh s -> cstarted b s.
Proof. intros (H & _) id p Hp. by rewrite H in Hp. Qed.

(** The total recorded on a multiple-choice proposal is the one reported in the
    block that created it. *)
Lemma mult_total_made O d b s l id p :
  MultSpec.sane O d -> MultSpec.reached_for O d b s l -> MultModel.s_props s !! id = Some p ->
  exists b0, height b0 = MultModel.p_start p /\ MultModel.p_total p = MultModel.tnow O d b0 id.
Proof.
  intros HS (b0 & s0 & h & Hf & Hat & Hh & Ha & Hr & Hb). revert id p.
  apply (MultFinal.mult_preserve O d (fun _ s => forall id p, MultModel.s_props s !! id = Some p ->
     exists b0, height b0 = MultModel.p_start p /\ MultModel.p_total p = MultModel.tnow O d b0 id)
     b0 s0 h s l HS); try done.
  - intros b1 s1 s2 [_ HT] HJ Hp _. pose proof (MultTally.ti_att _ _ _ _ HT) as [Hd _].
    destruct Hp; intros id' p' Hl; cbn in Hl.
    + apply lookup_insert_Some in Hl as [[<- <-]|[_ Hl]]; [|eauto]. exists b1. cbn. by rewrite Hd.
    + apply lookup_insert_Some in Hl as [[<- <-]|[_ Hl]]; cbn; eauto.
    + apply lookup_insert_Some in Hl as [[<- <-]|[_ Hl]]; cbn; eauto.
    + eauto.
    + rewrite H in Hl. eauto.
  - intros b1 s1 x s2 _ _ HJ. destruct x as [d' id ms [|]|i a e|i a id w v|a id st|info]; cbn; intros Hc; try done.
    + destruct (MultModel.s_props s1 !! id) as [p|] eqn:E; [|done]. injection Hc as <-.
      intros id' p' Hl. cbn in Hl. apply lookup_insert_Some in Hl as [[<- <-]|[_ Hl]]; cbn; eauto.
    + destruct (remove_hook_by_index _ _); [|done]. injection Hc as <-. done.
    + destruct (remove_hook_by_index _ _); [|done]. injection Hc as <-. done.
    + destruct (MultModel.s_policy s1); [done|]. injection Hc as <-. done.
  - by apply MultTally.fresh_sinv.
  - intros id p Hp. destruct Hf as (_ & Hf & _). by rewrite Hf in Hp.
Qed.

Section joint.
  Context {T MV XV : Type}.
  Variable handle_v : T -> block -> addr -> MV -> result (T * list XV).
  Variable power : T -> addr -> Z -> Z.
  Variable total : T -> Z -> Z.
  Variable active : T -> block -> Z -> bool.
  Variable vreached : block -> T -> log T MV XV -> Prop.
  (** The module never changes its answers about blocks up to the current one; *)
  Hypothesis v_stable : forall t b a m t' subs h,
    handle_v t b a m = Ok (t', subs) -> h <= height b ->
    (forall a', power t' a' h = power t a' h) /\ total t' h = total t h.
  (** in every reachable state its answers make sense. *)
  Hypothesis v_app : forall b t l b' t' l',
    vreached b t l -> leads handle_v b t b' t' l' -> vreached b' t' (l ++ l').
  Hypothesis v_sane : forall b t l, vreached b t l ->
    (forall a h, 0 <= power t a h) /\ (forall h, total t h <= U128_MAX) /\
    (forall h vs, NoDup vs -> lsum (fun a => power t a h) vs <= total t h).

  Lemma single_stable b t a m t' subs : handle_v t b a m = Ok (t', subs) ->
    sagree b (single_ask power total t) (single_ask power total t').
  Proof.
    intros H d h Hh. destruct (v_stable _ _ _ _ _ _ _ H Hh) as [A B]. cbn. split; [|done].
    intros; by rewrite A.
  Qed.
  Lemma mult_stable b t a m t' subs : handle_v t b a m = Ok (t', subs) ->
    magree b (mult_ask power total t) (mult_ask power total t').
  Proof.
    intros H d. cbn. split.
    - intros a' h Hh. by destruct (v_stable _ _ _ _ _ _ _ H Hh) as [-> _].
    - intros b' id Hh. by destruct (v_stable _ _ _ _ _ _ _ H Hh) as [_ ->].
  Qed.
  Lemma cond_stable b t a m t' subs : handle_v t b a m = Ok (t', subs) ->
    cagree b (cond_ask power total t) (cond_ask power total t').
  Proof.
    intros H d. cbn. split; [|split].
    - intros a' h Hh. by destruct (v_stable _ _ _ _ _ _ _ H Hh) as [-> _].
    - intros a' b' id Hh. by destruct (v_stable _ _ _ _ _ _ _ H Hh) as [-> _].
    - intros b' id Hh. by destruct (v_stable _ _ _ _ _ _ _ H Hh) as [_ ->].
  Qed.


  (** *** single *)
  Notation sP d := (SingleSpec.keeps_dao d).
  Notation sinit d := (fun s => SingleSpec.fresh s /\ SingleSpec.attached d s).
  Notation sreached := (single_reached handle_v power total active vreached).
  Notation slater := (single_later handle_v power total active).
  Notation sask := (single_ask power total).
  Lemma single_pair d b s t l :
    sreached d b s t l <->
    pair_reached SingleModel.handle SingleModel.on_fail SingleModel.on_ok handle_v sask (single_look active)
      vreached (sinit d) (sP d) b s t l.
  Proof.
    split.
    - intros (b0 & s0 & t0 & l0 & h & H). exists b0, s0, t0, l0, h. tauto.
    - intros (b0 & s0 & t0 & l0 & h & H). exists b0, s0, t0, l0, h. tauto.
  Qed.
  Lemma single_part d b s t l o :
    sreached d b s t l -> sagree b o (sask t) ->
    SingleSpec.reached_for o d b s (seen_p (single_look active) l).
  Proof.
    intros H%single_pair HA.
    destruct (pair_part SingleModel.handle SingleModel.on_fail SingleModel.on_ok handle_v sask (single_look active)
      sagree sagree_sym sagree_trans sagree_time single_stable sstarted
      (fun o b s a m s' subs => sstarted_call o b s a m s' subs) sstarted_fail sstarted_ok sstarted_time sagree_call
      vreached (sinit d) (fun b s H => sinit_started b s (proj1 H)) sagree_refl (sP d) b s t l o H HA)
      as (b0 & s0 & h & [Hf Hat] & H'). by exists b0, s0, h.
  Qed.
  Lemma single_votes d b s t l : sreached d b s t l -> exists l0, vreached b t (l0 ++ seen_v l).
  Proof.
    intros H%single_pair.
    exact (pair_votes SingleModel.handle SingleModel.on_fail SingleModel.on_ok handle_v sask (single_look active)
      vreached v_app (sinit d) (sP d) b s t l H).
  Qed.
  Lemma single_sane d b s t l : sreached d b s t l -> SingleSpec.sane (sask t) d.
  Proof.
    intros [l0 H]%single_votes. destruct (v_sane _ _ _ H) as (A & B & C).
    split; [|split]; cbn; eauto.
  Qed.
  Lemma single_app d b s t l b' s' t' l' :
    sreached d b s t l -> slater d b s t b' s' t' l' -> sreached d b' s' t' (l ++ l').
  Proof.
    intros H%single_pair HL. apply single_pair.
    exact (pair_app SingleModel.handle SingleModel.on_fail SingleModel.on_ok handle_v sask (single_look active)
      vreached (sinit d) (sP d) b s t l b' s' t' l' H HL).
  Qed.
  Lemma single_later_agree d b s t b' s' t' l' :
    slater d b s t b' s' t' l' -> sagree b (sask t) (sask t').
  Proof.
    exact (pair_later_agree SingleModel.handle SingleModel.on_fail SingleModel.on_ok handle_v sask (single_look active)
      sagree sagree_sym sagree_trans sagree_time single_stable sagree_refl (sP d) b s t b' s' t' l').
  Qed.
  Lemma single_later_leads d b s t b' s' t' l' :
    slater d b s t b' s' t' l' -> leads handle_v b t b' t' (seen_v l').
  Proof.
    exact (pair_later_leads SingleModel.handle SingleModel.on_fail SingleModel.on_ok handle_v sask (single_look active)
      (sP d) b s t b' s' t' l').
  Qed.
  Lemma single_part_later d b s t b' s' t' l' :
    sstarted b s -> slater d b s t b' s' t' l' ->
    SingleSpec.later_for (sask t') d b s b' s' (seen_p (single_look active) l').
  Proof.
    intros HK HL.
    exact (part_later_of SingleModel.handle SingleModel.on_fail SingleModel.on_ok handle_v sask (single_look active)
      sagree sagree_sym sagree_trans sagree_time single_stable sstarted
      (fun o b s a m s' subs => sstarted_call o b s a m s' subs) sstarted_fail sstarted_ok sstarted_time sagree_call
      sagree_refl (sP d) b s t b' s' t' l' _ HK HL (sagree_refl _ _)).
  Qed.
  Lemma single_started d b s t l : sreached d b s t l -> sstarted b s.
  Proof.
    intros H. pose proof (single_sane _ _ _ _ _ H) as HS.
    apply single_part with (o := sask t) in H; [|apply sagree_refl].
    destruct (SingleFinal.reached_for_sinv _ _ _ _ _ HS H) as [HW _].
    intros id p Hp. apply (SingleProofs.w_start b p). by apply (SingleProofs.wi_props _ _ HW id).
  Qed.
  (** A joint history and its continuation, seen by the proposal module under the
      answers of the final voting state. *)
  Lemma single_sees_later d b s t l b' s' t' l' :
    sreached d b s t l -> slater d b s t b' s' t' l' ->
    sreached d b' s' t' (l ++ l') /\ SingleSpec.sane (sask t') d /\
    SingleSpec.reached_for (sask t') d b s (seen_p (single_look active) l) /\
    SingleSpec.later_for (sask t') d b s b' s' (seen_p (single_look active) l').
  Proof.
    intros HR HL. pose proof (single_app _ _ _ _ _ _ _ _ _ HR HL) as HR'.
    split; [done|]. split; [by eapply single_sane|]. split.
    - eapply single_part; [done|]. apply sagree_sym. by eapply single_later_agree.
    - eapply single_part_later; [|done]. by eapply single_started.
  Qed.

  (** *** mult *)
  Notation mP d := (MultSpec.keeps_dao d).
  Notation minit d := (fun s => MultSpec.fresh s /\ MultSpec.attached d s).
  Notation mreached := (mult_reached handle_v power total active vreached).
  Notation mlater := (mult_later handle_v power total active).
  Notation mask := (mult_ask power total).
  Lemma mult_pair d b s t l :
    mreached d b s t l <->
    pair_reached MultModel.handle MultModel.on_fail MultModel.on_ok handle_v mask (mult_look active)
      vreached (minit d) (mP d) b s t l.
  Proof.
    split.
    - intros (b0 & s0 & t0 & l0 & h & H). exists b0, s0, t0, l0, h. tauto.
    - intros (b0 & s0 & t0 & l0 & h & H). exists b0, s0, t0, l0, h. tauto.
  Qed.
  Lemma mult_part d b s t l o :
    mreached d b s t l -> magree b o (mask t) ->
    MultSpec.reached_for o d b s (seen_p (mult_look active) l).
  Proof.
    intros H%mult_pair HA.
    destruct (pair_part MultModel.handle MultModel.on_fail MultModel.on_ok handle_v mask (mult_look active)
      magree magree_sym magree_trans magree_time mult_stable mstarted
      (fun o b s a m s' subs => mstarted_call o b s a m s' subs) mstarted_fail mstarted_ok mstarted_time magree_call
      vreached (minit d) (fun b s H => minit_started b s (proj1 H)) magree_refl (mP d) b s t l o H HA)
      as (b0 & s0 & h & [Hf Hat] & H'). by exists b0, s0, h.
  Qed.
  Lemma mult_votes d b s t l : mreached d b s t l -> exists l0, vreached b t (l0 ++ seen_v l).
  Proof.
    intros H%mult_pair.
    exact (pair_votes MultModel.handle MultModel.on_fail MultModel.on_ok handle_v mask (mult_look active)
      vreached v_app (minit d) (mP d) b s t l H).
  Qed.
  Lemma mult_sane d b s t l : mreached d b s t l -> MultSpec.sane (mask t) d.
  Proof.
    intros [l0 H]%mult_votes. destruct (v_sane _ _ _ H) as (A & B & C).
    split; [|split]; cbn; eauto.
  Qed.
  Lemma mult_app d b s t l b' s' t' l' :
    mreached d b s t l -> mlater d b s t b' s' t' l' -> mreached d b' s' t' (l ++ l').
  Proof.
    intros H%mult_pair HL. apply mult_pair.
    exact (pair_app MultModel.handle MultModel.on_fail MultModel.on_ok handle_v mask (mult_look active)
      vreached (minit d) (mP d) b s t l b' s' t' l' H HL).
  Qed.
  Lemma mult_later_agree d b s t b' s' t' l' :
    mlater d b s t b' s' t' l' -> magree b (mask t) (mask t').
  Proof.
    exact (pair_later_agree MultModel.handle MultModel.on_fail MultModel.on_ok handle_v mask (mult_look active)
      magree magree_sym magree_trans magree_time mult_stable magree_refl (mP d) b s t b' s' t' l').
  Qed.
  Lemma mult_later_leads d b s t b' s' t' l' :
    mlater d b s t b' s' t' l' -> leads handle_v b t b' t' (seen_v l').
  Proof.
    exact (pair_later_leads MultModel.handle MultModel.on_fail MultModel.on_ok handle_v mask (mult_look active)
      (mP d) b s t b' s' t' l').
  Qed.
  Lemma mult_part_later d b s t b' s' t' l' :
    mstarted b s -> mlater d b s t b' s' t' l' ->
    MultSpec.later_for (mask t') d b s b' s' (seen_p (mult_look active) l').
  Proof.
    intros HK HL.
    exact (part_later_of MultModel.handle MultModel.on_fail MultModel.on_ok handle_v mask (mult_look active)
      magree magree_sym magree_trans magree_time mult_stable mstarted
      (fun o b s a m s' subs => mstarted_call o b s a m s' subs) mstarted_fail mstarted_ok mstarted_time magree_call
      magree_refl (mP d) b s t b' s' t' l' _ HK HL (magree_refl _ _)).
  Qed.
  Lemma mult_started d b s t l : mreached d b s t l -> mstarted b s.
  Proof.
    intros H. pose proof (mult_sane _ _ _ _ _ H) as HS.
    apply mult_part with (o := mask t) in H; [|apply magree_refl].
    destruct (MultFinal.reached_for_sinv _ _ _ _ _ HS H) as [HW _].
    intros id p Hp. apply (MultProofs.w_start b p). by apply (MultProofs.wi_props _ _ HW id).
  Qed.
  (** A joint history and its continuation, seen by the proposal module under the
      answers of the final voting state. *)
  Lemma mult_sees_later d b s t l b' s' t' l' :
    mreached d b s t l -> mlater d b s t b' s' t' l' ->
    mreached d b' s' t' (l ++ l') /\ MultSpec.sane (mask t') d /\
    MultSpec.reached_for (mask t') d b s (seen_p (mult_look active) l) /\
    MultSpec.later_for (mask t') d b s b' s' (seen_p (mult_look active) l').
  Proof.
    intros HR HL. pose proof (mult_app _ _ _ _ _ _ _ _ _ HR HL) as HR'.
    split; [done|]. split; [by eapply mult_sane|]. split.
    - eapply mult_part; [done|]. apply magree_sym. by eapply mult_later_agree.
    - eapply mult_part_later; [|done]. by eapply mult_started.
  Qed.

  (** *** Condorcet *)
  Notation creached := (cond_reached handle_v power total vreached).
  Notation clater := (cond_later handle_v power total).
  Notation cask := (cond_ask power total).
  Lemma any_pair (h : list (block * call (CondModel.msg + MV))) :
    hist_all (pair_msg (fun (_ : T) _ m => m) (fun _ _ => True)) h.
  Proof.
    assert (forall c,
      call_all (pair_msg (MV := MV) (fun (_ : T) _ (m : CondModel.msg) => m) (fun _ _ => True)) c) as Hc.
    { fix IH 1. intros [a m outs]. simpl. split; [by destruct m|].
      revert outs. fix IHo 1. intros [|[[d cs]|] outs]; simpl.
      - exact I.
      - split; [|apply IHo]. revert cs. fix IHc 1. intros [|c cs]; simpl; [exact I|].
        split; [apply IH|apply IHc].
      - apply IHo. }
    apply Forall_forall. intros [b c] _. apply Hc.
  Qed.
  Lemma cond_pair b s t l :
    creached b s t l <->
    pair_reached CondModel.handle CondModel.on_fail CondModel.on_ok handle_v cask cond_look
      vreached CondSpec.fresh (fun _ _ => True) b s t l.
  Proof.
    split.
    - intros (b0 & s0 & t0 & l0 & h & H). exists b0, s0, t0, l0, h. pose proof (any_pair h). tauto.
    - intros (b0 & s0 & t0 & l0 & h & H). exists b0, s0, t0, l0, h. tauto.
  Qed.
  Lemma cond_pair_later b s t b' s' t' l :
    clater b s t b' s' t' l <->
    pair_later CondModel.handle CondModel.on_fail CondModel.on_ok handle_v cask cond_look
      (fun _ _ => True) b s t b' s' t' l.
  Proof.
    split.
    - intros (h & H). exists h. pose proof (any_pair h). tauto.
    - intros (h & H). exists h. tauto.
  Qed.
  Lemma cond_part b s t l o :
    creached b s t l -> cagree b o (cask t) -> CondSpec.reached o b s (seen_p cond_look l).
  Proof.
    intros H%cond_pair HA.
    destruct (pair_part CondModel.handle CondModel.on_fail CondModel.on_ok handle_v cask cond_look
      cagree cagree_sym cagree_trans cagree_time cond_stable cstarted
      (fun o b s a m s' subs => cstarted_call o b s a m s' subs) cstarted_fail cstarted_ok cstarted_time cagree_call
      vreached CondSpec.fresh cinit_started cagree_refl (fun _ _ => True) b s t l o H HA)
      as (b0 & s0 & h & Hf & Hh & _ & H'). by exists b0, s0, h.
  Qed.
  Lemma cond_votes b s t l : creached b s t l -> exists l0, vreached b t (l0 ++ seen_v l).
  Proof.
    intros H%cond_pair.
    exact (pair_votes CondModel.handle CondModel.on_fail CondModel.on_ok handle_v cask cond_look
      vreached v_app CondSpec.fresh (fun _ _ => True) b s t l H).
  Qed.
  Lemma cond_sane b s t l : creached b s t l -> CondSpec.typed (cask t) /\ CondSpec.covers (cask t).
  Proof.
    intros [l0 H]%cond_votes. destruct (v_sane _ _ _ H) as (A & B & C).
    split; [split|]; [intros; cbn; eauto| |intros ????; cbn; eauto].
    intros d b0 id. cbn. split; [|done]. pose proof (C (height b0) [] ltac:(constructor)) as C0.
    cbn in C0. lia.
  Qed.
  Lemma cond_app b s t l b' s' t' l' :
    creached b s t l -> clater b s t b' s' t' l' -> creached b' s' t' (l ++ l').
  Proof.
    intros H%cond_pair HL%cond_pair_later. apply cond_pair.
    exact (pair_app CondModel.handle CondModel.on_fail CondModel.on_ok handle_v cask cond_look
      vreached CondSpec.fresh (fun _ _ => True) b s t l b' s' t' l' H HL).
  Qed.
  Lemma cond_later_agree b s t b' s' t' l' :
    clater b s t b' s' t' l' -> cagree b (cask t) (cask t').
  Proof.
    intros HL%cond_pair_later. revert HL.
    exact (pair_later_agree CondModel.handle CondModel.on_fail CondModel.on_ok handle_v cask cond_look
      cagree cagree_sym cagree_trans cagree_time cond_stable cagree_refl (fun _ _ => True) b s t b' s' t' l').
  Qed.
  Lemma cond_later_leads b s t b' s' t' l' :
    clater b s t b' s' t' l' -> leads handle_v b t b' t' (seen_v l').
  Proof.
    intros HL%cond_pair_later. revert HL.
    exact (pair_later_leads CondModel.handle CondModel.on_fail CondModel.on_ok handle_v cask cond_look
      (fun _ _ => True) b s t b' s' t' l').
  Qed.
  Lemma cond_started b s t l : creached b s t l -> cstarted b s.
  Proof.
    intros (b0 & s0 & t0 & l0 & h & _ & Hf & Hh & Hr & Hb).
    eapply cstarted_time; [exact Hb|].
    apply (run_hist_rule (pair_handle CondModel.handle handle_v cask cond_look)
      (pair_fail CondModel.on_fail) (pair_ok CondModel.on_ok) any_msg
      (fun b j => cstarted b j.1) (fun _ _ _ => True) (fun _ _ _ => True))
      with (h := h) (b0 := b0) (s := (s0, t0)) (s' := (s, t)) (l := l); try done.
    - intros b1 [s1 t1] a [m|m] j' subs HK _ Hc; simpl in *.
      + destruct (CondModel.handle _ s1 b1 a _) as [[s2 u]|] eqn:E; [|done].
        injection Hc as <- <-. simpl. split; [|done]. by eapply cstarted_call.
      + destruct (handle_v t1 b1 a m) as [[t2 u]|] eqn:E; [|done]. injection Hc as <- <-. done.
    - intros b1 [s1 t1] [x|x] xs j' HK _ Hc; cbn in Hc; [|done].
      destruct (CondModel.on_fail s1 b1 x) as [s2|] eqn:E; [|done]. injection Hc as <-. simpl.
      split; [|done]. by eapply cstarted_fail.
    - intros b1 j0 [x|x] xs l1 [s1 t1] d j' _ _ HK _ Hc; cbn [pair_ok] in Hc; [|injection Hc as <-; done].
      injection Hc as <-. done.
    - intros b1 b2 [s1 t1] Hle. simpl. by apply cstarted_time.
    - by apply cinit_started.
    - apply hist_all_any.
  Qed.
  Lemma cond_part_later b s t b' s' t' l' :
    cstarted b s -> clater b s t b' s' t' l' ->
    CondSpec.later (cask t') b s b' s' (seen_p cond_look l').
  Proof.
    intros HK HL%cond_pair_later.
    destruct (part_later_of CondModel.handle CondModel.on_fail CondModel.on_ok handle_v cask cond_look
      cagree cagree_sym cagree_trans cagree_time cond_stable cstarted
      (fun o b s a m s' subs => cstarted_call o b s a m s' subs) cstarted_fail cstarted_ok cstarted_time cagree_call
      cagree_refl (fun _ _ => True) b s t b' s' t' l' _ HK HL (cagree_refl _ _)) as (h & A & _ & B). by exists h.
  Qed.
  Lemma cond_sees_later b s t l b' s' t' l' :
    creached b s t l -> clater b s t b' s' t' l' ->
    creached b' s' t' (l ++ l') /\ CondSpec.typed (cask t') /\ CondSpec.covers (cask t') /\
    CondSpec.reached (cask t') b s (seen_p cond_look l) /\
    CondSpec.later (cask t') b s b' s' (seen_p cond_look l').
  Proof.
    intros HR HL. pose proof (cond_app _ _ _ _ _ _ _ _ HR HL) as HR'.
    destruct (cond_sane _ _ _ _ HR') as [HT HC].
    split; [done|]. split; [done|]. split; [done|]. split.
    - eapply cond_part; [done|]. apply cagree_sym. by eapply cond_later_agree.
    - eapply cond_part_later; [|done]. by eapply cond_started.
  Qed.
End joint.
