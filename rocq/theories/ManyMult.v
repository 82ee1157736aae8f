(** What a DAO with modules of all kinds is to one of its multiple-choice modules: a DAO with this
    module, for which the other modules are outside. *)
From stdpp Require Import gmap strings.
From Verif Require Import Base BaseProofs VotingModel HooksModel CoreModel CoreSpec CoreProofs
  ManyModel ManySpec.
From Verif Require MultModel MultSpec MultTally MDaoModel MDaoSpec MDaoProofs.

Definition proj (q : addr) (x : qitem) : list MDaoModel.ditem :=
  match x with
  | QK x => [MDaoModel.DK x]
  | QP r (OMult x) => if decide (r = q) then [MDaoModel.DP x] else []
  | QEnd r (OMult x) => if decide (r = q) then [MDaoModel.DEnd x] else []
  | _ => []
  end.
Definition view (q : addr) (s : many) (p : MultModel.state) : MDaoModel.dao :=
  MDaoModel.Dao (q_core s) q p (flat_map (proj q) (q_todo s)).
Definition codes_of (q : addr) (K : codes) : MDaoModel.codes :=
  MDaoModel.Codes (act_of K) (fun n =>
    match call_of K n with
    | Some (r, CMult m) => if decide (r = q) then Some m else None
    | _ => None
    end).
Lemma proj_QK q l : flat_map (proj q) (map QK l) = map MDaoModel.DK l.
Proof. induction l as [|x l IH]; [done|]. cbn. by rewrite IH. Qed.
Lemma proj_own q l : flat_map (proj q) (map (QP q) (map OMult l)) = map MDaoModel.DP l.
Proof. induction l as [|x l IH]; [done|]. cbn. rewrite decide_True by done. cbn. by rewrite IH. Qed.
Lemma proj_item q r x : r <> q -> proj q (QP r x) = [].
Proof. intros H. destruct x; cbn; try done; by rewrite decide_False. Qed.
Lemma proj_end q r x : r <> q -> proj q (QEnd r x) = [].
Proof. intros H. destruct x; cbn; try done; by rewrite decide_False. Qed.
Lemma proj_other q r l : r <> q -> flat_map (proj q) (map (QP r) l) = [].
Proof.
  intros H. induction l as [|x l IH]; [done|].
  change (proj q (QP r x) ++ flat_map (proj q) (map (QP r) l) = []).
  by rewrite proj_item, IH.
Qed.
Lemma handle_same Q p b a m p' l :
  p_handle Q (PMult p) b a m = Ok (p', l) ->
  exists m0 p0 l0, m = CMult m0 /\ p' = PMult p0 /\ l = map OMult l0 /\
    MultModel.handle (o_mult Q) p b a m0 = Ok (p0, l0).
Proof.
  intros H. destruct m as [m|m|m]; cbn in H; try done.
  destruct (MultModel.handle (o_mult Q) p b a m) as [[p0 l0]|] eqn:E; [|done].
  injection H as <- <-. by exists m, p0, l0.
Qed.
Lemma to_core_view s b a m rest s' q p :
  to_core s b a m rest = Ok s' ->
  MDaoModel.to_core (view q s p) b a m (flat_map (proj q) rest) = Ok (view q s' p) /\
  q_mods s' = q_mods s.
Proof.
  unfold to_core, MDaoModel.to_core. cbn. intros H.
  destruct (k_execute (q_core s) b a m) as [[c l]|]; [|done]. cbn in H |- *. injection H as <-.
  unfold view. cbn. by rewrite flat_map_app, proj_QK.
Qed.
Lemma to_mod_view Q s b a q r m rest s' p :
  q_mods s !! q = Some (PMult p) -> to_mod Q s b a r m rest = Ok s' ->
  (r = q /\ exists m0 p', m = CMult m0 /\ q_mods s' !! q = Some (PMult p') /\
     MDaoModel.to_prop (o_mult Q) (view q s p) b a m0 (flat_map (proj q) rest) = Ok (view q s' p')) \/
  (r <> q /\ q_mods s' !! q = Some (PMult p) /\ q_core s' = q_core s /\
     flat_map (proj q) (q_todo s') = flat_map (proj q) rest).
Proof.
  intros Hp H. unfold to_mod in H. destruct (decide (r = q)) as [->|Hne]; [left|right].
  - split; [done|]. rewrite Hp in H. cbv beta iota in H.
    destruct (p_handle Q (PMult p) b a m) as [[p' l]|] eqn:E; [|done]. injection H as <-.
    apply handle_same in E as (m0 & p0 & l0 & -> & -> & -> & E).
    exists m0, p0. split; [done|]. split; [cbn; by rewrite lookup_insert|].
    unfold MDaoModel.to_prop, view. cbn. rewrite E. cbn. by rewrite flat_map_app, proj_own.
  - split; [done|]. destruct (q_mods s !! r) as [x|]; [|done]. cbn in H.
    destruct (p_handle Q x b a m) as [[p' l]|] eqn:E; [|done]. injection H as <-. cbn.
    split; [by rewrite lookup_insert_ne|]. split; [done|].
    by rewrite flat_map_app, proj_other.
Qed.
Lemma view_outside s q p a : q_mods s !! q = Some (PMult p) -> outside s a = true ->
  MDaoModel.outside (view q s p) a = true.
Proof.
  unfold outside, known, MDaoModel.outside. cbn. intros Hq H.
  destruct (N.eqb_spec a q) as [->|]; [|destruct (a =? _)%N; [done|done]].
  rewrite Hq in H. destruct (q =? _)%N; done.
Qed.
(** A step of the whole is one of the view, or does not concern the module. *)
Lemma view_step K Q s b e s' q p :
  q_mods s !! q = Some (PMult p) -> q_mods s !! k_self (q_core s) = None ->
  q_event K Q s b e = Ok s' ->
  exists p', q_mods s' !! q = Some (PMult p') /\
  ((view q s' p' = view q s p /\ forall id, carried q id (QEntry s b e s') = 0) \/
   exists e', MDaoModel.d_event (codes_of q K) (o_mult Q) (view q s p) b e' = Ok (view q s' p') /\
     (forall a m, MDaoSpec.heard (codes_of q K) (view q s p) e' = Some (a, m) ->
        heard K s e = Some (a, CMult m)) /\
     forall id, carried q id (QEntry s b e s') =
       MDaoSpec.carried id (MDaoSpec.DEntry (view q s p) b e' (view q s' p'))).
Proof.
  intros Hq Hself H. unfold carried. cbn [qe_ev qe_pre].
  destruct e as [a m|a r m| | |a new msgs| | |a]; cbn [q_event] in H.
  - destruct (outside s a) eqn:Eo; [|done]. cbn in H.
    destruct (to_core_view _ _ _ _ _ _ q p H) as [Hc Em].
    exists p. split; [by rewrite Em|]. right. exists (MDaoModel.DCore a m). cbn [MDaoModel.d_event].
    rewrite (view_outside _ _ _ _ Hq Eo). split; [exact Hc|]. repeat split; try done.
  - destruct (outside s a) eqn:Eo; [|done]. cbn in H.
    destruct (to_mod_view _ _ _ _ _ _ _ _ _ _ Hq H) as
      [(-> & m0 & p' & -> & Hp' & Hc)|(Hne & Hp' & Ec & Et)].
    + exists p'. split; [done|]. right. exists (MDaoModel.DProp a m0). cbn [MDaoModel.d_event].
      rewrite (view_outside _ _ _ _ Hq Eo). split; [exact Hc|].
      split; [|done]. cbn. intros a' m' [= <- <-]. done.
    + exists p. split; [done|]. left. split; [|done]. unfold view. by rewrite Ec, Et.
  - destruct (q_todo s) as [|[[id i|[m|n]]|r x|r x] t] eqn:Et; try done.
    destruct (to_core_view _ _ _ _ _ _ q p H) as [Hc Em].
    exists p. split; [by rewrite Em|]. right. exists MDaoModel.DSelf. cbn [MDaoModel.d_event].
    unfold view at 1. rewrite Et. cbn [MDaoModel.d_todo flat_map proj app].
    split; [|repeat split; try done; intros; unfold MDaoSpec.carried; cbn; done].
    unfold view at 2. cbn [MDaoModel.d_core]. exact Hc.
  - destruct (q_todo s) as [|[[id i|[m|n]]|r x|r x] t] eqn:Et; try done.
    assert (view q (Many (q_core s) (q_mods s) t) p =
      MDaoModel.with_prop (view q s p) p (flat_map (proj q) t)) as Ew by done.
    destruct (call_of K n) as [[r m]|] eqn:Em.
    + destruct (known s r) eqn:Ek.
      * destruct (to_mod_view _ _ _ _ _ _ _ _ _ _ Hq H) as
          [(-> & m0 & p' & -> & Hp' & Hc)|(Hne & Hp' & Ec & Et')].
        -- exists p'. split; [done|]. right. exists MDaoModel.DSend. cbn [MDaoModel.d_event].
           unfold view at 1. rewrite Et. cbn [MDaoModel.d_todo flat_map proj app].
           unfold codes_of at 1. cbn [MDaoModel.call_of]. rewrite Em, decide_True by done.
           split; [exact Hc|].
           split; [|intros; unfold MDaoSpec.carried; cbn; done].
           unfold MDaoSpec.heard, heard, view. cbn [MDaoModel.d_todo]. rewrite Et.
           cbn [flat_map proj app codes_of MDaoModel.call_of]. rewrite Em, decide_True by done.
           by intros a' m' [= <- <-].
        -- exists p. split; [done|]. right. exists MDaoModel.DSend. cbn [MDaoModel.d_event].
           unfold view at 1. rewrite Et. cbn [MDaoModel.d_todo flat_map proj app].
           assert (MDaoModel.call_of (codes_of q K) n = None) as En.
           { unfold codes_of. cbn. rewrite Em. destruct m; try done; by rewrite decide_False. }
           rewrite En. split; [unfold MDaoModel.with_prop, view; cbn; by rewrite Ec, Et'|].
           split; [|intros; unfold MDaoSpec.carried; cbn; done].
           unfold MDaoSpec.heard. unfold view. cbn [MDaoModel.d_todo]. rewrite Et.
           cbn [flat_map proj app]. rewrite En. done.
      * assert (r <> q) as Hne. { intros ->. unfold known in Ek. by rewrite Hq in Ek. }
        injection H as <-. exists p. split; [done|]. right. exists MDaoModel.DSend.
        cbn [MDaoModel.d_event]. unfold view at 1. rewrite Et. cbn [MDaoModel.d_todo flat_map proj app].
        assert (MDaoModel.call_of (codes_of q K) n = None) as En.
        { unfold codes_of. cbn. rewrite Em. destruct m; try done; by rewrite decide_False. }
        rewrite En. split; [done|].
        split; [|intros; unfold MDaoSpec.carried; cbn; done].
        unfold MDaoSpec.heard. unfold view. cbn [MDaoModel.d_todo]. rewrite Et.
        cbn [flat_map proj app]. rewrite En. done.
    + injection H as <-. exists p. split; [done|]. right. exists MDaoModel.DSend.
      cbn [MDaoModel.d_event]. unfold view at 1. rewrite Et. cbn [MDaoModel.d_todo flat_map proj app].
      assert (MDaoModel.call_of (codes_of q K) n = None) as En.
      { unfold codes_of. cbn. by rewrite Em. }
      rewrite En. split; [done|].
      split; [|intros; unfold MDaoSpec.carried; cbn; done].
      unfold MDaoSpec.heard. unfold view. cbn [MDaoModel.d_todo]. rewrite Et.
      cbn [flat_map proj app]. rewrite En. done.
  - destruct (q_todo s) as [|[[id i|[m|n]]|r x|r x] t] eqn:Et; try done.
    destruct (k_mods (q_core s) !! a) eqn:Ea; [done|]. cbn in H.
    destruct (outside s a) eqn:Eo; [|done]. cbn in H.
    destruct (can_be id new msgs); [|done]. cbn in H.
    destruct (k_reply (q_core s) id a msgs) as [[c l]|] eqn:E; [|done]. injection H as <-.
    pose proof (view_outside s q p a Hq Eo) as Ev.
    exists p. split.
    { cbn. destruct new; [|done]. rewrite lookup_insert_ne; [done|].
      intros ->. unfold outside, known in Eo. rewrite Hq in Eo. by destruct (_ =? _)%N. }
    right. exists (MDaoModel.DReply a msgs). cbn [MDaoModel.d_event].
    unfold view at 1. rewrite Et. cbn [MDaoModel.d_todo flat_map proj app].
    split; [|repeat split; try done; intros; unfold MDaoSpec.carried; cbn; done].
    replace (k_mods (MDaoModel.d_core (view q s p)) !! a) with (None : option kmod) by done.
    cbn [MDaoModel.d_core MDaoModel.d_at view]. rewrite Ev. rewrite E. cbn.
    unfold view. cbn. by rewrite flat_map_app, proj_QK.
  - destruct (q_todo s) as [|[[id i|[m|n]]|r x|r x] t] eqn:Et; try done.
    destruct (q_mods s !! r) as [pr|] eqn:Er; [|done]. cbn in H.
    destruct (p_sends pr x) eqn:Ep; [|done]. cbn in H.
    destruct (decide (r = q)) as [->|Hne].
    + rewrite Hq in Er. injection Er as <-. destruct x as [x|x|x]; try done.
      assert (flat_map (proj q) (QEnd q (OMult x) :: t) = MDaoModel.DEnd x :: flat_map (proj q) t) as Ee.
      { cbn. by rewrite decide_True. }
      assert (MDaoModel.d_todo (view q s p) = MDaoModel.DP x :: flat_map (proj q) t) as Ev.
      { unfold view. rewrite Et. cbn. by rewrite decide_True. }
      destruct (p_exec (OMult x)) as [[[d i] ms]|] eqn:Ex.
      * assert (exists c, x = SExec d i ms c) as [c ->].
        { destruct x; cbn in Ex; try done. injection Ex as <- <- <-. by eexists. }
        destruct (N.eqb_spec d (k_self (q_core s))) as [->|Hd].
        -- destruct (to_core_view _ _ _ _ _ _ q p H) as [Hc Em].
           exists p. split; [by rewrite Em|]. right. exists MDaoModel.DRun. cbn [MDaoModel.d_event].
           rewrite Ev. cbn [MDaoModel.d_core view]. rewrite N.eqb_refl. rewrite Ee in Hc.
           split; [exact Hc|].
           split; [by intros ? ?|].
           intros id. unfold MDaoSpec.carried. cbn [MDaoSpec.de_ev MDaoSpec.de_pre]. rewrite Ev.
           cbn [MDaoModel.d_core view].
           destruct (decide (i = id)) as [->|]; [rewrite !bool_decide_true by done; done|].
           rewrite !bool_decide_false by naive_solver. done.
        -- injection H as <-. exists p. split; [done|]. right. exists MDaoModel.DRun.
           cbn [MDaoModel.d_event]. rewrite Ev. cbn [MDaoModel.d_core view].
           destruct (N.eqb_spec d (k_self (q_core s))); [done|].
           split; [unfold MDaoModel.with_prop, view; cbn [q_todo q_core]; by rewrite Ee|].
           split; [by intros ? ?|].
           intros id. unfold MDaoSpec.carried. cbn [MDaoSpec.de_ev MDaoSpec.de_pre]. rewrite Ev.
           cbn [MDaoModel.d_core view]. rewrite !bool_decide_false by naive_solver. done.
      * injection H as <-. exists p. split; [done|]. right. exists MDaoModel.DRun.
        cbn [MDaoModel.d_event]. rewrite Ev.
        split; [destruct x; try done; unfold MDaoModel.with_prop, view; cbn [q_todo q_core];
          by rewrite Ee|].
        split; [by intros ? ?|].
        intros id. unfold MDaoSpec.carried. cbn [MDaoSpec.de_ev MDaoSpec.de_pre]. rewrite Ev.
        by destruct x.
    + assert (r <> k_self (q_core s)) as Hrs by congruence.
      assert (flat_map (proj q) (QEnd r x :: t) = flat_map (proj q) (q_todo s)) as Ee.
      { rewrite Et. change (proj q (QEnd r x) ++ flat_map (proj q) t =
          proj q (QP r x) ++ flat_map (proj q) t). by rewrite proj_item, proj_end. }
      assert (forall id, match p_exec x with
        | Some (d, i, _) =>
            if bool_decide (r = q /\ i = id /\ d = k_self (q_core s)) then 1 else 0
        | None => 0 end = 0) as Ec.
      { intros id. destruct (p_exec x) as [[[d i] ms]|]; [|done].
        by rewrite bool_decide_false by naive_solver. }
      destruct (p_exec x) as [[[d i] ms]|] eqn:Ex.
      * destruct (N.eqb_spec d (k_self (q_core s))) as [->|Hd].
        -- destruct (to_core_view _ _ _ _ _ _ q p H) as [Hc Em]. rewrite Ee in Hc.
           exists p. split; [by rewrite Em|]. right.
           exists (MDaoModel.DCore r (KHook (map (act_of K) ms))). cbn [MDaoModel.d_event].
           assert (MDaoModel.outside (view q s p) r = true) as ->.
           { unfold MDaoModel.outside, view. cbn. apply andb_true_iff.
             split; apply negb_true_iff; by apply N.eqb_neq. }
           split; [exact Hc|]. repeat split; try done.
        -- injection H as <-. exists p. split; [done|]. left. split; [|done].
           unfold view. cbn [q_todo q_core]. by rewrite Ee.
      * injection H as <-. exists p. split; [done|]. left. split; [|done].
        unfold view. cbn [q_todo q_core]. by rewrite Ee.
  - destruct (q_todo s) as [|[[id i|[m|n]]|r x|r x] t] eqn:Et; try done.
    destruct (q_mods s !! r) as [pr|] eqn:Er; [|done]. cbn in H.
    destruct (p_fail pr b x) as [p'|] eqn:Ef; [|done]. injection H as <-.
    destruct (decide (r = q)) as [->|Hne].
    + rewrite Hq in Er. injection Er as <-. destruct x as [x|x|x]; try done. cbn in Ef.
      destruct (MultModel.on_fail p b x) as [p0|] eqn:E; [|done]. injection Ef as <-.
      exists p0. split; [cbn; by rewrite lookup_insert|]. right. exists MDaoModel.DFail.
      cbn [MDaoModel.d_event]. unfold view at 1. rewrite Et. cbn. rewrite decide_True by done. cbn.
      rewrite E. cbn. repeat split; try done; intros; unfold MDaoSpec.carried; cbn; done.
    + exists p. split; [cbn; by rewrite lookup_insert_ne|]. left. split; [|done].
      unfold view. cbn [q_todo q_core]. rewrite Et. change (flat_map (proj q) (QP r x :: t))
        with (proj q (QP r x) ++ flat_map (proj q) t). by rewrite proj_item.
  - destruct (q_todo s) as [|[[id i|[m|n]]|r x|r x] t] eqn:Et; try done.
    destruct (q_mods s !! r) as [pr|] eqn:Er; [|done]. cbn in H.
    destruct (p_ok pr b x a) as [p'|] eqn:Ef; [|done]. injection H as <-.
    destruct (decide (r = q)) as [->|Hne].
    + rewrite Hq in Er. injection Er as <-. destruct x as [x|x|x]; try done. cbn in Ef.
      destruct (MultModel.on_ok p b x a) as [p0|] eqn:E; [|done]. injection Ef as <-.
      exists p0. split; [cbn; by rewrite lookup_insert|]. right. exists (MDaoModel.DOver a).
      cbn [MDaoModel.d_event]. unfold view at 1. rewrite Et. cbn. rewrite decide_True by done. cbn.
      rewrite E. cbn. repeat split; try done; intros; unfold MDaoSpec.carried; cbn; done.
    + exists p. split; [cbn; by rewrite lookup_insert_ne|]. left. split; [|done].
      unfold view. cbn [q_todo q_core]. rewrite Et. change (flat_map (proj q) (QEnd r x :: t))
        with (proj q (QEnd r x) ++ flat_map (proj q) t). by rewrite proj_end.
Qed.

(** ** What follows from the proofs about DAOs with one module *)
Lemma in_proj q x l : MDaoModel.DP x ∈ flat_map (proj q) l -> QP q (OMult x) ∈ l.
Proof.
  induction l as [|y l IH]; cbn; [intros H; by apply elem_of_nil in H|].
  rewrite elem_of_app. intros [H|H]; [|right; by apply IH].
  destruct y as [y|r y|r y]; cbn in H.
  - apply elem_of_list_singleton in H. done.
  - destruct y; cbn in H; try (by apply elem_of_nil in H).
    destruct (decide (r = q)) as [->|]; [|by apply elem_of_nil in H].
    apply elem_of_list_singleton in H. injection H as ->. left.
  - destruct y; cbn in H; try (by apply elem_of_nil in H).
    destruct (decide (r = q)) as [->|]; [|by apply elem_of_nil in H].
    apply elem_of_list_singleton in H. done.
Qed.
Lemma view_inv K Q s b e s' q p :
  MultSpec.sane (o_mult Q) (k_self (q_core s)) ->
  (forall a m, heard K s e = Some (a, m) -> keeps_dao (k_self (q_core s)) a m) ->
  q_mods s !! q = Some (PMult p) -> q_mods s !! k_self (q_core s) = None ->
  MDaoProofs.dinv (o_mult Q) b (view q s p) -> q_event K Q s b e = Ok s' ->
  exists p', q_mods s' !! q = Some (PMult p') /\ MDaoProofs.dinv (o_mult Q) b (view q s' p').
Proof.
  intros HS Hk Hq Hself HI H.
  destruct (view_step K Q s b e s' q p Hq Hself H) as (p' & Hp' & Hv).
  exists p'. split; [done|].
  destruct Hv as [[-> _]|(e' & He & Hh & _)]; [done|].
  refine (proj1 (MDaoProofs.dinv_event _ _ (view q s p) _ _ _ HS HI _ He)).
  intros a m Ha. exact (Hk a _ (Hh a m Ha)).
Qed.
Lemma view_count K Q s b e s' q p id n :
  MultSpec.sane (o_mult Q) (k_self (q_core s)) ->
  (forall a m, heard K s e = Some (a, m) -> keeps_dao (k_self (q_core s)) a m) ->
  q_mods s !! q = Some (PMult p) -> q_mods s !! k_self (q_core s) = None ->
  MDaoProofs.dinv (o_mult Q) b (view q s p) -> q_event K Q s b e = Ok s' -> 0 <= n ->
  MDaoProofs.count_inv id (view q s p) n ->
  exists p', q_mods s' !! q = Some (PMult p') /\
    MDaoProofs.count_inv id (view q s' p') (n + carried q id (QEntry s b e s')).
Proof.
  intros HS Hk Hq Hself HI H Hn HC.
  destruct (view_step K Q s b e s' q p Hq Hself H) as (p' & Hp' & Hv).
  exists p'. split; [done|].
  destruct Hv as [[-> Hc]|(e' & He & Hh & Hc)]; rewrite Hc; [by rewrite Z.add_0_r|].
  refine (MDaoProofs.count_event _ _ (view q s p) _ _ _ _ _ HS HI _ He Hn HC).
  intros a m Ha. exact (Hk a _ (Hh a m Ha)).
Qed.
Lemma view_new Q s b q p :
  new_of (k_self (q_core s)) (PMult p) -> k_mods (q_core s) !! k_self (q_core s) = None ->
  (forall x, QP q x ∉ q_todo s) ->
  MDaoProofs.dinv (o_mult Q) b (view q s p) /\ forall id, MDaoProofs.count_inv id (view q s p) 0.
Proof.
  intros [Hf Ha] Hself Hno.
  assert (forall x, MDaoModel.DP x ∉ MDaoModel.d_todo (view q s p)) as Hnone.
  { intros x Hx. apply in_proj in Hx. by apply Hno in Hx. }
  split; [split|].
  - done.
  - by apply MultTally.fresh_sinv.
  - intros d id ms c H. by apply Hnone in H.
  - intros id. unfold MDaoProofs.count_inv.
    assert (lsum (MDaoProofs.item_exec id) (MDaoModel.d_todo (view q s p)) = 0) as ->; [|split; lia].
    revert Hnone. generalize (MDaoModel.d_todo (view q s p)). intros l.
    induction l as [|x l IH]; intros Hnone; [done|]. cbn. rewrite IH.
    + destruct x as [x|x|x]; try done. destruct (Hnone x). left.
    + intros x' Hx'. apply (Hnone x'). by right.
Qed.
Lemma view_mandate Q s b q p x d id ms t :
  MultSpec.sane (o_mult Q) (k_self (q_core s)) -> MDaoProofs.dinv (o_mult Q) b (view q s p) ->
  q_todo s = QP q (OMult x) :: t -> p_exec (OMult x) = Some (d, id, ms) ->
  MDaoSpec.mandate (o_mult Q) (MDaoModel.Dao (q_core s) q p []) id ms.
Proof.
  intros HS HI Et Ex.
  assert (exists c, x = SExec d id ms c) as [c ->].
  { destruct x; cbn in Ex; try done. injection Ex as <- <- <-. by eexists. }
  refine (MDaoProofs.exec_mandate _ b (view q s p) d id ms c (flat_map (proj q) t) HI HS _).
  unfold view. rewrite Et. cbn. by rewrite decide_True.
Qed.
Lemma view_conf Q s b q p a m p' l :
  MDaoProofs.dinv (o_mult Q) b (view q s p) -> a <> k_self (q_core s) ->
  p_handle Q (PMult p) b a m = Ok (p', l) -> conf p' = conf (PMult p).
Proof.
  intros HI Ha H. apply handle_same in H as (m0 & p0 & l0 & -> & -> & -> & E). cbn.
  assert (MultSpec.attached (k_self (q_core s)) p) as [Hdao _].
  { destruct HI as [_ [_ HT'] _]. apply HT'. }
  rewrite (MDaoProofs.cfg_event _ p b a _ _ _ (proj1 (MDaoProofs.di_prop _ _ _ HI)) E); [done|].
  rewrite Hdao. done.
Qed.
