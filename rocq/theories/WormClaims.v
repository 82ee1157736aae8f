(** Statements of C49, C50, C74, C75 and their proofs. *)
From Verif Require Import Base BaseProofs WormModel WormSpec WormProofs.

(** ** C49 *)
Definition wgood (m : wmap) : Prop := forall k, wsorted (wm_get m k).
Lemma wm_get_insert m k w k' : wm_get (<[k := w]> m) k' = if (k =? k')%N then w else wm_get m k'.
Proof.
  unfold wm_get. destruct (N.eqb_spec k k') as [->|Hne]; [by rewrite lookup_insert|].
  by rewrite lookup_insert_ne.
Qed.
Lemma wm_get_empty k : wm_get ∅ k = [].
Proof. unfold wm_get. by rewrite lookup_empty. Qed.
Lemma wgood_empty : wgood ∅.
Proof. intros k. rewrite wm_get_empty. done. Qed.
Lemma wm_inc_step m k t i m' v :
  wgood m -> wm_inc m k t i = Ok (m', v) ->
  wgood m' /\ v = val (wm_get m k) t + i /\
  (forall k' u, val (wm_get m' k') u =
     val (wm_get m k') u + (if (k =? k')%N && (t <=? u) then i else 0)) /\
  (forall k' u, w_load (wm_get m' k') u =
     if (k =? k')%N && (t <=? u) then Some (val (wm_get m k) u + i) else w_load (wm_get m k') u).
Proof.
  intros Hg H. unfold wm_inc in H. destruct (w_inc (wm_get m k) t i) as [[w x]|] eqn:E; [|done].
  injection H as <- <-. pose proof (fun u => step_load _ _ _ _ _ _ _ u (add128_adds i) (Hg k) E) as H.
  split; [|split; [by destruct (H 0) as (_ & -> & _)|split]].
  - intros k'. rewrite wm_get_insert. destruct (k =? k')%N; [by destruct (H 0)|apply Hg].
  - intros k' u. rewrite wm_get_insert. destruct (N.eqb_spec k k') as [->|]; cbn; [|lia].
    by rewrite (step_val _ _ _ _ _ _ _ u (add128_adds i) (Hg k') E).
  - intros k' u. rewrite wm_get_insert. destruct (N.eqb_spec k k') as [->|]; cbn; [|done].
    by destruct (H u) as (_ & _ & ->).
Qed.
Lemma wm_dec_step m k t i m' v :
  wgood m -> wm_dec m k t i = Ok (m', v) ->
  wgood m' /\ v = val (wm_get m k) t - i /\
  (forall k' u, val (wm_get m' k') u =
     val (wm_get m k') u + (if (k =? k')%N && (t <=? u) then - i else 0)) /\
  (forall k' u, w_load (wm_get m' k') u =
     if (k =? k')%N && (t <=? u) then Some (val (wm_get m k) u - i) else w_load (wm_get m k') u).
Proof.
  intros Hg H. unfold wm_dec in H. destruct (w_dec (wm_get m k) t i) as [[w x]|] eqn:E; [|done].
  injection H as <- <-. pose proof (fun u => step_load _ _ _ _ _ _ _ u (sub128_adds i) (Hg k) E) as H.
  split; [|split; [by destruct (H 0) as (_ & -> & _)|split]].
  - intros k'. rewrite wm_get_insert. destruct (k =? k')%N; [by destruct (H 0)|apply Hg].
  - intros k' u. rewrite wm_get_insert. destruct (N.eqb_spec k k') as [->|]; cbn; [|lia].
    by rewrite (step_val _ _ _ _ _ _ _ u (sub128_adds i) (Hg k') E).
  - intros k' u. rewrite wm_get_insert. destruct (N.eqb_spec k k') as [->|]; cbn; [|done].
    by destruct (H u) as (_ & _ & ->).
Qed.
Lemma wm_apply_step m o m' :
  wgood m -> wm_apply m o = Ok m' ->
  wgood m' /\ (forall k u, val (wm_get m' k) u = val (wm_get m k) u + wop_adds k u o) /\
  (forall k u, is_Some (w_load (wm_get m' k) u) <->
     is_Some (w_load (wm_get m k) u) \/ wop_touches k u o = true).
Proof.
  intros Hg H. destruct o as [k t i|k t i]; cbn in H.
  - destruct (wm_inc m k t i) as [[m1 v]|] eqn:E; [|done]. injection H as <-.
    destruct (wm_inc_step _ _ _ _ _ _ Hg E) as (G & _ & A & B). split; [done|]. split; [done|].
    intros k' u. rewrite B. cbn. destruct ((k =? k')%N && (t <=? u)); [|naive_solver].
    split; [by right|by eexists].
  - destruct (wm_dec m k t i) as [[m1 v]|] eqn:E; [|done]. injection H as <-.
    destruct (wm_dec_step _ _ _ _ _ _ Hg E) as (G & _ & A & B). split; [done|]. split; [done|].
    intros k' u. rewrite B. cbn. destruct ((k =? k')%N && (t <=? u)); [|naive_solver].
    split; [by right|by eexists].
Qed.
Lemma wm_run_step m ops m' :
  wgood m -> wm_run m ops = Ok m' ->
  wgood m' /\ (forall k u, val (wm_get m' k) u = val (wm_get m k) u + wsum k u ops) /\
  (forall k u, is_Some (w_load (wm_get m' k) u) <->
     is_Some (w_load (wm_get m k) u) \/ existsb (wop_touches k u) ops = true).
Proof.
  revert m. induction ops as [|o ops IH]; intros m Hg H.
  { cbn in H. injection H as <-. cbn. split; [done|]. split; [intros; lia|]. naive_solver. }
  cbn [wm_run] in H. destruct (wm_apply m o) as [m1|] eqn:E; [|done].
  destruct (wm_apply_step _ _ _ Hg E) as (G1 & A1 & B1).
  destruct (IH _ G1 H) as (G2 & A2 & B2). split; [done|]. unfold wsum in *. cbn. split.
  - intros k u. rewrite A2, A1. lia.
  - intros k u. rewrite B2, B1, orb_true_iff. tauto.
Qed.
Lemma c49_load ops m k t :
  wm_run ∅ ops = Ok m -> default 0 (w_load (wm_get m k) t) = wsum k t ops.
Proof.
  intros H. destruct (wm_run_step _ _ _ wgood_empty H) as (_ & A & _).
  specialize (A k t). unfold val in A. rewrite A, wm_get_empty. done.
Qed.
Lemma c49_known ops m k t :
  wm_run ∅ ops = Ok m ->
  ((exists x, w_load (wm_get m k) t = Some x) <-> exists o, o ∈ ops /\ wop_touches k t o = true).
Proof.
  intros H. destruct (wm_run_step _ _ _ wgood_empty H) as (_ & _ & B).
  specialize (B k t). unfold is_Some in B. rewrite B, wm_get_empty, existsb_exists. cbn.
  setoid_rewrite elem_of_list_In. naive_solver.
Qed.
Lemma c49_order ops ops' m m' k t :
  wm_run ∅ ops = Ok m -> wm_run ∅ ops' = Ok m' -> Permutation ops ops' ->
  w_load (wm_get m k) t = w_load (wm_get m' k) t.
Proof.
  intros H H' HP. pose proof (c49_load _ _ k t H) as L. pose proof (c49_load _ _ k t H') as L'.
  pose proof (c49_known _ _ k t H) as K. pose proof (c49_known _ _ k t H') as K'.
  assert (wsum k t ops = wsum k t ops') as Hw by by apply lsum_perm.
  assert ((exists o, o ∈ ops /\ wop_touches k t o = true) <-> exists o, o ∈ ops' /\ wop_touches k t o = true) as Hi.
  { by setoid_rewrite HP. }
  destruct (w_load (wm_get m k) t) as [x|], (w_load (wm_get m' k) t) as [y|]; cbn in *; [|naive_solver..].
  f_equal. lia.
Qed.
(** The updates succeed exactly if no partial sum leaves the range, at any time. *)
Lemma c49_success ops :
  Forall (fun o => match o with WInc _ _ i | WDec _ _ i => 0 <= i end) ops ->
  (exists m, wm_run ∅ ops = Ok m) <->
  forall n k t, 0 <= wsum k t (take n ops) <= U128_MAX.
Proof.
  intros Hpos. enough (forall m, wgood m -> (forall k t, 0 <= val (wm_get m k) t <= U128_MAX) ->
    (exists m', wm_run m ops = Ok m') <->
    forall n k t, 0 <= val (wm_get m k) t + wsum k t (take n ops) <= U128_MAX) as H.
  { rewrite H; [|apply wgood_empty|intros; rewrite wm_get_empty; cbn; unfold U128_MAX; lia].
    split; intros G n k t; specialize (G n k t); rewrite wm_get_empty in *; exact G. }
  induction Hpos as [|o ops Ho Hpos IH]; intros m Hg Hr.
  { split; [|by eexists]. intros _ n k t. rewrite take_nil. specialize (Hr k t). unfold wsum. cbn. lia. }
  assert (is_ok (wm_apply m o) = true <-> forall k t, 0 <= val (wm_get m k) t + wop_adds k t o <= U128_MAX) as Hone.
  { destruct o as [k t i|k t i]; cbn; unfold wm_inc, wm_dec; split; intros H.
    - destruct (w_inc (wm_get m k) t i) as [[w x]|] eqn:E; [|done]. intros k' u. specialize (Hr k' u).
      destruct (N.eqb_spec k k') as [->|]; cbn; [|lia]. destruct (t <=? u) eqn:E1; [|lia].
      pose proof (step_ok_inv _ _ _ _ _ _ (Hg k') E u ltac:(lia)) as H1. unfold add128 in H1.
      destruct (U128_MAX <? val (wm_get m k') u + i) eqn:E2; [done|]. lia.
    - pose proof (step_ok add128 (wm_get m k) t i (Hg k)) as H1. unfold w_inc.
      destruct (w_step add128 (wm_get m k) t i) as [[w x]|]; [done|]. apply H1.
      intros u Hu. specialize (H k u). rewrite N.eqb_refl in H. cbn in H.
      replace (t <=? u) with true in H by lia. unfold add128.
      destruct (U128_MAX <? val (wm_get m k) u + i) eqn:E2; [lia|done].
    - destruct (w_dec (wm_get m k) t i) as [[w x]|] eqn:E; [|done]. intros k' u. specialize (Hr k' u).
      destruct (N.eqb_spec k k') as [->|]; cbn; [|lia]. destruct (t <=? u) eqn:E1; [|lia].
      pose proof (step_ok_inv _ _ _ _ _ _ (Hg k') E u ltac:(lia)) as H1. unfold sub128 in H1.
      destruct (val (wm_get m k') u <? i) eqn:E2; [done|]. lia.
    - pose proof (step_ok sub128 (wm_get m k) t i (Hg k)) as H1. unfold w_dec.
      destruct (w_step sub128 (wm_get m k) t i) as [[w x]|]; [done|]. apply H1.
      intros u Hu. specialize (H k u). rewrite N.eqb_refl in H. cbn in H.
      replace (t <=? u) with true in H by lia. unfold sub128.
      destruct (val (wm_get m k) u <? i) eqn:E2; [lia|done]. }
  split.
  - intros [m' H] n k t. cbn [wm_run] in H. destruct (wm_apply m o) as [m1|] eqn:E; [|done].
    destruct (wm_apply_step _ _ _ Hg E) as (G1 & A1 & _).
    destruct n as [|n]; [specialize (Hr k t); unfold wsum; cbn; lia|].
    unfold wsum. cbn [take lsum]. fold (wsum k t (take n ops)).
    assert (forall k t, 0 <= val (wm_get m1 k) t <= U128_MAX) as Hr1.
    { intros k' t'. rewrite A1. apply Hone. done. }
    pose proof (proj1 (IH m1 G1 Hr1) (ex_intro _ _ H) n k t) as H2. rewrite A1 in H2. lia.
  - intros H. assert (is_ok (wm_apply m o) = true) as Hok.
    { apply Hone. intros k t. specialize (H 1%nat k t). unfold wsum in H. cbn in H. rewrite take_0 in H. cbn in H. lia. }
    cbn [wm_run]. destruct (wm_apply m o) as [m1|] eqn:E; [|done].
    destruct (wm_apply_step _ _ _ Hg E) as (G1 & A1 & _). apply IH; [done| |].
    + intros k t. rewrite A1. apply Hone. done.
    + intros n k t. specialize (H (S n) k t). unfold wsum in H. cbn [take lsum] in H.
      fold (wsum k t (take n ops)) in H. rewrite A1. lia.
Qed.

(** ** C50 *)
Definition tgood (k : tracker) : Prop :=
  wsorted (tr_total k) /\ wgood (tr_vals k) /\ wsorted (tr_card k).
Lemma tgood_new : tgood tr_new.
Proof. split; [done|]. split; [apply wgood_empty|done]. Qed.
Lemma changes_sorted c cs c' : wsorted c -> apply_changes c cs = Ok c' -> wsorted c'.
Proof.
  revert c. induction cs as [|[t|t] cs IH]; intros c Hs H; cbn in H; [by injection H as <-|..].
  - destruct (w_inc64 c t 1) as [[c1 ?]|] eqn:E; [|done]. eapply IH; [|exact H].
    (eapply step_sorted; [apply add64_adds| |exact E]; done).
  - destruct (w_dec64 c t 1) as [[c1 ?]|] eqn:E; [|done]. eapply IH; [|exact H].
    (eapply step_sorted; [apply sub64_adds| |exact E]; done).
Qed.
Lemma closure_adds n a v t x a' : slash_closure n a v t = Ok (x, a') -> x = v + - n.
Proof.
  unfold slash_closure. destruct (sub128 v n) as [y|] eqn:E; [|done]. destruct a as [w cs].
  intros H. injection H as <- _. apply sub128_adds in E. lia.
Qed.
Ltac tstep H :=
  match type of H with
  | context [match ?e with Ok _ => _ | Err _ => _ end] =>
      let E := fresh "E" in destruct e as [?|] eqn:E; [|discriminate H]
  end.
Lemma val_eq w t : default 0 (w_load w t) = val w t. Proof. done. Qed.
Lemma t_apply_step k o k' :
  tgood k -> t_apply k o = Ok k' ->
  tgood k' /\
  (is_unb o = false ->
   (forall u, total_staked k' u = total_staked k u + top_total u o) /\
   (forall v u, validator_staked k' v u = validator_staked k v u + top_val v u o)).
Proof.
  intros (G1 & G2 & G3) H. unfold total_staked, validator_staked. setoid_rewrite val_eq.
  destruct o as [t v n|t src dst n|t v n d|t v n|t v ps]; cbn [t_apply] in H.
  - unfold on_delegate in H.
    destruct (w_inc (tr_total k) t n) as [[tot x]|] eqn:E1; [|done].
    destruct ((_ : result whole)) as [card|] eqn:E2 in H; [|done].
    destruct (wm_inc (tr_vals k) v t n) as [[vals y]|] eqn:E3; [|done].
    injection H as <-. destruct (wm_inc_step _ _ _ _ _ _ G2 E3) as (G2' & _ & A & _).
    split.
    + split; [|split]; cbn; [(eapply step_sorted; [apply add128_adds| |exact E1]; done)|done|].
      destruct (_ && _) in E2; [|by injection E2 as <-].
      destruct (w_inc64 (tr_card k) t 1) as [[c ?]|] eqn:E4; [|done]. injection E2 as <-.
      (eapply step_sorted; [apply add64_adds| |exact E4]; done).
    + intros _. cbn. split; [|done]. intros u.
      apply (step_val _ _ _ _ _ _ _ u (add128_adds n) G1 E1).
  - unfold on_redelegate in H.
    destruct (wm_dec (tr_vals k) src t n) as [[vals new]|] eqn:E1; [|done].
    destruct ((_ : result whole)) as [card|] eqn:E2 in H; [|done].
    destruct (wm_inc vals dst t n) as [[vals' new']|] eqn:E3; [|done].
    destruct ((_ : result whole)) as [card'|] eqn:E4 in H; [|done].
    injection H as <-. destruct (wm_dec_step _ _ _ _ _ _ G2 E1) as (G2' & _ & A & _).
    destruct (wm_inc_step _ _ _ _ _ _ G2' E3) as (G2'' & _ & A' & _).
    split.
    + assert (wsorted card) as Hc.
      { destruct (new =? 0) in E2; [|by injection E2 as <-].
        destruct (w_dec64 (tr_card k) t 1) as [[c ?]|] eqn:E5; [|done]. injection E2 as <-.
        (eapply step_sorted; [apply sub64_adds| |exact E5]; done). }
      split; [|split]; cbn; [done|done|].
      destruct (new' =? n) in E4; [|by injection E4 as <-].
      destruct (w_inc64 card t 1) as [[c ?]|] eqn:E5; [|done]. injection E4 as <-.
      (eapply step_sorted; [apply add64_adds| |exact E5]; done).
    + intros _. cbn. split; [intros; by rewrite Z.add_0_r|]. intros v u. rewrite A', A.
      destruct (src =? v)%N, (dst =? v)%N, (t <=? u); cbn; lia.
  - unfold on_undelegate in H. destruct (add64 t d) as [r|] eqn:E0; [|done].
    assert (r = t + d) as -> by (apply (add64_adds d); done).
    destruct (w_dec (tr_total k) (t + d) n) as [[tot x]|] eqn:E1; [|done].
    destruct (wm_dec (tr_vals k) v (t + d) n) as [[vals new]|] eqn:E3; [|done].
    destruct ((_ : result whole)) as [card|] eqn:E2 in H; [|done].
    injection H as <-. destruct (wm_dec_step _ _ _ _ _ _ G2 E3) as (G2' & _ & A & _).
    split.
    + split; [|split]; cbn; [(eapply step_sorted; [apply sub128_adds| |exact E1]; done)|done|].
      destruct (_ && _) in E2; [|by injection E2 as <-].
      destruct (w_dec64 (tr_card k) (t + d) 1) as [[c ?]|] eqn:E4; [|done]. injection E2 as <-.
      (eapply step_sorted; [apply sub64_adds| |exact E4]; done).
    + intros _. cbn. split; [|done]. intros u.
      apply (step_val _ _ _ _ _ _ _ u (sub128_adds n) G1 E1).
  - unfold on_bonded_slash in H.
    destruct (w_dec (tr_total k) t n) as [[tot x]|] eqn:E1; [|done].
    destruct (w_update (slash_closure n) (wm_get (tr_vals k) v) t (true, [])) as [[[w y] [was cs]]|] eqn:E2; [|done].
    destruct (apply_changes (tr_card k) cs) as [card|] eqn:E3; [|done].
    injection H as <-.
    pose proof (fun u => update_load _ _ (closure_adds n) _ _ _ _ _ _ u (G2 v) E2) as HU.
    pose proof (fun u => update_val _ _ (closure_adds n) _ _ _ _ _ _ u (G2 v) E2) as HV.
    split.
    + split; [|split]; cbn; [(eapply step_sorted; [apply sub128_adds| |exact E1]; done)| |by eapply changes_sorted].
      intros k'. rewrite wm_get_insert. destruct (v =? k')%N; [apply (HU 0)|apply G2].
    + intros _. cbn. split.
      * intros u. apply (step_val _ _ _ _ _ _ _ u (sub128_adds n) G1 E1).
      * intros v' u. rewrite wm_get_insert. destruct (N.eqb_spec v v') as [->|]; cbn; [apply HV|lia].
  - unfold on_unbonding_slash in H. unfold w_update_one in H.
    destruct (sub128 (default 0 (w_load (tr_total k) t)) (lsum snd ps)) as [a|] eqn:E1; [|done].
    destruct (sub128 (default 0 (w_load (wm_get (tr_vals k) v) t)) (lsum snd ps)) as [c|] eqn:E2; [|done].
    destruct ((_ : result whole)) as [card|] eqn:E3 in H; [|done].
    injection H as <-. split; [|done]. split; [|split]; cbn.
    + by apply save_sorted.
    + intros k'. rewrite wm_get_insert. destruct (v =? k')%N; [by apply save_sorted|apply G2].
    + destruct (c =? 0) in E3; [|by injection E3 as <-].
      destruct (sub64 (default 0 (w_load (tr_card k) t)) 1) as [e|] eqn:E4; [|done].
      injection E3 as <-. by apply save_sorted.
Qed.
Lemma t_run_step k ops k' :
  tgood k -> t_run k ops = Ok k' ->
  tgood k' /\
  (Forall (fun o => is_unb o = false) ops ->
   (forall u, total_staked k' u = total_staked k u + staked_at u ops) /\
   (forall v u, validator_staked k' v u = validator_staked k v u + staked_with v u ops)).
Proof.
  revert k. induction ops as [|o ops IH]; intros k Hg H.
  { cbn in H. injection H as <-. split; [done|]. intros _. unfold staked_at, staked_with. cbn.
    split; intros; lia. }
  cbn [t_run] in H. destruct (t_apply k o) as [k1|] eqn:E; [|done].
  destruct (t_apply_step _ _ _ Hg E) as (G1 & A1). destruct (IH _ G1 H) as (G2 & A2).
  split; [done|]. intros HF. inversion HF; subst. destruct A1 as [B1 C1]; [done|].
  destruct A2 as [B2 C2]; [done|]. unfold staked_at, staked_with in *. cbn.
  split; [intros u; rewrite B2, B1; lia|intros v u; rewrite C2, C1; lia].
Qed.
Lemma new_zero u v : total_staked tr_new u = 0 /\ validator_staked tr_new v u = 0.
Proof. split; [done|]. unfold validator_staked, tr_new. cbn. by rewrite wm_get_empty. Qed.
Lemma c50_total ops k u :
  t_run tr_new ops = Ok k -> Forall (fun o => is_unb o = false) ops ->
  total_staked k u = staked_at u ops.
Proof.
  intros H HF. destruct (t_run_step _ _ _ tgood_new H) as [_ A]. destruct (A HF) as [B _].
  rewrite B. destruct (new_zero u 0) as [-> _]. lia.
Qed.
Lemma c50_validator ops k v u :
  t_run tr_new ops = Ok k -> Forall (fun o => is_unb o = false) ops ->
  validator_staked k v u = staked_with v u ops.
Proof.
  intros H HF. destruct (t_run_step _ _ _ tgood_new H) as [_ A]. destruct (A HF) as [_ B].
  rewrite B. destruct (new_zero u v) as [_ ->]. lia.
Qed.
Lemma lsum_single (f : N -> Z) l v :
  NoDup l -> v ∈ l -> (forall x, x <> v -> f x = 0) -> lsum f l = f v.
Proof.
  induction 1 as [|x l Hx Hn IH]; intros Hin Hz; [by apply elem_of_nil in Hin|].
  cbn. destruct (decide (x = v)) as [->|Hne].
  - assert (lsum f l = 0) as ->; [|lia]. clear IH Hin Hn. induction l as [|y l IH]; [done|].
    apply not_elem_of_cons in Hx as [Hne Hx]. cbn. rewrite IH by done. rewrite Hz by congruence. lia.
  - rewrite Hz by done. apply elem_of_cons in Hin as [Hin|Hin]; [congruence|]. rewrite IH by done. lia.
Qed.
(** The amounts with the validators add up to the total, at every time. *)
Lemma c50_adds_up ops k u :
  t_run tr_new ops = Ok k -> Forall (fun o => is_unb o = false) ops ->
  lsum (fun v => validator_staked k v u) (vals_of ops) = total_staked k u.
Proof.
  intros H HF. rewrite (c50_total _ _ _ H HF).
  rewrite (lsum_ext _ (fun v => staked_with v u ops)) by (intros; by apply c50_validator).
  assert (NoDup (vals_of ops)) as HN by apply NoDup_remove_dups.
  assert (forall o v, o ∈ ops -> v ∈ top_vals o -> v ∈ vals_of ops) as Hin.
  { intros o v Ho Hv. apply elem_of_remove_dups, elem_of_list_In, in_flat_map.
    exists o. split; by apply elem_of_list_In. }
  revert Hin HN HF. generalize (vals_of ops). clear H. intros L Hin HN HF.
  unfold staked_with, staked_at. induction ops as [|o ops IH]; cbn.
  { clear. induction L as [|v L IH]; cbn; lia. }
  rewrite lsum_add. inversion HF; subst. rewrite IH; [|intros o' ? ? ?; apply (Hin o'); [by right|done]|done].
  f_equal. clear IH. specialize (Hin o). destruct o as [t v n|t src dst n|t v n d|t v n|t v ps]; [..|done].
  - rewrite (lsum_single _ _ v); [by cbn; rewrite N.eqb_refl|done|apply Hin; [left|left]|].
    intros x Hx. cbn. by destruct (N.eqb_spec v x).
  - cbn. rewrite lsum_ext with (g := fun v => (if (dst =? v)%N && (t <=? u) then n else 0) + - (if (src =? v)%N && (t <=? u) then n else 0)) by (intros; lia).
    rewrite lsum_add.
    rewrite (lsum_single _ _ dst); [|done|apply Hin; [left|right; left]|].
    2:{ intros x Hx. by destruct (N.eqb_spec dst x). }
    rewrite (lsum_single _ _ src); [|done|apply Hin; [left|left]|].
    2:{ intros x Hx. by destruct (N.eqb_spec src x). }
    rewrite !N.eqb_refl. lia.
  - rewrite (lsum_single _ _ v); [by cbn; rewrite N.eqb_refl|done|apply Hin; [left|left]|].
    intros x Hx. cbn. by destruct (N.eqb_spec v x).
  - rewrite (lsum_single _ _ v); [by cbn; rewrite N.eqb_refl|done|apply Hin; [left|left]|].
    intros x Hx. cbn. by destruct (N.eqb_spec v x).
Qed.
(** Registering a slash of unbonding tokens lowers the total from its time until the
    next time at which the tracked total changes. *)
Lemma c50_unbonding_slash ops k t v ps k' u :
  t_run tr_new ops = Ok k -> t_apply k (TSlashUnb t v ps) = Ok k' ->
  total_staked k' u =
    total_staked k u -
    (if (t <=? u) && forallb (fun e => (e.1 <=? t) || (u <? e.1)) (tr_total k)
     then lsum snd ps else 0).
Proof.
  intros H H'. destruct (t_run_step _ _ _ tgood_new H) as [(G1 & _) _].
  cbn [t_apply] in H'. unfold on_unbonding_slash, w_update_one in H'.
  destruct (sub128 (default 0 (w_load (tr_total k) t)) (lsum snd ps)) as [a|] eqn:E1; [|done].
  destruct (sub128 (default 0 (w_load (wm_get (tr_vals k) v) t)) (lsum snd ps)) as [c|] eqn:E2; [|done].
  destruct ((_ : result whole)) as [card|] eqn:E3 in H'; [|done].
  injection H' as <-. unfold total_staked. cbn [tr_total]. rewrite save_one_load by done.
  assert (negb (between (tr_total k) t u) = forallb (fun e => (e.1 <=? t) || (u <? e.1)) (tr_total k)) as Hb.
  { unfold between. generalize (tr_total k). intros w. induction w as [|e w IH]; cbn; [done|].
    rewrite negb_orb, IH. f_equal. lia. }
  rewrite <-Hb. destruct (t <=? u) eqn:Et; cbn; [|lia].
  destruct (between (tr_total k) t u) eqn:Eb; cbn; [lia|].
  apply sub128_adds in E1. unfold w_load. rewrite (find_same _ t u) by (done || lia). fold (w_load (tr_total k) t). lia.
Qed.

(** ** C75: undelegating *)
Lemma c75_undelegate k t v n d :
  tgood k -> 0 <= n -> t + d <= U64_MAX ->
  (forall u, t + d <= u -> n <= total_staked k u /\ n <= validator_staked k v u /\
     1 <= validator_cardinality k u) ->
  exists k', t_apply k (TUndel t v n d) = Ok k'.
Proof.
  intros (G1 & G2 & G3) Hn Hr H. cbn. unfold on_undelegate, add64.
  replace (U64_MAX <? t + d) with false by lia.
  assert (is_ok (w_dec (tr_total k) (t + d) n) = true) as K1.
  { apply step_ok; [done|]. intros u Hu. unfold sub128. destruct (H u Hu) as (A & _).
    unfold total_staked in A. rewrite val_eq in A. by replace (val (tr_total k) u <? n) with false by lia. }
  destruct (w_dec (tr_total k) (t + d) n) as [[tot x]|]; [|done].
  assert (is_ok (w_dec (wm_get (tr_vals k) v) (t + d) n) = true) as K2.
  { apply step_ok; [apply G2|]. intros u Hu. unfold sub128. destruct (H u Hu) as (_ & A & _).
    unfold validator_staked in A. rewrite val_eq in A. by replace (val (wm_get (tr_vals k) v) u <? n) with false by lia. }
  unfold wm_dec. destruct (w_dec (wm_get (tr_vals k) v) (t + d) n) as [[w y]|]; [|done].
  destruct ((y =? 0) && negb (n =? 0)); [|by eexists].
  assert (is_ok (w_dec64 (tr_card k) (t + d) 1) = true) as K3.
  { apply step_ok; [done|]. intros u Hu. unfold sub64. destruct (H u Hu) as (_ & _ & A).
    unfold validator_cardinality in A. rewrite val_eq in A. by replace (val (tr_card k) u <? 1) with false by lia. }
  destruct (w_dec64 (tr_card k) (t + d) 1) as [[c z]|]; [by eexists|done].
Qed.
Lemma c75_undelegate_run ops k t v n d :
  t_run tr_new ops = Ok k -> 0 <= n -> t + d <= U64_MAX ->
  (forall u, t + d <= u -> n <= total_staked k u /\ n <= validator_staked k v u /\
     1 <= validator_cardinality k u) ->
  exists k', t_apply k (TUndel t v n d) = Ok k'.
Proof. intros H. apply c75_undelegate. by destruct (t_run_step _ _ _ tgood_new H). Qed.

(** ** C74: the number of validators *)
Definition ind (x : Z) : Z := if x =? 0 then 0 else 1.
Lemma lsum_upd (f g : N -> Z) L v :
  NoDup L -> v ∈ L -> (forall x, x <> v -> g x = f x) -> lsum g L = lsum f L + (g v - f v).
Proof.
  intros HN Hin H.
  rewrite (lsum_ext g (fun x => f x + (if (x =? v)%N then g v - f v else 0))).
  2:{ intros x _. destruct (N.eqb_spec x v) as [->|]; [lia|]. rewrite H by done. lia. }
  rewrite lsum_add. f_equal. rewrite (lsum_single _ _ v); [by rewrite N.eqb_refl|done|done|].
  intros x Hx. by destruct (N.eqb_spec x v).
Qed.
Lemma w_nonneg op w t i d w' v u :
  op_adds op i d -> wsorted w -> (forall u, 0 <= val w u) -> (forall x, 0 <= x -> forall y, op x i = Ok y -> 0 <= y) ->
  w_step op w t i = Ok (w', v) -> 0 <= val w' u.
Proof.
  intros Hop Hs Hp Hy H. rewrite (step_val _ _ _ _ _ _ _ u Hop Hs H). specialize (Hp u).
  destruct (t <=? u) eqn:E; [|lia].
  pose proof (step_ok_inv _ _ _ _ _ _ Hs H u ltac:(lia)) as Hk.
  destruct (op (val w u) i) as [y|] eqn:E1; [|done].
  pose proof (Hy _ Hp _ E1). apply Hop in E1. lia.
Qed.
Lemma c74_run d past ops k k' L :
  tgood k -> NoDup L -> (forall o v, o ∈ past ++ ops -> v ∈ top_vals o -> v ∈ L) -> 0 <= d ->
  (forall v u, validator_staked k v u = staked_with v u past) ->
  (forall v u, 0 <= validator_staked k v u) ->
  (forall o, o ∈ past -> match o with TUndel _ _ _ d' => d' = d | TDel _ _ _ => True | _ => False end) ->
  (forall u, validator_cardinality k u = lsum (fun v => ind (staked_with v u past)) L) ->
  t_run k ops = Ok k' -> steady d past ops ->
  forall u, validator_cardinality k' u = lsum (fun v => ind (staked_with v u (past ++ ops))) L.
Proof.
  revert past k. induction ops as [|o ops IH]; intros past k HG HN HL Hd HV HP HD HC HR HS u.
  { cbn in HR. injection HR as <-. by rewrite app_nil_r. }
  destruct HS as (Ho & Ht & HS). cbn [t_run] in HR.
  destruct (t_apply k o) as [k1|] eqn:E; [|done].
  destruct (t_apply_step _ _ _ HG E) as (G1 & A1).
  replace (past ++ o :: ops) with ((past ++ [o]) ++ ops) by by rewrite <-(assoc_L (++)).
  assert (is_unb o = false) as Hu by by destruct o.
  destruct A1 as [_ A1]; [done|].
  assert (forall v u, staked_with v u (past ++ [o]) = staked_with v u past + top_val v u o) as Hsw.
  { intros v u'. unfold staked_with. rewrite lsum_app. cbn. lia. }
  assert (forall v u, validator_staked k1 v u = staked_with v u (past ++ [o])) as HV1.
  { intros v u'. rewrite A1, HV, Hsw. done. }
  apply (IH _ k1); try done; clear IH.
  - intros o' v Hin Hv. apply (HL o'); [|done]. by rewrite <-(assoc_L (++)) in Hin.
  - intros v u'. destruct o as [t v0 n|t src dst n|t v0 n d'|t v0 n|t v0 ps]; try done.
    + destruct Ho as [Ho _]. rewrite A1. specialize (HP v u'). cbn. case_match; lia.
    + rewrite A1. specialize (HP v u'). cbn. destruct (N.eqb_spec v0 v) as [->|]; cbn; [|lia].
      destruct (t + d' <=? u') eqn:E1; [|lia]. cbn [t_apply] in E. unfold on_undelegate in E.
      destruct (add64 t d') as [r|] eqn:E2; [|done]. apply add64_adds in E2 as ->.
      destruct (w_dec (tr_total k) (t + d') n) as [[tot x]|] eqn:E3; [|done].
      unfold wm_dec in E. destruct (w_dec (wm_get (tr_vals k) v) (t + d') n) as [[w y]|] eqn:E4; [|done].
      pose proof (step_ok_inv _ _ _ _ _ _ (proj1 (proj2 HG) v) E4 u' ltac:(lia)) as Hk.
      unfold validator_staked. rewrite val_eq. unfold sub128 in Hk. destruct (val (wm_get (tr_vals k) v) u' <? n) eqn:E5; [done|lia].
  - intros o' Hin. apply elem_of_app in Hin as [Hin|Hin]; [by apply HD|].
    apply elem_of_list_singleton in Hin as ->. destruct o; try done. tauto.
  - clear u HR HS. intros u. specialize (HC u).
    assert (forall v u, 0 <= staked_with v u past) as HP' by (intros; rewrite <-HV; apply HP).
    destruct HG as (GA & GB & GC).
    destruct o as [t v n|t src dst n|t v n d'|t v n|t v ps]; try done.
    + destruct Ho as [Hn Hz]. cbn [t_apply] in E. unfold on_delegate in E.
      rewrite (lsum_upd (fun v => ind (staked_with v u past)) _ L v HN).
      2:{ apply (HL (TDel t v n)); [|left]. apply elem_of_app. right. left. }
      2:{ intros x Hx. rewrite Hsw. cbn. destruct (N.eqb_spec v x); [congruence|]. cbn. by rewrite Z.add_0_r. }
      rewrite Hsw. cbn [top_val]. rewrite N.eqb_refl. cbn [andb].
      destruct (w_inc (tr_total k) t n) as [[tot x]|] eqn:E1; [|done].
      destruct ((_ : result whole)) as [card|] eqn:E2 in E; [|done].
      destruct (wm_inc (tr_vals k) v t n) as [[vals y]|] eqn:E3; [|done].
      injection E as <-. unfold validator_cardinality. cbn [tr_card].
      fold (validator_staked k v t) in E2. rewrite HV in E2.
      replace (negb (n =? 0)) with true in E2 by lia. rewrite andb_true_r in E2.
      pose proof (HP' v u) as Hpu. unfold ind at 2 3.
      destruct (staked_with v t past =? 0) eqn:E4.
      * destruct (w_inc64 (tr_card k) t 1) as [[c z]|] eqn:E5; [|done]. injection E2 as <-.
        rewrite val_eq, (step_val _ _ _ _ _ _ _ u (add64_adds 1) GC E5).
        unfold validator_cardinality in HC. rewrite val_eq in HC. rewrite HC.
        destruct (t <=? u) eqn:E6; [|rewrite !Z.add_0_r; lia].
        specialize (Hz u ltac:(lia)). assert (staked_with v u past = 0) as -> by (apply Hz; lia).
        cbn. replace (0 + n =? 0) with false by lia. lia.
      * injection E2 as <-. fold (validator_cardinality k u). rewrite HC.
        destruct (t <=? u) eqn:E6; [|rewrite !Z.add_0_r; lia].
        specialize (Hz u ltac:(lia)). assert (staked_with v u past <> 0) by (rewrite Hz; lia).
        replace (staked_with v u past =? 0) with false by lia.
        replace (staked_with v u past + n =? 0) with false by lia. lia.
    + destruct Ho as [Hn ->]. cbn [t_apply] in E. unfold on_undelegate in E.
      destruct (add64 t d) as [r|] eqn:E0; [|done]. apply add64_adds in E0 as ->.
      assert (forall u v, t + d <= u -> staked_with v u past = staked_with v (t + d) past) as Hflat.
      { intros u' v' Hu'. unfold staked_with. apply lsum_ext. intros o Ho.
        rewrite Forall_forall in Ht. pose proof (Ht o Ho) as Hto. pose proof (HD o Ho) as Hdo.
        destruct o; cbn in *; try done.
        - replace (t0 <=? u') with true by lia. by replace (t0 <=? t + d) with true by lia.
        - subst. replace (t0 + d <=? u') with true by lia. by replace (t0 + d <=? t + d) with true by lia. }
      rewrite (lsum_upd (fun v => ind (staked_with v u past)) _ L v HN).
      2:{ apply (HL (TUndel t v n d)); [|left]. apply elem_of_app. right. left. }
      2:{ intros x Hx. rewrite Hsw. cbn. destruct (N.eqb_spec v x); [congruence|]. cbn. by rewrite Z.add_0_r. }
      rewrite Hsw. cbn [top_val]. rewrite N.eqb_refl. cbn [andb].
      destruct (w_dec (tr_total k) (t + d) n) as [[tot x]|] eqn:E1; [|done].
      destruct (wm_dec (tr_vals k) v (t + d) n) as [[vals new]|] eqn:E3; [|done].
      destruct ((_ : result whole)) as [card|] eqn:E2 in E; [|done].
      injection E as <-. unfold validator_cardinality. cbn [tr_card].
      destruct (wm_dec_step _ _ _ _ _ _ GB E3) as (_ & -> & _).
      rewrite <-val_eq in E2. fold (validator_staked k v (t + d)) in E2. rewrite HV in E2.
      replace (negb (n =? 0)) with true in E2 by lia. rewrite andb_true_r in E2.
      assert (n <= staked_with v (t + d) past) as Hle.
      { unfold wm_dec in E3. destruct (w_dec (wm_get (tr_vals k) v) (t + d) n) as [[w z]|] eqn:E4; [|done].
        pose proof (step_ok_inv _ _ _ _ _ _ (GB v) E4 (t + d) ltac:(lia)) as Hk.
        rewrite <-HV. unfold validator_staked. rewrite val_eq. unfold sub128 in Hk.
        destruct (val (wm_get (tr_vals k) v) (t + d) <? n) eqn:E5; [done|lia]. }
      unfold ind at 2 3. destruct (staked_with v (t + d) past - n =? 0) eqn:E4.
      * destruct (w_dec64 (tr_card k) (t + d) 1) as [[c z]|] eqn:E5; [|done]. injection E2 as <-.
        rewrite val_eq, (step_val _ _ _ _ _ _ _ u (sub64_adds 1) GC E5).
        unfold validator_cardinality in HC. rewrite val_eq in HC. rewrite HC.
        destruct (t + d <=? u) eqn:E6; [|rewrite !Z.add_0_r; lia]. rewrite (Hflat u v) by lia.
        replace (staked_with v (t + d) past + - n =? 0) with true by lia.
        replace (staked_with v (t + d) past =? 0) with false by lia. lia.
      * injection E2 as <-. fold (validator_cardinality k u). rewrite HC.
        destruct (t + d <=? u) eqn:E6; [|rewrite !Z.add_0_r; lia]. rewrite (Hflat u v) by lia.
        replace (staked_with v (t + d) past + - n =? 0) with false by lia.
        replace (staked_with v (t + d) past =? 0) with false by lia. lia.
Qed.
Lemma c74_cardinality d ops k u :
  0 <= d -> t_run tr_new ops = Ok k -> steady d [] ops ->
  validator_cardinality k u = vals_with_stake u ops.
Proof.
  intros Hd HR HS. unfold vals_with_stake.
  assert (forall L, Z.of_nat (length (List.filter (fun v => negb (staked_with v u ops =? 0)) L)) =
    lsum (fun v => ind (staked_with v u ops)) L) as ->.
  { intros L. unfold ind. induction L as [|v L IH]; [done|]. cbn.
    destruct (staked_with v u ops =? 0); cbn; lia. }
  apply (c74_run d [] ops tr_new k); try done.
  - apply NoDup_remove_dups.
  - intros o v Ho Hv. apply elem_of_remove_dups, elem_of_list_In, in_flat_map.
    exists o. split; by apply elem_of_list_In.
  - intros o Ho. by apply elem_of_nil in Ho.
  - intros u'. unfold validator_cardinality, staked_with, ind. cbn. clear. induction (vals_of ops); cbn; lia.
Qed.
