(** Lemmas about snapshots of wormholes. *)
From Verif Require Import Base BaseProofs WormModel WormSpec.

Fixpoint wsorted (w : whole) : Prop :=
  match w with [] => True | e :: w' => Forall (fun e' => e.1 < e'.1) w' /\ wsorted w' end.
Definition between (w : whole) (t u : Z) : bool :=
  existsb (fun e => (t <? e.1) && (e.1 <=? u)) w.
Definition val (w : whole) (t : Z) : Z := default 0 (w_load w t).

Lemma save_keys w t v (P : Z -> Prop) :
  P t -> Forall (fun e => P e.1) w -> Forall (fun e => P e.1) (w_save w t v).
Proof.
  intros Ht. induction w as [|[t' v'] w IH]; cbn; intros H; [by repeat constructor|].
  inversion H; subst; cbn in *. repeat case_match; repeat constructor; auto.
Qed.
Lemma save_sorted w t v : wsorted w -> wsorted (w_save w t v).
Proof.
  induction w as [|[t' v'] w IH]; cbn; [by repeat constructor|]. intros [Hf Hs].
  destruct (t <? t') eqn:E1; [|destruct (t' =? t) eqn:E2].
  - cbn. split; [|done]. constructor; [cbn; lia|]. eapply Forall_impl; [exact Hf|]. cbn. intros; lia.
  - cbn. split; [|done]. by assert (t' = t) as -> by lia.
  - cbn. split; [|by apply IH]. apply (save_keys w t v (fun x => t' < x)); [lia|done].
Qed.
Lemma find_none w u acc :
  Forall (fun e => u < e.1) w -> w_find w u acc = acc.
Proof.
  revert acc. induction w as [|[t v] w IH]; cbn; intros acc H; [done|].
  inversion H; subst; cbn in *. replace (t <=? u) with false by lia. by apply IH.
Qed.
Lemma between_none w t u : Forall (fun e => u < e.1) w -> between w t u = false.
Proof.
  unfold between. induction w as [|e w IH]; cbn; intros H; [done|]. inversion H; subst.
  rewrite IH by done. lia.
Qed.
Lemma between_acc w t u acc acc' : wsorted w -> between w t u = true -> w_find w u acc = w_find w u acc'.
Proof.
  intros Hs. revert acc acc'. induction w as [|[t' v] w IH]; cbn; intros acc acc' H; [done|].
  destruct Hs as [_ Hs]. unfold between in H. cbn in H. fold (between w t u) in H.
  destruct (t' <=? u) eqn:E; [done|]. rewrite andb_false_r in H. by apply IH.
Qed.
Lemma save_find w t v u acc :
  wsorted w ->
  w_find (w_save w t v) u acc =
    if t <=? u then (if between w t u then w_find w u acc else Some v) else w_find w u acc.
Proof.
  revert acc. induction w as [|[t' v'] w IH]; intros acc Hs.
  { cbn. by destruct (t <=? u). }
  destruct Hs as [Hf Hs]. cbn [fst] in Hf.
  change (between ((t', v') :: w) t u) with (((t <? t') && (t' <=? u)) || between w t u).
  cbn [w_save]. destruct (t <? t') eqn:E1; [|destruct (t' =? t) eqn:E2].
  - cbn [w_find]. destruct (t <=? u) eqn:E3.
    + destruct (t' <=? u) eqn:E4; cbn; [done|].
      assert (Forall (fun e : Z * Z => u < e.1) w) by (eapply Forall_impl; [exact Hf|]; cbn; intros; lia).
      by rewrite between_none, find_none by done.
    + destruct (t' <=? u) eqn:E4; [lia|]. done.
  - assert (t' = t) as -> by lia. cbn [w_find andb orb]. destruct (t <=? u) eqn:E3; [|done].
    destruct (between w t u) eqn:E4; [by eapply between_acc|].
    assert (forall x acc', between x t u = false -> Forall (fun e : Z * Z => t < e.1) x -> w_find x u acc' = acc') as Hn.
    { clear. intros x. unfold between. induction x as [|[a b] x IH]; cbn; intros acc' H Hf; [done|].
      apply orb_false_iff in H as [H1 H2].
      inversion Hf; subst; cbn in *. replace (a <=? u) with false by lia. by apply IH. }
    by rewrite Hn.
  - cbn [w_find andb orb]. rewrite IH by done. destruct (t <=? u) eqn:E3; [|done].
    by destruct (between w t u).
Qed.
Lemma find_same w t u acc : t <= u -> between w t u = false -> w_find w u acc = w_find w t acc.
Proof.
  intros Hle. revert acc. unfold between. induction w as [|[a b] w IH]; cbn; intros acc H; [done|].
  apply orb_false_iff in H as [H1 H2]. replace (a <=? u) with (a <=? t) by lia. by apply IH.
Qed.
Lemma between_save w t v u : between (w_save w t v) t u = between w t u.
Proof.
  unfold between. induction w as [|[a b] w IH]; cbn; [lia|].
  destruct (t <? a) eqn:E1; [|destruct (a =? t) eqn:E2]; cbn; rewrite ?E1, ?IH; try done;
    repeat match goal with |- context [t <? ?x] => replace (t <? x) with false by lia end; done.
Qed.
Lemma between_find w t u acc :
  wsorted w -> between w t u = true -> exists x, w_find w u acc = Some x.
Proof.
  revert acc. unfold between. induction w as [|[a b] w IH]; cbn; intros acc Hs H; [done|].
  destruct Hs as [_ Hs]. destruct (existsb _ w) eqn:E; [by apply IH|].
  rewrite orb_false_r in H. replace (a <=? u) with true by lia.
  clear IH H. revert acc. assert (forall y, exists x, w_find w u (Some y) = Some x) as H; [|intros; apply H].
  clear. induction w as [|[c d] w IH]; cbn; intros y; [eauto|]. by destruct (c <=? u).
Qed.

Section later.
  Context {A : Type}.
  Variable f : A -> Z -> Z -> result (Z * A).
  Variable d : Z.
  Hypothesis Hf : forall a v t x a', f a v t = Ok (x, a') -> x = v + d.

  Lemma later_find w t a w' a' u acc :
    wsorted w -> w_later f w t a = Ok (w', a') ->
    wsorted w' /\ map fst w' = map fst w /\
    w_find w' u acc =
      if between w t u then option_map (fun x => x + d) (w_find w u acc) else w_find w u acc.
  Proof.
    revert a w' a' acc. induction w as [|[s v] w IH]; intros a w' a' acc Hs H.
    { cbn in H. injection H as <- <-. done. }
    destruct Hs as [Hlt Hs]. cbn [fst] in Hlt.
    change (between ((s, v) :: w) t u) with (((t <? s) && (s <=? u)) || between w t u).
    cbn [w_later] in H. destruct (t <? s) eqn:E1; cbn [andb orb].
    - destruct (f a v s) as [[x a1]|] eqn:Ef; [|done].
      destruct (w_later f w t a1) as [[w1 a2]|] eqn:El; [|done]. injection H as <- <-.
      apply Hf in Ef as ->.
      pose proof (IH a1 w1 a2 (if s <=? u then Some (v + d) else acc) Hs El) as (S1 & K1 & F1).
      split; [|split].
      + cbn. split; [|done]. rewrite Forall_forall in *. intros e He.
        assert (e.1 ∈ map fst w) as Hin by (rewrite <-K1; by apply elem_of_list_fmap_1).
        apply elem_of_list_fmap in Hin as (e' & -> & He'). by apply Hlt.
      + cbn. by rewrite K1.
      + cbn [w_find]. rewrite F1. destruct (s <=? u) eqn:E2; cbn [orb].
        * destruct (between w t u) eqn:E3; [by rewrite (between_acc w t u _ (Some v) Hs E3)|].
          rewrite !(find_same w t u) by (done || lia).
          assert (Forall (fun e : Z * Z => t < e.1) w) by (eapply Forall_impl; [exact Hlt|]; cbn; intros; lia).
          by rewrite !find_none.
        * done.
    - destruct (w_later f w t a) as [[w1 a1]|] eqn:El; [|done]. injection H as <- <-.
      pose proof (IH a w1 a1 (if s <=? u then Some v else acc) Hs El) as (S1 & K1 & F1).
      split; [|split].
      + cbn. split; [|done]. rewrite Forall_forall in *. intros e He.
        assert (e.1 ∈ map fst w) as Hin by (rewrite <-K1; by apply elem_of_list_fmap_1).
        apply elem_of_list_fmap in Hin as (e' & -> & He'). by apply Hlt.
      + cbn. by rewrite K1.
      + cbn [w_find]. by rewrite F1.
  Qed.

  (** An update adds [d] from [t] on. *)
  Lemma update_load w t a w' v a' u :
    wsorted w -> w_update f w t a = Ok (w', v, a') ->
    wsorted w' /\ v = val w t + d /\
    w_load w' u = if t <=? u then Some (val w u + d) else w_load w u.
  Proof.
    intros Hs H. unfold w_update in H.
    destruct (f a (default 0 (w_load w t)) t) as [[x a1]|] eqn:Ef; [|done].
    destruct (w_later f (w_save w t x) t a1) as [[w1 a2]|] eqn:El; [|done].
    injection H as <- <- <-. pose proof (Hf _ _ _ _ _ Ef) as Hx.
    pose proof (later_find _ _ _ _ _ u None (save_sorted _ t x Hs) El) as (S1 & _ & F1).
    split; [done|]. split; [done|]. unfold w_load at 1. rewrite F1.
    rewrite between_save, save_find by done.
    destruct (t <=? u) eqn:E1.
    - destruct (between w t u) eqn:E2.
      + destruct (between_find w t u None Hs E2) as [y Hy]. unfold val, w_load. by rewrite Hy.
      + unfold val, w_load. rewrite (find_same w t u) by (done || lia). f_equal. apply Hx.
    - assert (between w t u = false) as ->; [|done].
      unfold between. apply not_true_iff_false. intros (e & _ & He)%existsb_exists. lia.
  Qed.
  Lemma update_val w t a w' v a' u :
    wsorted w -> w_update f w t a = Ok (w', v, a') ->
    val w' u = val w u + (if t <=? u then d else 0).
  Proof.
    intros Hs H. destruct (update_load _ _ _ _ _ _ u Hs H) as (_ & _ & E). unfold val at 1.
    rewrite E. destruct (t <=? u); cbn; [done|unfold val; lia].
  Qed.
End later.

(** Success: every value from [t] on can be changed. *)
Lemma later_ok {A} (f : A -> Z -> Z -> result (Z * A)) w t a :
  (forall a v t', (t', v) ∈ w -> t < t' -> is_ok (f a v t') = true) -> is_ok (w_later f w t a) = true.
Proof.
  revert a. induction w as [|[s v] w IH]; intros a H; cbn; [done|].
  destruct (t <? s) eqn:E.
  - pose proof (H a v s ltac:(left) ltac:(lia)) as H1. destruct (f a v s) as [[x a1]|]; [|done].
    specialize (IH a1 ltac:(intros; apply H; [by right|done])).
    by destruct (w_later f w t a1) as [[? ?]|].
  - specialize (IH a ltac:(intros; apply H; [by right|done])).
    by destruct (w_later f w t a) as [[? ?]|].
Qed.
Lemma sorted_find w t v acc : wsorted w -> (t, v) ∈ w -> w_find w t acc = Some v.
Proof.
  revert acc. induction w as [|[s x] w IH]; intros acc Hs H; [by apply elem_of_nil in H|].
  destruct Hs as [Hf Hs]. apply elem_of_cons in H as [H|H].
  - injection H as <- <-. cbn. replace (t <=? t) with true by lia. by apply find_none.
  - cbn. by apply IH.
Qed.
Lemma save_elem w t v t' v' : wsorted w -> (t', v') ∈ w_save w t v -> t < t' -> (t', v') ∈ w.
Proof.
  induction w as [|[s x] w IH]; cbn; intros Hs H Hlt.
  - apply elem_of_list_singleton in H. injection H as -> ->. lia.
  - destruct Hs as [Hf Hs]. destruct (t <? s) eqn:E1; [|destruct (s =? t) eqn:E2].
    + apply elem_of_cons in H as [H|H]; [injection H as -> ->; lia|done].
    + apply elem_of_cons in H as [H|H]; [injection H as -> ->; lia|by right].
    + apply elem_of_cons in H as [H|H]; [injection H as -> ->; left|right; by apply IH].
Qed.
Lemma update_ok {A} (f : A -> Z -> Z -> result (Z * A)) w t a :
  wsorted w -> (forall a u t', t <= u -> is_ok (f a (val w u) t') = true) ->
  is_ok (w_update f w t a) = true.
Proof.
  intros Hs H. unfold w_update. pose proof (H a t t ltac:(lia)) as H1. unfold val in H1.
  destruct (f a (default 0 (w_load w t)) t) as [[x a1]|]; [|done].
  pose proof (later_ok f (w_save w t x) t a1) as H2.
  destruct (w_later f (w_save w t x) t a1) as [[? ?]|]; [done|]. cbn in H2. apply H2.
  intros a2 v t' Hin Hlt. apply save_elem in Hin; [|done|done].
  pose proof (H a2 t' t' ltac:(lia)) as H3. unfold val, w_load in H3.
  by rewrite (sorted_find _ _ _ None Hs Hin) in H3.
Qed.
(** Values that occur: the ones loaded at snapshot times. *)
Lemma load_elem w u x : w_load w u = Some x -> exists t, (t, x) ∈ w /\ t <= u.
Proof.
  unfold w_load. assert (forall acc, w_find w u acc = Some x ->
    acc = Some x \/ exists t, (t, x) ∈ w /\ t <= u) as H; [|intros Hx; destruct (H _ Hx); [done|done]].
  induction w as [|[s v] w IH]; cbn; intros acc Hx; [by left|].
  destruct (IH _ Hx) as [E|(t & A & B)]; [|right; exists t; split; [by right|done]].
  destruct (s <=? u) eqn:E1; [|by left]. injection E as <-. right. exists s. split; [left|lia].
Qed.
Lemma later_ok_inv {A} (f : A -> Z -> Z -> result (Z * A)) w t a w' a' :
  w_later f w t a = Ok (w', a') ->
  forall t' v, (t', v) ∈ w -> t < t' -> exists a, is_ok (f a v t') = true.
Proof.
  revert a w' a'. induction w as [|[s v] w IH]; intros a w' a' H t' v' Hin Hlt; [by apply elem_of_nil in Hin|].
  cbn in H. apply elem_of_cons in Hin. destruct (t <? s) eqn:E.
  - destruct (f a v s) as [[x a1]|] eqn:Ef; [|done].
    destruct (w_later f w t a1) as [[? ?]|] eqn:El; [|done].
    destruct Hin as [Hin|Hin]; [injection Hin as -> ->; exists a; by rewrite Ef|by eapply IH].
  - destruct (w_later f w t a) as [[? ?]|] eqn:El; [|done].
    destruct Hin as [Hin|Hin]; [injection Hin as -> ->; lia|by eapply IH].
Qed.

(** ** Steps *)
Definition op_adds (op : Z -> Z -> result Z) (i d : Z) : Prop := forall v x, op v i = Ok x -> x = v + d.
Lemma add128_adds i : op_adds add128 i i.
Proof. intros v x H. unfold add128 in H. case_match; simplify_eq; done. Qed.
Lemma sub128_adds i : op_adds sub128 i (- i).
Proof. intros v x H. unfold sub128 in H. case_match; simplify_eq; lia. Qed.
Lemma add64_adds i : op_adds add64 i i.
Proof. intros v x H. unfold add64 in H. case_match; simplify_eq; done. Qed.
Lemma sub64_adds i : op_adds sub64 i (- i).
Proof. intros v x H. unfold sub64 in H. case_match; simplify_eq; lia. Qed.

Lemma step_load op w t i d w' v u :
  op_adds op i d -> wsorted w -> w_step op w t i = Ok (w', v) ->
  wsorted w' /\ v = val w t + d /\ w_load w' u = if t <=? u then Some (val w u + d) else w_load w u.
Proof.
  intros Hop Hs H. unfold w_step in H.
  destruct (w_update _ w t tt) as [[[w1 v1] []]|] eqn:E; [|done]. injection H as <- <-.
  eapply update_load; [|done|exact E]. intros [] v2 t2 x [] Hx. cbn in Hx.
  destruct (op v2 i) eqn:E2; [|done]. injection Hx as <-. by apply Hop.
Qed.
Lemma step_val op w t i d w' v u :
  op_adds op i d -> wsorted w -> w_step op w t i = Ok (w', v) ->
  val w' u = val w u + (if t <=? u then d else 0).
Proof.
  intros Hop Hs H. destruct (step_load _ _ _ _ _ _ _ u Hop Hs H) as (_ & _ & E).
  unfold val at 1. rewrite E. destruct (t <=? u); cbn; [done|unfold val; lia].
Qed.
Lemma step_sorted op w t i d w' v :
  op_adds op i d -> wsorted w -> w_step op w t i = Ok (w', v) -> wsorted w'.
Proof. intros Hop Hs H. by destruct (step_load _ _ _ _ _ _ _ 0 Hop Hs H). Qed.
Lemma step_ok op w t i :
  wsorted w -> (forall u, t <= u -> is_ok (op (val w u) i) = true) -> is_ok (w_step op w t i) = true.
Proof.
  intros Hs H. unfold w_step.
  pose proof (update_ok (fun (_ : unit) v _ => do! x <- op v i; Ok (x, tt)) w t tt Hs) as H1.
  destruct (w_update _ w t tt) as [[[? ?] ?]|]; [done|]. apply H1.
  intros _ u _ Hu. specialize (H u Hu). by destruct (op (val w u) i).
Qed.
Lemma step_ok_inv op w t i w' v :
  wsorted w -> w_step op w t i = Ok (w', v) -> forall u, t <= u -> is_ok (op (val w u) i) = true.
Proof.
  intros Hs H u Hu. unfold w_step, w_update in H.
  destruct (op (default 0 (w_load w t)) i) as [x|] eqn:E1; [|done].
  destruct (w_later _ (w_save w t x) t tt) as [[w1 a1]|] eqn:El; [|done].
  destruct (between w t u) eqn:Eb.
  - destruct (between_find w t u None Hs Eb) as [y Hy].
    unfold val, w_load. rewrite Hy. cbn.
    assert (exists s, (s, y) ∈ w /\ t < s) as (s & Hin & Hlt).
    { revert Hy Eb Hs. clear. generalize (@None Z). unfold between.
      induction w as [|[a b] w IH]; cbn; intros acc Hy Eb Hs; [done|].
      destruct Hs as [Hf Hs]. destruct (existsb _ w) eqn:E.
      - destruct (IH _ Hy eq_refl Hs) as (s & ? & ?). exists s. split; [by right|done].
      - rewrite orb_false_r in Eb. replace (a <=? u) with true in Hy by lia.
        assert (forall acc', existsb (fun e : Z * Z => (t <? e.1) && (e.1 <=? u)) w = false ->
           Forall (fun e : Z * Z => a < e.1) w -> w_find w u acc' = acc') as Hn.
        { assert (t < a) as Ha by lia. clear -Ha. induction w as [|[c d] w IH]; cbn; intros acc' H Hf; [done|].
          apply orb_false_iff in H as [H1 H2].
          inversion Hf; subst; cbn in *. replace (c <=? u) with false by lia. by apply IH. }
        rewrite Hn in Hy by done. injection Hy as <-. exists a. split; [left|lia]. }
    assert ((s, y) ∈ w_save w t x) as Hin'.
    { clear -Hin Hlt. induction w as [|[a b] w IH]; [by apply elem_of_nil in Hin|].
      cbn. apply elem_of_cons in Hin as [Hin|Hin].
      - injection Hin as <- <-. replace (t <? s) with true by lia. right. left.
      - destruct (t <? a); [right; by right|]. destruct (a =? t); [by right|]. right. by apply IH. }
    destruct (later_ok_inv _ _ _ _ _ _ El s y Hin' Hlt) as [[] Hok]. by destruct (op y i).
  - unfold val, w_load in *. rewrite (find_same w t u) by (done || lia). by rewrite E1.
Qed.
Lemma save_one_load w t v u :
  wsorted w -> w_load (w_save w t v) u =
    if (t <=? u) && negb (between w t u) then Some v else w_load w u.
Proof.
  intros Hs. unfold w_load. rewrite save_find by done. by destruct (t <=? u), (between w t u).
Qed.
