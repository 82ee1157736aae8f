(** What the winner computation of the Condorcet module returns. *)
From Verif Require Import Base BaseProofs VotingModel CondModel CondSpec CondMatrix.

(** [c] is ahead of every other candidate by more than [out]. *)
Definition ahead (n : Z) (mg : Z -> Z -> Z) (c out : Z) : Prop :=
  inr n c /\ forall y, inr n y -> y <> c -> out < mg c y.
Lemma beats_ahead n mg c : beats_all n mg c <-> ahead n mg c 0.
Proof. done. Qed.

Definition need (v : Z) : Z := if 0 <? v then 0 else 1 - v.
Lemma need_nonneg v : 0 <= need v.
Proof. unfold need. destruct (0 <? v) eqn:E; lia. Qed.

Lemma column_ok m col : forall rows dist mm mn,
  mat_ok m -> inr (m_n m) col -> Forall (inr (m_n m)) rows ->
  exists mm' mn', column m col rows (dist, mm, mn) =
      Ok (dist + lsum (fun r => if r =? col then 0 else need (mval m col r)) rows, mm', mn') /\
    mm' <= mm /\
    (forall out, out < mm' <-> out < mm /\ forall r, r ∈ rows -> r <> col ->
        0 < mval m col r -> out < mval m col r) /\
    (forall out, mn' < out <-> mn < out /\ forall r, r ∈ rows -> r <> col ->
        mval m col r < 0 -> - mval m col r < out).
Proof.
  induction rows as [|r rows IH]; intros dist mm mn HM Hc HF; simpl.
  - exists mm, mn. rewrite Z.add_0_r. split; [done|]. split; [lia|].
    split; intros out; (split; [intros H; split; [done|]; intros r Hr; by apply not_elem_of_nil in Hr|tauto]).
  - inversion HF as [|? ? Hr HF']; subst. destruct (r =? col) eqn:E.
    + destruct (IH dist mm mn HM Hc HF') as (mm' & mn' & -> & A & B & C).
      exists mm', mn'. split; [f_equal; f_equal; f_equal; lia|]. split; [done|].
      split; intros out.
      * rewrite B. split; intros [H1 H2]; (split; [done|]); intros x Hx Hne; apply H2; try done;
          [apply elem_of_cons in Hx as [->|Hx]; [lia|done]|by right].
      * rewrite C. split; intros [H1 H2]; (split; [done|]); intros x Hx Hne; apply H2; try done;
          [apply elem_of_cons in Hx as [->|Hx]; [lia|done]|by right].
    + assert (col <> r) as Hne by lia.
      destruct (get_mval m col r HM Hc Hr Hne) as (c & -> & Hok & Hv).
      destruct c as [p| |v]; simpl in Hok, Hv.
      * destruct (IH dist (if p <? mm then p else mm) mn HM Hc HF') as (mm' & mn' & -> & A & B & C).
        exists mm', mn'. split.
        { f_equal. f_equal. f_equal. unfold need. replace (0 <? mval m col r) with true by lia. lia. }
        split; [destruct (p <? mm) eqn:?; lia|]. split; intros out.
        -- rewrite B. assert (out < (if p <? mm then p else mm) <-> out < mm /\ out < p) as ->
             by (destruct (p <? mm) eqn:?; lia).
           split.
           ++ intros [[H1 H2] H3]. split; [done|]. intros x [->|Hx]%elem_of_cons Hxn Hp; [lia|by apply H3].
           ++ intros [H1 H2]. split; [split; [done|]|].
              ** rewrite Hv. apply H2; [left|lia|lia].
              ** intros x Hx Hxn Hp. apply H2; [by right|done|done].
        -- rewrite C. split; intros [H1 H2]; (split; [done|]); intros x Hx Hxn Hp.
           ++ apply elem_of_cons in Hx as [->|Hx]; [lia|by apply H2].
           ++ apply H2; [by right|done|done].
      * destruct (IH (dist + 1) mm mn HM Hc HF') as (mm' & mn' & -> & A & B & C).
        exists mm', mn'. split.
        { f_equal. f_equal. f_equal. unfold need. replace (0 <? mval m col r) with false by lia. lia. }
        split; [done|]. split; intros out.
        -- rewrite B. split; intros [H1 H2]; (split; [done|]); intros x Hx Hxn Hp.
           ++ apply elem_of_cons in Hx as [->|Hx]; [lia|by apply H2].
           ++ apply H2; [by right|done|done].
        -- rewrite C. split; intros [H1 H2]; (split; [done|]); intros x Hx Hxn Hp.
           ++ apply elem_of_cons in Hx as [->|Hx]; [lia|by apply H2].
           ++ apply H2; [by right|done|done].
      * destruct (IH (dist + (v + 1)) mm (if mn <? v then v else mn) HM Hc HF')
          as (mm' & mn' & -> & A & B & C).
        exists mm', mn'. split.
        { f_equal. f_equal. f_equal. unfold need. replace (0 <? mval m col r) with false by lia. lia. }
        split; [done|]. split; intros out.
        -- rewrite B. split; intros [H1 H2]; (split; [done|]); intros x Hx Hxn Hp.
           ++ apply elem_of_cons in Hx as [->|Hx]; [lia|by apply H2].
           ++ apply H2; [by right|done|done].
        -- rewrite C. assert ((if mn <? v then v else mn) < out <-> mn < out /\ v < out) as ->
             by (destruct (mn <? v) eqn:?; lia).
           split.
           ++ intros [[H1 H2] H3]. split; [done|]. intros x [->|Hx]%elem_of_cons Hxn Hp; [lia|by apply H3].
           ++ intros [H1 H2]. split; [split; [done|]|].
              ** specialize (H2 r). rewrite <- Hv in H2. rewrite Z.opp_involutive in H2. apply H2; [left|lia|lia].
              ** intros x Hx Hxn Hp. apply H2; [by right|done|done].
Qed.

(** A column of [m], with [out] power outstanding. *)
Definition wins (m : matrix) (c : Z) : Prop := ahead (m_n m) (mval m) c 0.
Definition winnable (m : matrix) (out c : Z) : Prop :=
  0 < out /\ ahead (m_n m) (mval m) c (- out).

Lemma lsum_zero_iff {A} (f : A -> Z) l :
  (forall x, x ∈ l -> 0 <= f x) -> lsum f l = 0 <-> forall x, x ∈ l -> f x = 0.
Proof.
  induction l as [|a l IH]; simpl; intros H.
  - split; [intros _ x Hx; by apply not_elem_of_nil in Hx|done].
  - assert (0 <= f a) by (apply H; left). assert (forall x, x ∈ l -> 0 <= f x) as H' by (intros; apply H; by right).
    pose proof (lsum_nonneg f l H'). split.
    + intros E x [->|Hx]%elem_of_cons; [lia|]. apply IH; [done|lia|done].
    + intros E. assert (f a = 0) by (apply E; left).
      assert (lsum f l = 0); [|lia]. apply IH; [done|]. intros x Hx. apply E. by right.
Qed.

Lemma lsum_le_n (f : Z -> Z) (col : Z) (k : Z) l :
  (forall x, x ∈ l -> x <> col -> f x <= k) -> NoDup l -> col ∈ l -> 0 <= k -> f col = 0 ->
  lsum f l <= k * (Z.of_nat (length l) - 1).
Proof.
  intros Hf Hnd Hc Hk H0.
  assert (lsum f l <= lsum (fun x => k - (if x =? col then k else 0)) l) as H.
  { apply lsum_le. intros x Hx. destruct (x =? col) eqn:E; [assert (x = col) as -> by lia; lia|].
    specialize (Hf x Hx ltac:(lia)). lia. }
  etransitivity; [exact H|]. clear H Hf.
  assert (lsum (fun x => k - (if x =? col then k else 0)) l =
     k * Z.of_nat (length l) - (if mem col l then k else 0)) as ->.
  { clear Hc. induction l as [|a l IH]; simpl; [lia|].
    inversion Hnd as [|? ? Ha Hnd']; subst. rewrite IH by done. unfold mem. simpl.
    rewrite (Z.eqb_sym a col). destruct (col =? a) eqn:E; simpl.
    - assert (col = a) as -> by lia. apply mem_false in Ha. unfold mem in Ha. rewrite Ha. lia.
    - fold (mem col l). lia. }
  apply mem_true in Hc. rewrite Hc. lia.
Qed.

Lemma column_seq m col :
  mat_ok m -> inr (m_n m) col ->
  exists dist mm mn, column m col (seqZ 0 (m_n m)) (0, U128_MAX, 0) = Ok (dist, mm, mn) /\
    0 <= dist /\ (dist = 0 <-> wins m col) /\
    (wins m col -> forall out, out < mm <-> ahead (m_n m) (mval m) col out) /\
    (forall out, (dist <=? out * (m_n m - 1)) && (mn <? out) = true <-> winnable m out col).
Proof.
  intros HM Hc. pose proof (mo_n m HM) as Hn.
  destruct (column_ok m col (seqZ 0 (m_n m)) 0 U128_MAX 0 HM Hc) as (mm & mn & -> & A & B & C).
  { apply Forall_inr. intros x. rewrite elem_of_seqZ. lia. }
  set (g := fun r => if r =? col then 0 else need (mval m col r)).
  assert (forall x, x ∈ seqZ 0 (m_n m) -> 0 <= g x) as Hg.
  { intros x _. unfold g. destruct (x =? col); [lia|apply need_nonneg]. }
  exists (0 + lsum g (seqZ 0 (m_n m))), mm, mn. split; [done|].
  rewrite Z.add_0_l. split; [by apply lsum_nonneg|].
  assert (exists r, inr (m_n m) r /\ r <> col) as (r0 & Hr0 & Hr0c).
  { destruct (decide (col = 0)) as [->|]; [exists 1|exists 0]; unfold inr in *; lia. }
  split; [|split].
  - rewrite lsum_zero_iff by done. unfold wins, ahead. split.
    + intros H. split; [done|]. intros y Hy Hyc. specialize (H y ltac:(apply elem_of_seqZ; unfold inr in Hy; lia)).
      unfold g, need in H. destruct (y =? col) eqn:E; [lia|]. destruct (0 <? mval m col y) eqn:E2; lia.
    + intros [_ H] y Hy. apply elem_of_seqZ in Hy. unfold g, need. destruct (y =? col) eqn:E; [done|].
      specialize (H y ltac:(unfold inr; lia) ltac:(lia)). replace (0 <? mval m col y) with true by lia. done.
  - intros [_ Hw] out. rewrite B. split.
    + intros [_ H]. split; [done|]. intros y Hy Hyc. apply H; [apply elem_of_seqZ; unfold inr in Hy; lia|done|by apply Hw].
    + intros [_ H]. split.
      * specialize (H r0 Hr0 Hr0c). pose proof (mval_bounds m col r0 HM Hc Hr0 ltac:(lia)). lia.
      * intros y Hy Hyc _. apply elem_of_seqZ in Hy. apply H; [unfold inr; lia|done].
  - intros out. unfold winnable, ahead. split.
    + intros H. assert (mn < out) as H1 by lia. apply C in H1 as [H1 H2]. split; [done|]. split; [done|].
      intros y Hy Hyc. destruct (Z.lt_trichotomy (mval m col y) 0) as [Hl|[->|Hl]]; [|lia|lia].
      specialize (H2 y ltac:(apply elem_of_seqZ; unfold inr in Hy; lia) Hyc Hl). lia.
    + intros (H1 & _ & H2).
      assert (mn < out).
      { apply C. split; [done|]. intros y Hy Hyc Hl. apply elem_of_seqZ in Hy.
        specialize (H2 y ltac:(unfold inr; lia) Hyc). lia. }
      assert (lsum g (seqZ 0 (m_n m)) <= out * (m_n m - 1)); [|lia].
      etransitivity; [apply (lsum_le_n g col out)|].
      * intros x Hx Hxc. apply elem_of_seqZ in Hx. unfold g, need.
        replace (x =? col) with false by lia. specialize (H2 x ltac:(unfold inr; lia) Hxc).
        destruct (0 <? mval m col x) eqn:?; lia.
      * apply NoDup_seqZ.
      * apply elem_of_seqZ. unfold inr in Hc. lia.
      * lia.
      * unfold g. by rewrite Z.eqb_refl.
      * rewrite seqZ_length. rewrite Z2Nat.id by lia. lia.
Qed.

Lemma wins_unique m c c' : mat_ok m -> wins m c -> wins m c' -> c = c'.
Proof.
  intros HM [Hc H] [Hc' H']. destruct (decide (c = c')) as [|Hne]; [done|].
  specialize (H c' Hc' ltac:(congruence)). specialize (H' c Hc Hne).
  rewrite (mval_anti m c c') in H' by done. lia.
Qed.

Lemma columns_ok m out : forall cols nw,
  mat_ok m -> Forall (inr (m_n m)) cols ->
  exists st, columns m out cols nw = Ok st /\
  match st with
  | PositiveColumn c mm => c ∈ cols /\ wins m c /\ (out < mm <-> ahead (m_n m) (mval m) c out)
  | NoPositiveColumn b => (forall c, c ∈ cols -> ~ wins m c) /\
      (b = true <-> nw = true /\ forall c, c ∈ cols -> ~ winnable m out c)
  end.
Proof.
  induction cols as [|col cols IH]; intros nw HM HF; simpl.
  - eexists. split; [reflexivity|]. split; [intros c Hc; by apply not_elem_of_nil in Hc|].
    split; [intros ->; split; [done|]; intros c Hc; by apply not_elem_of_nil in Hc|tauto].
  - inversion HF as [|? ? Hc HF']; subst.
    destruct (column_seq m col HM Hc) as (dist & mm & mn & -> & Hd & Hw & Hmm & Hwin).
    destruct (dist =? 0) eqn:E.
    + eexists. split; [reflexivity|]. assert (wins m col) as W by (apply Hw; lia).
      split; [left|]. split; [done|]. by apply Hmm.
    + assert (~ wins m col) as W by (rewrite <- Hw; lia).
      destruct (IH (if (dist <=? out * (m_n m - 1)) && (mn <? out) then false else nw) HM HF')
        as (st & -> & Hst).
      eexists. split; [reflexivity|]. destruct st as [c mm'|b].
      * destruct Hst as (A & B & C). split; [by right|done].
      * destruct Hst as (A & B). split.
        { intros c [->|Hin]%elem_of_cons; [done|by apply A]. }
        rewrite B. specialize (Hwin out).
        destruct ((dist <=? out * (m_n m - 1)) && (mn <? out)).
        -- split; [intros [? _]; done|]. intros [_ H]. exfalso. apply (H col); [left|by apply Hwin].
        -- split; intros [H1 H2]; (split; [done|]).
           ++ intros c [->|Hin]%elem_of_cons; [|by apply H2]. rewrite <- Hwin. done.
           ++ intros c Hin. apply H2. by right.
Qed.

(** The reported winner in terms of the stored margins. *)
Definition winner_spec (n : Z) (mg : Z -> Z -> Z) (out : Z) (w : winner) : Prop :=
  match w with
  | WUndisputed c => ahead n mg c 0 /\ ahead n mg c out
  | WSome c => ahead n mg c 0 /\ ~ ahead n mg c out
  | WNone => (forall c, ~ ahead n mg c 0) /\ exists c, 0 < out /\ ahead n mg c (- out)
  | WNever => (forall c, ~ ahead n mg c 0) /\ forall c, ~ (0 < out /\ ahead n mg c (- out))
  end.
Lemma seqZ_exists_dec (P : Z -> Prop) (HP : forall x, P x \/ ~ P x) (l : list Z) :
  (exists x, x ∈ l /\ P x) \/ (forall x, x ∈ l -> ~ P x).
Proof.
  induction l as [|a l IH]; [right; intros x Hx; by apply not_elem_of_nil in Hx|].
  destruct (HP a) as [Ha|Ha]; [left; exists a; split; [left|done]|].
  destruct IH as [(x & Hx & Px)|H]; [left; exists x; split; [by right|done]|].
  right. intros x [->|Hx]%elem_of_cons; [done|by apply H].
Qed.
Lemma ahead_dec n mg c out : ahead n mg c out \/ ~ ahead n mg c out.
Proof.
  unfold ahead. destruct (decide (0 <= c < n)) as [Hc|Hc]; [|right; unfold inr; tauto].
  destruct (seqZ_exists_dec (fun y => y <> c /\ ~ out < mg c y)
    ltac:(intros x; destruct (decide (x = c)), (decide (out < mg c x)); tauto) (seqZ 0 n))
    as [(y & Hy & Hne & Hl)|H].
  - right. intros [_ H]. apply Hl, H; [apply elem_of_seqZ in Hy; unfold inr; lia|done].
  - left. split; [done|]. intros y Hy Hne.
    specialize (H y ltac:(apply elem_of_seqZ; unfold inr in Hy; lia)).
    destruct (decide (out < mg c y)); [done|tauto].
Qed.

Lemma compute_winner_ok m out :
  mat_ok m -> exists w, compute_winner m out = Ok w /\ winner_spec (m_n m) (mval m) out w.
Proof.
  intros HM. unfold compute_winner, get_stats.
  destruct (columns_ok m out (seqZ 0 (m_n m)) true HM) as (st & -> & H).
  { apply Forall_inr. intros x. rewrite elem_of_seqZ. lia. }
  destruct st as [c mm|b].
  - destruct H as (_ & W & H). destruct (out <? mm) eqn:E; (eexists; split; [reflexivity|]); simpl.
    + split; [done|]. apply H. lia.
    + split; [done|]. rewrite <- H. lia.
  - destruct H as (A & B).
    assert (forall c, ~ ahead (m_n m) (mval m) c 0) as A'.
    { intros c [Hc H]. apply (A c); [apply elem_of_seqZ; unfold inr in Hc; lia|done]. }
    destruct b; (eexists; split; [reflexivity|]); simpl; (split; [done|]).
    + destruct B as [B _]. destruct (B eq_refl) as [_ B']. intros c [Ho [Hc H]].
      apply (B' c); [apply elem_of_seqZ; unfold inr in Hc; lia|done].
    + destruct (seqZ_exists_dec (winnable m out)
        ltac:(intros x; unfold winnable; destruct (ahead_dec (m_n m) (mval m) x (- out)), (decide (0 < out)); tauto)
        (seqZ 0 (m_n m))) as [(c & _ & H)|H]; [eauto|].
      exfalso. destruct B as [_ B]. discriminate B. split; done.
Qed.
Lemma compute_winner_inv m out w :
  mat_ok m -> compute_winner m out = Ok w -> winner_spec (m_n m) (mval m) out w.
Proof. intros HM H. destruct (compute_winner_ok m out HM) as (w' & H' & Hs). congruence. Qed.

Lemma winner_spec_ext n mg mg' out w :
  (forall x y, inr n x -> inr n y -> x <> y -> mg x y = mg' x y) ->
  winner_spec n mg out w -> winner_spec n mg' out w.
Proof.
  intros H. assert (forall c o, ahead n mg c o <-> ahead n mg' c o) as E.
  { intros c o. unfold ahead. split; intros [Hc Ha]; (split; [done|]); intros y Hy Hne;
      specialize (Ha y Hy Hne); [rewrite <- H|rewrite H]; try done; congruence. }
  destruct w; simpl; setoid_rewrite E; done.
Qed.
