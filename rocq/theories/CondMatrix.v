(** The packed margin matrix of the Condorcet module. *)
From Verif Require Import Base BaseProofs VotingModel CondModel CondSpec.

Lemma u32_ok z r : u32 z = Ok r -> r = z /\ 0 <= z <= U32_MAX.
Proof. unfold u32. destruct (_ && _) eqn:E; intros [= <-]. lia. Qed.
Lemma u32_eq z : 0 <= z <= U32_MAX -> u32 z = Ok z.
Proof. unfold u32. intros H. replace ((0 <=? z) && (z <=? U32_MAX)) with true by lia. done. Qed.

Definition cell_ok (c : cell) : Prop :=
  match c with
  | Positive p => 0 < p <= U128_MAX | Zero => True | Negative v => 0 < v <= U128_MAX
  end.
Record mat_ok (m : matrix) : Prop := {
  mo_n : 2 <= m_n m;
  mo_sq : m_n m * (m_n m - 1) <= U32_MAX;
  mo_len : Z.of_nat (length (m_cells m)) = m_n m * (m_n m - 1) / 2;
  mo_cells : Forall cell_ok (m_cells m) }.

(** ** Cells *)
Lemma cell_invert_val c : val (cell_invert c) = - val c.
Proof. destruct c; simpl; lia. Qed.
Lemma cell_invert_ok c : cell_ok c -> cell_ok (cell_invert c).
Proof. by destruct c. Qed.
Lemma cell_bounds c : cell_ok c -> - U128_MAX <= val c <= U128_MAX.
Proof. destruct c; simpl; unfold U128_MAX; lia. Qed.
Lemma cell_increment_ok c a c' :
  cell_ok c -> 0 < a <= U128_MAX -> cell_increment c a = Ok c' ->
  cell_ok c' /\ val c' = val c + a.
Proof.
  destruct c as [p| |v]; simpl; intros Hc Ha H.
  - destruct (add128 p a) as [x|] eqn:E; [|discriminate]. injection H as <-.
    apply add128_ok in E as [-> E]. simpl. lia.
  - injection H as <-. simpl. lia.
  - destruct (a =? v) eqn:E1; [injection H as <-; simpl; lia|].
    destruct (v <? a) eqn:E2; injection H as <-; simpl; lia.
Qed.
Lemma cell_decrement_ok c a c' :
  cell_ok c -> 0 < a <= U128_MAX -> cell_decrement c a = Ok c' ->
  cell_ok c' /\ val c' = val c - a.
Proof.
  destruct c as [p| |v]; simpl; intros Hc Ha H.
  - destruct (a =? p) eqn:E1; [injection H as <-; simpl; lia|].
    destruct (p <? a) eqn:E2; injection H as <-; simpl; lia.
  - injection H as <-. simpl. lia.
  - destruct (add128 v a) as [x|] eqn:E; [|discriminate]. injection H as <-.
    apply add128_ok in E as [-> E]. simpl. lia.
Qed.
Lemma cell_increment_total c a :
  cell_ok c -> val c + a <= U128_MAX -> exists c', cell_increment c a = Ok c'.
Proof.
  destruct c as [p| |v]; simpl; intros Hc Ha.
  - rewrite add128_eq by lia. eauto.
  - eauto.
  - destruct (a =? v); [eauto|]. destruct (v <? a); eauto.
Qed.
Lemma cell_decrement_total c a :
  cell_ok c -> - U128_MAX <= val c - a -> exists c', cell_decrement c a = Ok c'.
Proof.
  destruct c as [p| |v]; simpl; intros Hc Ha.
  - destruct (a =? p); [eauto|]. destruct (p <? a); eauto.
  - eauto.
  - rewrite add128_eq by lia. eauto.
Qed.

(** ** Packing *)
Definition tri (y : Z) : Z := (y + 1) * y / 2.
Definition rowstart (n y : Z) : Z := y * n - tri y.
Definition idx (n x y : Z) : Z := rowstart n y + (x - (y + 1)).

Lemma tri_step y : tri (y + 1) = tri y + (y + 1).
Proof.
  unfold tri. replace ((y + 1 + 1) * (y + 1)) with ((y + 1) * y + (y + 1) * 2) by ring.
  rewrite Z.div_add by lia. lia.
Qed.
Lemma rowstart_step n y : rowstart n (y + 1) = rowstart n y + (n - y - 1).
Proof. unfold rowstart. rewrite tri_step. ring. Qed.
Lemma rowstart_mono n k : forall y, 0 <= y -> y + Z.of_nat k <= n ->
  rowstart n y <= rowstart n (y + Z.of_nat k).
Proof.
  induction k as [|k IH]; intros y Hy Hk.
  - replace (y + Z.of_nat 0) with y by lia. lia.
  - replace (y + Z.of_nat (S k)) with (y + Z.of_nat k + 1) by lia.
    rewrite rowstart_step. specialize (IH y Hy ltac:(lia)). lia.
Qed.
Lemma rowstart_le n y y' : 0 <= y <= y' -> y' <= n -> rowstart n y <= rowstart n y'.
Proof.
  intros H1 H2. replace y' with (y + Z.of_nat (Z.to_nat (y' - y))) by lia.
  apply rowstart_mono; lia.
Qed.
Lemma rowstart_last n : rowstart n (n - 1) = n * (n - 1) / 2.
Proof.
  unfold rowstart, tri. replace (n - 1 + 1) with n by lia.
  assert (n * (n - 1) / 2 + n * (n - 1) / 2 = (n - 1) * n) as H; [|lia].
  assert (Z.Even (n * (n - 1))) as [k Hk].
  { destruct (Z.Even_or_Odd n) as [[k ->]|[k ->]]; [exists (k * (2 * k - 1))|exists ((2 * k + 1) * k)]; ring. }
  rewrite Hk. replace (2 * k) with (k * 2) by ring. rewrite Z.div_mul by lia. lia.
Qed.
Lemma rowstart_nonneg n y : 0 <= y <= n -> 0 <= rowstart n y.
Proof.
  intros H. pose proof (rowstart_le n 0 y ltac:(lia) ltac:(lia)) as H0.
  change (rowstart n 0) with (0 * n - 0) in H0. lia.
Qed.
Lemma idx_range n x y : 0 <= y < x -> x < n -> 0 <= idx n x y < n * (n - 1) / 2.
Proof.
  intros H1 H2. unfold idx. pose proof (rowstart_nonneg n y ltac:(lia)).
  pose proof (rowstart_le n (y + 1) (n - 1) ltac:(lia) ltac:(lia)) as H3.
  rewrite rowstart_step, rowstart_last in H3. lia.
Qed.
Lemma idx_inj n x y x' y' :
  0 <= y < x -> x < n -> 0 <= y' < x' -> x' < n -> idx n x y = idx n x' y' ->
  x = x' /\ y = y'.
Proof.
  intros A1 A2 B1 B2 E. unfold idx in E.
  destruct (Z.lt_trichotomy y y') as [Hl|[->|Hl]].
  - pose proof (rowstart_le n (y + 1) y' ltac:(lia) ltac:(lia)) as H.
    rewrite rowstart_step in H. lia.
  - lia.
  - pose proof (rowstart_le n (y' + 1) y ltac:(lia) ltac:(lia)) as H.
    rewrite rowstart_step in H. lia.
Qed.

Lemma index_eq m x y :
  mat_ok m -> 0 <= y < x -> x < m_n m -> index m x y = Ok (idx (m_n m) x y).
Proof.
  intros [Hn Hsq Hlen _] H1 H2. unfold index. set (n := m_n m) in *.
  pose proof (idx_range n x y H1 H2) as Hi.
  pose proof (rowstart_nonneg n y ltac:(lia)) as Hr.
  assert (y * n <= n * (n - 1)) by nia.
  assert (0 <= (y + 1) * y <= n * (n - 1)) as Ht by nia.
  assert (n <= n * (n - 1)) by nia.
  assert (n * (n - 1) / 2 <= n * (n - 1)) by (apply Z.div_le_upper_bound; lia).
  assert (0 <= (y + 1) * y / 2) by (apply Z.div_pos; lia).
  assert (rowstart n y <= y * n) by (unfold rowstart, tri; lia).
  rewrite (u32_eq (y * n)) by nia. rewrite (u32_eq (y + 1)) by lia.
  rewrite (u32_eq ((y + 1) * y)) by lia.
  fold (tri y). fold (rowstart n y). rewrite u32_eq by lia.
  rewrite (u32_eq (x - (y + 1))) by lia. fold (idx n x y). rewrite u32_eq by lia. done.
Qed.

Lemma cell_at_eq m x y :
  mat_ok m -> 0 <= y < x -> x < m_n m ->
  exists c, m_cells m !! Z.to_nat (idx (m_n m) x y) = Some c /\ cell_ok c /\
    cell_at m (idx (m_n m) x y) = Ok c.
Proof.
  intros HM H1 H2. pose proof (idx_range _ x y H1 H2) as Hi.
  destruct (lookup_lt_is_Some_2 (m_cells m) (Z.to_nat (idx (m_n m) x y))) as [c Hc].
  { pose proof (mo_len m HM). lia. }
  exists c. split; [done|]. split.
  - pose proof (mo_cells m HM) as HF. rewrite Forall_lookup in HF. by eapply HF.
  - unfold cell_at. rewrite Hc. done.
Qed.

(** The margin stored for a pair. *)
Definition mval (m : matrix) (x y : Z) : Z :=
  match get m x y with Ok c => val c | Err _ => 0 end.
Definition inr (n x : Z) : Prop := 0 <= x < n.

Lemma get_ok m x y :
  mat_ok m -> inr (m_n m) x -> inr (m_n m) y -> x <> y ->
  exists c, get m x y = Ok c /\ cell_ok c.
Proof.
  intros HM [Hx Hx'] [Hy Hy'] Hne. unfold get. destruct (x <? y) eqn:E.
  - rewrite index_eq by (done || lia).
    destruct (cell_at_eq m y x HM ltac:(lia) ltac:(lia)) as (c & _ & Hc & ->).
    eexists. split; [reflexivity|]. by apply cell_invert_ok.
  - rewrite index_eq by (done || lia).
    destruct (cell_at_eq m x y HM ltac:(lia) ltac:(lia)) as (c & _ & Hc & ->). eauto.
Qed.
Lemma get_mval m x y :
  mat_ok m -> inr (m_n m) x -> inr (m_n m) y -> x <> y ->
  exists c, get m x y = Ok c /\ cell_ok c /\ val c = mval m x y.
Proof.
  intros HM Hx Hy Hne. destruct (get_ok m x y HM Hx Hy Hne) as (c & Hg & Hc).
  exists c. unfold mval. rewrite Hg. done.
Qed.
Lemma mval_anti m x y :
  mat_ok m -> inr (m_n m) x -> inr (m_n m) y -> x <> y -> mval m y x = - mval m x y.
Proof.
  intros HM Hx Hy Hne. unfold inr in *. unfold mval, get.
  destruct (x <? y) eqn:E1, (y <? x) eqn:E2; try lia.
  - rewrite index_eq by (done || lia).
    destruct (cell_at_eq m y x HM ltac:(lia) ltac:(lia)) as (c & _ & Hc & ->).
    rewrite cell_invert_val. lia.
  - rewrite index_eq by (done || lia).
    destruct (cell_at_eq m x y HM ltac:(lia) ltac:(lia)) as (c & _ & Hc & ->).
    apply cell_invert_val.
Qed.
Lemma mval_bounds m x y :
  mat_ok m -> inr (m_n m) x -> inr (m_n m) y -> x <> y ->
  - U128_MAX <= mval m x y <= U128_MAX.
Proof.
  intros HM Hx Hy Hne. destruct (get_mval m x y HM Hx Hy Hne) as (c & _ & Hc & <-).
  by apply cell_bounds.
Qed.

(** ** Creation *)
Lemma matrix_new_ok n m :
  2 <= n -> matrix_new n = Ok m ->
  mat_ok m /\ m_n m = n /\ forall x y, mval m x y = 0.
Proof.
  unfold matrix_new. intros Hn H. res_inv H.
  repeat match goal with E : u32 _ = Ok _ |- _ => apply u32_ok in E as [-> ?] end.
  simpl. split; [|split; [done|]].
  - split; simpl; [done|lia| |].
    + rewrite replicate_length. rewrite Z2Nat.id; [done|]. apply Z.div_pos; lia.
    + apply Forall_replicate. done.
  - intros x y. unfold mval, get. cbn [m_n m_cells].
    assert (forall x y, match (do! i <- index (Matrix (replicate (Z.to_nat (n * (n - 1) / 2)) Zero) n) x y;
        cell_at (Matrix (replicate (Z.to_nat (n * (n - 1) / 2)) Zero) n) i) with
        Ok c => c = Zero | Err _ => True end) as Hz.
    { intros x' y'. destruct (index _ x' y') as [i|]; [|done]. unfold cell_at. cbn [m_cells].
      destruct (replicate _ _ !! Z.to_nat i) as [c|] eqn:E; [|done].
      by apply lookup_replicate in E as [-> _]. }
    destruct (x <? y).
    + specialize (Hz y x). destruct (index _ y x) as [i|]; [|done].
      destruct (cell_at _ i); [|done]. by rewrite Hz.
    + specialize (Hz x y). destruct (index _ x y) as [i|]; [|done].
      destruct (cell_at _ i); [|done]. by rewrite Hz.
Qed.
Lemma matrix_new_total n :
  2 <= n -> n * (n - 1) <= U32_MAX -> exists m, matrix_new n = Ok m.
Proof.
  intros Hn H. unfold matrix_new. rewrite u32_eq by nia. rewrite u32_eq by nia. eauto.
Qed.

(** ** Updates *)
Lemma upd_ok m x y f m' :
  mat_ok m -> 0 <= y < x -> x < m_n m ->
  (forall c c', cell_ok c -> f c = Ok c' -> cell_ok c') ->
  upd m x y f = Ok m' ->
  exists c c', get m x y = Ok c /\ cell_ok c /\ f c = Ok c' /\
    mat_ok m' /\ m_n m' = m_n m /\ mval m' x y = val c' /\ mval m' y x = - val c' /\
    forall u v, inr (m_n m) u -> inr (m_n m) v -> u <> v ->
      (u, v) <> (x, y) -> (u, v) <> (y, x) -> mval m' u v = mval m u v.
Proof.
  intros HM H1 H2 Hf H. unfold upd in H. rewrite index_eq in H by done.
  destruct (cell_at_eq m x y HM H1 H2) as (c & Hc & Hok & Ec). rewrite Ec in H.
  destruct (f c) as [c'|] eqn:Ef; [|discriminate]. injection H as <-.
  set (i := idx (m_n m) x y) in *.
  set (m' := Matrix (<[Z.to_nat i:=c']> (m_cells m)) (m_n m)).
  assert (mat_ok m') as HM'.
  { destruct HM as [A B C D]. split; simpl; [done|done| |].
    - rewrite insert_length. done.
    - apply Forall_insert; [done|]. by eapply Hf. }
  exists c, c'.
  assert (get m x y = Ok c) as Hg.
  { unfold get. replace (x <? y) with false by lia. rewrite index_eq by done. done. }
  assert (Z.to_nat i < length (m_cells m))%nat as Hlt by (eapply lookup_lt_Some; exact Hc).
  assert (mval m' x y = val c') as Hv.
  { unfold mval, get. replace (x <? y) with false by lia. rewrite index_eq by done.
    unfold cell_at. simpl. fold i. rewrite list_lookup_insert by done. done. }
  assert (forall u v, 0 <= v < u -> u < m_n m -> (u, v) <> (x, y) ->
     mval m' u v = mval m u v) as Hother.
  { intros u v A B Hne. unfold mval, get. replace (u <? v) with false by lia.
    rewrite !index_eq by done. unfold cell_at. simpl.
    rewrite list_lookup_insert_ne; [done|].
    intros E. apply Hne.
    pose proof (idx_range _ x y H1 H2). pose proof (idx_range _ u v A B).
    assert (idx (m_n m) x y = idx (m_n m) u v) as E' by (unfold i in E; lia).
    apply idx_inj in E' as [-> ->]; done. }
  split; [done|]. split; [done|]. split; [done|]. split; [done|]. split; [done|].
  split; [done|]. split.
  { rewrite (mval_anti m' x y) by (try done; unfold inr; simpl; lia). by rewrite Hv. }
  intros u v Hu Hv' Huv N1 N2. destruct (Z.lt_trichotomy u v) as [Hl|[->|Hl]]; [|done|].
  - rewrite (mval_anti m' v u), (mval_anti m v u) by (try done; lia).
    rewrite Hother; [done|unfold inr in *; lia|unfold inr in *; lia|congruence].
  - apply Hother; [unfold inr in *; lia|unfold inr in *; lia|done].
Qed.

Definition bump (x y u v : Z) : Z :=
  (if (u =? x) && (v =? y) then 1 else 0) - (if (u =? y) && (v =? x) then 1 else 0).

Lemma upd_total m x y f :
  mat_ok m -> 0 <= y < x -> x < m_n m ->
  (forall c, get m x y = Ok c -> cell_ok c -> exists c', f c = Ok c') ->
  exists m', upd m x y f = Ok m'.
Proof.
  intros HM H1 H2 Hf. unfold upd. rewrite index_eq by done.
  destruct (cell_at_eq m x y HM H1 H2) as (c & Hc & Hok & Ec).
  assert (get m x y = Ok c) as Hg.
  { unfold get. replace (x <? y) with false by lia. rewrite index_eq by done. done. }
  rewrite Ec. destruct (Hf c Hg Hok) as [c' ->]. eauto.
Qed.

Lemma decrement_ok m x y a m' :
  mat_ok m -> inr (m_n m) x -> inr (m_n m) y -> x <> y -> 0 < a <= U128_MAX ->
  decrement m x y a = Ok m' ->
  mat_ok m' /\ m_n m' = m_n m /\
  forall u v, inr (m_n m) u -> inr (m_n m) v -> u <> v ->
    mval m' u v = mval m u v - a * bump x y u v.
Proof.
  intros HM Hx Hy Hne Ha H. unfold decrement in H. unfold inr in *.
  assert (forall x y m' (s : Z), 0 <= y < x -> x < m_n m -> forall f,
    (s = 1 \/ s = -1) ->
    (forall c c', cell_ok c -> f c = Ok c' -> cell_ok c' /\ val c' = val c - s * a) ->
    upd m x y f = Ok m' ->
    mat_ok m' /\ m_n m' = m_n m /\
    forall u v, 0 <= u < m_n m -> 0 <= v < m_n m -> u <> v ->
      mval m' u v = mval m u v - s * a * bump x y u v) as Hgen.
  { clear x y m' Hx Hy Hne H. intros x y m' s H1 H2 f Hs Hf H.
    apply upd_ok in H as (c & c' & Hg & Hc & Hfc & HM' & Hn & V1 & V2 & V3); try done.
    2:{ intros c c' Hc Hfc. by eapply Hf. }
    destruct (Hf c c' Hc Hfc) as [Hc' Hval].
    split; [done|]. split; [done|]. intros u v Hu Hv Huv. unfold bump.
    assert (mval m x y = val c) as Hmc by (unfold mval; by rewrite Hg).
    destruct ((u =? x) && (v =? y)) eqn:E1.
    - assert (u = x) as -> by lia. assert (v = y) as -> by lia.
      replace ((x =? y) && (y =? x)) with false by lia. rewrite V1. lia.
    - destruct ((u =? y) && (v =? x)) eqn:E2.
      + assert (u = y) as -> by lia. assert (v = x) as -> by lia. rewrite V2.
        rewrite (mval_anti m x y) by (try done; unfold inr; lia). lia.
      + rewrite V3; [lia|done|done|done| |]; intros [= -> ->]; lia. }
  destruct (x <? y) eqn:E.
  - apply (Hgen y x m' (-1)) in H; [|lia|lia|lia|].
    + destruct H as (A & B & C). split; [done|]. split; [done|].
      intros u v Hu Hv Huv. rewrite C by done. unfold bump. lia.
    + intros c c' Hc Hf. apply cell_increment_ok in Hf as [? ?]; [|done|done]. split; [done|lia].
  - apply (Hgen x y m' 1) in H; [|lia|lia|lia|].
    + destruct H as (A & B & C). split; [done|]. split; [done|].
      intros u v Hu Hv Huv. rewrite C by done. lia.
    + intros c c' Hc Hf. apply cell_decrement_ok in Hf as [? ?]; [|done|done]. split; [done|lia].
Qed.
Lemma decrement_total m x y a :
  mat_ok m -> inr (m_n m) x -> inr (m_n m) y -> x <> y ->
  - U128_MAX <= mval m x y - a -> exists m', decrement m x y a = Ok m'.
Proof.
  intros HM Hx Hy Hne Ha. unfold decrement, inr in *. destruct (x <? y) eqn:E.
  - apply upd_total; [done|lia|lia|]. intros c Hg Hc. apply cell_increment_total; [done|].
    rewrite (mval_anti m y x) in Ha by (try done; unfold inr; lia).
    unfold mval in Ha. rewrite Hg in Ha. lia.
  - apply upd_total; [done|lia|lia|]. intros c Hg Hc. apply cell_decrement_total; [done|].
    unfold mval in Ha. rewrite Hg in Ha. lia.
Qed.

(** ** Recording a vote *)
Definition ind (b : bool) : Z := if b then 1 else 0.
Definition mem (x : Z) (l : list Z) : bool := existsb (Z.eqb x) l.
Lemma mem_true x l : mem x l = true <-> x ∈ l.
Proof.
  unfold mem. rewrite existsb_exists. setoid_rewrite elem_of_list_In. split.
  - intros (y & H & E). apply Z.eqb_eq in E as ->. done.
  - intros H. exists x. split; [done|lia].
Qed.
Lemma mem_false x l : mem x l = false <-> x ∉ l.
Proof. rewrite <- not_true_iff_false, mem_true. done. Qed.

Lemma defeats_ok n z a : forall B m m',
  mat_ok m -> m_n m = n -> inr n z -> Forall (inr n) B -> NoDup B -> z ∉ B ->
  0 < a <= U128_MAX -> defeats m z B a = Ok m' ->
  mat_ok m' /\ m_n m' = n /\
  forall u v, inr n u -> inr n v -> u <> v ->
    mval m' u v = mval m u v - a * (ind ((u =? z) && mem v B) - ind ((v =? z) && mem u B)).
Proof.
  induction B as [|d B IH]; intros m m' HM Hn Hz HB Hnd Hni Ha H; simpl in H.
  - injection H as <-. split; [done|]. split; [done|]. intros u v _ _ _. simpl.
    rewrite !andb_false_r. simpl. lia.
  - destruct (decrement m z d a) as [m1|] eqn:E; [|discriminate].
    inversion HB as [|? ? Hd HB']; subst. inversion Hnd as [|? ? Hdn Hnd']; subst.
    rewrite elem_of_cons in Hni.
    apply decrement_ok in E as (HM1 & Hn1 & V1); [|done|done|done|intros ->; tauto|done].
    apply IH in H as (HM2 & Hn2 & V2); [|done|done|done|done|done|tauto|done].
    split; [done|]. split; [done|]. intros u v Hu Hv Huv. rewrite V2, V1 by done.
    unfold mem. simpl. fold (mem u B) (mem v B). unfold bump, ind.
    destruct (Z.eqb_spec u z), (Z.eqb_spec v z), (Z.eqb_spec u d), (Z.eqb_spec v d);
      subst; try tauto; simpl; try lia;
      repeat match goal with |- context [mem ?x B] =>
        destruct (mem x B) eqn:?; try (rewrite mem_true in *; done) end; simpl; try lia.
Qed.

Lemma prefers_app B z x y : x <> y ->
  prefers (B ++ [z]) x y = prefers B x y || ((y =? z) && mem x B).
Proof.
  intros Hne. induction B as [|w B IH]; simpl.
  - rewrite andb_false_r. by destruct (z =? x).
  - unfold mem. simpl. rewrite (Z.eqb_sym x w). destruct (w =? x) eqn:E; simpl.
    + rewrite existsb_app. simpl. rewrite orb_false_r, andb_true_r. done.
    + apply IH.
Qed.
Lemma prefers_in B x y : prefers B x y = true -> x ∈ B /\ y ∈ B.
Proof.
  induction B as [|w B IH]; simpl; [done|]. destruct (w =? x) eqn:E.
  - intros H. apply mem_true in H. rewrite !elem_of_cons. split; [left; lia|by right].
  - intros H. apply IH in H. rewrite !elem_of_cons. tauto.
Qed.
Lemma sg_app B z x y : x <> y -> z ∉ B ->
  sg (B ++ [z]) x y = sg B x y + ind ((y =? z) && mem x B) - ind ((x =? z) && mem y B).
Proof.
  intros Hne Hz. unfold sg, ind. rewrite !prefers_app by done.
  destruct (prefers B x y) eqn:E1, (prefers B y x) eqn:E2,
    ((y =? z) && mem x B) eqn:E3, ((x =? z) && mem y B) eqn:E4; simpl; try lia;
    exfalso; apply Hz;
    repeat match goal with H : prefers _ _ _ = true |- _ => apply prefers_in in H as [? ?] end;
    repeat match goal with H : _ && _ = true |- _ =>
      apply andb_prop in H as [HH _]; apply Z.eqb_eq in HH; subst; clear H end; done.
Qed.
Lemma sg_anti l x y : sg l y x = - sg l x y.
Proof. unfold sg. lia. Qed.
Lemma sg_bounds l x y : -1 <= sg l x y <= 1.
Proof. unfold sg. destruct (prefers l x y), (prefers l y x); lia. Qed.

Lemma record_vote_ok n a : forall rest B m m',
  mat_ok m -> m_n m = n -> Forall (inr n) (B ++ rest) -> NoDup (B ++ rest) ->
  0 < a <= U128_MAX -> record_vote m B rest a = Ok m' ->
  mat_ok m' /\ m_n m' = n /\
  forall u v, inr n u -> inr n v -> u <> v ->
    mval m' u v = mval m u v + a * (sg (B ++ rest) u v - sg B u v).
Proof.
  induction rest as [|z rest IH]; intros B m m' HM Hn HF Hnd Ha H; simpl in H.
  - injection H as <-. rewrite app_nil_r. split; [done|]. split; [done|]. intros. lia.
  - destruct (defeats m z B a) as [m1|] eqn:E; [|discriminate].
    assert (Forall (inr n) B /\ inr n z) as [HB Hz].
    { apply Forall_app in HF as [HB HF]. inversion HF; done. }
    assert (NoDup B /\ z ∉ B) as [HnB Hni].
    { apply NoDup_app in Hnd as (A & C & _). split; [done|]. intros Hin. apply (C z Hin). left. }
    apply (defeats_ok n) in E as (HM1 & Hn1 & V1); [|done..].
    apply (IH (B ++ [z]) m1 m') in H as (HM2 & Hn2 & V2);
      [|done|done|by rewrite <- app_assoc|by rewrite <- app_assoc|done].
    split; [done|]. split; [done|]. intros u v Hu Hv Huv.
    rewrite V2, V1 by done. rewrite <- app_assoc. simpl. rewrite (sg_app B z u v) by done. lia.
Qed.

Lemma defeats_total n z a : forall B m,
  mat_ok m -> m_n m = n -> inr n z -> Forall (inr n) B -> NoDup B -> z ∉ B ->
  0 < a <= U128_MAX -> (forall d, d ∈ B -> - U128_MAX <= mval m z d - a) ->
  exists m', defeats m z B a = Ok m'.
Proof.
  induction B as [|d B IH]; intros m HM Hn Hz HB Hnd Hni Ha Hb; simpl; [eauto|].
  inversion HB as [|? ? Hd HB']; subst. inversion Hnd as [|? ? Hdn Hnd']; subst.
  rewrite elem_of_cons in Hni.
  destruct (decrement_total m z d a) as [m1 E]; [done|done|done|intros ->; tauto|apply Hb; left|].
  rewrite E. apply decrement_ok in E as (HM1 & Hn1 & V1); [|done|done|done|intros ->; tauto|done].
  apply IH; [done|done|done|done|done|tauto|done|].
  intros d' Hd'. assert (inr (m_n m) d') by (rewrite Forall_forall in HB'; by apply HB').
  rewrite V1; [|done|done|intros ->; tauto].
  assert (d' <> d) by (intros ->; tauto). assert (d' <> z) by (intros ->; tauto).
  unfold bump. replace (d' =? d) with false by lia. replace (d' =? z) with false by lia.
  rewrite !andb_false_r. specialize (Hb d' ltac:(right; done)). lia.
Qed.
Lemma record_vote_total n a : forall rest B m,
  mat_ok m -> m_n m = n -> Forall (inr n) (B ++ rest) -> NoDup (B ++ rest) ->
  0 < a <= U128_MAX ->
  (forall u v, inr n u -> inr n v -> u <> v ->
     - U128_MAX <= mval m u v - a * sg B u v - a) ->
  exists m', record_vote m B rest a = Ok m'.
Proof.
  induction rest as [|z rest IH]; intros B m HM Hn HF Hnd Ha Hb; simpl; [eauto|].
  assert (Forall (inr n) B /\ inr n z) as [HB Hz].
  { apply Forall_app in HF as [HB HF]. inversion HF; done. }
  assert (NoDup B /\ z ∉ B) as [HnB Hni].
  { apply NoDup_app in Hnd as (A & C & _). split; [done|]. intros Hin. apply (C z Hin). left. }
  destruct (defeats_total n z a B m) as [m1 E]; [done..| |].
  { intros d Hd. assert (inr n d) by (rewrite Forall_forall in HB; by apply HB).
    specialize (Hb z d Hz ltac:(done) ltac:(intros ->; done)).
    assert (sg B z d = 0) as H0; [|rewrite H0 in Hb; lia].
    unfold sg. destruct (prefers B z d) eqn:E1; [apply prefers_in in E1; tauto|].
    destruct (prefers B d z) eqn:E2; [apply prefers_in in E2; tauto|]. done. }
  rewrite E. apply (defeats_ok n) in E as (HM1 & Hn1 & V1); [|done..].
  apply IH; [done|done|by rewrite <- app_assoc|by rewrite <- app_assoc|done|].
  intros u v Hu Hv Huv. rewrite V1 by done. rewrite (sg_app B z u v) by done.
  specialize (Hb u v Hu Hv Huv). lia.
Qed.

(** ** Ballots *)
Lemma check_vote_ok vote : forall seen n r,
  NoDup seen -> Forall (inr n) seen -> check_vote vote seen n = Ok r ->
  r = seen ++ vote /\ NoDup r /\ Forall (inr n) r.
Proof.
  induction vote as [|v vote IH]; intros seen n r Hnd HF H; simpl in H.
  - injection H as <-. rewrite app_nil_r. done.
  - destruct (u32 v) as [v'|] eqn:Eu; [|discriminate]. apply u32_ok in Eu as [-> Hv].
    destruct (v <? n) eqn:E1; [|discriminate].
    destruct (existsb (Z.eqb v) seen) eqn:E2; [discriminate|]. simpl in H.
    apply mem_false in E2.
    apply IH in H as (-> & A & B).
    + rewrite <- app_assoc. simpl. rewrite <- app_assoc in A, B. done.
    + apply NoDup_app. split; [done|]. split; [|apply NoDup_singleton].
      intros x Hx ->%elem_of_list_singleton. done.
    + apply Forall_app. split; [done|]. constructor; [unfold inr; lia|done].
Qed.
Lemma check_vote_total vote : forall seen n,
  NoDup (seen ++ vote) -> Forall (inr n) vote -> n <= U32_MAX ->
  check_vote vote seen n = Ok (seen ++ vote).
Proof.
  induction vote as [|v vote IH]; intros seen n Hnd HF Hn; simpl.
  - by rewrite app_nil_r.
  - inversion HF as [|? ? Hv HF']; subst. unfold inr in Hv.
    rewrite u32_eq by lia. replace (v <? n) with true by lia.
    assert (existsb (Z.eqb v) seen = false) as ->.
    { apply mem_false. apply NoDup_app in Hnd as (_ & A & _). intros Hin. apply (A v Hin). left. }
    simpl. rewrite IH; [by rewrite <- app_assoc|by rewrite <- app_assoc|done|done].
Qed.
Lemma Forall_inr n l : Forall (inr n) l <-> (forall x, x ∈ l -> 0 <= x < n).
Proof. rewrite Forall_forall. done. Qed.
Lemma ranking_iff n l : 0 <= n ->
  ranking n l <-> Z.of_nat (length l) = n /\ NoDup l /\ Forall (inr n) l.
Proof.
  intros Hn. split.
  - intros [Hnd Hin]. split; [|split; [done|apply Forall_inr; intros x; apply Hin]].
    assert (l ≡ₚ seqZ 0 n) as ->.
    { apply NoDup_Permutation; [done|apply NoDup_seqZ|]. intros x. rewrite Hin, elem_of_seqZ. lia. }
    rewrite seqZ_length. lia.
  - intros (Hl & Hnd & HF). split; [done|]. rewrite Forall_inr in HF. intros x. split; [apply HF|].
    intros Hx. assert (l ⊆+ seqZ 0 n) as Hs.
    { apply NoDup_submseteq; [done|]. intros y Hy. apply elem_of_seqZ. specialize (HF y Hy). lia. }
    apply submseteq_Permutation_length_eq in Hs; [|rewrite seqZ_length; lia].
    rewrite Hs. apply elem_of_seqZ. lia.
Qed.
Lemma vote_new_ok vote n r :
  0 <= n -> vote_new vote n = Ok r -> r = vote /\ ranking n vote.
Proof.
  unfold vote_new. intros Hn H. destruct (_ =? _) eqn:E; [|discriminate].
  apply check_vote_ok in H as (-> & A & B); [|constructor|constructor].
  simpl in *. split; [done|]. apply ranking_iff; [done|]. split; [lia|done].
Qed.
Lemma vote_new_total vote n :
  0 <= n <= U32_MAX -> ranking n vote -> vote_new vote n = Ok vote.
Proof.
  intros Hn H. apply ranking_iff in H as (A & B & C); [|lia]. unfold vote_new.
  replace (_ =? _) with true by lia. rewrite check_vote_total; [done|done|done|lia].
Qed.
