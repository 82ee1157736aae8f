(** Curves, and the invariant of cw-vesting. *)
From Verif Require Import Base BaseProofs Exec ExecProofs Plain PlainProofs StoreModel WormModel
  WormSpec WormProofs WormClaims VestModel VestSpec.

(** ** Curves *)
Lemma DEC_pos : 0 < DEC. Proof. done. Qed.
Section interp.
  Variables x0 y0 x1 y1 : Z.
  Hypothesis Hx : x0 < x1.
  Hypothesis Hy : y0 <= y1.
  Lemma interp_eq x : interpolate x0 y0 x1 y1 x = y0 + (y1 - y0) * ((x - x0) * DEC / (x1 - x0)) / DEC.
  Proof.
    unfold interpolate. destruct (y0 <? y1) eqn:E; [done|]. assert (y1 = y0) as -> by lia.
    rewrite Z.sub_diag, Z.mul_0_l, Z.div_0_l by done. lia.
  Qed.
  Lemma interp_mono x x' : x <= x' -> interpolate x0 y0 x1 y1 x <= interpolate x0 y0 x1 y1 x'.
  Proof.
    intros H. rewrite !interp_eq. apply Z.add_le_mono_l. apply Z.div_le_mono; [done|].
    apply Z.mul_le_mono_nonneg_l; [lia|]. apply Z.div_le_mono; [lia|].
    apply Z.mul_le_mono_nonneg_r; [done|lia].
  Qed.
  Lemma interp_lo : interpolate x0 y0 x1 y1 x0 = y0.
  Proof. rewrite interp_eq, Z.sub_diag, Z.mul_0_l, Z.div_0_l, Z.mul_0_r by lia. rewrite Z.div_0_l by done. lia. Qed.
  Lemma interp_hi : interpolate x0 y0 x1 y1 x1 = y1.
  Proof.
    rewrite interp_eq, (Z.mul_comm (x1 - x0)), Z.div_mul by lia. rewrite Z.div_mul by done. lia.
  Qed.
  Lemma interp_range x : x0 <= x <= x1 -> y0 <= interpolate x0 y0 x1 y1 x <= y1.
  Proof.
    intros [A B]. pose proof (interp_mono _ _ A). pose proof (interp_mono _ _ B).
    rewrite interp_lo in *. rewrite interp_hi in *. lia.
  Qed.
End interp.

Definition end_y (p : Z * Z) (steps : list (Z * Z)) : Z := match last (p :: steps) with Some q => q.2 | None => 0 end.
Lemma end_y_cons p q steps : end_y p (q :: steps) = end_y q steps.
Proof. done. Qed.
Lemma steps_end_le p steps : steps_increase p.2 steps = true -> p.2 <= end_y p steps.
Proof.
  revert p. induction steps as [|q steps IH]; intros p H; [unfold end_y; cbn; lia|].
  cbn in H. rewrite end_y_cons. apply andb_true_iff in H as [H1 H2]. specialize (IH _ H2). lia.
Qed.
(** The value found from a pair of points on. *)
Definition pval (r : option (Z * Z) * (Z * Z)) (x : Z) : Z :=
  match r with
  | (Some last, next) =>
      if x =? last.1 then last.2
      else if next.1 <=? x then next.2
      else interpolate last.1 last.2 next.1 next.2 x
  | (None, next) => next.2
  end.
Lemma pval_two a n x :
  a.1 < n.1 -> a.2 <= n.2 -> a.1 < x ->
  a.2 <= pval (Some a, n) x <= n.2 /\ (n.1 <= x -> pval (Some a, n) x = n.2).
Proof.
  intros Hx Hy H. cbn. destruct (x =? a.1) eqn:E; [lia|]. destruct (n.1 <=? x) eqn:E2; [lia|].
  pose proof (interp_range a.1 a.2 n.1 n.2 Hx Hy x). lia.
Qed.
Lemma pval_two_mono a n x x' :
  a.1 < n.1 -> a.2 <= n.2 -> a.1 < x -> x <= x' -> pval (Some a, n) x <= pval (Some a, n) x'.
Proof.
  intros Hx Hy H Hle. cbn. destruct (x =? a.1) eqn:E; [lia|]. destruct (x' =? a.1) eqn:E'; [lia|].
  destruct (n.1 <=? x) eqn:E2, (n.1 <=? x') eqn:E3; try lia.
  - apply interp_range; lia.
  - apply interp_mono; lia.
Qed.
Lemma find_bounds a n rest x :
  a.1 < n.1 -> a.2 <= n.2 -> steps_in_order n.1 rest = true -> steps_increase n.2 rest = true ->
  a.1 < x -> a.2 <= pval (piece_find (Some a) n rest x) x <= end_y n rest.
Proof.
  revert a n. induction rest as [|q rest IH]; intros a n Hx Hy Ho Hi H.
  - cbn [piece_find]. unfold end_y. cbn [last]. by apply pval_two.
  - cbn [piece_find]. pose proof Ho as Ho'. pose proof Hi as Hi'. cbn in Ho', Hi'.
    apply andb_true_iff in Ho' as [O1 O2], Hi' as [I1 I2]. rewrite end_y_cons.
    pose proof (steps_end_le _ _ I2). destruct (n.1 <? x) eqn:E.
    + specialize (IH n q ltac:(lia) ltac:(lia) O2 I2 ltac:(lia)). lia.
    + pose proof (pval_two a n x Hx Hy H). lia.
Qed.
Lemma find_mono a n rest x x' :
  a.1 < n.1 -> a.2 <= n.2 -> steps_in_order n.1 rest = true -> steps_increase n.2 rest = true ->
  a.1 < x -> x <= x' ->
  pval (piece_find (Some a) n rest x) x <= pval (piece_find (Some a) n rest x') x'.
Proof.
  revert a n. induction rest as [|q rest IH]; intros a n Hx Hy Ho Hi H Hle.
  - cbn [piece_find]. by apply pval_two_mono.
  - cbn [piece_find]. pose proof Ho as Ho'. pose proof Hi as Hi'. cbn in Ho', Hi'.
    apply andb_true_iff in Ho' as [O1 O2], Hi' as [I1 I2].
    destruct (n.1 <? x) eqn:E, (n.1 <? x') eqn:E'; try lia.
    + apply IH; try done; lia.
    + pose proof (pval_two a n x Hx Hy H) as [P _].
      pose proof (find_bounds n q rest x' ltac:(lia) ltac:(lia) O2 I2 ltac:(lia)). lia.
    + by apply pval_two_mono.
Qed.
Definition end_x (p : Z * Z) (steps : list (Z * Z)) : Z := match last (p :: steps) with Some q => q.1 | None => 0 end.
Lemma steps_endx_le p steps : steps_in_order p.1 steps = true -> p.1 <= end_x p steps.
Proof.
  revert p. induction steps as [|q steps IH]; intros p H; [unfold end_x; cbn; lia|].
  cbn in H. change (end_x p (q :: steps)) with (end_x q steps).
  apply andb_true_iff in H as [H1 H2]. specialize (IH _ H2). lia.
Qed.
Lemma find_end a n rest x :
  a.1 < n.1 -> a.2 <= n.2 -> steps_in_order n.1 rest = true -> steps_increase n.2 rest = true ->
  a.1 < x -> end_x n rest <= x -> pval (piece_find (Some a) n rest x) x = end_y n rest.
Proof.
  revert a n. induction rest as [|q rest IH]; intros a n Hx Hy Ho Hi H He.
  - cbn [piece_find]. unfold end_y. cbn [last]. by apply pval_two.
  - cbn [piece_find]. pose proof Ho as Ho'. pose proof Hi as Hi'. cbn in Ho', Hi'.
    apply andb_true_iff in Ho' as [O1 O2], Hi' as [I1 I2]. rewrite end_y_cons.
    change (end_x n (q :: rest)) with (end_x q rest) in He. pose proof (steps_endx_le _ _ O2).
    destruct (n.1 <? x) eqn:E; [|lia]. apply IH; try done; lia.
Qed.

(** What [into_curve] lets through, and constants. *)
Definition cgood (c : curve) : Prop :=
  match c with
  | CConst y => 0 <= y
  | CLinear x0 y0 x1 y1 => x0 = 0 /\ y0 = 0 /\ 0 < x1 /\ 0 <= y1
  | CPiece [] => False
  | CPiece (p :: steps) =>
      p.2 = 0 /\ 0 < p.1 /\ steps_in_order p.1 steps = true /\ steps_increase p.2 steps = true
  end.
Definition top_y (c : curve) : Z :=
  match c with
  | CConst y => y
  | CLinear _ _ _ y1 => y1
  | CPiece (p :: steps) => end_y p steps
  | CPiece [] => 0
  end.
(** When the schedule is over. *)
Definition top_x (c : curve) : Z :=
  match c with
  | CConst y => 0
  | CLinear _ _ x1 _ => x1
  | CPiece (p :: steps) => end_x p steps
  | CPiece [] => 0
  end.
Lemma cgood_range c : cgood c -> (curve_range c).2 = top_y c.
Proof.
  destruct c as [y|x0 y0 x1 y1|[|p steps]]; cbn [cgood curve_range top_y]; [done| |done|].
  - intros (-> & -> & ? & ?). destruct (0 <? y1) eqn:E; cbn; lia.
  - intros (E1 & E2 & E3 & E4). fold (end_y p steps).
    pose proof (steps_end_le p steps E4).
    destruct (p.2 <? end_y p steps) eqn:E; cbn [snd]; lia.
Qed.
Lemma piece_value p steps x :
  curve_value (CPiece (p :: steps)) x =
  match steps with
  | [] => p.2
  | q :: steps' => if p.1 <? x then pval (piece_find (Some p) q steps' x) x else p.2
  end.
Proof.
  cbn [curve_value]. destruct steps as [|q steps]; [done|]. cbn [piece_find].
  destruct (p.1 <? x) eqn:E; [|done]. by destruct (piece_find _ _ _ _) as [[?|] ?].
Qed.
Lemma cgood_bounds c x : cgood c -> 0 <= curve_value c x <= top_y c.
Proof.
  destruct c as [y|x0 y0 x1 y1|[|p steps]]; cbn [cgood top_y]; [cbn; lia| |done|].
  - intros (-> & -> & ? & ?). cbn. destruct (x <? 0) eqn:E; [lia|]. destruct (x1 <? x) eqn:E2; [lia|].
    apply interp_range; lia.
  - intros (E1 & E2 & E3 & E4). rewrite piece_value.
    pose proof (steps_end_le p steps E4).
    destruct steps as [|q steps]; [lia|]. cbn in E3, E4.
    apply andb_true_iff in E3 as [O1 O2], E4 as [I1 I2]. rewrite end_y_cons in *.
    destruct (p.1 <? x) eqn:E; [|lia].
    pose proof (find_bounds p q steps x ltac:(lia) ltac:(lia) O2 I2 ltac:(lia)). lia.
Qed.
Lemma cgood_mono c x x' : cgood c -> x <= x' -> curve_value c x <= curve_value c x'.
Proof.
  destruct c as [y|x0 y0 x1 y1|[|p steps]]; cbn [cgood]; [done| |done|].
  - intros (-> & -> & ? & ?) Hle. cbn.
    destruct (x <? 0) eqn:E, (x' <? 0) eqn:E', (x1 <? x) eqn:E2, (x1 <? x') eqn:E2'; try lia.
    + apply interp_range; lia.
    + apply interp_range; lia.
    + apply interp_mono; lia.
  - intros (E1 & E2 & E3 & E4) Hle. rewrite !piece_value. destruct steps as [|q steps]; [lia|].
    cbn in E3, E4. apply andb_true_iff in E3 as [O1 O2], E4 as [I1 I2].
    destruct (p.1 <? x) eqn:E, (p.1 <? x') eqn:E'; try lia.
    + apply find_mono; try done; lia.
    + pose proof (find_bounds p q steps x' ltac:(lia) ltac:(lia) O2 I2 ltac:(lia)). lia.
Qed.
Lemma cgood_end c x : cgood c -> top_x c <= x -> curve_value c x = top_y c.
Proof.
  destruct c as [y|x0 y0 x1 y1|[|p steps]]; cbn [cgood top_x top_y]; [done| |done|].
  - intros (-> & -> & ? & ?) Hle. cbn. destruct (x <? 0) eqn:E; [lia|]. destruct (x1 <? x) eqn:E2; [lia|].
    assert (x = x1) as -> by lia. apply interp_hi; lia.
  - intros (E1 & E2 & E3 & E4) Hle. rewrite piece_value.
    destruct steps as [|q steps]; [done|]. cbn in E3, E4.
    apply andb_true_iff in E3 as [O1 O2], E4 as [I1 I2]. rewrite end_y_cons in *.
    change (end_x p (q :: steps)) with (end_x q steps) in Hle. pose proof (steps_endx_le _ _ O2).
    destruct (p.1 <? x) eqn:E; [|lia]. apply find_end; try done; lia.
Qed.
Lemma cgood_start c : cgood c -> match c with CConst _ => True | _ => curve_value c 0 = 0 end.
Proof.
  destruct c as [y|x0 y0 x1 y1|[|p steps]]; cbn [cgood]; [done| |done|].
  - intros (-> & -> & ? & ?). cbn. destruct (x1 <? 0) eqn:E; [lia|]. apply interp_lo; lia.
  - intros (E1 & E2 & _). rewrite piece_value. destruct steps; [done|]. destruct (p.1 <? 0) eqn:E; [lia|done].
Qed.
Lemma into_curve_good sc total dur c :
  0 < total -> 0 < dur -> into_curve sc total dur = Ok c -> cgood c /\ top_y c = total.
Proof.
  intros Ht Hd H. unfold into_curve in H. destruct sc as [|steps].
  - destruct (validate_increasing (CLinear 0 0 dur total)) eqn:E; [|done].
    res_inv H. cbn. lia.
  - destruct (2 <=? Z.of_nat (length steps)) eqn:E0; [|done].
    destruct steps as [|p steps]; [done|]. cbn [validate_increasing] in H.
    destruct (steps_in_order 0 (p :: steps)) eqn:E1; [|done].
    destruct (steps_increase p.2 steps) eqn:E2; [|done].
    case_bool_decide as E3; [|done]. injection H as <-. cbn [cgood top_y].
    cbn in E1. apply andb_true_iff in E1 as [O1 O2].
    pose proof (steps_end_le _ _ E2). cbn [curve_range] in E3. fold (end_y p steps) in E3.
    destruct (p.2 <? end_y p steps) eqn:E; injection E3 as E3 E4; [|lia].
    repeat split; try done; lia.
Qed.

(** ** The tracker *)
Lemma k_delegate k t v n k' :
  tgood k -> on_delegate k t v n = Ok k' ->
  tgood k' /\ forall u, total_staked k' u = total_staked k u + (if t <=? u then n else 0).
Proof.
  intros G H. destruct (t_apply_step k (TDel t v n) k' G H) as [G' A]. destruct (A eq_refl) as [B _]. eauto.
Qed.
Lemma k_redelegate k t v w n k' :
  tgood k -> on_redelegate k t v w n = Ok k' ->
  tgood k' /\ forall u, total_staked k' u = total_staked k u.
Proof.
  intros G H. destruct (t_apply_step k (TRedel t v w n) k' G H) as [G' A].
  destruct (A eq_refl) as [B _]. split; [done|]. intros u. rewrite B. cbn. lia.
Qed.
Lemma k_undelegate k t v n d k' :
  tgood k -> on_undelegate k t v n d = Ok k' ->
  tgood k' /\ forall u, total_staked k' u = total_staked k u - (if t + d <=? u then n else 0).
Proof.
  intros G H. destruct (t_apply_step k (TUndel t v n d) k' G H) as [G' A].
  destruct (A eq_refl) as [B _]. split; [done|]. intros u. rewrite B. cbn. destruct (_ <=? _); lia.
Qed.
Lemma k_bonded_slash k t v n k' :
  tgood k -> on_bonded_slash k t v n = Ok k' ->
  tgood k' /\ forall u, total_staked k' u = total_staked k u - (if t <=? u then n else 0).
Proof.
  intros G H. destruct (t_apply_step k (TSlash t v n) k' G H) as [G' A].
  destruct (A eq_refl) as [B _]. split; [done|]. intros u. rewrite B. cbn. destruct (_ <=? _); lia.
Qed.
Lemma k_unbonding_slash k t v n k' :
  tgood k -> 0 <= n -> on_unbonding_slash k t v n = Ok k' ->
  tgood k' /\ forall u, total_staked k u - n <= total_staked k' u <= total_staked k u.
Proof.
  intros G Hn H.
  assert (t_apply k (TSlashUnb t v [(0, n)]) = Ok k') as H1.
  { cbn. by replace (n + 0) with n by lia. }
  destruct (t_apply_step k _ k' G H1) as [G' _]. split; [done|]. intros u. clear H1.
  destruct G as (G1 & _). unfold on_unbonding_slash, w_update_one in H.
  destruct (sub128 (default 0 (w_load (tr_total k) t)) n) as [a|] eqn:E1; [|done].
  destruct (sub128 (default 0 (w_load (wm_get (tr_vals k) v) t)) n) as [c|] eqn:E2; [|done].
  destruct ((_ : result whole)) as [card|] eqn:E3 in H; [|done].
  injection H as <-. unfold total_staked. cbn [tr_total]. rewrite save_one_load by done.
  destruct (t <=? u) eqn:Et; cbn; [|lia].
  destruct (between (tr_total k) t u) eqn:Eb; cbn; [lia|].
  apply sub128_adds in E1. unfold w_load. rewrite (find_same _ t u) by (done || lia).
  fold (w_load (tr_total k) t). lia.
Qed.

(** ** The chain *)
Definition held_at (c : chain) (u : Z) : Z :=
  ch_held c + lsum (fun e => if e_done e <=? u then e_amt e else 0) (ch_unb c).
Definition chain_ok (c : chain) : Prop :=
  0 <= ch_held c /\ (forall v n, ch_bonded c !! v = Some n -> 0 <= n) /\
  Forall (fun e => 0 <= e_amt e) (ch_unb c).
Definition worth (c : chain) : Z :=
  ch_held c + msum (fun _ n => n) (ch_bonded c) + lsum e_amt (ch_unb c).
Lemma lsum_filter (p : entry -> bool) (f : entry -> Z) l :
  lsum f (List.filter p l) = lsum (fun e => if p e then f e else 0) l.
Proof. induction l as [|e l IH]; cbn; [done|]. destruct (p e); cbn; lia. Qed.
Lemma settle_held c t u : t <= u -> held_at (ch_settle c t) u = held_at c u.
Proof.
  intros H. unfold held_at, ch_settle. cbn. rewrite !lsum_filter, <-Z.add_assoc, <-lsum_add. f_equal.
  apply lsum_ext. intros e _. destruct (e_done e <=? t) eqn:E, (e_done e <=? u) eqn:E2; cbn; lia.
Qed.
Lemma settle_worth c t : worth (ch_settle c t) = worth c.
Proof.
  unfold worth, ch_settle. cbn. rewrite !lsum_filter.
  assert (lsum e_amt (ch_unb c) = lsum (fun e => if e_done e <=? t then e_amt e else 0) (ch_unb c) +
    lsum (fun e => if negb (e_done e <=? t) then e_amt e else 0) (ch_unb c)) as ->; [|lia].
  rewrite <-lsum_add. apply lsum_ext. intros e _. destruct (e_done e <=? t); cbn; lia.
Qed.
Lemma settle_ok c t : chain_ok c -> chain_ok (ch_settle c t).
Proof.
  intros (A & B & C). unfold chain_ok, ch_settle. cbn. split; [|split; [done|]].
  - rewrite lsum_filter. rewrite Forall_forall in C.
    enough (0 <= lsum (fun e => if e_done e <=? t then e_amt e else 0) (ch_unb c)) by lia.
    apply lsum_nonneg. intros e He. specialize (C e He). destruct (_ <=? _); lia.
  - rewrite Forall_forall in *. intros e He. apply elem_of_list_In, filter_In in He as [He _].
    apply C. by apply elem_of_list_In.
Qed.
Lemma bonded_upd (m : gmap N Z) v n :
  msum (fun _ x => x) (<[v := n]> m) = msum (fun _ x => x) m - default 0 (m !! v) + n.
Proof. rewrite msum_insert. by destruct (m !! v). Qed.
Lemma pay_ok c n c' :
  chain_ok c -> 0 <= n -> ch_pay c n = Ok c' ->
  chain_ok c' /\ n <= ch_held c /\ worth c' = worth c - n /\ forall u, held_at c' u = held_at c u - n.
Proof.
  intros (A & B & C) Hn H. unfold ch_pay in H. destruct (n <=? ch_held c) eqn:E; [|done].
  injection H as <-. unfold chain_ok, worth, held_at. cbn. repeat split; try done; intros; lia.
Qed.
Lemma delegate_ok c v n c' :
  chain_ok c -> ch_delegate c v n = Ok c' ->
  chain_ok c' /\ 0 < n /\ worth c' = worth c /\ forall u, held_at c' u = held_at c u - n.
Proof.
  intros (A & B & C) H. unfold ch_delegate in H.
  destruct ((0 <? n) && (n <=? ch_held c)) eqn:E; [|done]. apply andb_true_iff in E as [E1 E2].
  injection H as <-. unfold chain_ok, worth, held_at. cbn. rewrite bonded_upd. fold (bonded_with c v).
  repeat split; try done; try (intros; lia).
  intros w x [[<- <-]|[_ Hx]]%lookup_insert_Some; [|eauto].
  unfold bonded_with. destruct (ch_bonded c !! v) eqn:El; cbn; [|lia]. apply B in El. lia.
Qed.
Lemma redelegate_ok c v w n c' :
  chain_ok c -> ch_redelegate c v w n = Ok c' ->
  chain_ok c' /\ 0 < n /\ worth c' = worth c /\ forall u, held_at c' u = held_at c u.
Proof.
  intros (A & B & C) H. unfold ch_redelegate in H.
  destruct (negb (v =? w)%N && (0 <? n) && (n <=? bonded_with c v)) eqn:E; [|done].
  apply andb_true_iff in E as [E E3]. apply andb_true_iff in E as [E1 E2].
  injection H as <-. unfold chain_ok, worth, held_at. cbn. rewrite !bonded_upd. cbn.
  fold (bonded_with c v).
  split; [|split; [lia|split; [|done]]].
  2:{ unfold bonded_with at 4. cbn. lia. }
  split; [done|]. split; [|done].
  intros x y [[<- <-]|[_ Hx]]%lookup_insert_Some; [|].
  - unfold bonded_with. cbn. destruct (<[v:=_]> _ !! w) as [z|] eqn:El; cbn; [|lia].
    apply lookup_insert_Some in El as [[<- <-]|[_ El]]; [unfold bonded_with in *; lia|]. apply B in El. lia.
  - apply lookup_insert_Some in Hx as [[<- <-]|[_ Hx]]; [lia|eauto].
Qed.
Lemma undelegate_ok c v n d c' :
  chain_ok c -> ch_undelegate c v n d = Ok c' ->
  chain_ok c' /\ 0 < n /\ worth c' = worth c /\
  forall u, held_at c' u = held_at c u + (if d <=? u then n else 0).
Proof.
  intros (A & B & C) H. unfold ch_undelegate in H.
  destruct ((0 <? n) && (n <=? bonded_with c v)) eqn:E; [|done]. apply andb_true_iff in E as [E1 E2].
  injection H as <-. unfold chain_ok, worth, held_at. cbn. rewrite bonded_upd, lsum_app.
  fold (bonded_with c v). cbn.
  repeat split; try done; try (intros; lia).
  - intros w x [[<- <-]|[_ Hx]]%lookup_insert_Some; [lia|eauto].
  - apply Forall_app. split; [done|]. repeat constructor. cbn. lia.
  - intros u. rewrite lsum_app. cbn. lia.
Qed.
Lemma slash_ok c v n c' :
  chain_ok c -> ch_slash c v n = Ok c' ->
  chain_ok c' /\ 0 < n /\ worth c' = worth c - n /\ forall u, held_at c' u = held_at c u.
Proof.
  intros (A & B & C) H. unfold ch_slash in H.
  destruct ((0 <? n) && (n <=? bonded_with c v)) eqn:E; [|done]. apply andb_true_iff in E as [E1 E2].
  injection H as <-. unfold chain_ok, worth, held_at. cbn. rewrite bonded_upd. fold (bonded_with c v).
  repeat split; try done; try (intros; lia).
  intros w x [[<- <-]|[_ Hx]]%lookup_insert_Some; [lia|eauto].
Qed.
Lemma lsum_entry (f : entry -> Z) l i e e' :
  l !! i = Some e -> lsum f (<[i := e']> l) = lsum f l - f e + f e'.
Proof.
  revert i. induction l as [|x l IH]; intros i H; [done|]. destruct i.
  - injection H as ->. cbn. lia.
  - change (<[S i := e']> (x :: l)) with (x :: <[i := e']> l). cbn [lsum]. rewrite (IH i H). lia.
Qed.
Lemma slash_unb_ok c i n c' :
  chain_ok c -> ch_slash_unb c i n = Ok c' ->
  chain_ok c' /\ 0 < n /\ worth c' = worth c - n /\
  forall u, held_at c u - n <= held_at c' u <= held_at c u.
Proof.
  intros (A & B & C) H. unfold ch_slash_unb in H. destruct (ch_unb c !! i) as [e|] eqn:Ei; [|done].
  destruct ((0 <? n) && (n <=? e_amt e)) eqn:E; [|done]. apply andb_true_iff in E as [E1 E2].
  injection H as <-. unfold chain_ok, worth, held_at. cbn. rewrite (lsum_entry _ _ _ _ _ Ei). cbn.
  split; [|split; [lia|split; [lia|]]].
  - split; [done|]. split; [done|]. apply Forall_insert; [done|]. cbn. lia.
  - intros u. rewrite (lsum_entry _ _ _ _ _ Ei). cbn. destruct (e_done e <=? u); lia.
Qed.

(** ** The invariant *)
Lemma sec_le t t' : t <= t' -> sec t <= sec t'.
Proof. intros. by apply Z.div_le_mono. Qed.
Lemma vested_mono v t t' : cgood (ve_curve v) -> t <= t' -> vested v t <= vested v t'.
Proof. intros G H. apply cgood_mono; [done|]. pose proof (sec_le _ _ H). lia. Qed.
Lemma lsum_snoc {A} (f : A -> Z) l e : lsum f (l ++ [e]) = lsum f l + f e.
Proof. rewrite lsum_app. cbn. lia. Qed.
Definition curve0 (i : vinit) : curve :=
  match into_curve (vi_schedule i) (vi_total i) (vi_dur i) with Ok c => c | Err _ => CConst 0 end.

(** The part that depends on the status. *)
Definition phase (i : vinit) (b : block) (s : vstate) (l : vlog) : Prop :=
  let v := vs_vest s in
  match ve_status v with
  | Unfunded =>
      ve_curve v = curve0 i /\ ve_claimed v = 0 /\ ve_slashed v = 0 /\ vs_tr s = tr_new /\
      brought i l = 0 /\ paid_owner l = 0 /\
      ch_held (vs_chain s) = donated l /\
      ch_unb (vs_chain s) = [] /\ ch_bonded (vs_chain s) = ∅
  | Funded =>
      ve_curve v = curve0 i /\ ve_claimed v <= vested v (time b) /\
      brought i l = vi_total i /\ paid_owner l = 0 /\
      (forall u, sec (time b) <= u ->
        vi_total i - ve_claimed v - ve_slashed v - total_staked (vs_tr s) u + donated l <=
        held_at (vs_chain s) u + slashed_unbonding l) /\
      (vi_chain_ub i = vi_ub i -> forallb no_unb l = true -> forall u, sec (time b) <= u ->
        vi_total i - ve_claimed v - ve_slashed v - total_staked (vs_tr s) u + donated l =
        held_at (vs_chain s) u)
  | Canceled ow =>
      exists y, ve_curve v = CConst y /\ 0 <= ow /\ ve_claimed v <= y /\
        paid_owner l + ow <= brought i l - y /\
        (forall u, sec (time b) <= u ->
          ow + y - ve_claimed v - total_staked (vs_tr s) u + donated l <=
          held_at (vs_chain s) u + slashed_unbonding l + ve_slashed v)
  end.
Record vinv (i : vinit) (b : block) (s : vstate) (l : vlog) : Prop := VInv {
  I_total : 0 < vi_total i /\ cgood (curve0 i) /\ top_y (curve0 i) = vi_total i;
  I_ub : vs_ub s = vi_ub i /\ vs_chain_ub s = vi_chain_ub i /\ 0 <= vi_chain_ub i <= vi_ub i;
  I_fix : ve_denom (vs_vest s) = vi_denom i /\ ve_recipient (vs_vest s) = vi_recipient i;
  I_curve : cgood (ve_curve (vs_vest s));
  I_chain : chain_ok (vs_chain s);
  I_worth : paid_vestee l + paid_owner l + worth (vs_chain s) +
            slashed_bonded l + slashed_unbonding l = brought i l + donated l;
  I_claimed : ve_claimed (vs_vest s) = paid_vestee l /\ 0 <= paid_vestee l;
  I_slashed : 0 <= ve_slashed (vs_vest s);
  I_tr : tgood (vs_tr s);
  I_lost : 0 <= slashed_unbonding l /\ 0 <= donated l /\ 0 <= paid_owner l;
  I_phase : phase i b s l;
  I_cancel : forall pre b1 a post subs, ECall pre b1 a VCancel post subs ∈ l ->
    is_canceled s /\ ve_curve (vs_vest s) = CConst (vested (vs_vest pre) (time b1)) }.

Ltac logs := unfold brought, paid_vestee, paid_owner, donated, slashed_bonded, slashed_unbonding in *;
  rewrite ?lsum_snoc; cbn [ev_subs ev_msgs lsum to_vestee to_owner].
Lemma vinv_settle i b s l : vinv i b s l -> vinv i b (settle s b) l.
Proof.
  intros [A1 A2 A3 A4 A5 A6 A7 A8 A9 A10 A11 A12].
  assert (forall u, sec (time b) <= u ->
    held_at (ch_settle (vs_chain s) (sec (time b))) u = held_at (vs_chain s) u) as Hh
    by (intros; by apply settle_held).
  split; try done.
  - by apply settle_ok.
  - unfold settle, put. cbn [vs_chain]. by rewrite settle_worth.
  - unfold phase, settle, put in *. cbn [vs_vest vs_tr vs_chain] in *.
    destruct (ve_status (vs_vest s)) as [| |ow].
    + destruct A11 as (P1 & P2 & P3 & P4 & P5 & P6 & P7 & P8 & P9). repeat split; try done.
      * cbn. rewrite P8. cbn. lia.
      * cbn. by rewrite P8.
    + destruct A11 as (P1 & P2 & P3 & P4 & P5 & P6). repeat split; try done.
      * intros u Hu. rewrite Hh by done. by apply P5.
      * intros ?? u Hu. rewrite Hh by done. by apply P6.
    + destruct A11 as (y & P1 & P2 & P3 & P4 & P5). exists y. repeat split; try done.
      intros u Hu. rewrite Hh by done. by apply P5.
Qed.
Lemma vinv_time i b b' s l : vinv i b s l -> block_le b b' -> vinv i b' s l.
Proof.
  intros [A1 A2 A3 A4 A5 A6 A7 A8 A9 A10 A11 A12] [_ Hb]. split; try done.
  pose proof (sec_le _ _ Hb) as Hs.
  unfold phase in *. destruct (ve_status (vs_vest s)) as [| |ow].
  - naive_solver lia.
  - destruct A11 as (P1 & P2 & P3 & P4 & P5 & P6).
    pose proof (vested_mono (vs_vest s) _ _ A4 Hb). repeat split; try done; [lia| |].
    + intros u Hu. apply P5. lia.
    + intros ?? u Hu. apply P6; try done; lia.
  - destruct A11 as (y & P1 & P2 & P3 & P4 & P5). exists y. repeat split; try done.
    intros u Hu. apply P5. lia.
Qed.
(** What a call does to the log. *)
Section call.
  Variables (i : vinit) (b : block) (s0 s : vstate) (l : vlog) (a : addr).
  Hypothesis HI : vinv i b s l.
  Notation after m s' subs := (vinv i b s' (l ++ [ECall s0 b a m s' subs])).

  Lemma cancel_keeps m s' subs :
    m <> VCancel -> (is_canceled s -> is_canceled s') ->
    (is_canceled s -> ve_curve (vs_vest s') = ve_curve (vs_vest s)) ->
    forall pre b1 a1 post subs1, ECall pre b1 a1 VCancel post subs1 ∈ l ++ [ECall s0 b a m s' subs] ->
    is_canceled s' /\ ve_curve (vs_vest s') = CConst (vested (vs_vest pre) (time b1)).
  Proof.
    intros Hm H1 H2 pre b1 a1 post subs1 [Hin|Hin]%elem_of_app.
    - destruct (I_cancel _ _ _ _ HI _ _ _ _ _ Hin) as [X1 X2]. rewrite H2 by done. eauto.
    - apply elem_of_list_singleton in Hin. congruence.
  Qed.

  Lemma step_receive n s' subs : v_receive s a n = Ok (s', subs) -> after (VReceive n) s' subs.
  Proof.
    intros H. destruct HI as [A1 A2 A3 A4 A5 A6 A7 A8 A9 A10 A11 A12].
    unfold v_receive in H. destruct (ve_total (vs_vest s) =? n) eqn:E1; [|done].
    case_bool_decide as E2; [|done]. unfold phase in A11.
    destruct (ve_status (vs_vest s)) as [| |ow] eqn:E3; try done.
    destruct A11 as (P1 & P2 & P3 & P4 & P5 & P6 & P7 & P8 & P9).
    injection H as <- <-. apply Z.eqb_eq in E1. unfold ve_total in E1.
    rewrite cgood_range, P1 in E1 by done. destruct A1 as (T1 & T2 & T3). rewrite T3 in E1. subst n.
    destruct A5 as (C1 & C2 & C3).
    split; try done; unfold put; cbn [vs_vest vs_chain vs_tr ve_claimed set_status].
    - unfold chain_ok. cbn. split; [lia|done].
    - logs. unfold worth in *. cbn [ch_held ch_bonded ch_unb]. lia.
    - logs. lia.
    - logs. lia.
    - unfold phase. cbn [vs_vest ve_status set_status ve_curve ve_claimed ve_slashed vs_tr vs_chain].
      rewrite P2, P3, P4. split; [done|]. split; [by apply cgood_bounds|].
      split; [logs; lia|]. split; [logs; lia|].
      assert (forall u, total_staked tr_new u = 0) as Hz by done.
      unfold held_at. cbn [ch_held ch_unb]. rewrite P8, P7. logs. cbn [lsum].
      split; intros; rewrite Hz; lia.
    - apply cancel_keeps; [done|intros [? ?]; congruence|done].
  Qed.

  Lemma step_distribute r s' subs :
    fits_opt r = true -> v_distribute s b r = Ok (s', subs) -> after (VDistribute r) s' subs.
  Proof.
    intros Hf H. destruct HI as [A1 A2 A3 A4 A5 A6 A7 A8 A9 A10 A11 A12].
    unfold v_distribute, p_distribute, distributable in H.
    destruct (liquid _ _) as [lq|] eqn:E1; [|done].
    destruct (sub128 (vested (vs_vest s) (time b)) (ve_claimed (vs_vest s))) as [c|] eqn:E2; [|done].
    set (d := Z.min lq (sat_sub c (ve_slashed (vs_vest s)))) in H.
    destruct (add128 (ve_claimed (vs_vest s)) (default d r)) as [c2|] eqn:E3; [|done].
    destruct (negb ((d <? default d r) || (default d r =? 0))) eqn:E4; [|done].
    destruct (ch_pay (vs_chain s) (default d r)) as [ch|] eqn:E5; [|done]. injection H as <- <-.
    apply sub128_ok in E2 as [-> E2]. apply add128_ok in E3 as [-> _].
    apply negb_true_iff, orb_false_iff in E4 as [E4 E6].
    assert (0 <= default d r) as Hp.
    { destruct r as [x|]; cbn in *; [unfold fits128 in Hf; lia|].
      assert (0 <= lq); [|unfold d, sat_sub in *; lia].
      unfold liquid in E1. destruct (ve_status (vs_vest s)).
      - injection E1 as <-. lia.
      - res_inv E1. apply sub128_ok in E1. lia.
      - res_inv E1. apply sub128_ok in E1. lia. }
    assert (ve_status (vs_vest s) <> Unfunded) as Hnu.
    { intros Hu. unfold liquid in E1. rewrite Hu in E1. injection E1 as <-. unfold d in *. lia. }
    set (n := default d r) in *.
    assert (n <= d) as Hnd by lia.
    destruct (pay_ok _ _ _ A5 Hp E5) as (C1 & C2 & C3 & C4).
    split; try done; unfold put; cbn [vs_vest vs_chain vs_tr ve_claimed set_claimed].
    - logs. lia.
    - logs. lia.
    - logs. lia.
    - assert (ve_claimed (vs_vest s) + n <= vested (vs_vest s) (time b)) as Hv
        by (unfold d, sat_sub in *; lia).
      unfold phase in *. cbn [vs_vest ve_status set_claimed ve_curve ve_claimed ve_slashed vs_tr vs_chain] in *.
      destruct (ve_status (vs_vest s)) as [| |ow] eqn:E7; [done| |].
      + destruct A11 as (P1 & P2 & P3 & P4 & P5 & P6). split; [done|]. split; [exact Hv|]. logs.
        split; [lia|]. split; [lia|]. split.
        * intros u Hu. specialize (P5 u Hu). rewrite C4. lia.
        * intros Hub Hl u Hu. rewrite forallb_app in Hl. apply andb_true_iff in Hl as [Hl _].
          specialize (P6 Hub Hl u Hu). rewrite C4. lia.
      + destruct A11 as (y & P1 & P2 & P3 & P4 & P5). exists y. logs.
        assert (vested (vs_vest s) (time b) = y) as Hy by (unfold vested; by rewrite P1).
        repeat split; try done; [lia|lia|].
        intros u Hu. specialize (P5 u Hu). rewrite C4. lia.
    - apply cancel_keeps; done.
  Qed.

  Lemma step_withdraw r s' subs :
    fits_opt r = true -> v_withdraw s b r = Ok (s', subs) -> after (VWithdraw r) s' subs.
  Proof.
    intros Hf H. destruct HI as [A1 A2 A3 A4 A5 A6 A7 A8 A9 A10 A11 A12].
    unfold v_withdraw, p_withdraw in H. destruct (o_owner (vs_own s)) as [o|]; [|done].
    unfold phase in *. destruct (ve_status (vs_vest s)) as [| |ow] eqn:E0; try done.
    destruct (liquid _ _) as [lq|] eqn:E1; [|done].
    set (d := Z.min lq ow) in H.
    destruct (negb ((d <? default d r) || (default d r =? 0))) eqn:E4; [|done].
    destruct (sub128 ow (default d r)) as [ow'|] eqn:E3; [|done].
    destruct (ch_pay (vs_chain s) (default d r)) as [ch|] eqn:E5; [|done]. injection H as <- <-.
    apply sub128_ok in E3 as [-> E3]. apply negb_true_iff, orb_false_iff in E4 as [E4 E6].
    destruct A11 as (y & P1 & P2 & P3 & P4 & P5).
    assert (0 <= default d r) as Hp.
    { destruct r as [x|]; cbn in *; [unfold fits128 in Hf; lia|].
      assert (0 <= lq); [|unfold d in *; lia]. unfold liquid in E1. rewrite E0 in E1.
      res_inv E1. apply sub128_ok in E1. lia. }
    set (n := default d r) in *.
    destruct (pay_ok _ _ _ A5 Hp E5) as (C1 & C2 & C3 & C4).
    split; try done; unfold put; cbn [vs_vest vs_chain vs_tr ve_claimed set_status].
    - logs. lia.
    - logs. lia.
    - logs. lia.
    - unfold phase in *. cbn [vs_vest ve_status set_status ve_curve ve_claimed ve_slashed vs_tr vs_chain] in *.
      exists y. logs. repeat split; try done; [lia|lia|].
      intros u Hu. specialize (P5 u Hu). rewrite C4. lia.
    - apply cancel_keeps; try done. intros _. by eexists.
  Qed.

  (** Calls that only move tokens on the chain and in the tracker. *)
  Lemma step_move m s' subs ch k dh dk x y :
    m <> VCancel -> s' = put s (vs_vest s) k ch ->
    lsum to_vestee subs = 0 -> lsum to_owner subs = 0 ->
    ve_status (vs_vest s) <> Unfunded ->
    chain_ok ch -> tgood k -> 0 <= x -> 0 <= y ->
    worth ch = worth (vs_chain s) - x - y + match m with VDonate n => n | _ => 0 end ->
    match m with VSlash _ n => n | _ => 0 end = x ->
    match m with VSlashUnb _ n => n | _ => 0 end = y ->
    match m with VReceive n => n | _ => 0 end = 0 ->
    0 <= match m with VDonate n => n | _ => 0 end ->
    (forall u, sec (time b) <= u -> total_staked k u = total_staked (vs_tr s) u + dk u) ->
    (forall u, sec (time b) <= u -> held_at ch u = held_at (vs_chain s) u + dh u) ->
    (forall u, sec (time b) <= u -> match m with VDonate n => n | _ => 0 end <= dh u + dk u + y) ->
    (vi_chain_ub i = vi_ub i -> no_unb (ECall s0 b a m s' subs) = true ->
      forall u, sec (time b) <= u -> dh u + dk u = match m with VDonate n => n | _ => 0 end) ->
    after m s' subs.
  Proof.
    intros Hm -> S1 S2 Hnu Hc Hk Hx Hy Hw Ex Ey Er Hd Dk Dh D0 D1.
    destruct HI as [A1 A2 A3 A4 A5 A6 A7 A8 A9 A10 A11 A12].
    split; try done; unfold put; cbn [vs_vest vs_chain vs_tr ve_claimed].
    - logs. lia.
    - logs. lia.
    - logs. lia.
    - unfold phase in *. cbn [vs_vest ve_status ve_curve ve_claimed ve_slashed vs_tr vs_chain] in *.
      destruct (ve_status (vs_vest s)) as [| |ow] eqn:E7; [done| |].
      + destruct A11 as (P1 & P2 & P3 & P4 & P5 & P6). logs. rewrite Er, S2, Ey.
        split; [done|]. split; [done|]. split; [lia|]. split; [lia|]. split.
        * intros u Hu. specialize (P5 u Hu). specialize (D0 u Hu). rewrite Dh, Dk by done. lia.
        * intros Hub Hl u Hu. rewrite forallb_app in Hl. apply andb_true_iff in Hl as [Hl Hl2].
          cbn [forallb] in Hl2. rewrite andb_true_r in Hl2.
          specialize (P6 Hub Hl u Hu). specialize (D1 Hub Hl2 u Hu). rewrite Dh, Dk by done. lia.
      + destruct A11 as (z & P1 & P2 & P3 & P4 & P5). exists z. logs. rewrite Er, S2, Ey.
        repeat split; try done; [lia|].
        intros u Hu. specialize (P5 u Hu). specialize (D0 u Hu). rewrite Dh, Dk by done. lia.
    - by apply (cancel_keeps m (put s (vs_vest s) k ch) subs).
  Qed.
  Lemma may_not_unfunded u : may_delegate s a = Ok u -> ve_status (vs_vest s) <> Unfunded.
  Proof. unfold may_delegate. by destruct (ve_status (vs_vest s)). Qed.
  Lemma step_delegate v n s' subs :
    v_delegate s b a v n = Ok (s', subs) -> after (VDelegate v n) s' subs.
  Proof.
    intros H. unfold v_delegate in H. destruct (may_delegate s a) eqn:E0; [|done].
    apply may_not_unfunded in E0. case_bool_decide; [|done].
    destruct (on_delegate _ _ _ _) as [k|] eqn:E1; [|done].
    destruct (ch_delegate _ _ _) as [c|] eqn:E2; [|done]. injection H as <- <-.
    destruct (k_delegate _ _ _ _ _ (I_tr _ _ _ _ HI) E1) as [G1 G2].
    destruct (delegate_ok _ _ _ _ (I_chain _ _ _ _ HI) E2) as (C1 & C2 & C3 & C4).
    eapply (step_move _ _ _ c k (fun _ => - n) (fun _ => n) 0 0); try done; try lia.
    all: intros u Hu; rewrite ?G2, ?C4; try destruct (_ <=? _) eqn:E; lia.
  Qed.
  Lemma step_redelegate v w n can s' subs :
    v_redelegate s b a v w n can = Ok (s', subs) -> after (VRedelegate v w n can) s' subs.
  Proof.
    intros H. unfold v_redelegate in H. destruct (may_delegate s a) eqn:E0; [|done].
    apply may_not_unfunded in E0. case_bool_decide; [|done]. destruct can as [m|]; [|done].
    destruct (n <=? m); [|done].
    destruct (on_redelegate _ _ _ _ _) as [k|] eqn:E1; [|done].
    destruct (ch_redelegate _ _ _ _) as [c|] eqn:E2; [|done]. injection H as <- <-.
    destruct (k_redelegate _ _ _ _ _ _ (I_tr _ _ _ _ HI) E1) as [G1 G2].
    destruct (redelegate_ok _ _ _ _ _ (I_chain _ _ _ _ HI) E2) as (C1 & C2 & C3 & C4).
    eapply (step_move _ _ _ c k (fun _ => 0) (fun _ => 0) 0 0); try done; try lia.
    all: intros u Hu; rewrite ?G2, ?C4; lia.
  Qed.
  Lemma step_undelegate v n s' subs :
    v_undelegate s b a v n = Ok (s', subs) -> after (VUndelegate v n) s' subs.
  Proof.
    intros H. unfold v_undelegate in H.
    assert (ve_status (vs_vest s) <> Unfunded) as Hnu by (intros E; by rewrite E in H).
    destruct ((_ : result unit)) eqn:E0 in H; [|done].
    destruct (on_undelegate _ _ _ _ _) as [k|] eqn:E1; [|done].
    destruct (ch_undelegate _ _ _ _) as [c|] eqn:E2; [|done]. injection H as <- <-.
    destruct (k_undelegate _ _ _ _ _ _ (I_tr _ _ _ _ HI) E1) as [G1 G2].
    destruct (undelegate_ok _ _ _ _ _ (I_chain _ _ _ _ HI) E2) as (C1 & C2 & C3 & C4).
    destruct (I_ub _ _ _ _ HI) as (U1 & U2 & U3). rewrite U1 in G2. rewrite U2 in C4.
    eapply (step_move _ _ _ c k
      (fun u => if sec (time b) + vi_chain_ub i <=? u then n else 0)
      (fun u => - (if sec (time b) + vi_ub i <=? u then n else 0)) 0 0); try done; try lia.
    - intros u Hu. destruct (sec (time b) + vi_chain_ub i <=? u) eqn:Ea, (sec (time b) + vi_ub i <=? u) eqn:Eb; lia.
    - intros Hub _ u Hu. rewrite Hub. lia.
  Qed.
  Lemma step_slash v n c :
    ch_slash (vs_chain s) v n = Ok c ->
    after (VSlash v n) (put s (vs_vest s) (vs_tr s) c) [].
  Proof.
    intros E2. destruct (slash_ok _ _ _ _ (I_chain _ _ _ _ HI) E2) as (C1 & C2 & C3 & C4).
    pose proof (I_tr _ _ _ _ HI) as G. pose proof (I_phase _ _ _ _ HI) as P.
    assert (ve_status (vs_vest s) <> Unfunded) as Hnu.
    { intros E. unfold phase in P. rewrite E in P. destruct P as (_ & _ & _ & _ & _ & _ & _ & _ & P).
      unfold ch_slash, bonded_with in E2. rewrite P, lookup_empty in E2. cbn in E2.
      destruct ((0 <? n) && (n <=? 0)) eqn:E3; [|done]. lia. }
    eapply (step_move _ _ _ c (vs_tr s) (fun _ => 0) (fun _ => 0) n 0); try done; try lia.
    all: intros u Hu; rewrite ?C4; lia.
  Qed.
  Lemma step_slash_unb j n c :
    ch_slash_unb (vs_chain s) j n = Ok c ->
    after (VSlashUnb j n) (put s (vs_vest s) (vs_tr s) c) [].
  Proof.
    intros E2. destruct (slash_unb_ok _ _ _ _ (I_chain _ _ _ _ HI) E2) as (C1 & C2 & C3 & C4).
    pose proof (I_tr _ _ _ _ HI) as G. pose proof (I_phase _ _ _ _ HI) as P.
    assert (ve_status (vs_vest s) <> Unfunded) as Hnu.
    { intros E. unfold phase in P. rewrite E in P. destruct P as (_ & _ & _ & _ & _ & _ & _ & P & _).
      unfold ch_slash_unb in E2. by rewrite P in E2. }
    eapply (step_move _ _ _ c (vs_tr s) (fun u => held_at c u - held_at (vs_chain s) u) (fun _ => 0) 0 n);
      try done; try lia.
    all: intros u Hu; specialize (C4 u); lia.
  Qed.
  Lemma step_donate n :
    0 <= n ->
    after (VDonate n)
      (put s (vs_vest s) (vs_tr s)
         (Chain (ch_held (vs_chain s) + n) (ch_bonded (vs_chain s)) (ch_unb (vs_chain s)))) [].
  Proof.
    intros Hn. assert (ve_status (vs_vest s) = Unfunded \/ ve_status (vs_vest s) <> Unfunded) as [E|Hnu]
      by (destruct (ve_status (vs_vest s)); auto).
    2:{ destruct (I_chain _ _ _ _ HI) as (C1 & C2 & C3). pose proof (I_tr _ _ _ _ HI) as G.
        eapply (step_move _ _ _ (Chain (ch_held (vs_chain s) + n) (ch_bonded (vs_chain s)) (ch_unb (vs_chain s)))
          (vs_tr s) (fun u => n) (fun _ => 0) 0 0); try done; try lia.
        - unfold chain_ok. cbn. split; [lia|done].
        - unfold worth. cbn. lia.
        - intros u Hu. unfold held_at. cbn. lia. }
    destruct HI as [A1 A2 A3 A4 A5 A6 A7 A8 A9 A10 A11 A12]. unfold phase in A11. rewrite E in A11.
    destruct A11 as (P1 & P2 & P3 & P4 & P5 & P6 & P7 & P8 & P9). destruct A5 as (C1 & C2 & C3).
    split; try done; unfold put; cbn [vs_vest vs_chain vs_tr ve_claimed].
    - unfold chain_ok. cbn. split; [lia|done].
    - logs. unfold worth in *. cbn [ch_held ch_bonded ch_unb]. lia.
    - logs. lia.
    - logs. lia.
    - unfold phase. cbn [vs_vest vs_chain vs_tr]. rewrite E. logs.
      cbn [ch_held ch_bonded ch_unb]. repeat split; try done; lia.
    - by apply (cancel_keeps (VDonate n) (put s (vs_vest s) (vs_tr s)
        (Chain (ch_held (vs_chain s) + n) (ch_bonded (vs_chain s)) (ch_unb (vs_chain s)))) []).
  Qed.
  (** Calls that change nothing here. *)
  Lemma step_quiet m s' subs :
    match m with VOwnership _ | VSetWithdraw _ _ | VWithdrawReward _ => True | _ => False end ->
    vs_vest s' = vs_vest s -> vs_tr s' = vs_tr s -> vs_chain s' = vs_chain s ->
    vs_ub s' = vs_ub s -> vs_chain_ub s' = vs_chain_ub s ->
    lsum to_vestee subs = 0 -> lsum to_owner subs = 0 -> after m s' subs.
  Proof.
    intros Hm Ev Ek Ec Eu Ecu S1 S2. destruct HI as [A1 A2 A3 A4 A5 A6 A7 A8 A9 A10 A11 A12].
    assert (forall f, ev_msgs f (ECall s0 b a m s' subs) = f m) as Hf by done.
    assert (forallb no_unb (l ++ [ECall s0 b a m s' subs]) = true -> forallb no_unb l = true) as Hn.
    { rewrite forallb_app. intros [Hl _]%andb_true_iff. exact Hl. }
    assert (brought i (l ++ [ECall s0 b a m s' subs]) = brought i l /\
      donated (l ++ [ECall s0 b a m s' subs]) = donated l /\
      slashed_bonded (l ++ [ECall s0 b a m s' subs]) = slashed_bonded l /\
      slashed_unbonding (l ++ [ECall s0 b a m s' subs]) = slashed_unbonding l /\
      paid_vestee (l ++ [ECall s0 b a m s' subs]) = paid_vestee l /\
      paid_owner (l ++ [ECall s0 b a m s' subs]) = paid_owner l)
      as (L1 & L2 & L3 & L4 & L5 & L6).
    { logs. rewrite S1, S2. destruct m; try done; repeat split; lia. }
    split; rewrite ?Ev, ?Ek, ?Ec, ?Eu, ?Ecu, ?L1, ?L2, ?L3, ?L4, ?L5, ?L6; try done.
    - unfold phase in *. rewrite Ev, Ek, Ec, L1, L2, L4, L6.
      destruct (ve_status (vs_vest s)); try done. naive_solver.
    - rewrite <-Ev. apply cancel_keeps; [by destruct m| |by rewrite Ev].
      unfold is_canceled. by rewrite Ev.
  Qed.

  Lemma step_register v t n u s' subs :
    0 <= n -> v_register_slash s b a v t n u = Ok (s', subs) -> after (VRegisterSlash v t n u) s' subs.
  Proof.
    intros Hn H. unfold v_register_slash in H. destruct (is_owner _ _); [|done].
    destruct (t <=? time b) eqn:Et; [|done]. unfold p_register_slash in H.
    destruct (negb (n =? 0)) eqn:En; [|done].
    destruct ((_ : result vest)) as [v'|] eqn:E1 in H; [|done].
    destruct ((_ : result tracker)) as [k|] eqn:E2 in H; [|done]. injection H as <- <-.
    destruct HI as [A1 A2 A3 A4 A5 A6 A7 A8 A9 A10 A11 A12].
    assert (tgood k /\ (forall w, sec (time b) <= w ->
      total_staked (vs_tr s) w - n <= total_staked k w <= total_staked (vs_tr s) w) /\
      (u = false -> forall w, sec (time b) <= w -> total_staked k w = total_staked (vs_tr s) w - n))
      as (Hk & K1 & K2).
    { pose proof (sec_le t (time b) ltac:(lia)). destruct u.
      - apply k_unbonding_slash in E2 as [G1 G2]; [|done|done]. split; [done|]. split; [|done].
        intros w Hw. apply G2.
      - apply k_bonded_slash in E2 as [G1 G2]; [|done]. split; [done|]. split.
        + intros w Hw. rewrite G2. destruct (sec t <=? w) eqn:E; lia.
        + intros _ w Hw. rewrite G2. destruct (sec t <=? w) eqn:E; lia. }
    clear E2. unfold phase in A11.
    assert (ve_claimed v' = ve_claimed (vs_vest s) /\ ve_curve v' = ve_curve (vs_vest s) /\
      ve_denom v' = ve_denom (vs_vest s) /\ ve_recipient v' = ve_recipient (vs_vest s) /\
      ve_start v' = ve_start (vs_vest s) /\ 0 <= ve_slashed v') as (V1 & V2 & V3 & V4 & V5 & V6).
    { destruct (ve_status (vs_vest s)) as [| |ow].
      - done.
      - destruct (add128 _ _) as [x|] eqn:E; [|done]. injection E1 as <-. apply add128_ok in E. cbn.
        repeat split; try done; lia.
      - destruct (ow <? n) eqn:Eo; [|destruct (sub128 ow n); [injection E1 as <-|]; done].
        destruct (sub128 n ow) as [d|] eqn:Ed; [|done]. destruct (add128 _ _) as [x|] eqn:E; [|done].
        injection E1 as <-. apply add128_ok in E. apply sub128_ok in Ed. cbn. repeat split; try done; lia. }
    split; try done; unfold put; cbn [vs_vest vs_chain vs_tr]; rewrite ?V1, ?V2, ?V3, ?V4; try done.
    - logs. lia.
    - logs. lia.
    - logs. lia.
    - unfold phase. cbn [vs_vest vs_chain vs_tr]. rewrite V1, V2.
      destruct (ve_status (vs_vest s)) as [| |ow]; [done| |].
      + destruct (add128 _ _) as [x|] eqn:E; [|done]. injection E1 as <-. apply add128_ok in E as [-> _].
        cbn [ve_status ve_slashed]. destruct A11 as (P1 & P2 & P3 & P4 & P5 & P6). logs.
        split; [done|]. split; [exact P2|]. split; [lia|]. split; [lia|]. split.
        * intros w Hw. specialize (P5 w Hw). specialize (K1 w Hw). lia.
        * intros Hub Hl w Hw. rewrite forallb_app in Hl. apply andb_true_iff in Hl as [Hl Hl2].
          destruct u; [done|]. specialize (P6 Hub Hl w Hw). rewrite K2 by done. lia.
      + destruct A11 as (y & P1 & P2 & P3 & P4 & P5). destruct (ow <? n) eqn:Eo.
        * destruct (sub128 n ow) as [d|] eqn:Ed; [|done]. destruct (add128 _ _) as [x|] eqn:E; [|done].
          injection E1 as <-. apply add128_ok in E as [-> _]. apply sub128_ok in Ed as [-> _].
          cbn [ve_status ve_slashed]. exists y. logs. repeat split; try done; [lia|].
          intros w Hw. specialize (P5 w Hw). specialize (K1 w Hw). lia.
        * destruct (sub128 ow n) as [d|] eqn:Ed; [|done]. injection E1 as <-.
          apply sub128_ok in Ed as [-> ?].
          cbn [ve_status ve_slashed set_status]. exists y. logs. repeat split; try done; [lia|lia|].
          intros w Hw. specialize (P5 w Hw). specialize (K1 w Hw). lia.
    - rewrite <-V2. apply (cancel_keeps (VRegisterSlash v t n u) (put s v' k (vs_chain s)) []); try done.
      intros [ow Ho]. rewrite Ho in E1. unfold is_canceled. cbn [vs_vest].
      destruct (ow <? n) eqn:Eo.
      + destruct (sub128 n ow) as [d|] eqn:Ed; [|done]. destruct (add128 _ _) as [x|] eqn:E; [|done].
        injection E1 as <-. by eexists.
      + destruct (sub128 ow n) as [d|] eqn:Ed; [|done]. injection E1 as <-. by eexists.
  Qed.

  Lemma step_cancel s' subs :
    vs_vest s0 = vs_vest s -> v_cancel s b a = Ok (s', subs) -> after VCancel s' subs.
  Proof.
    intros Hs0 H. unfold v_cancel in H. destruct (is_owner _ _); [|done].
    unfold p_cancel in H.
    destruct (match ve_status (vs_vest s) with Canceled _ => false | _ => true end) eqn:E0; [|done].
    destruct (liquid _ _) as [lq|] eqn:E1; [|done].
    destruct (sub128 (vested (vs_vest s) (time b)) (ve_claimed (vs_vest s))) as [c|] eqn:E2; [|done].
    set (V := vested (vs_vest s) (time b)) in *.
    set (S := total_staked (vs_tr s) (sec (time b))) in *.
    set (tv := Z.min (sat_sub c (ve_slashed (vs_vest s))) lq) in *.
    destruct (sub128 lq tv) as [own|] eqn:E3; [|done].
    destruct (add128 _ tv) as [cl|] eqn:E4; [|done].
    destruct (sub128 V cl) as [rest|] eqn:E5; [|done].
    destruct (sub128 S _) as [ow|] eqn:E6; [|done].
    apply sub128_ok in E2 as [-> E2], E3 as [-> E3], E5 as [-> E5], E6 as [-> E6].
    apply add128_ok in E4 as [-> _].
    destruct (if lq - tv =? 0 then Ok (vs_chain s) else _) as [c1|] eqn:E7; [|done].
    destruct (if tv =? 0 then Ok c1 else _) as [c2|] eqn:E8; [|done]. injection H as <- <-.
    destruct HI as [A1 A2 A3 A4 A5 A6 A7 A8 A9 A10 A11 A12]. unfold phase in A11.
    assert (0 <= lq) as Hlq.
    { unfold liquid in E1. destruct (ve_status (vs_vest s)).
      - injection E1 as <-. lia.
      - res_inv E1. apply sub128_ok in E1. lia.
      - done. }
    assert (0 <= tv) as Htv by (unfold tv, sat_sub; lia).
    assert (chain_ok c2 /\ worth c2 = worth (vs_chain s) - lq /\
      forall u, held_at c2 u = held_at (vs_chain s) u - lq) as (C1 & C2 & C3).
    { assert (chain_ok c1 /\ worth c1 = worth (vs_chain s) - (lq - tv) /\
        forall u, held_at c1 u = held_at (vs_chain s) u - (lq - tv)) as (D1 & D2 & D3).
      { destruct (lq - tv =? 0) eqn:Ez.
        - injection E7 as <-. repeat split; try apply A5; intros; lia.
        - assert (0 <= lq - tv) as Hp by lia. destruct (pay_ok _ _ _ A5 Hp E7) as (? & ? & ? & ?). done. }
      destruct (tv =? 0) eqn:Ez.
      - injection E8 as <-. repeat split; try apply D1; [lia|]. intros u. rewrite D3. lia.
      - destruct (pay_ok _ _ _ D1 Htv E8) as (? & ? & ? & Hh). split; [done|]. split; [lia|].
        intros u. rewrite Hh, D3. lia. }
    set (subs := VRewardsTo a :: _).
    assert (lsum to_vestee subs = tv) as S1.
    { unfold subs. cbn [lsum]. rewrite lsum_app. destruct (lq - tv =? 0) eqn:Ez, (tv =? 0) eqn:Ez2; cbn; lia. }
    assert (lsum to_owner subs = lq - tv) as S2.
    { unfold subs. cbn [lsum]. rewrite lsum_app. destruct (lq - tv =? 0) eqn:Ez, (tv =? 0) eqn:Ez2; cbn; lia. }
    pose proof (cgood_bounds (ve_curve (vs_vest s)) (Z.max 0 (sec (time b) - sec (ve_start (vs_vest s)))) A4) as HV.
    fold (vested (vs_vest s) (time b)) in HV. fold V in HV.
    split; try done; unfold put; cbn [vs_vest vs_chain vs_tr ve_claimed ve_curve ve_slashed].
    - cbn. lia.
    - logs. lia.
    - logs. lia.
    - logs. lia.
    - unfold phase. cbn [vs_vest vs_chain vs_tr ve_status ve_curve ve_claimed ve_slashed].
      exists V. split; [done|]. split; [lia|]. split; [lia|]. logs. rewrite S2.
      unfold liquid in E1. destruct (ve_status (vs_vest s)) as [| |]; [| |done].
      + injection E1 as <-. destruct A11 as (P1 & P2 & P3 & P4 & P5 & P6 & P7 & P8 & P9).
        assert (S = 0) as Hz by (unfold S; by rewrite P4).
        rewrite P3 in *. assert (V = 0) as HV0 by (unfold tv, sat_sub in *; lia).
        split; [unfold sat_sub in *; lia|].
        intros u Hu. rewrite C3, P4. change (total_staked tr_new u) with 0. unfold held_at.
        rewrite P8, P7. cbn [lsum]. unfold sat_sub in *. lia.
      + destruct (sub128 (ve_total (vs_vest s)) _) as [x|] eqn:F1; [|done].
        destruct (sub128 x S) as [x'|] eqn:F2; [|done].
        apply sub128_ok in F1 as [-> ?], F2 as [-> ?], E1 as [-> ?].
        unfold ve_total in *. rewrite cgood_range in * by done.
        destruct A11 as (P1 & P2 & P3 & P4 & P5 & P6). rewrite P1 in *. destruct A1 as (_ & _ & T3).
        rewrite T3 in *.
        split; [unfold sat_sub in *; lia|].
        intros u Hu. specialize (P5 u Hu). rewrite C3. unfold tv, sat_sub in *. lia.
    - intros pre b1 a1 post subs1 [Hin|Hin]%elem_of_app.
      + destruct (A12 _ _ _ _ _ Hin) as [[ow' X1] _]. by rewrite X1 in E0.
      + apply elem_of_list_singleton in Hin. injection Hin as -> -> _ _ _. rewrite Hs0.
        split; [by eexists|done].
  Qed.
End call.

Lemma vinv_call i b s l a m s' subs :
  vinv i b s l -> v_handle s b a m = Ok (s', subs) -> vinv i b s' (l ++ [ECall s b a m s' subs]).
Proof.
  intros HI H. apply vinv_settle in HI as HI'. unfold v_handle in H.
  set (s1 := settle s b) in *.
  destruct m as [n| |r|r|act|v n|v w n can|v n|x self|v|v t n u|n|v n|j n].
  - destruct (fits128 n); [|done]. eapply step_receive; done.
  - eapply step_cancel; done.
  - destruct (fits_opt r) eqn:E; [|done]. eapply step_distribute; done.
  - destruct (fits_opt r) eqn:E; [|done]. eapply step_withdraw; done.
  - unfold v_ownership in H. destruct (negb _); [|done]. destruct (update_ownership _ _ _ _); [|done].
    injection H as <- <-. by eapply step_quiet.
  - destruct (fits128 n); [|done]. eapply step_delegate; done.
  - destruct (fits128 n && fits_opt can); [|done]. eapply step_redelegate; done.
  - destruct (fits128 n); [|done]. eapply step_undelegate; done.
  - unfold v_set_withdraw in H. destruct (match ve_status _ with Canceled _ => _ | _ => _ end); [|done].
    destruct (negb self); [|done]. injection H as <- <-. by eapply step_quiet.
  - injection H as <- <-. by eapply step_quiet.
  - destruct (fits128 n && (0 <=? t)) eqn:E; [|done]. unfold fits128 in E. eapply step_register; try done. lia.
  - destruct (0 <=? n) eqn:E; [|done]. injection H as <- <-. apply (step_donate i b s s1 l a HI' n). lia.
  - destruct (ch_slash _ _ _) as [c|] eqn:E; [|done]. injection H as <- <-. by apply (step_slash i b s s1 l a HI').
  - destruct (ch_slash_unb _ _ _) as [c|] eqn:E; [|done]. injection H as <- <-. by apply (step_slash_unb i b s s1 l a HI').
Qed.

Lemma vinv_sub i b s l x : vinv i b s l -> vinv i b s (l ++ [ESub s b x true s]).
Proof.
  intros [A1 A2 A3 A4 A5 A6 A7 A8 A9 A10 A11 A12].
  assert (forall f, ev_msgs f (ESub s b x true s) = 0) as Hf by done.
  assert (forallb no_unb (l ++ [ESub s b x true s]) = true -> forallb no_unb l = true) as Hn.
  { rewrite forallb_app. intros [Hl _]%andb_true_iff. exact Hl. }
  assert (brought i (l ++ [ESub s b x true s]) = brought i l /\
    donated (l ++ [ESub s b x true s]) = donated l /\
    slashed_bonded (l ++ [ESub s b x true s]) = slashed_bonded l /\
    slashed_unbonding (l ++ [ESub s b x true s]) = slashed_unbonding l /\
    paid_vestee (l ++ [ESub s b x true s]) = paid_vestee l /\
    paid_owner (l ++ [ESub s b x true s]) = paid_owner l)
    as (L1 & L2 & L3 & L4 & L5 & L6).
  { logs. repeat split; lia. }
  split; rewrite ?L1, ?L2, ?L3, ?L4, ?L5, ?L6; try done.
  - unfold phase in *. rewrite L1, L2, L4, L6. destruct (ve_status (vs_vest s)); try done. naive_solver.
  - intros pre b1 a1 post subs1 [Hin|Hin]%elem_of_app; [eauto|].
    apply elem_of_list_singleton in Hin. done.
Qed.
Lemma vinv_init i b s subs :
  fits_vinit i = true -> 0 <= time b -> v_instantiate b i = Ok (s, subs) -> vinv i b s [].
Proof.
  intros Hf Ht H. unfold fits_vinit in Hf. repeat setoid_rewrite andb_true_iff in Hf.
  destruct Hf as ((((F1 & F2) & F3) & F4) & F5). unfold fits128 in F1.
  unfold v_instantiate in H. set (start := default (time b) (vi_start i)) in H.
  destruct (start + vi_dur i * NANOS <=? U64_MAX) eqn:E1; [|done].
  destruct (time b <? start + vi_dur i * NANOS) eqn:E2; [|done].
  unfold vest_new in H. destruct (negb (vi_total i =? 0)) eqn:E3; [|done].
  destruct (negb (vi_dur i =? 0)) eqn:E4; [|done].
  destruct (into_curve _ _ _) as [c|] eqn:E5; [|done].
  assert (curve0 i = c) as Ec by (unfold curve0; by rewrite E5).
  apply into_curve_good in E5 as [G1 G2]; [|lia|lia].
  assert (0 < vi_total i) as Hp by lia.
  destruct (vi_denom i) as [d|x] eqn:Ed.
  - destruct (must_pay _ _) as [sent|]; [|done]. destruct (sent =? _) eqn:E6; [|done].
    injection H as <- <-. unfold ve_total in E6. cbn [ve_curve] in E6. rewrite cgood_range in E6 by done.
    assert (sent = vi_total i) as -> by lia.
    split; cbn [vs_ub vs_chain_ub vs_vest set_status ve_denom ve_recipient ve_curve vs_chain ve_claimed ve_slashed vs_tr];
      rewrite ?Ec; try done; try lia.
    + unfold chain_ok. cbn. split; [lia|]. split; [|by constructor]. intros v n Hn. by rewrite lookup_empty in Hn.
    + unfold worth, brought. cbn. rewrite msum_empty, Ed. lia.
    + unfold phase. cbn [vs_vest set_status ve_status ve_curve ve_claimed ve_slashed vs_tr vs_chain].
      rewrite Ec. unfold brought. rewrite Ed. cbn. change (total_staked tr_new) with (fun _ : Z => 0).
      split; [done|]. split; [by apply cgood_bounds|]. split; [lia|]. split; [done|].
      unfold held_at. cbn. split; intros; lia.
    + intros ????? Hin. by apply elem_of_nil in Hin.
  - destruct (vi_funds i); [|done]. injection H as <- <-.
    split; cbn [vs_ub vs_chain_ub vs_vest set_status ve_denom ve_recipient ve_curve vs_chain ve_claimed ve_slashed vs_tr];
      rewrite ?Ec; try done; try lia.
    + unfold chain_ok. cbn. split; [lia|]. split; [|by constructor]. intros v n Hn. by rewrite lookup_empty in Hn.
    + unfold worth, brought. cbn. rewrite msum_empty, Ed. lia.
    + unfold phase. cbn [vs_vest set_status ve_status ve_curve ve_claimed ve_slashed vs_tr vs_chain].
      rewrite Ec. unfold brought. rewrite Ed. done.
    + intros ????? Hin. by apply elem_of_nil in Hin.
Qed.
Lemma vreached_inv i b s l : vreached i b s l -> vinv i b s l.
Proof.
  intros (b0 & s0 & subs0 & Hf & Ht & Hi & HL). revert HL.
  apply (leads_ind v_handle (vinv i)); eauto using vinv_call, vinv_sub, vinv_time, vinv_init.
Qed.
(** Every call in the log started from a state satisfying the invariant. *)
Lemma vreached_call i b s l pre b1 a m post subs :
  vreached i b s l -> ECall pre b1 a m post subs ∈ l ->
  v_handle pre b1 a m = Ok (post, subs) /\
  exists l1, vinv i b1 pre l1 /\ vinv i b1 post (l1 ++ [ECall pre b1 a m post subs]).
Proof.
  intros (b0 & s0 & subs0 & Hf & Ht & Hi & HL).
  intros Hin.
  assert (vinv i b0 s0 []) as H0 by eauto using vinv_init.
  destruct (leads_call v_handle (fun b s => exists l1, vinv i b s l1)
    ltac:(intros ?????? [l1 ?] ?; eauto using vinv_call)
    ltac:(intros ??? [l1 ?] ?; eauto using vinv_time) b0 s0 b s l
    (ex_intro _ [] H0) HL _ _ _ _ _ _ Hin) as ([l1 H1] & H2 & _).
  split; [done|]. eauto using vinv_call.
Qed.
