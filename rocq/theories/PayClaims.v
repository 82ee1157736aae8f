(** The claims about the payroll factory, proved. *)
From Verif Require Import Base BaseProofs Exec ExecProofs Plain PlainProofs StoreModel StoreProofs
  WormModel VestModel VestSpec VestProofs PayModel PaySpec PayProofs.

Lemma orders_app l1 l2 : orders (l1 ++ l2) = orders l1 ++ orders l2.
Proof. apply flat_map_app. Qed.
Lemma orders_one e : orders [e] = orders_of e.
Proof. apply app_nil_r. Qed.

(** ** What the log says of the list *)
Definition lists (l : ylog) (m : gmap addr (addr * addr)) : Prop :=
  NoDup (map r_addr (orders l)) /\
  (forall c x p, m !! c = Some (x, p) <->
     exists r, r ∈ orders l /\ r_addr r = c /\ orderer r = x /\ vi_recipient (r_terms r) = p).
Lemma y_inv b s l : yreached b s l -> (0 <= time b /\ y_tmp s = None) /\ lists l (y_list s).
Proof.
  intros (b0 & self & owner & code & honest & m & Hb & Hm & Hs & HL). revert HL.
  apply (leads_ind y_handle (fun b s l => (0 <= time b /\ y_tmp s = None) /\ lists l (y_list s))).
  - clear. intros b s l a m s' subs ((A & B) & N & L) H.
    destruct (y_handle_ok _ _ _ _ _ _ A B H) as (_ & _ & T & R). split; [done|].
    unfold lists. rewrite orders_app, orders_one.
    destruct (y_ask m) as [[[i new] ans]|] eqn:Ha.
    + destruct R as (s1 & v & _ & -> & _ & _ & Hn & _ & _ & _ & Hl & _).
      cbn [orders_of map].
      set (r := Order s b a m s' new (y_code s) (vi_owner i) i v).
      rewrite map_app. cbn [map]. split.
      * apply NoDup_app. split; [done|]. split; [|apply NoDup_singleton].
        intros c Hc ->%elem_of_list_singleton. cbn in Hc.
        apply elem_of_list_fmap in Hc as (r0 & Hr0 & Hin).
        assert (y_list s !! new = Some (orderer r0, vi_recipient (r_terms r0))) as E
          by (apply L; eauto). congruence.
      * intros c x p. rewrite Hl. destruct (decide (c = new)) as [->|Hne].
        -- rewrite lookup_insert. split.
           ++ intros E. injection E as <- <-. exists r.
              split; [apply elem_of_app; right; by apply elem_of_list_singleton|].
              split; [done|]. split; [|done]. unfold orderer. cbn. by destruct m.
           ++ intros (r0 & [Hin|Hin]%elem_of_app & E1 & E2 & E3).
              ** assert (y_list s !! new = Some (x, p)) as E by (apply L; eauto). congruence.
              ** apply elem_of_list_singleton in Hin. subst r0. cbn in E3. subst p. f_equal. f_equal.
                 rewrite <-E2. unfold orderer. cbn. by destruct m.
        -- rewrite lookup_insert_ne by done. rewrite L. split.
           ++ intros (r0 & Hin & E). exists r0. split; [by apply elem_of_app; left|done].
           ++ intros (r0 & [Hin|Hin]%elem_of_app & E1 & E2); [eauto|].
              apply elem_of_list_singleton in Hin. subst r0. by cbn in E1.
    + destruct R as [-> ->]. cbn. rewrite app_nil_r. done.
  - clear. intros b s l x ((A & B) & L). split; [done|]. unfold lists in *. rewrite orders_app, orders_one.
    cbn. by rewrite app_nil_r.
  - clear. intros b b' s l ((A & B) & L) [_ Hle]. split; [|done]. split; [lia|done].
  - split; [done|]. cbn. split; [by apply NoDup_nil|]. intros c x p. rewrite lookup_empty. split; [done|].
    intros (r & Hr & _). by apply elem_of_nil in Hr.
Qed.
Lemma recorded b s l c x p :
  yreached b s l ->
  (y_list s !! c = Some (x, p) <->
   exists r, r ∈ orders l /\ r_addr r = c /\ orderer r = x /\ vi_recipient (r_terms r) = p).
Proof.
  intros H. destruct (y_inv _ _ _ H) as (_ & _ & L). apply L.
Qed.
Lemma once b s l : yreached b s l -> NoDup (map r_addr (orders l)).
Proof.
  intros H. by destruct (y_inv _ _ _ H) as (_ & N & _).
Qed.
Lemma index_spec (f : addr * (addr * addr) -> addr) (m : gmap addr (addr * addr)) a :
  let l := map fst (base.filter (fun p => f p = a) (map_to_list m)) in
  NoDup l /\ forall c, c ∈ l <-> exists q, m !! c = Some q /\ f (c, q) = a.
Proof.
  intros l. split.
  - subst l. pose proof (NoDup_fst_map_to_list m) as N. revert N.
    generalize (map_to_list m). intros k. induction k as [|p k IH]; intros N; [by apply NoDup_nil|].
    apply NoDup_cons in N as [N1 N2]. rewrite filter_cons. destruct (decide _); [|by apply IH].
    rewrite map_cons. apply NoDup_cons. split; [|by apply IH]. intros Hin. apply N1.
    apply elem_of_list_fmap in Hin as (q & E & Hin). apply elem_of_list_filter in Hin as [_ Hin].
    apply elem_of_list_fmap. eauto.
  - intros c. subst l. rewrite elem_of_list_fmap. split.
    + intros ([c' q] & -> & Hin). apply elem_of_list_filter in Hin as [E Hin].
      apply elem_of_map_to_list in Hin. eauto.
    + intros (q & Hq & E). exists (c, q). split; [done|]. apply elem_of_list_filter. split; [done|].
      by apply elem_of_map_to_list.
Qed.
Lemma listed b s l x :
  yreached b s l ->
  (NoDup (y_of_instantiator s x) /\
   forall c, c ∈ y_of_instantiator s x <-> exists r, r ∈ orders l /\ r_addr r = c /\ orderer r = x) /\
  (NoDup (y_of_recipient s x) /\
   forall c, c ∈ y_of_recipient s x <->
     exists r, r ∈ orders l /\ r_addr r = c /\ vi_recipient (r_terms r) = x).
Proof.
  intros H. split.
  - destruct (index_spec (fun p => p.2.1) (y_list s) x) as [N L]. split; [exact N|].
    intros c. unfold y_of_instantiator. rewrite L. split.
    + intros ([x' p] & Hq & E). cbn in E. subst x'. apply (recorded _ _ _ _ _ _ H) in Hq as (r & ? & ? & ? & _). eauto.
    + intros (r & A & B & C). exists (orderer r, vi_recipient (r_terms r)).
      split; [apply (recorded b s l c (orderer r) _ H); by eauto|]. done.
  - destruct (index_spec (fun p => p.2.2) (y_list s) x) as [N L]. split; [exact N|].
    intros c. unfold y_of_recipient. rewrite L. split.
    + intros ([x' p] & Hq & E). cbn in E. subst p. apply (recorded _ _ _ _ _ _ H) in Hq as (r & ? & ? & ? & ?). eauto.
    + intros (r & A & B & C). exists (orderer r, vi_recipient (r_terms r)).
      split; [apply (recorded b s l c (orderer r) _ H); by eauto|]. done.
Qed.

(** ** One order of a history *)
Lemma reached_call b s l pre b1 a m post subs :
  yreached b s l -> ECall pre b1 a m post subs ∈ l ->
  yinv b1 pre /\ y_handle pre b1 a m = Ok (post, subs).
Proof.
  intros (b0 & self & owner & code & honest & m0 & Hb & Hm & Hs & HL) He.
  assert (yinv b0 (y_instantiate self owner code honest m0)) as I0 by done.
  destruct (leads_call y_handle yinv yinv_call (fun b b' s I H => yinv_time b b' s H I) _ _ _ _ _
              I0 HL _ _ _ _ _ _ He) as (A & C & _). done.
Qed.
Lemma order_call b s l r :
  yreached b s l -> r ∈ orders l ->
  0 <= time (r_block r) /\ y_tmp (r_pre r) = None /\
  exists subs, y_handle (r_pre r) (r_block r) (r_sender r) (r_msg r) = Ok (r_post r, subs) /\
    YMade (r_addr r) (r_code r) (r_admin r) (r_terms r) (r_vest r) ∈ subs.
Proof.
  intros HR Hr.
  apply elem_of_list_In, in_flat_map in Hr as (e & He & Hr). apply elem_of_list_In in He.
  destruct e as [pre b1 a m1 post subs|]; [|done]. cbn in Hr.
  apply in_map_iff in Hr as ([c n ad i v] & <- & Hin).
  destruct (reached_call _ _ _ _ _ _ _ _ _ HR He) as ([A B] & C).
  cbn. split; [done|]. split; [done|]. exists subs. split; [done|]. by apply elem_of_list_In.
Qed.
Lemma terms b s l r :
  yreached b s l -> r ∈ orders l ->
  asked (r_msg r) = Some (r_terms r) /\
  r_code r = y_code (r_pre r) /\ r_admin r = vi_owner (r_terms r) /\
  o_owner (vs_own (r_vest r)) = vi_owner (r_terms r) /\
  ve_recipient (vs_vest (r_vest r)) = vi_recipient (r_terms r) /\
  ve_total (vs_vest (r_vest r)) = vi_total (r_terms r) /\
  ve_denom (vs_vest (r_vest r)) = vi_denom (r_terms r) /\
  (exists lv, vreached (r_terms r) (r_block r) (r_vest r) lv) /\
  (in_honest (r_pre r) (r_terms r) ->
   ve_status (vs_vest (r_vest r)) = Funded /\ ch_held (vs_chain (r_vest r)) = vi_total (r_terms r)).
Proof.
  intros H Hr. destruct (order_call _ _ _ _ H Hr) as (A & B & subs & C & D).
  destruct (y_handle_ok _ _ _ _ _ _ A B C) as (_ & _ & _ & R).
  destruct (y_ask (r_msg r)) as [[[i new] ans]|] eqn:Ha; [|destruct R as [-> _]; by apply elem_of_nil in D].
  destruct R as (s1 & v & _ & -> & _ & _ & _ & _ & _ & _ & _ & E1 & E2 & E3 & E4 & E5 & E6).
  apply elem_of_list_singleton in D. injection D as D1 D2 D3 D4 D5. rewrite D2, D3, D4, D5.
  split; [by destruct (r_msg r); simplify_eq/=|].
  split; [done|]. split; [done|]. split; [by rewrite E4|]. repeat (split; [done|]).
  unfold in_honest. destruct (vi_denom i) as [d|t]; [tauto|].
  destruct (bool_decide (t ∈ y_honest (r_pre r))) eqn:Eh; [tauto|]. by apply bool_decide_eq_false in Eh.
Qed.

(** ** Who may order, and that it works *)
(** Acceptable terms are met, whatever happened before. *)
Lemma serves b s l x i new v subs :
  yreached b s l ->
  match o_owner (y_own s) with Some o => o = x | None => True end ->
  fits_vinit i = true -> v_instantiate b i = Ok (v, subs) ->
  y_list s !! new = None -> new <> y_self s -> x <> y_self s ->
  match vi_denom i with
  | DNative _ => exists post r, y_handle s b x (YNative i new None) = Ok (post, [r])
  | DCw20 t =>
      t ∈ y_honest s -> 0 <= holds s t (y_self s) -> vi_total i <= holds s t x ->
      exists post r, y_handle s b x (YSend t (vi_total i) i new None) = Ok (post, [r])
  end.
Proof.
  intros H Ho Hf Hv Hn Hself Hx. destruct (y_inv _ _ _ H) as ((Ht & Htmp) & _).
  destruct (v_instantiate_facts _ _ _ _ Hf Ht Hv) as (A & B & C & D & E).
  assert (match o_owner (y_own s) with Some o => (o =? x)%N | None => true end = true) as Eo.
  { destruct (o_owner (y_own s)); [subst; apply N.eqb_refl|done]. }
  assert (bool_decide (y_list s !! new = None) && negb (new =? y_self s)%N = true) as En.
  { apply andb_true_iff. split; [by apply bool_decide_eq_true|]. by apply negb_true_iff, N.eqb_neq. }
  destruct (vi_denom i) as [d|t] eqn:Ed.
  - cbn [y_handle]. unfold y_native, y_create. cbn [y_set_tmp y_own y_list y_self].
    rewrite Eo, Hf, En, Hv. unfold y_reply. cbn [y_set_tmp y_tmp].
    rewrite A. eauto.
  - intros Hh Hpos Hbal. cbn [y_handle]. rewrite (bool_decide_eq_true_2 (t ∈ y_honest s)) by done.
    assert (0 <= vi_total i) as Hp.
    { unfold fits_vinit in Hf. do 4 apply andb_true_iff in Hf as [Hf _]. unfold fits128 in Hf. lia. }
    destruct (0 <=? vi_total i) eqn:E0; [|lia].
    destruct (ymove_total (y_bal s) t x (y_self s) (vi_total i) Hbal) as [m Hm]. rewrite Hm.
    destruct (ymove_ok _ _ _ _ _ _ Hm) as (_ & _ & _ & M & _). destruct (M Hx) as [_ M2].
    unfold holds in Hpos. unfold y_receive. destruct E as (E1 & E2 & E3). rewrite E3.
    cbn [y_set_bal y_tmp]. rewrite (bool_decide_eq_true_2 (y_tmp s = None)) by done. cbn zeta.
    rewrite Z.eqb_refl. unfold y_create. cbn [y_set_tmp y_set_bal y_own y_list y_self].
    rewrite Eo, Hf, En, Hv. unfold y_reply. cbn [y_set_tmp y_set_bal y_tmp y_honest y_bal y_self].
    rewrite A, C. rewrite (bool_decide_eq_true_2 (t ∈ y_honest s)) by done.
    destruct (ymove_total m t (y_self s) new (vi_total i)) as [m2 Hm2].
    { rewrite M2. unfold ybal. lia. }
    rewrite Hm2. destruct (v_receive_works _ _ _ _ _ Hf Ht Hv Ed) as [v' Hr]. rewrite Hr. eauto.
Qed.
(** The factory knows only the name it is told. *)
Lemma owner_asks b s l r o :
  yreached b s l -> r ∈ orders l -> o_owner (y_own (r_pre r)) = Some o ->
  orderer r = o /\ ((forall who n i new ans, r_msg r <> YReceive who n i new ans) -> r_sender r = o).
Proof.
  intros H Hr Ho. destruct (order_call _ _ _ _ H Hr) as (A & B & subs & C & D).
  destruct (y_handle_ok _ _ _ _ _ _ A B C) as (_ & _ & _ & R).
  destruct (y_ask (r_msg r)) as [[[i new] ans]|] eqn:Ha; [|destruct R as [-> _]; by apply elem_of_nil in D].
  destruct R as (s1 & v & _ & _ & Hc & _). unfold can_order in Hc. rewrite Ho in Hc.
  split; [by rewrite Hc|]. intros Hm. rewrite Hc. destruct (r_msg r); try done. by edestruct Hm.
Qed.

(** ** Money *)
Lemma exact_order b s l r t n i new ans :
  yreached b s l -> r ∈ orders l -> r_msg r = YSend t n i new ans -> vi_denom i = DCw20 t ->
  r_sender r <> y_self (r_pre r) -> r_sender r <> new ->
  n = vi_total i /\ r_addr r = new /\
  holds (r_post r) t (r_sender r) = holds (r_pre r) t (r_sender r) - n /\
  holds (r_post r) t new = holds (r_pre r) t new + n /\
  holds (r_post r) t (y_self (r_pre r)) = holds (r_pre r) t (y_self (r_pre r)) /\
  (forall u a, (u <> t \/ (a <> r_sender r /\ a <> new)) -> holds (r_post r) u a = holds (r_pre r) u a).
Proof.
  intros H Hr Hm Hd Hs1 Hs2. destruct (order_call _ _ _ _ H Hr) as (A & B & subs & C & D).
  destruct (y_handle_ok _ _ _ _ _ _ A B C) as (_ & _ & _ & R).
  rewrite Hm in R. cbn [y_ask y_arrived] in R.
  destruct R as (s1 & v & (Hh & Hn & -> & m1 & M1 & ->) & -> & _ & _ & _ & Hnew & _ & _ & _ & _ & _ & _ & _ & _ & E).
  apply elem_of_list_singleton in D. injection D as D1 D2 D3 D4 D5.
  rewrite Hd in E. rewrite bool_decide_eq_true_2 in E by done. cbn [y_bal y_set_bal] in E.
  destruct E as (M2 & _).
  destruct (ymove_ok _ _ _ _ _ _ M1) as (_ & P1 & P2 & P3 & _).
  destruct (ymove_ok _ _ _ _ _ _ M2) as (_ & Q1 & Q2 & Q3 & _).
  destruct (P3 Hs1) as [P4 P5]. destruct (Q3 ltac:(congruence)) as [Q4 Q5].
  unfold holds. fold (ybal (y_bal (r_post r)) t (r_sender r)) (ybal (y_bal (r_pre r)) t (r_sender r))
    (ybal (y_bal (r_post r)) t new) (ybal (y_bal (r_pre r)) t new)
    (ybal (y_bal (r_post r)) t (y_self (r_pre r))) (ybal (y_bal (r_pre r)) t (y_self (r_pre r))).
  split; [done|]. split; [done|].
  split; [rewrite Q2, P4 by congruence; done|].
  split; [rewrite Q5, P2 by congruence; done|].
  split; [rewrite Q4, P5; lia|].
  intros u a Hua. fold (ybal (y_bal (r_post r)) u a) (ybal (y_bal (r_pre r)) u a).
  destruct (decide (u = t)) as [->|Hne]; [|by rewrite Q1, P1].
  destruct Hua as [|[Ha1 Ha2]]; [done|].
  destruct (decide (a = y_self (r_pre r))) as [->|Ha3]; [rewrite Q4, P5; lia|].
  rewrite Q2, P2 by done. done.
Qed.
(** While everybody sends what is to be vested, the factory keeps nothing. *)
Lemma empty b s l :
  yreached b s l -> (forall e, e ∈ l -> tidy (y_self s) e) -> forall t, holds s t (y_self s) = 0.
Proof.
  intros (b0 & self & owner & code & honest & m & Hb & Hm & Hs & HL) Htidy.
  assert (y_self s = self) as Eself.
  { revert HL. set (s0 := y_instantiate self owner code honest m). intros HL.
    assert (yinv b0 s0) as I0 by (split; done).
    apply (leads_rel y_handle yinv yinv_call (fun b b' s I H => yinv_time b b' s H I)
             (fun x y => y_self y = y_self x) _ s0 _ _ _) in HL; try done; [congruence|].
    intros b1 s1 a1 m1 s1' subs [A B] H1. by destruct (y_handle_ok _ _ _ _ _ _ A B H1). }
  assert ((0 <= time b /\ y_tmp s = None /\ y_self s = self /\ (forall t a, 0 <= ybal (y_bal s) t a)) /\
    ((forall e, e ∈ l -> tidy self e) -> forall t, ybal (y_bal s) t self = 0)) as [_ HH].
  2: { rewrite Eself in *. intros t. by apply HH. }
  clear Htidy Eself. revert HL.
  apply (leads_ind y_handle (fun b s l => (0 <= time b /\ y_tmp s = None /\ y_self s = self /\
      (forall t a, 0 <= ybal (y_bal s) t a)) /\
    ((forall e, e ∈ l -> tidy self e) -> forall t, ybal (y_bal s) t self = 0))).
  - clear. intros b s l a m s' subs ((A & B & S & P) & L) H.
    destruct (y_handle_ok _ _ _ _ _ _ A B H) as (Hs & _ & T & R).
    destruct (y_ask m) as [[[i new] ans]|] eqn:Ha.
    + destruct R as (s1 & v & Harr & -> & _ & Hf & _ & Hnew & _ & _ & _ & _ & _ & _ & _ & _ & R).
      rewrite S in *.
      assert (0 <= vi_total i) as Hp.
      { unfold fits_vinit in Hf. do 4 apply andb_true_iff in Hf as [Hf _]. unfold fits128 in Hf. lia. }
      assert (forall t a, 0 <= ybal (y_bal s1) t a) as P1.
      { destruct m as [t n i' new' ans'|who n i' new' ans'|i' new' ans'| | |]; try done; cbn in Harr.
        - destruct Harr as (_ & Hn & _ & m' & M & ->). cbn.
          destruct (ymove_ok _ _ _ _ _ _ M) as (M0 & M1 & M2 & M3 & M4). intros u c.
          destruct (decide (u = t)) as [->|]; [|by rewrite M1]. rewrite S in *.
          pose proof (P t a). pose proof (P t self). destruct (decide (a = self)) as [->|Hne].
          + destruct (decide (c = self)) as [->|]; [rewrite M4 by done; lia|by rewrite M2].
          + destruct (M3 Hne) as [M5 M6]. destruct (decide (c = a)) as [->|]; [lia|].
            destruct (decide (c = self)) as [->|]; [lia|by rewrite M2].
        - destruct Harr as (-> & _). done.
        - subst s1. done. }
      assert (forall t a, 0 <= ybal (y_bal s') t a) as P2.
      { destruct (vi_denom i) as [d|t]; [by destruct R as (-> & _)|].
        destruct (bool_decide _); [|by rewrite R]. destruct R as (M & _).
        destruct (ymove_ok _ _ _ _ _ _ M) as (M0 & M1 & M2 & M3 & M4). intros u c.
        destruct (decide (u = t)) as [->|]; [|by rewrite M1].
        pose proof (P1 t self). pose proof (P1 t new). destruct (M3 ltac:(congruence)) as [M5 M6].
        destruct (decide (c = self)) as [->|]; [lia|].
        destruct (decide (c = new)) as [->|]; [lia|by rewrite M2]. }
      split; [done|]. intros Ht. 
      assert (forall t, ybal (y_bal s) t self = 0) as Z0.
      { apply L. intros e He. apply Ht, elem_of_app. by left. }
      assert (tidy self (ECall s b a m s' [YMade new (y_code s) (vi_owner i) i v])) as Ht1.
      { apply Ht, elem_of_app. right. by apply elem_of_list_singleton. }
      intros u. destruct (vi_denom i) as [d|t] eqn:Ed.
      * destruct R as (-> & _).
        destruct m as [t n i' new' ans'|who n i' new' ans'|i' new' ans'| | |]; try done; cbn in Harr, Ht1;
          injection Ha as -> -> ->; [congruence|destruct Harr as (-> & _)|subst s1]; apply Z0.
      * destruct (bool_decide (t ∈ y_honest s)) eqn:Eh.
        -- destruct R as (M & _). destruct (ymove_ok _ _ _ _ _ _ M) as (M0 & M1 & M2 & M3 & M4).
           destruct (M3 ltac:(congruence)) as [M5 M6].
           destruct m as [t' n i' new' ans'|who n i' new' ans'|i' new' ans'| | |]; try done; cbn in Harr, Ht1;
             injection Ha as -> -> ->.
           ++ destruct Harr as (_ & Hn & -> & m' & N & ->). cbn in *. rewrite S in *.
              assert (t' = t) as -> by congruence.
              destruct (ymove_ok _ _ _ _ _ _ N) as (N0 & N1 & N2 & N3 & N4).
              destruct (decide (u = t)) as [->|Hu]; [|by rewrite M1, N1].
              destruct (decide (a = self)) as [->|Ha].
              ** rewrite Z0 in N0. rewrite M5, N4, Z0 by done. lia.
              ** destruct (N3 Ha) as [N5 N6]. rewrite M5, N6, Z0. lia.
           ++ destruct Harr as (-> & _). destruct (decide (u = t)) as [->|Hu]; [|by rewrite M1].
              pose proof (P2 t self). rewrite M5, Z0 in *. lia.
           ++ subst s1. destruct (decide (u = t)) as [->|Hu]; [|by rewrite M1].
              pose proof (P2 t self). rewrite M5, Z0 in *. lia.
        -- rewrite R.
           destruct m as [t' n i' new' ans'|who n i' new' ans'|i' new' ans'| | |]; try done; cbn in Harr, Ht1;
             injection Ha as -> -> ->.
           ++ destruct Harr as (Hh & _). apply bool_decide_eq_false in Eh. congruence.
           ++ destruct Harr as (-> & _). apply Z0.
           ++ subst s1. apply Z0.
    + destruct R as (-> & _). destruct (y_handle_other _ _ _ _ _ _ Ha H) as (_ & _ & _ & _ & _ & R).
      assert ((forall t a, 0 <= ybal (y_bal s') t a) /\ 
        (tidy self (ECall s b a m s' []) -> (forall t, ybal (y_bal s) t self = 0) ->
         forall t, ybal (y_bal s') t self = 0)) as [P2 Z2].
      { destruct m as [| | |o|n|t to n]; try done.
        - destruct R as (_ & _ & ->). done.
        - destruct R as (_ & _ & _ & ->). done.
        - destruct R as (_ & Hn & M & _). destruct (ymove_ok _ _ _ _ _ _ M) as (M0 & M1 & M2 & M3 & M4).
          pose proof (P t a). pose proof (P t to).
          assert (forall t a, 0 <= ybal (y_bal s') t a) as P2.
          { intros u c. destruct (decide (u = t)) as [->|]; [|by rewrite M1].
            destruct (decide (a = to)) as [->|Hne].
            + destruct (decide (c = to)) as [->|]; [rewrite M4 by done; lia|by rewrite M2].
            + destruct (M3 Hne) as [M5 M6]. destruct (decide (c = a)) as [->|]; [lia|].
              destruct (decide (c = to)) as [->|]; [lia|by rewrite M2]. }
          split; [done|]. cbn. intros Hto Z0 u. destruct (decide (u = t)) as [->|]; [|by rewrite M1].
          destruct (decide (a = self)) as [->|Hne]; [|by rewrite M2].
          destruct (M3 ltac:(congruence)) as [M5 M6]. pose proof (P2 t self). rewrite M5, Z0 in *. lia. }
      split; [by rewrite Hs|]. intros Ht. apply Z2.
      * apply Ht, elem_of_app. right. by apply elem_of_list_singleton.
      * apply L. intros e He. apply Ht, elem_of_app. by left.
  - clear. intros b s l x ((A & B) & L). split; [done|]. intros Ht. apply L. intros e He. apply Ht, elem_of_app. by left.
  - clear. intros b b' s l ((A & B) & L) [_ Hle]. split; [|done]. split; [lia|done].
  - cbn. split; [repeat (split; [done|]); intros t a; apply Hm|].
    intros _ t. unfold ybal. by rewrite Hs.
Qed.

(** ** Settings *)
Lemma settings b s l pre b1 a m post subs :
  yreached b s l -> ECall pre b1 a m post subs ∈ l ->
  (y_code post <> y_code pre -> m = YCode (y_code post) /\ o_owner (y_own pre) = Some a) /\
  (o_owner (y_own post) <> o_owner (y_own pre) ->
   (o_owner (y_own pre) = Some a /\ m = YOwn ORenounce /\ o_owner (y_own post) = None) \/
   (o_pending (y_own pre) = Some a /\ m = YOwn OAccept /\ o_owner (y_own post) = Some a)).
Proof.
  intros HR He.
  destruct (reached_call _ _ _ _ _ _ _ _ _ HR He) as ([A B] & C).
  destruct (y_handle_ok _ _ _ _ _ _ A B C) as (_ & _ & _ & R).
  destruct (y_ask m) as [[[i new] ans]|] eqn:Ha.
  { destruct R as (_ & _ & _ & _ & _ & _ & _ & _ & -> & -> & _). done. }
  destruct (y_handle_other _ _ _ _ _ _ Ha C) as (_ & _ & _ & _ & _ & R2).
  destruct m as [| | |o|n|t to n]; try done.
  - destruct R2 as (U & -> & _). split; [done|]. intros Hne.
    destruct o as [x e| |]; cbn [update_ownership] in U.
    + destruct (is_owner _ _); [|done]. destruct (negb _); [|done]. injection U as U.
      rewrite <-U in Hne. done.
    + destruct (o_pending (y_own pre)) as [p|] eqn:Ep; [|done].
      destruct (p =? a)%N eqn:Epa; [|done]. apply N.eqb_eq in Epa. destruct (negb _); [|done].
      injection U as U. right. rewrite <-U. cbn. subst p. done.
    + destruct (is_owner _ _) eqn:Eo; [|done]. injection U as U. left. rewrite <-U. cbn.
      unfold is_owner in Eo. destruct (o_owner (y_own pre)) as [p|]; [|done].
      apply N.eqb_eq in Eo. by subst p.
  - destruct R2 as (Eo & -> & -> & _). split; [|done]. intros _. split; [done|].
    unfold is_owner in Eo. destruct (o_owner (y_own pre)) as [p|]; [|done].
    apply N.eqb_eq in Eo. by subst p.
  - destruct R2 as (_ & _ & _ & -> & ->). done.
Qed.
