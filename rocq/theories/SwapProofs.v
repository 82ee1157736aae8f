(** Proofs about the token swap. *)
From Verif Require Import Base BaseProofs Exec ExecProofs Plain PlainProofs StoreModel StoreProofs
  SwapModel SwapSpec.
From Verif Require Import StakeProofs ExtProofs.

Definition is_party (p : party) (a : addr) (t : bool * N) (n : Z) : Prop :=
  pa_addr p = a /\ pa_token p = t /\ pa_amount p = n.
(** What is in the contract because of the parties. *)
Definition in_escrow (s : wstate) (t : bool * N) : Z :=
  if pa_provided (w_one s) && pa_provided (w_two s) then 0
  else (if pa_provided (w_one s) then only (pa_token (w_one s)) (pa_amount (w_one s)) t else 0) +
       (if pa_provided (w_two s) then only (pa_token (w_two s)) (pa_amount (w_two s)) t else 0).
Record winv (d : deal) (s : wstate) (l : wlog) : Prop := WInv {
  wi_one : is_party (w_one s) (d_a1 d) (d_t1 d) (d_n1 d);
  wi_two : is_party (w_two s) (d_a2 d) (d_t2 d) (d_n2 d);
  wi_ne : d_a1 d <> d_a2 d;
  wi_n1 : 0 < d_n1 d;
  wi_n2 : 0 < d_n2 d;
  wi_held : forall t, w_bal (w_held s) t = given t l + in_escrow s t;
  wi_given : forall t, 0 <= given t l;
  wi_out :
    (pa_provided (w_one s) = true /\ pa_provided (w_two s) = true /\ swapped d l) \/
    (pa_provided (w_one s) && pa_provided (w_two s) = false /\
       escrow d (pa_provided (w_one s)) (pa_provided (w_two s)) l);
  wi_others : forall a t, a <> d_a1 d -> a <> d_a2 d -> brought a t l = 0 /\ got a t l = 0 }.

Lemma bal_insert m t n u : w_bal (<[t := n]> m) u = if decide (u = t) then n else w_bal m u.
Proof.
  unfold w_bal. destruct (decide (u = t)) as [->|N].
  - by rewrite lookup_insert.
  - by rewrite lookup_insert_ne by congruence.
Qed.
Lemma pay_out_ok m p m' : pay_out m p = Ok m' ->
  pa_amount p <= w_bal m (pa_token p) /\
  forall t, w_bal m' t = w_bal m t - only (pa_token p) (pa_amount p) t.
Proof.
  unfold pay_out. destruct (Z.leb_spec (pa_amount p) (w_bal m (pa_token p))); [|done].
  intros [= <-]. split; [done|]. intros t. rewrite bal_insert. unfold only.
  destruct (decide (t = pa_token p)) as [->|]; lia.
Qed.
Lemma take_in_ok m t n m' : take_in m t n = Ok m' ->
  forall u, w_bal m' u = w_bal m u + only t n u.
Proof.
  unfold take_in. destruct (_ <=? _); [|done]. intros [= <-] u. rewrite bal_insert. unfold only.
  destruct (decide (u = t)) as [->|]; lia.
Qed.
Ltac cases := repeat case_decide; try lia; exfalso; naive_solver.
Lemma lsums (f : wevent -> Z) (l : wlog) e : lsum f (l ++ [e]) = lsum f l + f e.
Proof. rewrite lsum_app. cbn. lia. Qed.

(** A call in normal form: the party [first] acts. *)
Definition acting (s : wstate) (first : bool) : party := if first then w_one s else w_two s.
Definition other (s : wstate) (first : bool) : party := if first then w_two s else w_one s.
Lemma get_party_ok s a p o first : get_party s a = Ok (p, o, first) ->
  p = acting s first /\ o = other s first /\ a = pa_addr p.
Proof.
  unfold get_party. destruct (N.eqb_spec a (pa_addr (w_one s))) as [->|].
  { by intros [= <- <- <-]. }
  destruct (N.eqb_spec a (pa_addr (w_two s))) as [->|]; [|done]. by intros [= <- <- <-].
Qed.

(** Funding. *)
Lemma fund_inv d s l first m ev s' subs :
  winv d s l -> let p := acting s first in let o := other s first in
  do_fund s m p o first (pa_amount p) = Ok (s', subs) ->
  (forall u, w_bal m u = w_bal (w_held s) u + only (pa_token p) (pa_amount p) u) ->
  (forall a t, ev_in a t ev = if decide (a = pa_addr p) then only (pa_token p) (pa_amount p) t else 0) ->
  (forall a t, ev_out a t ev = lsum (out_to a t) subs) ->
  (forall t, gift t ev = 0) ->
  winv d s' (l ++ [ev]).
Proof.
  intros I p o H Hm Hin Hout Hg. destruct I as [I1 I2 I3 I4 I5 I6 I7 I8 I9].
  unfold do_fund in H. destruct (pa_provided p) eqn:Pp; [done|]. cbn in H.
  rewrite Z.eqb_refl in H. 
  destruct I1 as (A1 & T1 & N1), I2 as (A2 & T2 & N2).
  assert (pa_addr p = d_a1 d \/ pa_addr p = d_a2 d) as Hp.
  { unfold p, acting. destruct first; [left|right]; done. }
  assert (pa_addr o = d_a1 d \/ pa_addr o = d_a2 d) as Ho.
  { unfold o, other. destruct first; [right|left]; done. }
  assert (forall t, given t (l ++ [ev]) = given t l) as G.
  { intros t. unfold given. rewrite lsums, Hg. lia. }
  destruct (pa_provided o) eqn:Po.
  - destruct (pay_out m (provide p true)) as [m1|] eqn:E1; [|done].
    destruct (pay_out m1 o) as [m2|] eqn:E2; [|done]. cbn in H. injection H as <- <-.
    apply pay_out_ok in E1 as [_ E1], E2 as [_ E2]. cbn in E1.
    assert (forall t, in_escrow s t = only (pa_token o) (pa_amount o) t) as Es.
    { intros t. unfold in_escrow, p, o, acting, other in *. destruct first; rewrite Pp, Po; cbn; lia. }
    split; cbn.
    + unfold save, provide. destruct first; cbn; done.
    + unfold save, provide. destruct first; cbn; done.
    + done.
    + done.
    + done.
    + intros t. rewrite G.
      assert (w_held (save s first (provide p true) m2) = m2) as -> by by destruct first.
      rewrite E2, E1, Hm, I6, Es.
      assert (in_escrow (save s first (provide p true) m2) t = 0) as ->; [|lia].
      unfold in_escrow, save, o, other in *. destruct first; cbn; rewrite Po; done.
    + intros t. by rewrite G.
    + left. assert (pa_provided (w_one (save s first (provide p true) m2)) = true /\
        pa_provided (w_two (save s first (provide p true) m2)) = true) as [-> ->].
      { unfold save, o, other in *. destruct first; done. }
      split; [done|]. split; [done|].
      destruct I8 as [(B1 & B2 & _)|[_ I8]].
      { unfold p, o, acting, other in *. destruct first; congruence. }
      intros t. destruct (I8 t) as [S1 S2]. unfold spent, brought, got in *. rewrite !lsums.
      rewrite !Hin, !Hout. cbn [lsum out_to]. unfold provide. cbn.
      unfold p, o, acting, other in *.
      destruct first; rewrite Pp, Po in *; rewrite ?A1, ?A2, ?T1, ?T2, ?N1, ?N2 in *; unfold only in *;
        cases.
    + intros a t H1 H2. destruct (I9 a t H1 H2) as [S1 S2]. unfold brought, got in *.
      rewrite !lsums, Hin, Hout. cbn [lsum out_to]. unfold provide. cbn.
      destruct Hp, Ho; cases.
  - cbn in H. injection H as <- <-. split; cbn.
    + unfold save, provide. destruct first; cbn; done.
    + unfold save, provide. destruct first; cbn; done.
    + done.
    + done.
    + done.
    + intros t. rewrite G.
      assert (w_held (save s first (provide p true) m) = m) as -> by by destruct first.
      rewrite Hm, I6.
      assert (in_escrow (save s first (provide p true) m) t = only (pa_token p) (pa_amount p) t) as ->.
      { unfold in_escrow, save, provide, p, o, acting, other in *.
        destruct first; cbn; rewrite Po; cbn; lia. }
      assert (in_escrow s t = 0) as ->; [|lia].
      unfold in_escrow, save, p, o, acting, other in *. destruct first; rewrite Po, Pp; cbn; lia.
    + intros t. by rewrite G.
    + right. split.
      { unfold save, p, o, acting, other in *. destruct first; cbn; rewrite Po; done. }
      destruct I8 as [(B1 & B2 & _)|[_ I8]].
      { unfold p, o, acting, other in *. destruct first; congruence. }
      intros t. destruct (I8 t) as [S1 S2]. unfold spent, brought, got in *. rewrite !lsums.
      rewrite !Hin, !Hout. cbn [lsum].
      unfold save, p, o, acting, other in *.
      destruct first; cbn; rewrite Pp, Po in *; rewrite ?A1, ?A2, ?T1, ?T2, ?N1, ?N2 in *; unfold only in *;
        cases.
    + intros a t H1 H2. destruct (I9 a t H1 H2) as [S1 S2]. unfold brought, got in *.
      rewrite !lsums, Hin, Hout. cbn [lsum].
      destruct Hp; cases.
Qed.
(** Withdrawing. *)
Lemma withdraw_inv d s l first m ev subs :
  winv d s l -> let p := acting s first in let o := other s first in
  pa_provided p = true -> pa_provided o = false ->
  pay_out (w_held s) p = Ok m ->
  subs = [WPay (pa_token p) (pa_addr p) (pa_amount p)] ->
  (forall a t, ev_in a t ev = 0) ->
  (forall a t, ev_out a t ev = lsum (out_to a t) subs) ->
  (forall t, gift t ev = 0) ->
  winv d (save s first (provide p false) m) (l ++ [ev]).
Proof.
  intros I p o Pp Po H -> Hin Hout Hg. destruct I as [I1 I2 I3 I4 I5 I6 I7 I8 I9].
  destruct I1 as (A1 & T1 & N1), I2 as (A2 & T2 & N2). apply pay_out_ok in H as [_ H].
  assert (pa_addr p = d_a1 d \/ pa_addr p = d_a2 d) as Hp.
  { unfold p, acting. destruct first; [left|right]; done. }
  assert (forall t, given t (l ++ [ev]) = given t l) as G.
  { intros t. unfold given. rewrite lsums, Hg. lia. }
  split; cbn.
  - unfold save, provide. destruct first; cbn; done.
  - unfold save, provide. destruct first; cbn; done.
  - done.
  - done.
  - done.
  - intros t. rewrite G.
    assert (w_held (save s first (provide p false) m) = m) as -> by by destruct first.
    rewrite H, I6.
    assert (in_escrow (save s first (provide p false) m) t = 0) as ->.
    { unfold in_escrow, save, provide, p, o, acting, other in *.
      destruct first; cbn; rewrite Po; cbn; lia. }
    assert (in_escrow s t = only (pa_token p) (pa_amount p) t) as ->; [|lia].
    unfold in_escrow, p, o, acting, other in *. destruct first; rewrite Po, Pp; cbn; lia.
  - intros t. by rewrite G.
  - right. split.
    { unfold save, p, o, acting, other in *. destruct first; cbn; rewrite ?andb_false_r; done. }
    destruct I8 as [(B1 & B2 & _)|[_ I8]].
    { unfold p, o, acting, other in *. destruct first; congruence. }
    intros t. destruct (I8 t) as [S1 S2]. unfold spent, brought, got in *. rewrite !lsums.
    rewrite !Hin, !Hout. cbn [lsum out_to].
    unfold save, p, o, acting, other in *.
    destruct first; cbn; rewrite Pp, Po in *; rewrite ?A1, ?A2, ?T1, ?T2, ?N1, ?N2 in *; unfold only in *;
      cases.
  - intros a t H1 H2. destruct (I9 a t H1 H2) as [S1 S2]. unfold brought, got in *.
    rewrite !lsums, Hin, Hout. cbn [lsum out_to].
    destruct Hp; cases.
Qed.

Lemma winv_call d b s l a m s' subs :
  winv d s l -> w_handle s b a m = Ok (s', subs) -> winv d s' (l ++ [ECall s b a m s' subs]).
Proof.
  intros I H. destruct m as [from n|funds| |t n]; cbn in H.
  - destruct (fits128 n) eqn:Ef; [|done].
    destruct (get_party s from) as [[[p o] first]|] eqn:Ep; [|done].
    apply get_party_ok in Ep as (-> & -> & ->).
    destruct (pa_token (acting s first)) as [[|] t] eqn:Et; [|done].
    destruct (N.eqb_spec t a) as [<-|]; [|done].
    destruct (take_in _ _ _) as [h|] eqn:Eh; [|done].
    assert (n = pa_amount (acting s first)) as ->.
    { unfold do_fund in H. destruct (negb _); [|done]. destruct (Z.eqb_spec n (pa_amount (acting s first))); done. }
    eapply fund_inv; [done|exact H|..].
    + intros u. rewrite Et. by apply take_in_ok.
    + intros c u. cbn. rewrite Et. unfold only. cases.
    + done.
    + done.
  - destruct (forallb _ _) eqn:Ef; [|done].
    destruct (get_party s a) as [[[p o] first]|] eqn:Ep; [|done].
    apply get_party_ok in Ep as (-> & -> & ->).
    destruct (pa_token (acting s first)) as [[|] t] eqn:Et; [done|].
    destruct (must_pay funds t) as [n|] eqn:Em; [|done]. apply must_pay_ok in Em as [-> Hn].
    destruct (take_in _ _ _) as [h|] eqn:Eh; [|done].
    assert (n = pa_amount (acting s first)) as ->.
    { unfold do_fund in H. destruct (negb _); [|done]. destruct (Z.eqb_spec n (pa_amount (acting s first))); done. }
    eapply fund_inv; [done|exact H|..].
    + intros u. rewrite Et. by apply take_in_ok.
    + intros c u. cbn. rewrite Et. unfold only, coins. cbn.
      cases.
    + done.
    + done.
  - destruct (get_party s a) as [[[p o] first]|] eqn:Ep; [|done].
    apply get_party_ok in Ep as (-> & -> & ->).
    destruct (pa_provided (acting s first)) eqn:Pp; [|done].
    destruct (pa_provided (other s first)) eqn:Po; [done|]. cbn in H.
    destruct (pay_out _ _) as [h|] eqn:Eh; [|done]. injection H as <- <-.
    by eapply withdraw_inv.
  - destruct (fits128 n) eqn:Ef; [|done]. apply fits128_ok in Ef.
    destruct (take_in _ _ _) as [h|] eqn:Eh; [|done]. injection H as <- <-.
    destruct I as [I1 I2 I3 I4 I5 I6 I7 I8 I9].
    assert (forall u, given u (l ++ [ECall s b a (WDonate t n) (WState (w_one s) (w_two s) h) []]) =
      given u l + only t n u) as G.
    { intros u. unfold given. rewrite lsums. cbn. unfold only. repeat case_decide; try lia; congruence. }
    split; try done.
    + intros u. rewrite G. cbn [w_held]. rewrite (take_in_ok _ _ _ _ Eh), I6.
      unfold in_escrow. cbn [w_one w_two]. lia.
    + intros u. rewrite G. specialize (I7 u). unfold only. case_decide; lia.
    + cbn [w_one w_two]. destruct I8 as [(B1 & B2 & I8)|[B1 I8]]; [left|right].
      * split; [done|]. split; [done|]. intros u. unfold swapped, spent, brought, got in *. rewrite !lsums.
        cbn. rewrite !Z.add_0_r. apply I8.
      * split; [done|]. intros u. unfold escrow, spent, brought, got in *. rewrite !lsums.
        cbn. rewrite !Z.add_0_r. apply I8.
    + intros c u H1 H2. unfold brought, got. rewrite !lsums. cbn. rewrite !Z.add_0_r. by apply I9.
Qed.
Lemma winv_init d v1 v2 s0 :
  w_instantiate (d_a1 d) (d_t1 d) (d_n1 d) v1 (d_a2 d) (d_t2 d) (d_n2 d) v2 = Ok s0 -> winv d s0 [].
Proof.
  unfold w_instantiate, checked. intros H.
  destruct (fits128 (d_n1 d)) eqn:F1; [|done]. destruct (Z.eqb_spec (d_n1 d) 0); [done|]. cbn in H.
  destruct (negb (d_t1 d).1 || v1); [|done].
  destruct (fits128 (d_n2 d)) eqn:F2; [|done]. destruct (Z.eqb_spec (d_n2 d) 0); [done|]. cbn in H.
  destruct (negb (d_t2 d).1 || v2); [|done].
  destruct (N.eqb_spec (d_a1 d) (d_a2 d)); [done|]. cbn in H. injection H as <-.
  apply fits128_ok in F1, F2. split; cbn; try done; try lia.
  right. split; [done|]. intros t. done.
Qed.
Lemma wreached_inv d b s l : wreached d b s l -> winv d s l.
Proof.
  intros (b0 & v1 & v2 & s0 & Hi & Hl). apply winv_init in Hi.
  revert Hl. apply (leads_ind w_handle (fun b s l => winv d s l)).
  - intros. by apply winv_call.
  - intros b1 s1 l1 x [I1 I2 I3 I4 I5 I6 I7 I8 I9].
    assert (forall f : wevent -> Z, f (ESub s1 b1 x true s1) = 0 ->
      lsum f (l1 ++ [ESub s1 b1 x true s1]) = lsum f l1) as E.
    { intros f Hf. rewrite lsums, Hf. lia. }
    split; try done; unfold escrow, swapped, spent, brought, got, given in *.
    + intros t. rewrite E by done. apply I6.
    + intros t. rewrite E by done. apply I7.
    + destruct I8 as [(B1 & B2 & I8)|[B1 I8]]; [left|right].
      * split; [done|]. split; [done|]. intros t. rewrite !E by done. apply I8.
      * split; [done|]. intros t. rewrite !E by done. apply I8.
    + intros a t ? ?. rewrite !E by done. by apply I9.
  - done.
  - done.
Qed.
