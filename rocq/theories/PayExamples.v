(** Concrete histories of the payroll factory: factory 100, honest tokens 10 and 11. *)
From Verif Require Import Base BaseProofs Exec ExecProofs Plain PlainProofs StoreModel WormModel
  VestModel VestSpec VestProofs PayModel PaySpec.

Definition yb (n : Z) : block := Block n (n * NANOS).
(** Account 1 holds 500 of token 10, account 5 holds 300 of token 10 and 100 of token 11. *)
Definition y_wallets : gmap (addr * addr) Z :=
  {[(10%N, 1%N) := 500; (10%N, 5%N) := 300; (11%N, 5%N) := 100]}.
Definition yst0 (owner : option addr) : ystate := y_instantiate 100 owner 7 {[10%N; 11%N]} y_wallets.
Definition yc (h : Z) (a : addr) (m : ymsg) : block * call ymsg := (yb h, Call a m []).
Definition yrun (owner : option addr) (h : list (block * call ymsg)) : ystate * ylog :=
  run_hist y_handle no_fail no_reply (yst0 owner) h.
Lemma wallets_pos k : 0 <= default 0 (y_wallets !! k).
Proof.
  unfold y_wallets. destruct (decide (k = (10%N, 1%N))) as [->|H1]; [by vm_compute|].
  destruct (decide (k = (10%N, 5%N))) as [->|H2]; [by vm_compute|].
  destruct (decide (k = (11%N, 5%N))) as [->|H3]; [by vm_compute|].
  rewrite !lookup_insert_ne, lookup_singleton_ne by done. done.
Qed.
Lemma yreached_run owner h b :
  hist_ok (yb 0) h -> block_le (hist_end (yb 0) h) b ->
  yreached b (fst (yrun owner h)) (snd (yrun owner h)).
Proof.
  intros Hh Hb. exists (yb 0), 100%N, owner, 7, {[10%N; 11%N]}, y_wallets.
  split; [done|]. split; [exact wallets_pos|]. split.
  { intros t. unfold y_wallets. by rewrite !lookup_insert_ne, lookup_singleton_ne by congruence. }
  exists h. split; [done|]. split; [|done]. unfold yrun. by destruct (run_hist _ _ _ _ h).
Qed.
Ltac yside := vm_compute; repeat split; discriminate || reflexivity.
Ltac yreach := apply yreached_run; yside.

(** 100 tokens over 100 seconds for account [p]; the vest belongs to [o]. *)
Definition yvin (o p : addr) (d : vdenom) : vinit :=
  VInit (Some o) p 100 SLinear None 100 d (match d with DNative x => [(x, 100)] | DCw20 _ => [] end)
    10 10 7%N.
Definition y_dummy : order :=
  Order (yst0 None) (yb 0) 0 (YCode 0) (yst0 None) 0 0 None (yvin 0 0 (DNative 0))
    (VState (initialize_owner None) (Vest (CConst 0) 0 Unfunded 0%N (DNative 0%N) 0 0) tr_new 0 0 0%N
       (Chain 0 ∅ [])).
Definition ord (l : ylog) (k : nat) : order := default y_dummy (orders l !! k).
Ltac yord k := apply (elem_of_list_lookup_2 _ k); vm_compute; reflexivity.

(** Owner 1: two orders in token 10, one in a native coin; then the owner changes the code id
    and leaves, and 5 orders in token 11. *)
Definition payday : list (block * call ymsg) :=
  [yc 1 1 (YSend 10 100 (yvin 1 2 (DCw20 10)) 201 None);
   yc 2 5 (YSend 10 100 (yvin 5 3 (DCw20 10)) 202 None);
   yc 2 1 (YNative (yvin 1 3 (DNative 8)) 203 None);
   yc 3 1 (YSend 10 100 (yvin 1 3 (DCw20 10)) 204 None);
   yc 4 1 (YCode 9); yc 5 1 (YOwn ORenounce);
   yc 6 5 (YSend 11 100 (yvin 5 2 (DCw20 11)) 205 None)].
Definition ex_pay := yrun (Some 1%N) payday.
Lemma pay_reached : yreached (yb 10) (fst ex_pay) (snd ex_pay).
Proof. yreach. Qed.

(** Account 66 is a contract that poses as a cw20 token: it tells the factory that 1, the
    owner, sent it 100 tokens, and is itself the token to be vested. *)
Definition posed : list (block * call ymsg) :=
  [yc 1 66 (YReceive 1 100 (yvin 66 67 (DCw20 66)) 201 (Some false))].
Definition ex_posed := yrun (Some 1%N) posed.
Lemma bypass_refuted : exists b s l r o,
  yreached b s l /\ r ∈ orders l /\ o_owner (y_own (r_pre r)) = Some o /\ r_sender r <> o /\
  (forall e, e ∈ l -> match e with ECall _ _ a _ _ _ => a <> o | _ => True end) /\
  y_list s !! r_addr r = Some (o, 67%N).
Proof.
  exists (yb 5), (fst ex_posed), (snd ex_posed), (ord (snd ex_posed) 0), 1%N.
  split; [yreach|]. split; [yord 0%nat|]. split; [vm_compute; reflexivity|].
  split; [vm_compute; discriminate|]. split; [|vm_compute; reflexivity].
  assert (forallb (fun e : event ystate ymsg ysub =>
    match e with ECall _ _ a _ _ _ => negb (a =? 1)%N | _ => true end) (snd ex_posed) = true) as H
    by (vm_compute; reflexivity).
  intros e He. rewrite forallb_forall in H. apply elem_of_list_In in He. specialize (H _ He).
  destruct e; [|done]. by apply negb_true_iff, N.eqb_neq in H.
Qed.
(** Account 5 sends 100 of token 10, and asks for a vest in token 11, which 5 had given the
    factory before: token 10 stays in the factory.  Then 6, who sends nothing, has it vested
    for themself. *)
Definition mixed : list (block * call ymsg) :=
  [yc 1 5 (YTransfer 11 100 100);
   yc 2 5 (YSend 10 100 (yvin 5 2 (DCw20 11)) 201 None);
   yc 3 6 (YNative (yvin 6 6 (DCw20 10)) 202 None)].
Definition ex_mixed := yrun None mixed.
Definition ex_mixed1 := yrun None (take 2 mixed).
Lemma stuck_refuted : exists b s l r t n i new ans,
  yreached b s l /\ r ∈ orders l /\ r_msg r = YSend t n i new ans /\
  holds (r_post r) t (r_sender r) = holds (r_pre r) t (r_sender r) - n /\ n = 100 /\
  vi_denom (r_terms r) <> DCw20 t /\
  holds (r_post r) t (y_self s) = holds (r_pre r) t (y_self s) + n.
Proof.
  exists (yb 5), (fst ex_mixed), (snd ex_mixed), (ord (snd ex_mixed) 0).
  exists 10%N, 100, (yvin 5 2 (DCw20 11)), 201%N, None.
  split; [yreach|]. split; [yord 0%nat|]. split; [vm_compute; reflexivity|].
  split; [vm_compute; reflexivity|]. split; [reflexivity|]. split; [vm_compute; discriminate|].
  vm_compute; reflexivity.
Qed.
Lemma spends_refuted : exists b s l r t,
  yreached b s l /\ r ∈ orders l /\ r_sender r = 6%N /\ orderer r = 6%N /\
  vi_denom (r_terms r) = DCw20 t /\
  holds (r_pre r) t 6 = 0 /\ vi_funds (r_terms r) = [] /\
  holds (r_post r) t (y_self s) = holds (r_pre r) t (y_self s) - vi_total (r_terms r) /\
  ch_held (vs_chain (r_vest r)) = vi_total (r_terms r) /\
  vi_recipient (r_terms r) = 6%N /\ vi_owner (r_terms r) = Some 6%N.
Proof.
  exists (yb 5), (fst ex_mixed), (snd ex_mixed), (ord (snd ex_mixed) 1), 10%N.
  split; [yreach|]. split; [yord 1%nat|]. vm_compute. repeat split; reflexivity.
Qed.

(** Everybody in [payday] sends what is to be vested. *)
Definition tidy_b (self : addr) (e : event ystate ymsg ysub) : bool :=
  match e with
  | ECall _ _ _ (YSend t _ i _ _) _ _ => bool_decide (vi_denom i = DCw20 t)
  | ECall _ _ a (YTransfer _ to _) _ _ => negb (to =? self)%N
  | _ => true
  end.
Lemma tidy_check self l : forallb (tidy_b self) l = true -> forall e, e ∈ l -> tidy self e.
Proof.
  intros H e He. rewrite forallb_forall in H. apply elem_of_list_In in He. specialize (H _ He).
  destruct e as [? ? ? [] ? ?|]; cbn in *; try done.
  - by apply bool_decide_eq_true in H.
  - by apply negb_true_iff, N.eqb_neq in H.
Qed.
