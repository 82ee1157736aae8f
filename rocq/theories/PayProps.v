(** cw-payroll-factory: theorems.  Each is followed by what it rests on and by a concrete
    case meeting its hypotheses. *)
From Verif Require Import Base BaseProofs Exec ExecProofs Plain PlainProofs StoreModel WormModel
  VestModel VestSpec PayModel PaySpec PayProofs PayClaims PayExamples.

(** * C89 *)
Theorem C89_recorded b s l c x p :
  yreached b s l ->
  (y_list s !! c = Some (x, p) <->
   exists r, r ∈ orders l /\ r_addr r = c /\ orderer r = x /\ vi_recipient (r_terms r) = p).
Proof. exact (recorded b s l c x p). Qed.
Print Assumptions C89_recorded.
Theorem C89_once b s l : yreached b s l -> NoDup (map r_addr (orders l)).
Proof. exact (once b s l). Qed.
Print Assumptions C89_once.
Theorem C89_listed b s l x :
  yreached b s l ->
  (NoDup (y_of_instantiator s x) /\
   forall c, c ∈ y_of_instantiator s x <-> exists r, r ∈ orders l /\ r_addr r = c /\ orderer r = x) /\
  (NoDup (y_of_recipient s x) /\
   forall c, c ∈ y_of_recipient s x <->
     exists r, r ∈ orders l /\ r_addr r = c /\ vi_recipient (r_terms r) = x).
Proof. exact (listed b s l x). Qed.
Print Assumptions C89_listed.
Theorem C89_terms b s l r :
  yreached b s l -> r ∈ orders l ->
  asked (r_msg r) = Some (r_terms r) /\
  r_code r = y_code (r_pre r) /\ r_admin r = vi_owner (r_terms r) /\
  o_owner (vs_own (r_vest r)) = vi_owner (r_terms r) /\
  ve_recipient (vs_vest (r_vest r)) = vi_recipient (r_terms r) /\
  ve_total (vs_vest (r_vest r)) = vi_total (r_terms r) /\
  ve_denom (vs_vest (r_vest r)) = vi_denom (r_terms r) /\
  (exists lv, vreached (r_terms r) (r_block r) (r_vest r) lv) /\
  (in_honest (r_pre r) (r_terms r) ->
   ve_status (vs_vest (r_vest r)) = Funded /\ ch_held (vs_chain (r_vest r)) = vi_total (r_terms r)).
Proof. exact (terms b s l r). Qed.
Print Assumptions C89_terms.
Theorem C89_serves b s l x i new v subs :
  yreached b s l ->
  match o_owner (y_own s) with Some o => o = x | None => True end ->
  fits_vinit i = true -> v_instantiate b i = Ok (v, subs) ->
  y_list s !! new = None -> new <> y_self s -> x <> y_self s ->
  match vi_denom i with
  | DNative _ => exists post r, y_handle s b x (YNative i new None) = Ok (post, [r])
  | DCw20 t =>
      t ∈ y_honest s -> 0 <= holds s t (y_self s) -> vi_total i <= holds s t x ->
      exists post r, y_handle s b x (YSend t (vi_total i) i new None) = Ok (post, [r])
  end.
Proof. exact (serves b s l x i new v subs). Qed.
Print Assumptions C89_serves.
Example C89_case :
  let s := fst ex_pay in let l := snd ex_pay in
  yreached (yb 10) s l /\ map r_addr (orders l) = [201%N; 203%N; 204%N; 205%N] /\
  map orderer (orders l) = [1%N; 1%N; 1%N; 5%N] /\ map r_code (orders l) = [7; 7; 7; 9] /\
  y_list s !! 204%N = Some (1%N, 3%N) /\ y_list s !! 202%N = None /\
  length (y_of_instantiator s 1) = 3%nat /\ length (y_of_recipient s 2) = 2%nat.
Proof.
  cbv zeta. split; [exact pay_reached|].
  do 6 (split; [vm_compute; reflexivity|]). vm_compute; reflexivity.
Qed.
(** The hypotheses of [C89_serves], in both currencies. *)
Example C89_case_serves :
  let s := fst ex_pay in
  yreached (yb 10) s (snd ex_pay) /\ o_owner (y_own s) = None /\
  fits_vinit (yvin 5 2 (DCw20 10)) = true /\ is_ok (v_instantiate (yb 10) (yvin 5 2 (DCw20 10))) = true /\
  is_ok (v_instantiate (yb 10) (yvin 5 2 (DNative 8))) = true /\
  y_list s !! 206%N = None /\ 10%N ∈ y_honest s /\ holds s 10 (y_self s) = 0 /\ holds s 10 5 = 300.
Proof.
  cbv zeta. split; [exact pay_reached|]. do 5 (split; [vm_compute; reflexivity|]).
  split; [apply (bool_decide_eq_true_1 _); vm_compute; reflexivity|].
  split; vm_compute; reflexivity.
Qed.

(** * C90 *)
Theorem C90_settings b s l pre b1 a m post subs :
  yreached b s l -> ECall pre b1 a m post subs ∈ l ->
  (y_code post <> y_code pre -> m = YCode (y_code post) /\ o_owner (y_own pre) = Some a) /\
  (o_owner (y_own post) <> o_owner (y_own pre) ->
   (o_owner (y_own pre) = Some a /\ m = YOwn ORenounce /\ o_owner (y_own post) = None) \/
   (o_pending (y_own pre) = Some a /\ m = YOwn OAccept /\ o_owner (y_own post) = Some a)).
Proof. exact (settings b s l pre b1 a m post subs). Qed.
Print Assumptions C90_settings.
(** Missing: that the name the factory is told is that of the account that sends; see the
    refutation. *)
Theorem C90_owner_asks_partial b s l r o :
  yreached b s l -> r ∈ orders l -> o_owner (y_own (r_pre r)) = Some o ->
  orderer r = o /\ ((forall who n i new ans, r_msg r <> YReceive who n i new ans) -> r_sender r = o).
Proof. exact (owner_asks b s l r o). Qed.
Print Assumptions C90_owner_asks_partial.
(** Missing: orders in another token than the one sent, and orders that send nothing; see the
    refutations. *)
Theorem C90_exact_partial b s l r t n i new ans :
  yreached b s l -> r ∈ orders l -> r_msg r = YSend t n i new ans -> vi_denom i = DCw20 t ->
  r_sender r <> y_self (r_pre r) -> r_sender r <> new ->
  n = vi_total i /\ r_addr r = new /\
  holds (r_post r) t (r_sender r) = holds (r_pre r) t (r_sender r) - n /\
  holds (r_post r) t new = holds (r_pre r) t new + n /\
  holds (r_post r) t (y_self (r_pre r)) = holds (r_pre r) t (y_self (r_pre r)) /\
  (forall u a, (u <> t \/ (a <> r_sender r /\ a <> new)) -> holds (r_post r) u a = holds (r_pre r) u a).
Proof. exact (exact_order b s l r t n i new ans). Qed.
Print Assumptions C90_exact_partial.
Theorem C90_empty_partial b s l :
  yreached b s l -> (forall e, e ∈ l -> tidy (y_self s) e) -> forall t, holds s t (y_self s) = 0.
Proof. exact (empty b s l). Qed.
Print Assumptions C90_empty_partial.
Theorem C90_bypass_refuted : exists b s l r o,
  yreached b s l /\ r ∈ orders l /\ o_owner (y_own (r_pre r)) = Some o /\ r_sender r <> o /\
  (forall e, e ∈ l -> match e with ECall _ _ a _ _ _ => a <> o | _ => True end) /\
  y_list s !! r_addr r = Some (o, 67%N).
Proof. exact bypass_refuted. Qed.
Print Assumptions C90_bypass_refuted.
Theorem C90_stuck_refuted : exists b s l r t n i new ans,
  yreached b s l /\ r ∈ orders l /\ r_msg r = YSend t n i new ans /\
  holds (r_post r) t (r_sender r) = holds (r_pre r) t (r_sender r) - n /\ n = 100 /\
  vi_denom (r_terms r) <> DCw20 t /\
  holds (r_post r) t (y_self s) = holds (r_pre r) t (y_self s) + n.
Proof. exact stuck_refuted. Qed.
Print Assumptions C90_stuck_refuted.
Theorem C90_spends_refuted : exists b s l r t,
  yreached b s l /\ r ∈ orders l /\ r_sender r = 6%N /\ orderer r = 6%N /\
  vi_denom (r_terms r) = DCw20 t /\
  holds (r_pre r) t 6 = 0 /\ vi_funds (r_terms r) = [] /\
  holds (r_post r) t (y_self s) = holds (r_pre r) t (y_self s) - vi_total (r_terms r) /\
  ch_held (vs_chain (r_vest r)) = vi_total (r_terms r) /\
  vi_recipient (r_terms r) = 6%N /\ vi_owner (r_terms r) = Some 6%N.
Proof. exact spends_refuted. Qed.
Print Assumptions C90_spends_refuted.
Example C90_case :
  let s := fst ex_pay in let l := snd ex_pay in let r := ord l 2 in
  yreached (yb 10) s l /\ r ∈ orders l /\ o_owner (y_own (r_pre r)) = Some 1%N /\
  r_msg r = YSend 10 100 (yvin 1 3 (DCw20 10)) 204 None /\ r_sender r = 1%N /\
  y_self (r_pre r) = 100%N /\ holds (r_pre r) 10 1 = 400 /\ holds (r_post r) 10 1 = 300 /\
  holds (r_post r) 10 204 = 100 /\ (forall e, e ∈ l -> tidy (y_self s) e) /\ y_code s = 9.
Proof.
  cbv zeta. split; [exact pay_reached|]. split; [yord 2%nat|].
  do 7 (split; [vm_compute; reflexivity|]). split; [|vm_compute; reflexivity].
  apply tidy_check. vm_compute; reflexivity.
Qed.
