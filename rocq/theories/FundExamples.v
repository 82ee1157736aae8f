(** Concrete histories of cw-fund-distributor. *)
From Verif Require Import Base BaseProofs Exec ExecProofs Plain PlainProofs StoreModel FundModel
  FundSpec FundProofs FundClaims.

Definition gb (n : Z) : block := Block n (n * NANOS).
(** Powers of members 2 and 3 by height; for a height to come, the present power.  The
    token 66 refuses transfers. *)
Definition tworld (f : Z -> Z * Z) : world := World
  (fun b h a => let p := f (Z.min h (height b)) in
     if (a =? 2)%N then Z.max 0 (fst p) else if (a =? 3)%N then Z.max 0 (snd p) else 0)
  (fun b h => let p := f (Z.min h (height b)) in Z.min U128_MAX (Z.max 0 (fst p) + Z.max 0 (snd p)))
  (fun t => (t =? 66)%N).
Lemma lsum_at (x : Z) (a : addr) us : 0 <= x -> NoDup us -> lsum (fun u => if (u =? a)%N then x else 0) us <= x.
Proof.
  intros Hx. induction 1 as [|u us Hu Hn IH]; cbn; [lia|]. destruct (u =? a)%N eqn:E; [|lia].
  apply N.eqb_eq in E as ->. assert (lsum (fun u => if (u =? a)%N then x else 0) us = 0) as ->; [|lia].
  clear -Hu. induction us as [|v us IH]; cbn; [done|]. apply not_elem_of_cons in Hu as [H1 H2].
  rewrite (proj2 (N.eqb_neq v a)) by congruence. by rewrite IH.
Qed.
Lemma tworld_ok f : (forall h, fst (f h) + snd (f h) <= U128_MAX /\ 0 <= fst (f h) /\ 0 <= snd (f h)) ->
  voting_ok (tworld f).
Proof.
  intros Hf. split; [|split; [|split]]; cbn.
  - intros b h a. repeat case_match; lia.
  - intros b h. pose proof (Hf (Z.min h (height b))). split; [|lia]. unfold U128_MAX. lia.
  - intros b h us _ Hn. destruct (Hf (Z.min h (height b))) as (H1 & H2 & H3).
    set (p := f (Z.min h (height b))) in *.
    rewrite (Z.min_r U128_MAX) by lia.
    transitivity (lsum (fun u => (if (u =? 2)%N then Z.max 0 (fst p) else 0) + (if (u =? 3)%N then Z.max 0 (snd p) else 0)) us).
    + apply lsum_le. intros u _. destruct (u =? 2)%N eqn:E2; destruct (u =? 3)%N eqn:E3; lia.
    + rewrite lsum_add. pose proof (lsum_at (Z.max 0 (fst p)) 2%N us ltac:(lia) Hn).
      pose proof (lsum_at (Z.max 0 (snd p)) 3%N us ltac:(lia) Hn). lia.
  - intros b b' h a [Hb _] Hh. rewrite !Z.min_l by lia. done.
Qed.

Definition gini (w : world) (h0 h : Z) : gstate :=
  match g_instantiate w (gb h0) h (DHeight 5) with
  | Ok s => s | Err _ => GState 0 Never 0 ∅ ∅ ∅ end.
Definition grun (w : world) (h0 h : Z) (l : list (block * call gmsg)) :=
  run_hist (g_handle w) no_fail no_reply (gini w h0 h) l.
Definition gc (h : Z) (a : addr) (m : gmsg) : block * call gmsg := (gb h, Call a m []).
Lemma greached_run w h0 h l b :
  voting_ok w -> g_instantiate w (gb h0) h (DHeight 5) = Ok (gini w h0 h) ->
  hist_ok (gb h0) l -> block_le (hist_end (gb h0) l) b ->
  greached w b (fst (grun w h0 h l)) (snd (grun w h0 h l)).
Proof.
  intros HV Hi Hh Hb. exists (gb h0), h, (DHeight 5), (gini w h0 h).
  split; [done|]. split; [done|]. exists l. split; [done|]. split; [|done].
  unfold grun. by destruct (run_hist _ _ _ _ l).
Qed.
Ltac gside := vm_compute; repeat split; discriminate || reflexivity.
Ltac greach := apply greached_run; [apply tworld_ok; intros; repeat case_match; cbn; unfold U128_MAX; lia|vm_compute; reflexivity|gside|gside].
Definition past_b (e : gevent) : bool :=
  match e with ECall s b _ m _ _ => negb (is_claim m) || (g_height s <=? height b) | _ => true end.
Definition fair_b (w : world) (e : gevent) : bool :=
  match e with
  | ECall s b _ m _ _ => negb (is_claim m) || (w_tot w b (g_height s) <=? g_total s) | _ => true end.
Lemma all_past l : forallb past_b l = true -> Forall past_height l.
Proof.
  intros H. apply Forall_forall. intros [pre b a m post subs|] Hin; cbn; [|done].
  intros Hm. rewrite forallb_forall in H. apply elem_of_list_In, H in Hin. cbn in Hin.
  rewrite Hm in Hin. cbn in Hin. lia.
Qed.
Lemma all_fair w l : forallb (fair_b w) l = true -> Forall (fair w) l.
Proof.
  intros H. apply Forall_forall. intros [pre b a m post subs|] Hin; cbn; [|done].
  intros Hm. rewrite forallb_forall in H. apply elem_of_list_In, H in Hin. cbn in Hin.
  rewrite Hm in Hin. cbn in Hin. lia.
Qed.
Ltac gall := (apply all_past || apply all_fair); vm_compute; reflexivity.

(** Powers 1 and 2 throughout; 1000 coins of 7 and 30 tokens of 50 distributed. *)
Definition gw1 : world := tworld (fun _ => (1, 2)).
Definition ex_gh1 : list (block * call gmsg) :=
  [gc 11 9%N (GFundNative [(7%N, 600)]); gc 12 8%N (GFundNative [(7%N, 400)]); gc 12 50%N (GReceive 9%N 30);
   gc 13 9%N (GDonate (false, 7%N) 3);
   gc 15 2%N (GClaimNative [7%N; 7%N]); gc 16 3%N GClaimAll; gc 17 2%N (GClaimNative [7%N])].
Definition ex_g1 := grun gw1 10 10 ex_gh1.
(** One third of three tokens is nothing. *)
Definition ex_gh2 : list (block * call gmsg) :=
  [gc 11 9%N (GFundNative [(7%N, 3)]); gc 15 2%N (GClaimNative [7%N])].
Lemma c53_floor_refuted :
  exists w b s l a m s' subs t, greached w b s l /\ Forall past_height l /\ Forall (fair w) l /\
    is_claim m = true /\ asks m t /\ g_handle w s b a m = Ok (s', subs) /\
    let l' := l ++ [ECall s b a m s' subs] in
    paid_to a t (this_round l') = 0 /\ pool t l' * w_pow w b (g_height s) a / g_total s = 1.
Proof.
  pose (r := grun gw1 10 10 (take 1 ex_gh2)).
  exists gw1, (gb 15), (fst r), (snd r), 2%N, (GClaimNative [7%N]).
  eexists _, _, (false, 7%N). split; [greach|]. split; [gall|]. split; [gall|]. split; [done|].
  split; [split; [done|by left]|]. split; [vm_compute; reflexivity|].
  cbv zeta. split; vm_compute; reflexivity.
Qed.
(** Powers that differ between the distribution height and the instantiation: one member
    takes everything, the other is refused. *)
Definition gw2 : world := tworld (fun h => if h <? 30 then (3, 2) else (1, 1)).
Definition ex_gh3 : list (block * call gmsg) :=
  [gc 36 9%N (GFundNative [(7%N, 100)]); gc 40 3%N (GClaimNative [7%N])].
Lemma c53_height_refuted :
  exists w b s l t, greached w b s l /\ Forall past_height l /\ pool t l = 100 /\
    w_pow w b (g_height s) 2%N = 3 /\ w_tot w b (g_height s) = 5 /\
    paid_to 3%N t (this_round l) = 100 /\
    g_handle w s b 2%N (GClaimNative [snd t]) = Err "insufficient funds".
Proof.
  pose (r := grun gw2 35 25 ex_gh3).
  exists gw2, (gb 41), (fst r), (snd r), (false, 7%N). split; [greach|]. split; [gall|].
  repeat (split; [vm_compute; reflexivity|]). vm_compute; reflexivity.
Qed.
(** The same after a redistribution of a distributor made for its own height. *)
Definition gw3 : world := tworld (fun h => if h <? 30 then (1, 1) else (3, 2)).
Definition ex_gh4 : list (block * call gmsg) :=
  [gc 21 9%N (GFundNative [(7%N, 100)]); gc 25 2%N (GClaimNative [7%N]); gc 40 1%N (GRedistribute 35);
   gc 41 3%N (GClaimNative [7%N])].
Lemma c53_redistribution_refuted :
  exists w b s l t, greached w b s l /\ Forall past_height l /\ pool t l = 50 /\
    w_pow w b (g_height s) 2%N = 3 /\ w_tot w b (g_height s) = 5 /\
    paid_to 3%N t (this_round l) = 50 /\
    g_handle w s b 2%N (GClaimNative [snd t]) = Err "insufficient funds".
Proof.
  pose (r := grun gw3 20 20 ex_gh4).
  exists gw3, (gb 41), (fst r), (snd r), (false, 7%N). split; [greach|]. split; [gall|].
  repeat (split; [vm_compute; reflexivity|]). vm_compute; reflexivity.
Qed.
(** A distribution height to come: power that moves is paid twice. *)
Definition gw4 : world := tworld (fun h => if h <? 18 then (1, 2) else (3, 0)).
Definition ex_gh5 : list (block * call gmsg) :=
  [gc 11 9%N (GFundNative [(7%N, 90)]); gc 16 3%N (GClaimNative [7%N])].
Lemma c53_future_refuted :
  exists w b s l t, greached w b s l /\ Forall (fair w) l /\ pool t l = 90 /\
    w_pow w b (g_height s) 2%N = 3 /\ w_tot w b (g_height s) = 3 /\ g_total s = 3 /\
    0 < paid_to 3%N t (this_round l) /\ w_pow w b (g_height s) 3%N = 0 /\
    g_handle w s b 2%N (GClaimNative [snd t]) = Err "insufficient funds".
Proof.
  pose (r := grun gw4 10 50 ex_gh5).
  exists gw4, (gb 60), (fst r), (snd r), (false, 7%N). split; [greach|]. split; [gall|].
  repeat (split; [vm_compute; reflexivity|]). vm_compute; reflexivity.
Qed.
(** Anybody can bring a token that refuses transfers; then nobody can claim everything. *)
Definition ex_gh6 : list (block * call gmsg) :=
  [gc 11 9%N (GFundNative [(7%N, 900)]); gc 11 66%N (GReceive 9%N 1000)].
Lemma c79_refuted :
  exists w b s l, greached w b s l /\ Forall past_height l /\ Forall (fair w) l /\
    w_pow w b (g_height s) 2%N = 1 /\ is_expired (g_dead s) b = true /\
    g_handle w s b 2%N GClaimAll = Err "transfer refused by the token" /\
    exists s', g_handle w s b 2%N (GClaimNative [7%N]) = Ok (s', [GPay (false, 7%N) 2%N 299]).
Proof.
  pose (r := grun gw1 10 10 ex_gh6).
  exists gw1, (gb 16), (fst r), (snd r). split; [greach|]. split; [gall|]. split; [gall|].
  repeat (split; [vm_compute; reflexivity|]). eexists. vm_compute; reflexivity.
Qed.
