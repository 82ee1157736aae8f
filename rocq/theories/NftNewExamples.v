(** Concrete histories of a DAO with an NFT collection of its own. *)
From Verif Require Import Base BaseProofs Exec ExecProofs Plain PlainProofs VotingModel HooksModel
  StoreModel StoreProofs LedgerProofs ActiveModel NftModel NftSpec NftProofs NftClaims CollModel NftNewModel NftNewSpec NftNewProofs NftNewClaims.

Definition md : addr := 70%N.
Definition nft : addr := 60%N.
Definition dao : addr := 1%N.
Definition alice : addr := 2%N.
Definition bob : addr := 3%N.
Definition eve : addr := 4%N.
Definition pb (n : Z) : block := Block n (n * 6).
Definition empty_s : pstate :=
  PS (NState dao nft None None ∅ ∅ snap_empty ∅ [] ∅) (coll_new md).
Definition made (thr : option athreshold) (ms : list sstep) : pstate :=
  match new_coll true (pb 0) dao md nft None thr ms with Ok s => s | Err _ => empty_s end.
Definition is_okb {A} (r : result A) : bool := match r with Ok _ => true | Err _ => false end.
Lemma made_ok thr ms : is_okb (new_coll true (pb 0) dao md nft None thr ms) = true ->
  new_coll true (pb 0) dao md nft None thr ms = Ok (made thr ms).
Proof. unfold made. by destruct (new_coll _ _ _ _ _ _ _ _). Qed.
Definition prun (thr : option athreshold) (ms : list sstep) (h : list (block * call pmsg)) : pstate * plog :=
  run_hist (p_handle md) no_fail no_reply (made thr ms) h.
Definition pc (n : Z) (a : addr) (m : pmsg) : block * call pmsg := (pb n, Call a m []).
Lemma preached_run thr ms h b :
  is_okb (new_coll true (pb 0) dao md nft None thr ms) = true ->
  hist_ok (pb 0) h -> block_le (hist_end (pb 0) h) b ->
  preached true md dao nft ms b (fst (prun thr ms h)) (snd (prun thr ms h)).
Proof.
  intros H Hh Hb. split; [discriminate|]. split; [discriminate|]. split; [discriminate|].
  exists (pb 0), None, thr, (made thr ms). split; [by apply made_ok|].
  exists h. split; [done|]. split; [|done]. unfold prun. by destruct (run_hist _ _ _ _ h).
Qed.
Ltac pside := vm_compute; repeat split; discriminate || reflexivity.
Ltac preach := apply preached_run; [vm_compute; reflexivity|pside|pside].

(** Two tokens for Alice, one for Bob. *)
Definition mints : list sstep := [SOwn (CMint 1 alice); SOwn (CMint 2 bob); SOwn (CMint 3 alice)].
Definition stakes : list (block * call pmsg) :=
  [pc 1 alice (PColl (CSend 1 md)); pc 1 bob (PColl (CApprove 2 alice Never)); pc 1 bob (PColl (CSend 2 md))].
(** The DAO mints one for Eve, who gives it to the module; a delay is set; Alice takes hers out. *)
Definition usual : list (block * call pmsg) :=
  stakes ++
  [pc 2 dao (PColl (CMint 4 eve)); pc 2 eve (PColl (CTransfer 4 md)); pc 3 bob (PNft (NUnstake [2%N]));
   pc 4 dao (PNft (NUpdateConfig (Some (DHeight 10)))); pc 5 bob (PColl (CSend 2 md)); pc 6 alice (PNft (NUnstake [1%N]))].
Definition us : pstate := fst (prun None mints usual).
Definition ul : plog := snd (prun None mints usual).

(** The messages may let somebody move every token the module will ever have. *)
Definition door : list sstep :=
  [SOwn (CMint 1 alice); SOwn (CMint 2 bob); SOwn (CApproveAll eve Never)].
Lemma taken :
  exists md dao nft ms b s l a id x s' subs, preached true md dao nft ms b s l /\
    n_staked (p_n s) !! (a, id) = Some tt /\ a <> x /\ x <> dao /\
    p_handle md s b x (PColl (CTransfer id x)) = Ok (s', subs) /\
    owner_of (p_c s') id = Some x /\ n_staked (p_n s') !! (a, id) = Some tt /\
    n_power_at (p_n s') b a None = 1 /\ p_handle md s' b a (PNft (NUnstake [id])) = Err "cw721: not the owner".
Proof.
  exists md, dao, nft, door, (pb 9), (fst (prun None door stakes)), (snd (prun None door stakes)), alice, 1%N, eve.
  eexists _, _. split; [preach|]. split; [vm_compute; reflexivity|]. split; [discriminate|]. split; [discriminate|].
  split; [vm_compute; reflexivity|]. split; [vm_compute; reflexivity|]. split; [vm_compute; reflexivity|].
  split; vm_compute; reflexivity.
Qed.
(** And send the module its own tokens, each time for another vote. *)
Definition votes : list (block * call pmsg) :=
  stakes ++ [pc 2 eve (PColl (CSend 1 md)); pc 2 eve (PColl (CSend 1 md)); pc 3 eve (PColl (CSend 2 md)); pc 3 eve (PColl (CSend 2 md))].
Lemma conjured :
  exists md dao nft ms b s l x, preached true md dao nft ms b s l /\ x <> dao /\
    (forall pre b1 a m post subs id, ECall pre b1 a m post subs ∈ l -> owner_of (p_c post) id <> Some x) /\
    c_supply (p_c s) = 2 /\ n_power_at (p_n s) b x None = 4 /\ n_total_at (p_n s) b None = 6.
Proof.
  exists md, dao, nft, door, (pb 9), (fst (prun None door votes)), (snd (prun None door votes)), eve.
  split; [preach|]. split; [discriminate|]. split; [|split; [|split]; vm_compute; reflexivity].
  assert (forallb (fun e => match e with
     | ECall _ _ _ _ post _ => forallb (fun t : N * tok => negb (k_owner t.2 =? eve)%N) (map_to_list (q_toks (p_c post)))
     | _ => true end) (snd (prun None door votes)) = true) as H by (vm_compute; reflexivity).
  intros pre b1 a m post subs id Hin Ho. rewrite forallb_forall in H. apply elem_of_list_In, H in Hin.
  rewrite forallb_forall in Hin. apply owner_toks in Ho as (t & Ht & Ho). apply elem_of_map_to_list, elem_of_list_In, Hin in Ht.
  cbn in Ht. rewrite Ho, N.eqb_refl in Ht. done.
Qed.
(** A token minted to the module itself counts in the supply and can never be staked. *)
Definition lost : list sstep := [SOwn (CMint 1 alice); SOwn (CMint 2 md)].
Lemma never_active :
  exists md dao nft b0 thr ms s0, dao <> md /\ only_mints ms = true /\
    new_coll true b0 dao md nft None (Some thr) ms = Ok s0 /\ thr = ACount 2 /\ c_supply (p_c s0) = 2 /\
    forall b s l, leads (p_handle md) b0 s0 b s l -> forallb (silent dao) l = true ->
      n_is_active (p_n s) b (c_supply (p_c s)) = Ok false.
Proof.
  exists md, dao, nft, (pb 0), (ACount 2), lost, (made (Some (ACount 2)) lost).
  assert (new_coll true (pb 0) dao md nft None (Some (ACount 2)) lost = Ok (made (Some (ACount 2)) lost)) as H
    by (apply made_ok; vm_compute; reflexivity).
  split; [discriminate|]. split; [done|]. split; [done|]. split; [done|]. split; [vm_compute; reflexivity|].
  intros b s l HL Hs.
  apply (stuck_inactive md dao nft (pb 0) (made (Some (ACount 2)) lost) b s l 2%N 2); [|split; vm_compute; reflexivity|vm_compute; reflexivity..| |exact HL|exact Hs].
  - by eapply setup_inv.
  - intros h. change (snap_get_at (n_total (p_n (made (Some (ACount 2)) lost))) h) with
      (snap_get_at (snap_save snap_empty 0 0) h).
    unfold snap_get_at, snap_at, snap_save. cbn. destruct (h <=? 0); cbn; lia.
Qed.
