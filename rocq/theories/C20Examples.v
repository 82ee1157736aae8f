(** Concrete histories of dao-voting-cw20-staked. *)
From Verif Require Import Base BaseProofs Exec ExecProofs Plain PlainProofs StoreModel StakeModel
  StakeSpec StakeProofs ActiveModel C20Model C20Spec C20Proofs C20Claims.

Definition cb (h : Z) : block := Block h (h * 10).
Definition cc (h : Z) (a : addr) (m : cmsg) : block * call cmsg := (cb h, Call a m []).
(** The DAO is 1, the new token 20, the new staking contract 30; 5 and 6 get 60 and 40. *)
Definition cnew (t : option athreshold) (db : option Z) : cinfo :=
  CNew [(5%N, 60); (6%N, 40)] db (Some (DHeight 3)).
Definition cstart (t : option athreshold) (db : option Z) : cstate :=
  match c_instantiate (cb 0) 1 t (cnew t db) 20 30 with
  | Ok s => s
  | Err _ => CState 0 None 0 None ∅ 0 (KState 0 None (initialize_owner None) ∅ snap_empty 0 ∅ [] 0)
  end.
Definition crun (s : cstate) (h : list (block * call cmsg)) : cstate * clog :=
  run_hist c_handle no_fail no_reply s h.
Lemma cmade_run t db h b :
  c_instantiate (cb 0) 1 t (cnew t db) 20 30 = Ok (cstart t db) ->
  hist_ok (cb 0) h -> block_le (hist_end (cb 0) h) b ->
  cmade b (fst (crun (cstart t db) h)) (snd (crun (cstart t db) h)).
Proof.
  intros Hi Hh Hb. exists (cb 0), 1%N, t, (cnew t db), 20%N, 30%N, (cstart t db).
  split; [done|]. split; [done|]. split; [done|]. exists h. split; [done|]. split; [|done].
  unfold crun. by destruct (run_hist _ _ _ _ _).
Qed.
Lemma cmade_reached b s l : cmade b s l -> creached b s l.
Proof.
  intros (b0 & dao & t & i & nt & ns & s0 & ? & _ & ? & ?). by exists b0, dao, t, i, nt, ns, s0.
Qed.
Ltac cside := vm_compute; repeat split; discriminate || reflexivity.
Ltac cmake := apply cmade_run; [vm_compute; reflexivity|cside|cside].
Ltac creach := apply cmade_reached; cmake.

(** Account 5 stakes 50 and later 10, unstakes 20 and collects; 6 stakes 5 for itself out of
    what it may spend of 5's tokens; the DAO mints 10 for 7 and changes the threshold; strangers
    are refused. *)
Definition half : option athreshold := Some (APercent (5 * 10 ^ 17)).
Definition lively : list (block * call cmsg) :=
  [cc 1 5 (CSend 5 50 true); cc 1 6 (CSend 5 5 true); cc 2 7 (CMint 7 10); cc 2 1 (CMint 7 10);
   cc 2 5 (CSend 5 5 true); cc 3 5 (CStake (KUnstake 20)); cc 4 6 (CActive None);
   cc 4 1 (CActive (Some (ACount 40))); cc 4 6 (CTransfer 6 30 7); cc 6 5 (CStake KClaim);
   cc 7 6 (CBurn 6 3)].

(** One token staked, 99 added to the pool: all tokens are in the pool, the DAO is inactive. *)
Definition inflated : list (block * call cmsg) :=
  [cc 1 6 (CTransfer 6 5 40); cc 2 5 (CSend 5 1 true); cc 2 5 (CSend 5 99 false)].
Lemma inflated_refuted : exists b s l b',
  cmade b s l /\ sensible (c_active s) (supply s) /\ pooled s = supply s /\ 0 < supply s /\
  height b < height b' /\ c_is_active s b' = Ok false.
Proof.
  exists (cb 3), (fst (crun (cstart half None) inflated)), (snd (crun (cstart half None) inflated)), (cb 4).
  split; [cmake|]. split; [vm_compute; split; congruence|].
  do 2 (split; [vm_compute; reflexivity|]). split; vm_compute; reflexivity.
Qed.
(** Half the tokens burnt: all that is left is staked, less than the count asked for. *)
Definition burnt : list (block * call cmsg) :=
  [cc 1 5 (CBurn 5 60); cc 2 6 (CSend 6 40 true)].
Lemma burnt_refuted : exists b s l b' s0,
  cmade b s l /\ not_funded l /\ c_instantiate (cb 0) 1 (c_active s) (cnew (c_active s) None) 20 30 = Ok s0 /\
  leads c_handle (cb 0) s0 b s l /\ sensible (c_active s0) (supply s0) /\
  pooled s = supply s /\ 0 < supply s /\ height b < height b' /\ c_is_active s b' = Ok false.
Proof.
  set (t := Some (ACount 100)).
  exists (cb 3), (fst (crun (cstart t None) burnt)), (snd (crun (cstart t None) burnt)), (cb 4), (cstart t None).
  split; [subst t; cmake|]. split.
  { intros pre b a from n post subs Hin.
    assert (forallb (fun e => match e with ECall _ _ _ (CSend _ n false) _ _ => n =? 0 | _ => true end)
      (snd (crun (cstart t None) burnt)) = true) as Hall by (vm_compute; reflexivity).
    rewrite forallb_forall in Hall. apply elem_of_list_In, Hall in Hin. lia. }
  split; [vm_compute; reflexivity|]. split.
  { exists burnt. split; [cside|]. split; [|cside]. unfold crun. by destruct (run_hist _ _ _ _ _). }
  split; [vm_compute; split; congruence|]. do 2 (split; [vm_compute; reflexivity|]).
  split; vm_compute; reflexivity.
Qed.
(** The DAO holds 900 of 1000 tokens and half of all must be staked: whatever the others do,
    the DAO stays inactive. *)
Lemma locked_refuted : exists s0,
  c_instantiate (cb 0) 1 half (cnew half (Some 900)) 20 30 = Ok s0 /\
  sensible (c_active s0) (supply s0) /\
  forall b s l b', leads c_handle (cb 0) s0 b s l -> dao_idle 1 l -> height b < height b' ->
    c_is_active s b' = Ok false.
Proof.
  assert (c_instantiate (cb 0) 1 half (cnew half (Some 900)) 20 30 = Ok (cstart half (Some 900))) as Hi
    by (vm_compute; reflexivity).
  exists (cstart half (Some 900)). split; [exact Hi|]. split; [vm_compute; split; congruence|].
  intros b s l b' HL Hid Hlt.
  assert (creached b s l) as HR.
  { exists (cb 0), 1%N, half, (cnew half (Some 900)), 20%N, 30%N, (cstart half (Some 900)).
    split; [exact I|]. by split. }
  destruct (idle_bound _ _ _ _ _ _ _ _ _ _ _ _ Hi ltac:(done) HL Hid) as (Ea & Ht & Hs & Hb).
  assert (tokens (cstart half (Some 900)) 1 = 900) as E1 by (vm_compute; reflexivity).
  assert (supply (cstart half (Some 900)) = 1000) as E2 by (vm_compute; reflexivity).
  rewrite E1 in Ht. rewrite E2 in Hs. clear E1 E2 Hi HL.
  destruct (active_means _ _ _ _ HR Hlt) as (x & -> & Hm). rewrite Ea in Hm. cbn [meets half] in Hm.
  destruct x; [|done]. exfalso. destruct Hm as [Hm _]. specialize (Hm eq_refl).
  destruct (backed _ _ _ HR) as (Hst & _).
  assert (450 <= all_staked s); [|lia].
  assert (supply s * 10 ^ 9 * (5 * 10 ^ 17) / 10 ^ 18 = supply s * 500000000) as E.
  { replace (supply s * 10 ^ 9 * (5 * 10 ^ 17)) with (supply s * 500000000 * 10 ^ 18) by lia.
    by rewrite Z.div_mul. }
  rewrite E in Hm. lia.
Qed.
