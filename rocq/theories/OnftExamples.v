(** Module 100 of DAO 90; accounts 5 and 6 own tokens 1, 2 and 3. *)
From Verif Require Import Base BaseProofs Exec ExecProofs Plain PlainProofs StoreModel VotingModel
  ActiveModel NftModel OnftModel OnftSpec.

Definition fb (h : Z) : block := Block h (h * 10).
Definition f_tokens : gmap N addr := {[1%N := 5%N; 2%N := 5%N; 3%N := 6%N]}.
Definition fst0 (d : option duration) : fstate :=
  FState 100 90 d (Some (ACount 2)) ∅ ∅ ∅ (snap_save snap_empty 0 0) ∅ [] f_tokens.
Definition fc (h : Z) (a : addr) (m : fmsg) : block * call fmsg := (fb h, Call a m []).
Definition frun (d : option duration) (h : list (block * call fmsg)) : fstate * flog :=
  run_hist f_handle no_fail no_reply (fst0 d) h.
Lemma freached_run d h b : f_instantiate (fb 0) 100 90 d (Some (ACount 2)) 3 f_tokens = Ok (fst0 d) ->
  fits_dur d = true -> hist_ok (fb 0) h -> block_le (hist_end (fb 0) h) b ->
  freached b (fst (frun d h)) (snd (frun d h)).
Proof.
  intros Hi Hd Hh Hb. exists (fb 0), 100%N, 90%N, d, (Some (ACount 2)), 3, f_tokens, (fst0 d).
  split; [done|]. split; [done|]. split; [done|].
  exists h. split; [done|]. split; [|done]. unfold frun. by destruct (run_hist _ _ _ _ h).
Qed.
Ltac fside := vm_compute; repeat split; discriminate || reflexivity.
Ltac freach := apply freached_run; [vm_compute; reflexivity|vm_compute; reflexivity|fside|fside].
(** A concrete history in which the DAO cancels no staked token. *)
Definition kept_b (l : flog) : bool :=
  forallb (fun e : fevent => match e with
    | ECall pre _ a (FCancel ids _) _ _ =>
        negb (a =? f_dao pre)%N ||
        forallb (fun id => (fstaked_times pre id =? 0) && (fclaimed_times pre id =? 0)) ids
    | _ => true
    end) l.
Lemma kept_check l : kept_b l = true -> kept l.
Proof.
  intros H pre b a ids r post subs id Hin -> Hid. unfold kept_b in H. rewrite forallb_forall in H.
  apply elem_of_list_In in Hin. specialize (H _ Hin). cbn in H. rewrite N.eqb_refl in H. cbn in H.
  rewrite forallb_forall in H. apply elem_of_list_In in Hid. specialize (H _ Hid).
  apply andb_true_iff in H as [H1 H2]. lia.
Qed.
Ltac fkept := apply kept_check; vm_compute; reflexivity.

(** 5 stakes both tokens; 6 has a stake cancelled, then the DAO cancels one, then 6 stakes;
    5 unstakes one. *)
Definition staking : list (block * call fmsg) :=
  [fc 1 90 (FAddHook 50); fc 1 5 (FPrepare [1%N; 2%N]); fc 1 5 (XMove 1 100); fc 1 5 (XMove 2 100);
   fc 2 5 (FConfirm [1%N; 2%N; 1%N]); fc 2 6 (FPrepare [3%N]); fc 2 6 (XMove 3 100);
   fc 3 6 (FCancel [3%N] None); fc 3 6 (FPrepare [3%N]); fc 3 6 (XMove 3 100);
   fc 4 90 (FCancel [3%N] None); fc 4 6 (FPrepare [3%N]); fc 4 6 (XMove 3 100);
   fc 5 5 (FConfirm [3%N]); fc 5 6 (FConfirm [3%N]); fc 6 6 (FUnstake [1%N]); fc 6 5 (FUnstake [2%N])].
(** 6 has moved token 3 in and not yet confirmed. *)
Definition halfway : list (block * call fmsg) := take 13 staking.
(** With ten blocks of unbonding, 5 unstakes token 1 in block 5 and collects it in block 15. *)
Definition unbonding : list (block * call fmsg) :=
  [fc 1 5 (FPrepare [1%N; 2%N]); fc 1 5 (XMove 1 100); fc 1 5 (XMove 2 100);
   fc 2 5 (FConfirm [1%N; 2%N]); fc 5 5 (FUnstake [1%N]); fc 14 5 FClaim].
Definition unbonded : list (block * call fmsg) := unbonding ++ [fc 15 5 FClaim].
(** The DAO sends token 1, staked by 5, back to 5, who stakes it again. *)
Definition twice : list (block * call fmsg) :=
  [fc 1 5 (FPrepare [1%N]); fc 1 5 (XMove 1 100); fc 1 5 (FConfirm [1%N]);
   fc 2 90 (FCancel [1%N] (Some 5%N));
   fc 3 5 (FPrepare [1%N]); fc 3 5 (XMove 1 100); fc 3 5 (FConfirm [1%N])].
(** The DAO sends it to 9. *)
Definition taken : list (block * call fmsg) :=
  [fc 1 5 (FPrepare [1%N]); fc 1 5 (XMove 1 100); fc 1 5 (FConfirm [1%N]);
   fc 2 90 (FCancel [1%N] (Some 9%N))].
(** 9 stakes it. *)
Definition shared : list (block * call fmsg) :=
  taken ++ [fc 3 9 (FPrepare [1%N]); fc 3 9 (XMove 1 100); fc 3 9 (FConfirm [1%N])].
(** 5 prepares token 1 and hands it to 6, who moves it to the module; 5 confirms. *)
Definition stale : list (block * call fmsg) :=
  [fc 1 5 (FPrepare [1%N]); fc 1 5 (XMove 1 6); fc 2 6 (XMove 1 100)].
Definition stale_staked : list (block * call fmsg) := stale ++ [fc 3 5 (FConfirm [1%N])].

(** Power 2 for one token. *)
Lemma count_refuted : exists b s l a bq h,
  freached b s l /\ height b < h /\ fcount s a = 1 /\ fcount_all s = 1 /\
  f_power_at s bq a (Some h) = 2 /\ f_total_at s bq (Some h) = 2.
Proof.
  exists (fb 3), (fst (frun None twice)), (snd (frun None twice)), 5%N, (fb 4), 4.
  split; [freach|]. split; [vm_compute; reflexivity|].
  do 3 (split; [vm_compute; reflexivity|]). vm_compute; reflexivity.
Qed.
(** A staked token is gone; its staker keeps the power and cannot unstake. *)
Lemma cancelled_refuted : exists b s l a id,
  freached b s l /\ f_staked s !! (a, id) = Some tt /\ f_owner s !! id <> Some (f_self s) /\
  f_power_at s (fb 9) a (Some 9) = 1 /\ forall b', is_ok (f_handle s b' a (FUnstake [id])) = false.
Proof.
  exists (fb 2), (fst (frun None taken)), (snd (frun None taken)), 5%N, 1%N.
  split; [freach|]. split; [vm_compute; reflexivity|].
  split; [intros E; vm_compute in E; discriminate E|]. split; [vm_compute; reflexivity|].
  intros b'. vm_compute. reflexivity.
Qed.
(** One token, staked by two. *)
Lemma shared_refuted : exists b s l a a' id,
  freached b s l /\ a <> a' /\ f_staked s !! (a, id) = Some tt /\ f_staked s !! (a', id) = Some tt /\
  f_power_at s (fb 9) a (Some 9) = 1 /\ f_power_at s (fb 9) a' (Some 9) = 1.
Proof.
  exists (fb 3), (fst (frun None shared)), (snd (frun None shared)), 5%N, 9%N, 1%N.
  split; [freach|]. split; [discriminate|].
  do 3 (split; [vm_compute; reflexivity|]). vm_compute; reflexivity.
Qed.
(** Account 6 moved the token in; 5, who no longer owned it, staked it and gets it. *)
Lemma stale_refuted : exists b s l a a' id s' subs,
  freached b s l /\ kept l /\ mover (f_self s) id l = Some a /\ a' <> a /\
  f_staked s !! (a', id) = Some tt /\
  f_handle s b a' (FUnstake [id]) = Ok (s', subs) /\ f_owner s' !! id = Some a'.
Proof.
  exists (fb 3), (fst (frun None stale_staked)), (snd (frun None stale_staked)), 6%N, 5%N, 1%N.
  do 2 eexists. split; [freach|]. split; [fkept|]. split; [vm_compute; reflexivity|].
  split; [discriminate|]. split; [vm_compute; reflexivity|]. split; vm_compute; reflexivity.
Qed.
