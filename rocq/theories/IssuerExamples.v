(** A token created by contract 100 for account 1. *)
From Verif Require Import Base BaseProofs Exec ExecProofs Plain PlainProofs StoreModel
  IssuerModel IssuerSpec.

Definition ib (h : Z) : block := Block h (h * 10).
Definition i0 : istate := i_new 100 1 7.
Definition ic (h : Z) (a : addr) (m : imsg) : block * call imsg := (ib h, Call a m []).
Definition irun (h : list (block * call imsg)) : istate * ilog :=
  run_hist i_handle no_fail no_reply i0 h.
Lemma ireached_run h b : hist_ok (ib 0) h -> block_le (hist_end (ib 0) h) b ->
  ireached i0 b (fst (irun h)) (snd (irun h)).
Proof.
  intros Hh Hb. split; [left; by eexists _, _, _|]. exists (ib 0).
  exists h. split; [done|]. split; [|done]. unfold irun. by destruct (run_hist _ _ _ _ h).
Qed.
Ltac iside := vm_compute; repeat split; discriminate || reflexivity.
Ltac ireach := apply ireached_run; iside.

(** Account 2 may mint 500; it mints 300 to 5, then is refused 201, a stranger is refused; the
    allowance is replaced by 50 and 20 are minted; account 3 may burn 100 and burns 40 of 5's. *)
Definition minting : list (block * call imsg) :=
  [ic 1 1 (ISetMinter 2 500); ic 1 2 (IMint 5 300); ic 2 2 (IMint 5 201); ic 2 9 (IMint 9 1);
   ic 3 9 (ISetMinter 9 1000); ic 3 1 (ISetMinter 2 50); ic 4 2 (IMint 6 20);
   ic 4 1 (ISetBurner 3 100); ic 5 3 (IBurn 5 40); ic 5 3 (IBurn 5 61)].
(** The hook is set, the token frozen, 8 put on the list of the allowed and 6 on the list of
    the denied. *)
Definition freezing : list (block * call imsg) :=
  minting ++
  [ic 6 1 (IFreeze true); ic 6 1 (ISetHook (Some 100%N)); ic 7 1 (IFreeze true);
   ic 7 1 (IAllow 8 true); ic 7 1 (IDeny 6 true); ic 7 1 (IDeny 100 true)].
(** Of these transfers only the second passes: 6 is denied, 5 to 9 is frozen. *)
Definition sending : list (block * call imsg) :=
  freezing ++ [ic 8 5 (XSend 9 10); ic 8 5 (XSend 8 10); ic 8 6 (XSend 8 10)].
(** The owner takes the hook away: the token remains frozen and 6 denied. *)
Definition unhooked : list (block * call imsg) := freezing ++ [ic 9 1 (ISetHook None)].

(** A denied account sends frozen tokens. *)
Lemma unhooked_refuted : exists s0 b s l from to n s' subs,
  ireached s0 b s l /\ frozen l /\ denied from l /\ ~ may_move (i_self s0) l from to /\
  i_handle s b from (XSend to n) = Ok (s', subs) /\ 0 < n /\ subs = [].
Proof.
  exists i0, (ib 9), (fst (irun unhooked)), (snd (irun unhooked)), 6%N, 9%N, 10.
  eexists _, _. split; [ireach|].
  assert (denied 6%N (snd (irun unhooked))) as D by (vm_compute; reflexivity).
  split; [vm_compute; reflexivity|]. split; [exact D|].
  split; [intros (_ & N & _); exact (N D)|].
  split; [vm_compute; reflexivity|]. split; reflexivity.
Qed.
