(** Concrete histories of dao-voting-cw721-staked. *)
From Verif Require Import Base BaseProofs Exec ExecProofs Plain PlainProofs HooksModel
  VotingModel StoreModel StoreProofs LedgerProofs ActiveModel NftModel NftSpec NftProofs NftClaims.

Definition nb (n : Z) : block := Block n (n * NANOS).
(** DAO 9, collection 70 with 1000 tokens. *)
Definition nini (d : option duration) (thr : option athreshold) : nstate :=
  match n_instantiate (nb 1) 9%N 70%N (ExistingNft 1000) d thr with
  | Ok s => s | Err _ => NState 0%N 0%N None None ∅ ∅ snap_empty ∅ [] ∅ end.
Definition nrun (d : option duration) (thr : option athreshold) (h : list (block * call nmsg)) :=
  run_hist n_handle no_fail no_reply (nini d thr) h.
Definition nc (a : addr) (m : nmsg) : call nmsg := Call a m [].
Definition nstk (a : addr) (id : N) : call nmsg := nc 70%N (NReceive a id).

Lemma nreached_run d thr h b :
  fits_dur d = true -> fits_active thr = true ->
  is_ok (n_instantiate (nb 1) 9%N 70%N (ExistingNft 1000) d thr) = true -> hist_ok (nb 1) h ->
  block_le (hist_end (nb 1) h) b ->
  nreached b (fst (nrun d thr h)) (snd (nrun d thr h)).
Proof.
  intros Hf Hthr Hd Hh Hb. exists (nb 1), 9%N, 70%N, (ExistingNft 1000), d, thr, (nini d thr).
  split; [done|]. split; [done|]. split.
  - unfold nini. by destruct (n_instantiate _ _ _ _ _ _).
  - exists h. split; [done|]. split; [|done]. by destruct (nrun d thr h) eqn:E.
Qed.
Ltac nside := vm_compute; repeat split; discriminate || reflexivity.
Ltac nreach := apply nreached_run; nside.

(** Two stakers, claims, a token staked again by another member after it was
    collected, a stray deposit, an unstake without unbonding. *)
Definition ex_nd : option duration := Some (DHeight 10).
Definition ex_nh : list (block * call nmsg) :=
  [(nb 2, nstk 1%N 101%N); (nb 2, nstk 1%N 102%N); (nb 3, nstk 2%N 103%N);
   (nb 3, nc 9%N (NAddHook 77%N)); (nb 4, nc 1%N (NUnstake [101%N]));
   (nb 5, nc 8%N (NDeposit 200%N)); (nb 7, nc 2%N (NUnstake [103%N]));
   (nb 14, nc 1%N NClaim); (nb 15, nstk 2%N 101%N); (nb 16, nc 9%N (NUpdateConfig None));
   (nb 17, nc 2%N (NUnstake [101%N])); (nb 17, nstk 1%N 104%N)].
Definition ex_n : nstate := fst (nrun ex_nd None ex_nh).
Definition ex_nl : nlog := snd (nrun ex_nd None ex_nh).
Lemma ex_nreached : nreached (nb 20) ex_n ex_nl.
Proof. nreach. Qed.

(** A count beyond any supply (token counts are 64-bit) is accepted when the
    collection comes from a factory: the module can never become active. *)
Lemma c44_nft_factory_refuted :
  exists b s l n, nreached b s l /\ n_thr s = Some (ACount n) /\ U64_MAX < n.
Proof.
  exists (nb 1), (NState 9%N 70%N None (Some (ACount (U64_MAX + 1))) ∅ ∅ (snap_save snap_empty 1 0) ∅ [] ∅), [], (U64_MAX + 1).
  split; [|vm_compute; split; reflexivity].
  exists (nb 1), 9%N, 70%N, FactoryNft, None, (Some (ACount (U64_MAX + 1))),
    (NState 9%N 70%N None (Some (ACount (U64_MAX + 1))) ∅ ∅ (snap_save snap_empty 1 0) ∅ [] ∅).
  split; [done|]. split; [done|]. split; [vm_compute; reflexivity|].
  exists []. split; [done|]. split; [done|]. split; vm_compute; discriminate.
Qed.
