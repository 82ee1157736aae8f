(** Concrete histories of the distributor at 80 with the NFT module at 70, with the token module
    at 70, and with cw20-stake at 71 and its voting module at 70. *)
From Verif Require Import Base BaseProofs Exec Plain HooksModel StoreModel ExtModel ExtProofs ActiveModel TokModel
  StakeModel NftModel RewModel RewSpec RewOnModel RewOnSpec.
Transparent SCALE.

Definition sc : addr := 71%N.
Definition md : addr := 70%N.
Definition self : addr := 80%N.
Definition dao : addr := 1%N.
Definition alice : addr := 2%N.
Definition bob : addr := 3%N.
Definition token : addr := 6%N.
Definition ob (n : Z) : block := Block n (n * 6).
Definition oc {M} (n : Z) (a : addr) (m : ojmsg M) : block * call (ojmsg M) := (ob n, Call a m []).
Definition ojrun {S M X} (I : staking S M X) (hk : addr) (k0 : S) (h : list (block * call (ojmsg M)))
  : ojstate S * ojlog S M :=
  run_hist (oj_handle I hk md self) no_fail no_reply (oj_start md (ob 0) dao ∅ k0) h.
Lemma ojreached_run {S M X} (I : staking S M X) (made : block -> S -> Prop) hk k0 h b :
  made (ob 0) k0 -> hist_ok (ob 0) h -> block_le (hist_end (ob 0) h) b ->
  oj_goes hk (fst (ojrun I hk k0 h)) b = true ->
  ojreached I made hk md self b (fst (ojrun I hk k0 h)) (snd (ojrun I hk k0 h)).
Proof.
  intros Hk Hh Hb Hg. exists (ob 0), dao, ∅, k0.
  split; [done|]. split; [done|]. split; [|done].
  exists h. split; [done|]. split; [|done]. unfold ojrun. by destruct (run_hist _ _ _ _ h).
Qed.
Definition t0 : tstate := TState dao 5%N (Some (DHeight 20)) None ∅ snap_empty ∅ [] 0.
Lemma t0_made : tok_made (ob 0) t0.
Proof. exists dao, 5%N, (ExistingToken 1000), (Some (DHeight 20)), None. vm_compute. reflexivity. Qed.
Definition k0 : kstate := KState token (Some (DHeight 20)) (initialize_owner (Some dao)) ∅ (snap_save snap_empty 0 0) 0 ∅ [] 0.
Lemma k0_made : cw20_made (ob 0) k0.
Proof. exists token, (Some (DHeight 20)), (Some dao). vm_compute. reflexivity. Qed.
Definition n0 : nstate := NState dao token None None ∅ ∅ (snap_save snap_empty 0 0) ∅ [] ∅.
Lemma n0_made : nft_made (ob 0) n0.
Proof. exists dao, token, (ExistingNft 100), None, None. vm_compute. reflexivity. Qed.
Ltac oside := vm_compute; repeat split; discriminate || reflexivity.

Definition make {M} (hook : addr) : ojmsg M :=
  ORew (ECreate (false, 7%N) (EmLinear 100 (DHeight 1) false) md hook None None [(7%N, 1000)]).
(** Alice stakes one NFT, Bob three; a distribution of 100 a block is made, and the distributor
    and somebody at 90 are told of changes; Alice stakes two more, Bob takes all out in one call,
    Alice claims. *)
Definition n_usual : list (block * call (ojmsg nmsg)) :=
  [oc 1 token (OMod (NReceive alice 11)); oc 1 token (OMod (NReceive bob 21)); oc 1 token (OMod (NReceive bob 22));
   oc 1 token (OMod (NReceive bob 23));
   oc 2 dao (make md); oc 2 dao (OMod (NAddHook 90%N)); oc 2 dao (OMod (NAddHook self));
   oc 6 token (OMod (NReceive alice 12)); oc 6 alice ODeliver; oc 6 alice ODeliver;
   oc 6 token (OMod (NReceive alice 13)); oc 6 alice ODeliver; oc 6 alice ODeliver;
   oc 8 bob (OMod (NUnstake [21%N; 22%N; 23%N])); oc 8 bob ODeliver; oc 8 bob ODeliver;
   oc 9 alice (ORew (EClaim 1))].
Definition nu : ojstate nstate := fst (ojrun nft_staking md n0 n_usual).
Definition nul : ojlog nstate nmsg := snd (ojrun nft_staking md n0 n_usual).
Lemma nu_reached : ojreached nft_staking nft_made md md self (ob 9) nu nul.
Proof. apply ojreached_run; [exact n0_made|oside..]. Qed.
(** Cw20 tokens: the same, with rewards for the stakers put in between, which changes no stake. *)
Definition k_usual : list (block * call (ojmsg kmsg)) :=
  [oc 1 token (OMod (KReceive alice 10 true)); oc 1 token (OMod (KReceive bob 30 true));
   oc 2 dao (make sc); oc 2 dao (OMod (KAddHook self));
   oc 5 token (OMod (KReceive dao 40 false));
   oc 6 token (OMod (KReceive alice 40 true)); oc 6 alice ODeliver;
   oc 8 bob (OMod (KUnstake 30)); oc 8 bob ODeliver;
   oc 9 alice (ORew (EClaim 1))].
Definition ku : ojstate kstate := fst (ojrun cw20_staking sc k0 k_usual).
Definition kul : ojlog kstate kmsg := snd (ojrun cw20_staking sc k0 k_usual).
Lemma ku_reached : ojreached cw20_staking cw20_made sc md self (ob 9) ku kul.
Proof. apply ojreached_run; [exact k0_made|oside..]. Qed.
(** Native tokens, with a second receiver. *)
Definition t_usual : list (block * call (ojmsg tmsg)) :=
  [oc 1 alice (OMod (TStake [(5%N, 10)])); oc 1 bob (OMod (TStake [(5%N, 30)]));
   oc 2 dao (make md); oc 2 dao (OMod (TAddHook self)); oc 2 dao (OMod (TAddHook 90%N));
   oc 6 alice (OMod (TStake [(5%N, 20)])); oc 6 alice ODeliver; oc 6 alice ODeliver;
   oc 9 alice (ORew (EClaim 1))].
Definition tu : ojstate tstate := fst (ojrun tok_staking md t0 t_usual).
Definition tul : ojlog tstate tmsg := snd (ojrun tok_staking md t0 t_usual).
Lemma tu_reached : ojreached tok_staking tok_made md md self (ob 9) tu tul.
Proof. apply ojreached_run; [exact t0_made|oside..]. Qed.

(** Only the hook is added: nobody is registered with the distributor. *)
Definition n_early : list (block * call (ojmsg nmsg)) :=
  [oc 1 token (OMod (NReceive alice 11)); oc 2 dao (OMod (NAddHook self))].
(** The hook is added too late: Bob stakes unnoticed. *)
Definition n_late : list (block * call (ojmsg nmsg)) :=
  [oc 1 token (OMod (NReceive alice 11)); oc 2 dao (make md); oc 10 alice (ORew (EClaim 1));
   oc 10 token (OMod (NReceive bob 21)); oc 10 token (OMod (NReceive bob 22)); oc 10 token (OMod (NReceive bob 23));
   oc 11 dao (OMod (NAddHook self))].
(** The voting module is named as hook caller instead of the staking contract. *)
Definition k_wrong : list (block * call (ojmsg kmsg)) :=
  [oc 1 token (OMod (KReceive alice 10 true)); oc 2 dao (make md); oc 2 dao (OMod (KAddHook self))].
Definition ne : ojstate nstate := fst (ojrun nft_staking md n0 n_early).
Definition nl : ojstate nstate := fst (ojrun nft_staking md n0 n_late).
Definition nll : ojlog nstate nmsg := snd (ojrun nft_staking md n0 n_late).
Definition kw : ojstate kstate := fst (ojrun cw20_staking sc k0 k_wrong).
Lemma ne_reached : ojreached nft_staking nft_made md md self (ob 3) ne (snd (ojrun nft_staking md n0 n_early)).
Proof. apply ojreached_run; [exact n0_made|oside..]. Qed.
Lemma nl_reached : ojreached nft_staking nft_made md md self (ob 20) nl nll.
Proof. apply ojreached_run; [exact n0_made|oside..]. Qed.
Lemma kw_reached : ojreached cw20_staking cw20_made sc md self (ob 3) kw (snd (ojrun cw20_staking sc k0 k_wrong)).
Proof. apply ojreached_run; [exact k0_made|oside..]. Qed.

Lemma c138_early :
  exists hk self b s l a ids, ojreached nft_staking nft_made hk hk self b s l /\ oj_out s = [] /\
    n_hooks (oj_m s) = [self] /\ is_ok (n_handle (oj_m s) b a (NUnstake ids)) = true /\
    exists s1, oj_handle nft_staking hk hk self s b a (OMod (NUnstake ids)) = Ok (s1, []) /\
      forall c, oj_handle nft_staking hk hk self s1 b c ODeliver = Err "InvalidHookSender".
Proof.
  exists md, self, (ob 3), ne, (snd (ojrun nft_staking md n0 n_early)), alice, [11%N].
  split; [exact ne_reached|]. do 3 (split; [vm_compute; reflexivity|]).
  eexists. split; [vm_compute; reflexivity|]. intros c. vm_compute. reflexivity.
Qed.
Lemma c138_wrong :
  exists hk md self b s l id a n, ojreached cw20_staking cw20_made hk md self b s l /\ oj_out s = [] /\
    (match e_dists (oj_e s) !! id with Some d => di_vp d = md /\ di_hook d = md | None => False end) /\
    k_hooks (oj_m s) = [self] /\ is_ok (k_handle (oj_m s) b a (KUnstake n)) = true /\
    exists s1, oj_handle cw20_staking hk md self s b a (OMod (KUnstake n)) = Ok (s1, []) /\
      forall c, oj_handle cw20_staking hk md self s1 b c ODeliver = Err "InvalidHookSender".
Proof.
  exists sc, md, self, (ob 3), kw, (snd (ojrun cw20_staking sc k0 k_wrong)), 1, alice, 10.
  split; [exact kw_reached|]. split; [vm_compute; reflexivity|]. split; [vm_compute; split; reflexivity|].
  do 2 (split; [vm_compute; reflexivity|]).
  eexists. split; [vm_compute; reflexivity|]. intros c. vm_compute. reflexivity.
Qed.
Lemma c138_late :
  exists hk self b s l id a, ojreached nft_staking nft_made hk hk self b s l /\
    (match e_dists (oj_e s) !! id with Some d => di_vp d = hk /\ di_hook d = hk | None => False end) /\
    n_hooks (oj_m s) = [self] /\ e_hooks (oj_e s) !! hk = Some [id] /\
    forallb (ounhurried id) l = true /\ ofunded id l = 1000 /\ claimable (oj_e s) b id a = 2550.
Proof.
  exists md, self, (ob 20), nl, nll, 1, bob.
  split; [exact nl_reached|]. split; [vm_compute; split; reflexivity|].
  do 4 (split; [vm_compute; reflexivity|]). vm_compute. reflexivity.
Qed.
