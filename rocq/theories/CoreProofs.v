(** Proofs about the DAO core. *)
From stdpp Require Import gmap strings.
From Verif Require Import Base BaseProofs CoreModel CoreSpec.

(** ** Prefixes *)
Lemma letter_code r : 0 <= r < 26 -> Z.of_N (Ascii.N_of_ascii (letter r)) = r + 65.
Proof. intros. unfold letter. rewrite Ascii.N_ascii_embedding; lia. Qed.
Lemma log2_step n r : 1 <= n -> r = (n - 1) mod 26 -> (n - r) / 26 <> 0 ->
  Z.log2 ((n - r) / 26) < Z.log2 n.
Proof.
  intros Hn -> H. pose proof (Z.mod_pos_bound (n - 1) 26 ltac:(lia)).
  set (r := (n - 1) mod 26) in *. set (q := (n - r) / 26) in *.
  assert (26 * q <= n - r) by (apply Z.mul_div_le; lia).
  assert (0 <= q) by (apply Z.div_pos; lia).
  pose proof (Z.log2_spec q ltac:(lia)). pose proof (Z.log2_spec n ltac:(lia)).
  pose proof (Z.log2_nonneg n).
  destruct (Z_lt_le_dec (Z.log2 q) (Z.log2 n)) as [|Hle]; [done|exfalso].
  assert (2 ^ Z.succ (Z.log2 n) <= 2 * 2 ^ Z.log2 q).
  { rewrite Z.pow_succ_r by lia. assert (2 ^ Z.log2 n <= 2 ^ Z.log2 q); [|lia].
    apply Z.pow_le_mono_r; lia. }
  lia.
Qed.
Lemma spells_step n r s : 1 <= n -> r = (n - 1) mod 26 ->
  spells ((n - r) / 26) (String (letter r) s) = spells n s.
Proof.
  intros Hn Hr. cbn [spells].
  pose proof (Z.mod_pos_bound (n - 1) 26 ltac:(lia)).
  rewrite letter_code by lia. f_equal.
  pose proof (Z.div_mod (n - 1) 26 ltac:(lia)) as D. rewrite <-Hr in D.
  assert ((n - r) / 26 = (n - 1) / 26) as ->; [|lia].
  symmetry. apply (Z.div_unique_pos _ _ _ 1); lia.
Qed.
Lemma loop_spells fuel : forall n acc, 1 <= n -> Z.log2 n < Z.of_nat fuel ->
  spells 0 (prefix_loop fuel n acc) = spells n acc.
Proof.
  induction fuel as [|fuel IH]; intros n acc Hn Hf.
  { pose proof (Z.log2_nonneg n). lia. }
  cbn [prefix_loop]. cbv zeta.
  pose proof (spells_step n ((n - 1) mod 26) acc Hn eq_refl) as Hs.
  destruct (Z.eqb_spec ((n - (n - 1) mod 26) / 26) 0) as [E|E].
  - rewrite <-Hs, E. done.
  - pose proof (log2_step n _ Hn eq_refl E).
    pose proof (Z.mod_pos_bound (n - 1) 26 ltac:(lia)).
    assert (0 <= (n - (n - 1) mod 26) / 26).
    { apply Z.div_pos; [|lia]. pose proof (Z.mod_le (n - 1) 26 ltac:(lia) ltac:(lia)). lia. }
    rewrite IH by lia. exact Hs.
Qed.
Lemma loop_capitals fuel : forall n acc, 1 <= n -> capitals acc ->
  capitals (prefix_loop fuel n acc).
Proof.
  induction fuel as [|fuel IH]; intros n acc Hn Hc; [done|].
  cbn [prefix_loop]. cbv zeta.
  pose proof (Z.mod_pos_bound (n - 1) 26 ltac:(lia)).
  pose proof (Z.mod_le (n - 1) 26 ltac:(lia) ltac:(lia)).
  assert (capitals (String (letter ((n - 1) mod 26)) acc)).
  { split; [|done]. unfold capital. rewrite letter_code by lia. lia. }
  destruct (Z.eqb_spec ((n - (n - 1) mod 26) / 26) 0) as [E|E]; [done|].
  apply IH; [|done].
  assert (0 <= (n - (n - 1) mod 26) / 26) by (apply Z.div_pos; lia). lia.
Qed.
Lemma derive_spells i p : 0 <= i -> derive_prefix i = Ok p -> spells 0 p = i + 1.
Proof.
  unfold derive_prefix. intros Hi H. destruct (_ <=? _); [|done].
  assert (p = prefix_loop (S (Z.to_nat (Z.log2 (i + 1)))) (i + 1) "") as -> by congruence.
  rewrite loop_spells; [done|lia|]. pose proof (Z.log2_nonneg (i + 1)). lia.
Qed.
Lemma derive_capitals i p : 0 <= i -> derive_prefix i = Ok p -> capitals p.
Proof.
  unfold derive_prefix. intros Hi H. destruct (_ <=? _); [|done].
  assert (p = prefix_loop (S (Z.to_nat (Z.log2 (i + 1)))) (i + 1) "") as -> by congruence.
  apply loop_capitals; [lia|done].
Qed.
Lemma derive_inj i j p : 0 <= i -> 0 <= j -> derive_prefix i = Ok p -> derive_prefix j = Ok p ->
  i = j.
Proof.
  intros Hi Hj H1 H2. apply derive_spells in H1, H2; lia.
Qed.

(** ** Counting modules *)
Lemma active_insert_new (m : gmap addr kmod) a p : m !! a = None ->
  size (filter on (<[a := KMod true p]> m)) = S (size (filter on m)).
Proof.
  intros E. rewrite map_filter_insert. rewrite decide_True by done.
  apply map_size_insert_None. apply map_filter_lookup_None. by left.
Qed.
Lemma active_disable (m : gmap addr kmod) a x : m !! a = Some x -> km_on x = true ->
  S (size (filter on (<[a := KMod false (km_prefix x)]> m))) = size (filter on m).
Proof.
  intros E O. rewrite map_filter_insert. rewrite decide_False by done.
  rewrite map_filter_delete.
  assert (filter on m !! a = Some x) as E2 by (by apply map_filter_lookup_Some).
  rewrite map_size_delete_Some by (by eexists). 
  assert (size (filter on m) <> 0%nat); [|lia].
  intros E3. apply map_size_empty_inv in E3. rewrite E3, lookup_empty in E2. done.
Qed.
Lemma disable_all_spec l : forall m m', disable_all m l = Ok m' ->
  (size (filter on m) = length l + size (filter on m'))%nat /\ size m' = size m /\
  (forall a, m' !! a = None <-> m !! a = None) /\
  (forall a x, m' !! a = Some x -> exists y, m !! a = Some y /\ km_prefix y = km_prefix x /\
     (km_on x = true -> km_on y = true)).
Proof.
  induction l as [|a l IH]; intros m m' H; cbn in H.
  { injection H as <-. cbn. split; [lia|]. split; [done|]. split; [done|]. eauto. }
  destruct (m !! a) as [x|] eqn:E; [|done]. destruct (km_on x) eqn:O; [|done].
  destruct (IH _ _ H) as (H1 & H2 & H3 & H4). pose proof (active_disable m a x E O).
  split; [cbn [length]; lia|]. split.
  { rewrite H2. rewrite map_size_insert_Some; [done|by eexists]. }
  split.
  { intros c. rewrite H3. rewrite lookup_insert_None. split; [by intros []|].
    intros. split; [done|]. intros ->. congruence. }
  intros c y Hy. destruct (H4 c y Hy) as (z & Hz & Hp & Ho).
  apply lookup_insert_Some in Hz as [[<- <-]|[? Hz]]; [|eauto].
  exists x. split; [done|]. split; [done|]. cbn in Ho. intros Hy2. by apply Ho in Hy2.
Qed.
Lemma new_active_ok s add dis m' n : 0 <= k_active s <= U32_MAX ->
  k_active s = n_active s -> disable_all (k_mods s) dis = Ok m' ->
  new_active s add dis = Ok n ->
  n = k_active s - Z.of_nat (length dis) /\ n = Z.of_nat (size (filter on m')) /\
  (add = [] -> 1 <= n).
Proof.
  intros Hr Ha Hd H. destruct (disable_all_spec _ _ _ Hd) as (H1 & _).
  unfold n_active in Ha. unfold new_active in H. cbv zeta in H.
  assert (Z.of_nat (length dis) mod 2 ^ 32 = Z.of_nat (length dis)) as E.
  { apply Z.mod_small. unfold U32_MAX in Hr. lia. }
  rewrite E in H.
  destruct (k_active s <=? Z.of_nat (length dis)) eqn:E1.
  - destruct add; cbn in H; [done|].
    destruct (Z.of_nat (length dis) <=? k_active s); [|done]. injection H as <-.
    split; [done|]. split; [lia|done].
  - cbn in H. destruct (Z.of_nat (length dis) <=? k_active s); [|done]. injection H as <-.
    split; [done|]. split; [lia|]. intros. lia.
Qed.

(** ** The invariant *)
Record kinv (s : kstate) : Prop := KInv {
  ki_self : k_mods (k_core s) !! k_self (k_core s) = None;
  ki_active : k_active (k_core s) = n_active (k_core s);
  ki_total : k_total (k_core s) = n_total (k_core s);
  ki_range : k_active (k_core s) <= U32_MAX;
  ki_some : 1 <= k_active (k_core s) \/ exists i, KInst PROPOSAL_ID i ∈ k_todo s;
  ki_index : forall a x, k_mods (k_core s) !! a = Some x ->
    exists i, 0 <= i < k_total (k_core s) /\ derive_prefix i = Ok (km_prefix x);
  ki_prefix : forall a a' x x', k_mods (k_core s) !! a = Some x -> k_mods (k_core s) !! a' = Some x' ->
    km_prefix x = km_prefix x' -> a = a' }.

Lemma kinv_init self c admin v mods items s :
  k_instantiate self c admin v mods items = Ok s -> kinv s.
Proof.
  unfold k_instantiate. intros H. destruct mods as [|i mods]; [done|].
  destruct (init_items _ _); [|done]. injection H as <-.
  split; cbn.
  - done.
  - done.
  - done.
  - unfold U32_MAX. lia.
  - right. exists i. right. left.
  - intros d x H. by rewrite lookup_empty in H.
  - intros d d' x x' H. by rewrite lookup_empty in H.
Qed.

(** The parts of the core the invariant is about. *)
Lemma kinv_same s c t :
  kinv s -> k_self c = k_self (k_core s) -> modules c = modules (k_core s) ->
  (forall i, KInst PROPOSAL_ID i ∈ k_todo s -> KInst PROPOSAL_ID i ∈ t) ->
  kinv (KState c t).
Proof.
  intros [? ? ? ? Hs ? ?] E1 E2 Ht. injection E2 as E2 E3 E4 E5.
  split; cbn; rewrite ?E1, ?E2, ?E3, ?E4; try done.
  - unfold n_active. rewrite E2. done.
  - unfold n_total. rewrite E2. done.
  - destruct Hs as [|[i Hi]]; [by left|]. right. exists i. by apply Ht.
Qed.

(** What [k_step] does, by cases. *)
Lemma k_step_cases s b a m s' l : k_step s b a m = Ok (s', l) ->
  (modules s' = modules s /\
     (l = [] \/ (exists msgs, orders s a m msgs /\ l = map KSend msgs) \/
      (exists i, m = KVoting i /\ a = k_self s /\ l = [KInst VOTE_UPDATE_ID i]))) \/
  (exists add dis mods n, m = KModules add dis /\ a = k_self s /\
     l = map (KInst PROPOSAL_ID) add /\ disable_all (k_mods s) dis = Ok mods /\
     new_active s add dis = Ok n /\ s' = k_set_mods s mods n (k_total s)).
Proof.
  intros H. destruct m; cbn [k_step] in H; cbv zeta in H.
  all: repeat match type of H with
  | (if ?x then _ else _) = Ok _ => destruct x eqn:?; [|done]
  | (match ?x with _ => _ end) = Ok _ => destruct x eqn:?; [|done]
  | (match ?x with _ => _ end) = Ok _ => destruct x eqn:?; [done|]
  end; try done.
  all: try (injection H as <- <-; left; split; [by repeat match goal with
      | |- context [if ?x then _ else _] => destruct x
      | |- context [match ?x with _ => _ end] => destruct x end|]).
  all: try (left; reflexivity).
  - right. left. exists msgs. split; [left|done]. split; [done|]. lia.
  - right. left. exists msgs. split; [right|done]. split; [done|].
    destruct k as [o p]. cbn in *. subst. by exists p.
  - right. right. exists info. split; [done|]. split; [lia|done].
  - right. injection H as <- <-. exists add, disable, a0, a1. split; [done|].
    split; [lia|]. done.
Qed.
Lemma k_step_self s b a m s' l : k_step s b a m = Ok (s', l) -> k_self s' = k_self s.
Proof.
  intros H. destruct m; cbn [k_step] in H; cbv zeta in H.
  all: repeat match type of H with
  | (if ?x then _ else _) = Ok _ => destruct x eqn:?; [|done]
  | (match ?x with _ => _ end) = Ok _ => destruct x eqn:?; [|done]
  | (match ?x with _ => _ end) = Ok _ => destruct x eqn:?; [done|]
  end; try done; injection H as <- <-;
  by repeat match goal with
      | |- context [if ?x then _ else _] => destruct x
      | |- context [match ?x with _ => _ end] => destruct x end.
Qed.
Lemma k_execute_step s b a m r : k_execute s b a m = Ok r ->
  k_step s b a m = Ok r /\ k_shut s b a = false.
Proof. unfold k_execute. destruct (k_shut s b a); done. Qed.
Lemma k_reply_self s id a msgs s' l : k_reply s id a msgs = Ok (s', l) -> k_self s' = k_self s.
Proof.
  unfold k_reply. intros H.
  repeat match type of H with
  | (if ?x then _ else _) = Ok _ => destruct x eqn:?; [|try done]
  | (if ?x then _ else _) = Ok _ => destruct x eqn:?
  | (match ?x with _ => _ end) = Ok _ => destruct x eqn:?; [|done]
  | (match ?x with _ => _ end) = Ok _ => destruct x eqn:?; [done|]
  end; try done; by injection H as <- <-.
Qed.

(** ** Preservation *)
Lemma kinv_execute s b a m c l t :
  kinv s -> k_execute (k_core s) b a m = Ok (c, l) ->
  (forall i, KInst PROPOSAL_ID i ∈ k_todo s -> KInst PROPOSAL_ID i ∈ t) ->
  kinv (KState c (l ++ t)).
Proof.
  intros I H Ht. apply k_execute_step in H as [H _].
  pose proof (k_step_self _ _ _ _ _ _ H) as Es.
  apply k_step_cases in H as [[Em _]|(add & dis & mods & n & -> & -> & -> & Hd & Hn & ->)].
  { apply (kinv_same s); [done|done|done|]. intros i Hi. apply elem_of_app. right. by apply Ht. }
  destruct I as [I1 I2 I3 I4 I5 I6 I7].
  assert (0 <= k_active (k_core s)) by (rewrite I2; unfold n_active; lia).
  destruct (new_active_ok (k_core s) add dis mods n (conj H I4) I2 Hd Hn) as (N1 & N2 & N3).
  destruct (disable_all_spec _ _ _ Hd) as (D1 & D2 & D3 & D4).
  split; cbn.
  - by apply D3.
  - unfold n_active. cbn. done.
  - rewrite I3. unfold n_total. cbn. lia.
  - lia.
  - destruct add as [|i add]; [left; by apply N3|]. right. exists i. left.
  - intros x y Hy. destruct (D4 _ _ Hy) as (z & Hz & <- & _). by apply I6 in Hz.
  - intros x x' y y' Hy Hy' E. destruct (D4 _ _ Hy) as (z & Hz & Ez & _).
    destruct (D4 _ _ Hy') as (z' & Hz' & Ez' & _). apply (I7 x x' z z'); congruence.
Qed.
Lemma kinv_reply s id i t a msgs c l :
  kinv s -> k_todo s = KInst id i :: t -> k_mods (k_core s) !! a = None ->
  a <> k_self (k_core s) -> k_reply (k_core s) id a msgs = Ok (c, l) ->
  kinv (KState c (l ++ t)).
Proof.
  intros I Et Ea Na H. pose proof (k_reply_self _ _ _ _ _ _ H) as Es.
  unfold k_reply in H. destruct (Z.eqb_spec id PROPOSAL_ID) as [->|Nid].
  - destruct (derive_prefix (k_total (k_core s))) as [p|] eqn:Ep; [|done].
    destruct (Z.leb_spec (k_active (k_core s) + 1) U32_MAX); [|done].
    destruct (Z.leb_spec (k_total (k_core s) + 1) U32_MAX); [|done].
    injection H as <- <-. destruct I as [I1 I2 I3 I4 I5 I6 I7].
    assert (0 <= k_total (k_core s)) by (rewrite I3; unfold n_total; lia).
    split; cbn.
    + rewrite lookup_insert_ne by done. done.
    + rewrite I2. unfold n_active. cbn. rewrite active_insert_new by done. lia.
    + rewrite I3. unfold n_total. cbn. rewrite map_size_insert_None by done. lia.
    + done.
    + left. rewrite I2. unfold n_active. lia.
    + intros x y Hy. apply lookup_insert_Some in Hy as [[<- <-]|[_ Hy]].
      * exists (k_total (k_core s)). split; [lia|done].
      * destruct (I6 _ _ Hy) as (j & Hj & Hp). exists j. split; [lia|done].
    + intros x x' y y' Hy Hy' E.
      apply lookup_insert_Some in Hy as [[<- <-]|[Nx Hy]];
        apply lookup_insert_Some in Hy' as [[<- <-]|[Nx' Hy']]; [done| | |by eapply I7].
      * destruct (I6 _ _ Hy') as (j & Hj & Hp). cbn in E. rewrite <-E in Hp.
        pose proof (derive_inj j (k_total (k_core s)) p ltac:(lia) ltac:(lia) Hp Ep). lia.
      * destruct (I6 _ _ Hy) as (j & Hj & Hp). cbn in E. rewrite E in Hp.
        pose proof (derive_inj j (k_total (k_core s)) p ltac:(lia) ltac:(lia) Hp Ep). lia.
  - assert (modules c = (k_mods (k_core s), k_active (k_core s), k_total (k_core s), Some a)) as Em.
    { destruct (id =? VOTE_ID).
      - destruct (k_voting (k_core s)); [done|]. by injection H as <- <-.
      - destruct (id =? VOTE_UPDATE_ID); [|done]. by injection H as <- <-. }
    injection Em as E1 E2 E3 _. destruct I as [I1 I2 I3 I4 I5 I6 I7].
    split; cbn; rewrite ?Es, ?E1, ?E2, ?E3; try done.
    + rewrite I2. unfold n_active. by rewrite E1.
    + rewrite I3. unfold n_total. by rewrite E1.
    + destruct I5 as [|[j Hj]]; [by left|]. right. exists j. rewrite Et in Hj.
      apply elem_of_cons in Hj as [Hj|Hj]; [congruence|]. apply elem_of_app. by right.
Qed.
Lemma kinv_event s b e s' : kinv s -> k_event s b e = Ok s' -> kinv s'.
Proof.
  intros I H. destruct e as [a m| |a msgs|]; cbn in H.
  - destruct (negb _); [|done].
    destruct (k_execute (k_core s) b a m) as [[c l]|] eqn:E; [|done]. injection H as <-.
    by eapply kinv_execute.
  - destruct (k_todo s) as [|[id i|[m|n]] t] eqn:Et; try done.
    destruct (k_execute (k_core s) b (k_self (k_core s)) m) as [[c l]|] eqn:E; [|done].
    injection H as <-. eapply kinv_execute; [done|exact E|]. rewrite Et. intros i Hi.
    by apply elem_of_cons in Hi as [Hi|Hi].
  - destruct (k_todo s) as [|[id i|[m|n]] t] eqn:Et; try done.
    destruct (k_mods (k_core s) !! a) eqn:Ea; [done|].
    destruct (N.eqb_spec a (k_self (k_core s))); [done|]. cbn in H.
    destruct (k_reply (k_core s) id a msgs) as [[c l]|] eqn:E; [|done]. injection H as <-.
    by eapply kinv_reply.
  - destruct (k_todo s) as [|[id i|[m|n]] t] eqn:Et; try done. injection H as <-.
    apply (kinv_same s); [done|done|done|]. rewrite Et. intros i Hi.
    by apply elem_of_cons in Hi as [Hi|Hi].
Qed.

(** ** Histories *)
Lemma kleads_inv (P : kstate -> Prop) b0 s0 b s l :
  (forall s b e s', P s -> k_event s b e = Ok s' -> P s') ->
  kleads b0 s0 b s l -> P s0 ->
  P s /\ forall e, e ∈ l -> P (ke_pre e) /\ P (ke_post e) /\
    k_event (ke_pre e) (ke_block e) (ke_ev e) = Ok (ke_post e).
Proof.
  intros HP H H0. induction H as [|b s l b' e s' H IH Hb Hd He].
  { split; [done|]. intros e He. by apply elem_of_nil in He. }
  destruct IH as [IH1 IH2]. split; [by eapply HP|]. intros x Hx.
  apply elem_of_app in Hx as [Hx|Hx]; [by apply IH2|].
  apply elem_of_list_singleton in Hx as ->. cbn. split; [done|]. split; [by eapply HP|done].
Qed.
Lemma kreached_inv b s l : kreached b s l -> kinv s /\
  forall e, e ∈ l -> kinv (ke_pre e) /\ kinv (ke_post e) /\
    k_event (ke_pre e) (ke_block e) (ke_ev e) = Ok (ke_post e).
Proof.
  intros (b0 & self & c & admin & v & ms & items & s0 & Hi & Hl).
  apply (kleads_inv kinv _ _ _ _ _ kinv_event Hl). by eapply kinv_init.
Qed.

(** ** Dispatch *)
Lemma lawful_event s b e s' : kinv s -> k_event s b e = Ok s' -> lawful (KEntry s b e s').
Proof.
  intros I H. unfold lawful. destruct e as [a m| |a msgs|]; cbn in H |- *.
  - destruct (N.eqb_spec a (k_self (k_core s))) as [|Na]; [done|]. cbn in H.
    destruct (k_execute (k_core s) b a m) as [[c l]|] eqn:E; [|done]. injection H as <-.
    cbn. apply k_execute_step in E as [E _].
    apply k_step_cases in E as [[_ [->|[(msgs & Ho & ->)|(i & -> & Hi & ->)]]]|
      (add & dis & mods & n & -> & Hi & -> & _)].
    + by left.
    + right. by exists msgs.
    + done.
    + done.
  - destruct (k_todo s) as [|[id i|[m|n]] t] eqn:Et; try done.
    destruct (k_execute (k_core s) b (k_self (k_core s)) m) as [[c l]|] eqn:E; [|done].
    injection H as <-. cbn. exists m, t. split; [done|]. apply k_execute_step in E as [E _].
    apply k_step_cases in E as [[_ [->|[(msgs & Ho & ->)|(i & -> & Hi & ->)]]]|
      (add & dis & mods & n & -> & Hi & -> & _)].
    + by left.
    + right. left. destruct Ho as [[-> Ho]|[-> [p Ho]]]; [by exists msgs|].
      rewrite (ki_self _ I) in Ho. done.
    + right. right. left. by exists i.
    + right. right. right. by exists add, dis.
  - destruct (k_todo s) as [|[id i|[m|n]] t] eqn:Et; try done.
    destruct (k_mods (k_core s) !! a) eqn:Ea; [done|].
    destruct (negb _); [|done].
    destruct (k_reply (k_core s) id a msgs) as [[c l]|] eqn:E; [|done]. injection H as <-.
    cbn. exists id, i, t. split; [done|]. unfold k_reply in E.
    destruct (Z.eqb_spec id PROPOSAL_ID) as [->|].
    { right. split; [done|]. destruct (derive_prefix _); [|done].
      destruct (_ <=? _); [|done]. destruct (_ <=? _); [|done]. by injection E as <- <-. }
    destruct (Z.eqb_spec id VOTE_ID) as [->|].
    { right. split; [done|]. destruct (k_voting _); [done|]. by injection E as <- <-. }
    destruct (id =? VOTE_UPDATE_ID); [|done]. left. by injection E as <- <-.
  - destruct (k_todo s) as [|[id i|[m|n]] t] eqn:Et; try done. injection H as <-. cbn.
    by exists n.
Qed.

(** ** Whose call changes what *)
Ltac kcases H :=
  repeat match type of H with
  | (if ?x then _ else _) = Ok _ => destruct x eqn:?; [|done]
  | (match ?x with _ => _ end) = Ok _ => destruct x eqn:?; [|done]
  | (match ?x with _ => _ end) = Ok _ => destruct x eqn:?; [done|]
  end; try done.
(** Calls by others. *)
Lemma k_step_other s b a m s' l : a <> k_self s -> k_step s b a m = Ok (s', l) ->
  settings s' = settings s /\ modules s' = modules s /\
  (lists s' = lists s \/
   (m = KReceive20 /\ kc_auto20 (k_conf s) = true /\ lists s' = ({[a]} ∪ k_cw20s s, k_cw721s s)) \/
   (m = KReceive721 /\ kc_auto721 (k_conf s) = true /\ lists s' = (k_cw20s s, {[a]} ∪ k_cw721s s))) /\
  (k_paused s' = k_paused s \/ (m = KUnpause /\ a = k_admin s /\ k_paused s' = None)).
Proof.
  intros Na H. destruct m; cbn [k_step] in H; cbv zeta in H.
  all: kcases H; try (exfalso; lia).
  all: injection H as <- <-.
  all: repeat match goal with
      | |- context [match ?x with Some _ => _ | None => _ end] => destruct x
      end.
  all: try (split; [done|split; [done|split; [by left|by left]]]).
  - split; [done|]. split; [done|]. split; [by left|]. right. split; [done|]. split; [lia|done].
  - destruct (kc_auto20 (k_conf s)) eqn:E; split; try done; (split; [done|]); (split; [|by left]).
    + right. left. done.
    + by left.
  - destruct (kc_auto721 (k_conf s)) eqn:E; split; try done; (split; [done|]); (split; [|by left]).
    + right. right. done.
    + by left.
Qed.
(** The admin. *)
Lemma k_step_admin s b a m s' l : k_step s b a m = Ok (s', l) ->
  (k_admin s' = k_admin s /\ k_nom s' = k_nom s /\ m <> KAccept /\ m <> KWithdraw) \/
  (m = KNominate None /\ a = k_admin s /\ k_nom s = None /\ k_admin s' = k_self s /\ k_nom s' = None) \/
  (exists x, m = KNominate (Some x) /\ a = k_admin s /\ k_nom s = None /\
     k_admin s' = k_admin s /\ k_nom s' = Some x) \/
  (m = KAccept /\ k_nom s = Some a /\ k_admin s' = a /\ k_nom s' = None) \/
  (m = KWithdraw /\ a = k_admin s /\ k_admin s' = k_admin s /\ k_nom s' = None).
Proof.
  intros H. destruct m; cbn [k_step] in H; cbv zeta in H.
  all: kcases H.
  all: injection H as <- <-.
  all: try (by left).
  - left. by destruct (kc_auto20 _).
  - left. by destruct (kc_auto721 _).
  - destruct (k_nom s) eqn:En; [done|]. destruct a0 as [x|].
    + right. right. left. exists x. cbn. split; [done|]. split; [lia|done].
    + right. left. cbn. split; [done|]. split; [lia|]. done.
  - right. right. right. left. cbn. split; [done|].
    assert (a = a0) as -> by lia. done.
  - right. right. right. right. cbn. split; [done|]. split; [lia|done].
Qed.

(** ** One step *)
Lemma event_inv s b v s' : k_event s b v = Ok s' ->
  (exists a m l, said (KEntry s b v s') = Some (a, m) /\
     k_execute (k_core s) b a m = Ok (k_core s', l)) \/
  (exists a msgs id i t l, v = VReply a msgs /\ said (KEntry s b v s') = None /\
     k_todo s = KInst id i :: t /\ k_mods (k_core s) !! a = None /\
     a <> k_self (k_core s) /\ k_reply (k_core s) id a msgs = Ok (k_core s', l)) \/
  (v = VDone /\ said (KEntry s b v s') = None /\ k_core s' = k_core s).
Proof.
  intros H. unfold said. cbn. destruct v as [a m| |a msgs|]; cbn in H.
  - destruct (negb _); [|done].
    destruct (k_execute (k_core s) b a m) as [[c l]|] eqn:E; [|done]. injection H as <-.
    left. exists a, m, l. done.
  - destruct (k_todo s) as [|[id i|[m|n]] t] eqn:Et; try done.
    destruct (k_execute (k_core s) b (k_self (k_core s)) m) as [[c l]|] eqn:E; [|done].
    injection H as <-. left. exists (k_self (k_core s)), m, l. done.
  - right. left. destruct (k_todo s) as [|[id i|[m|n]] t] eqn:Et; try done.
    destruct (k_mods (k_core s) !! a) eqn:Ea; [done|].
    destruct (N.eqb_spec a (k_self (k_core s))); [done|]. cbn in H.
    destruct (k_reply (k_core s) id a msgs) as [[c l]|] eqn:E; [|done]. injection H as <-.
    exists a, msgs, id, i, t, l. done.
  - right. right. destruct (k_todo s) as [|[id i|[m|n]] t] eqn:Et; try done.
    by injection H as <-.
Qed.
Lemma k_reply_cases s id a msgs s' l : k_reply s id a msgs = Ok (s', l) ->
  settings s' = settings s /\ lists s' = lists s /\ k_paused s' = k_paused s /\
  k_admin s' = k_admin s /\ k_nom s' = k_nom s /\
  (k_mods s' = k_mods s \/ exists p, k_mods s' = <[a := KMod true p]> (k_mods s)) /\
  (k_voting s' = k_voting s \/ k_voting s' = Some a).
Proof.
  intros E. unfold k_reply in E. destruct (Z.eqb_spec id PROPOSAL_ID).
  { kcases E. injection E as <- <-. cbn. do 5 (split; [done|]). split; [right; by eexists|by left]. }
  destruct (Z.eqb_spec id VOTE_ID).
  { kcases E. injection E as <- <-. cbn. do 5 (split; [done|]). split; [by left|by right]. }
  destruct (Z.eqb_spec id VOTE_UPDATE_ID); [|done]. injection E as <- <-. cbn.
  do 5 (split; [done|]). split; [by left|by right].
Qed.
