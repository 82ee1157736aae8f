(** The options of a multiple-choice proposal. *)
From stdpp Require Import list.
From Verif Require Import Base VotingModel HooksModel MultModel.

Lemma imap_msgs (f : nat -> nat) (l : list (list Z)) :
  map ch_msgs (imap (fun i ms => Choice (f i) false ms) l) = l /\
  map ch_none (imap (fun i ms => Choice (f i) false ms) l) = replicate (length l) false /\
  map ch_index (imap (fun i ms => Choice (f i) false ms) l) = map f (seq 0 (length l)).
Proof.
  revert f. induction l as [|ms l IH]; intros f; [done|]. cbn [imap map length replicate seq].
  destruct (IH (fun i => f (S i))) as (A & B & C). unfold compose.
  split; [cbn; f_equal; exact A|]. split; [cbn; f_equal; exact B|].
  cbn. f_equal. rewrite <-seq_shift, map_map. exact C.
Qed.
(** Between 2 and 20 options are accepted; the messages stay with their options, which are
    numbered from 0, and "none of the above" follows without messages. *)
Lemma choices_exact opts cs :
  into_checked opts = Ok cs <->
  (2 <= length opts <= 20)%nat /\ map ch_msgs cs = opts ++ [[]] /\
  map ch_none cs = replicate (length opts) false ++ [true] /\
  map ch_index cs = seq 0 (S (length opts)).
Proof.
  unfold into_checked.
  destruct (imap_msgs (fun i => i) opts) as (A & B & C). rewrite map_id in C.
  assert (map ch_index (imap (λ i ms, Choice i false ms) opts ++ [Choice (length opts) true []])
    = seq 0 (S (length opts))) as Hi by (rewrite map_app, C, seq_S; done).
  assert (forall c1 c2 : list choice, map ch_msgs c1 = map ch_msgs c2 ->
    map ch_none c1 = map ch_none c2 -> map ch_index c1 = map ch_index c2 -> c1 = c2) as Hinj.
  { induction c1 as [|[] c1 IH]; intros [|[] c2]; try done. cbn.
    intros [= -> ?] [= -> ?] [= -> ?]. f_equal. by apply IH. }
  split.
  - intros H. destruct (((2 <=? length opts) && (length opts <=? 20))%nat) eqn:E; [|done].
    cbn in H. injection H as <-. apply andb_true_iff in E as [E1 E2].
    apply Nat.leb_le in E1, E2. split; [lia|].
    split; [by rewrite map_app, A|]. split; [by rewrite map_app, B|exact Hi].
  - intros ([L1 L2] & E1 & E2 & E3).
    rewrite (proj2 (Nat.leb_le _ _) L1), (proj2 (Nat.leb_le _ _) L2). cbn. f_equal.
    apply Hinj; [rewrite map_app, A, E1|rewrite map_app, B, E2|rewrite E3]; done.
Qed.
