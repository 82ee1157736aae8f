(** What is claimed of a DAO with its voting module. *)
From stdpp Require Import gmap strings.
From Verif Require Import Base Exec Plain VotingModel VotingSpec HooksModel SingleModel SingleSpec
  CoreModel CoreSpec DaoModel DaoSpec JointModel WholeModel.

(** Those who have voted [v] on proposal [id]. *)
Definition voters (s : state) (id : Z) (v : vote) : list addr :=
  map (fun x => x.1.2)
    (filter (fun x => x.1.1 = id /\ bl_vote x.2 = v) (map_to_list (s_ballots s))).

(** Nobody outside [C] has voted other than no. *)
Definition others_decline (C : list addr) (s : state) : Prop :=
  forall id a bl, s_ballots s !! (id, a) = Some bl -> a ∈ C \/ bl_vote bl = No.
(** Rules by which yes is compared to all there is, not to what is cast. *)
Definition absolute (t : threshold) : Prop :=
  match t with ThresholdQuorum _ _ => False | _ => True end.

Section spec.
  Context {T MV XV : Type}.
  Variable handle_v : T -> block -> addr -> MV -> result (T * list XV).
  Variable power : T -> addr -> Z -> Z.
  Variable total : T -> Z -> Z.
  Variable vreached : block -> T -> log T MV XV -> Prop.
  Variable for_v : N -> option MV.
  Variable K : codes.

  Record wentry := WEntry { we_pre : @whole T; we_block : block; we_ev : @wevent MV; we_post : @whole T }.
  (** Steps one after the other; blocks change only between transactions; the proposal module
      is not told to follow another DAO; the DAO does not exchange its voting module. *)
  Inductive wleads (b0 : block) (s0 : whole) : block -> whole -> list wentry -> Prop :=
  | wl_nil : wleads b0 s0 b0 s0 []
  | wl_step b s l b' e s' :
      wleads b0 s0 b s l -> block_le b b' -> (d_todo (w_dao s) = [] \/ b' = b) ->
      (forall e', e = WDao e' ->
         forall a m, heard K (w_dao s) e' = Some (a, m) -> keeps_dao (k_self (d_core (w_dao s))) a m) ->
      k_voting (d_core (w_dao s')) = k_voting (d_core (w_dao s)) ->
      w_event handle_v power total for_v K s b' e = Ok s' ->
      wleads b0 s0 b' s' (l ++ [WEntry s b' e s']).
  (** A DAO with a new proposal module and a voting module, whatever has happened to them. *)
  Definition wstart (b : block) (s : whole) : Prop :=
    dstart b (w_dao s) /\ exists l, vreached b (w_v s) l.
  Definition wreached (b : block) (s : whole) (l : list wentry) : Prop :=
    exists b0 s0, wstart b0 s0 /\ wleads b0 s0 b s l.

  (** The steps of the DAO and the proposal module. *)
  Definition dao_entry (e : wentry) : option dentry :=
    match we_ev e with
    | WDao v => Some (DEntry (w_dao (we_pre e)) (we_block e) v (w_dao (we_post e)))
    | WVote _ _ => None
    end.
  Definition dao_log (l : list wentry) : list dentry := omap dao_entry l.
  (** In the step the DAO is given the messages of proposal [id]. *)
  Definition wcarries (e : wentry) (id : Z) (msgs : list Z) : Prop :=
    exists d, dao_entry e = Some d /\ carries d id msgs.

  (** What those who voted [v] hold at the start of the proposal. *)
  Definition behind (t : T) (s : state) (id : Z) (h : Z) (v : vote) : Z :=
    lsum (fun a => power t a h) (voters s id v).
  (** The holdings behind the votes meet the proposal's threshold. *)
  Definition backed (t : T) (s : state) (id : Z) (p : proposal) : Prop :=
    let w := behind t s id (p_start p) in
    NoDup (voters s id Yes) /\
    (at_least_billionth (p_thr p) ->
       outcome_near (p_thr p) (total t (p_start p)) (Votes (w Yes) (w No) (w Abstain))).
  (** [C] would not meet the rule in any block begun, not even all voting yes and with nobody
      else voting. *)
  Definition short (t : T) (b : block) (r : threshold) (C : list addr) : Prop :=
    forall h, h <= height b ->
      ~ outcome_near r (total t h) (Votes (lsum (fun a => power t a h) C) 0 0).
  (** Nor with any number of others voting no, which can make up a quorum. *)
  Definition hopeless (t : T) (b : block) (r : threshold) (C : list addr) : Prop :=
    forall h n, h <= height b -> 0 <= n ->
      ~ outcome_near r (total t h) (Votes (lsum (fun a => power t a h) C) n 0).
  (** The voting module is called: by somebody outside, or by the DAO with a message it sends
      that is not for the proposal module. *)
  Definition called_by (e : wentry) (a : addr) (m : MV) : Prop :=
    (we_ev e = WVote a m /\ a <> k_self (d_core (w_dao (we_pre e))) /\ a <> d_at (w_dao (we_pre e))) \/
    (exists d n, dao_entry e = Some d /\ act d = Some (inr n) /\ a = k_self (d_core (w_dao (we_pre e))) /\
       call_of K n = None /\ for_v n = Some m).
  Definition v_lawful (e : wentry) : Prop :=
    w_v (we_post e) = w_v (we_pre e) \/
    exists a m subs, called_by e a m /\
      handle_v (w_v (we_pre e)) (we_block e) a m = Ok (w_v (we_post e), subs).
End spec.
Arguments WEntry {T MV}.
Arguments we_pre {T MV}.
Arguments we_block {T MV}.
Arguments we_ev {T MV}.
Arguments we_post {T MV}.
Arguments dao_entry {T MV}.
Arguments dao_log {T MV}.
Arguments wcarries {T MV}.
