(** Model of the migration of contracts/proposal/dao-proposal-single/src: contract.rs:966-1066
    [migrate] and v1_state.rs, over the module of [SingleModel].

    The storage holds what version one left ("config", "proposals": crate
    cw-proposal-single 0.1.0, whose code is not part of this repository), what this
    version writes ("config_v2", "proposals_v2", "creation_policy") and what both share
    ("proposal_count", "ballots", "proposal_hooks", "vote_hooks"; state.rs:69-86).  Nothing
    in this version writes or removes what version one left.

    A migration is sent by the chain's admin of the contract and names the version of the
    code that is to run from then on; the text of that code, [migrate] included, is taken to
    be the text at this commit whatever its version.  Changing the chain's admin is not
    modelled.  Titles and descriptions are left out as in [SingleModel]. *)
From Verif Require Import Base VotingModel HooksModel SingleModel.

(** ** The types of version one, as used in v1_state.rs *)
Inductive vpct := VMajority | VPercent (p : Z).
Inductive vthr :=
| VAbsolutePercentage (p : vpct)
| VThresholdQuorum (t q : vpct)
| VAbsoluteCount (n : Z).
Inductive vdur := VHeight (n : Z) | VTime (n : Z).
Inductive vexp := VAtHeight (n : Z) | VAtTime (n : Z) | VNever.
Record vvotes := VVotes { vv_yes : Z; vv_no : Z; vv_abstain : Z }.
Inductive vstatus := VOpen | VRejected | VPassed | VExecuted | VClosed.

(** v1 [Config], the fields read at contract.rs:985-1007. *)
Record vconfig := VConfig {
  vg_thr : vthr;
  vg_max : vdur;
  vg_min : option vdur;
  vg_only_members : bool;
  vg_revote : bool;
  vg_dao : addr }.
(** v1 [Proposal], the fields read at contract.rs:1024-1056; of the deposit, its amount. *)
Record vproposal := VProposal {
  vr_proposer : addr;
  vr_start : Z;
  vr_min : option vexp;
  vr_exp : vexp;
  vr_thr : vthr;
  vr_total : Z;
  vr_msgs : list Z;
  vr_status : vstatus;
  vr_votes : vvotes;
  vr_revote : bool;
  vr_deposit : option Z }.

(** ** v1_state.rs *)
(** 11-16. *)
Definition pct_to_v2 (p : vpct) : percentage :=
  match p with VMajority => Majority | VPercent n => Percent n end.
(** 18-29. *)
Definition thr_to_v2 (t : vthr) : threshold :=
  match t with
  | VAbsolutePercentage p => AbsolutePercentage (pct_to_v2 p)
  | VThresholdQuorum t q => ThresholdQuorum (pct_to_v2 t) (pct_to_v2 q)
  | VAbsoluteCount n => AbsoluteCount n
  end.
(** 31-36. *)
Definition dur_to_v2 (d : vdur) : duration :=
  match d with VHeight n => DHeight n | VTime n => DTime n end.
(** 38-44. *)
Definition exp_to_v2 (e : vexp) : expiration :=
  match e with VAtHeight n => AtHeight n | VAtTime n => AtTime n | VNever => Never end.
(** 46-52. *)
Definition votes_to_v2 (v : vvotes) : votes := Votes (vv_yes v) (vv_no v) (vv_abstain v).
(** 54-62. *)
Definition status_to_v2 (s : vstatus) : status :=
  match s with
  | VOpen => Open | VRejected => Rejected | VPassed => Passed
  | VExecuted => Executed | VClosed => Closed
  end.

(** ** The storage *)
Record store := Store {
  t_admin : addr;
  t_version : N;
  t_vcfg : option vconfig;
  t_vprops : gmap Z vproposal;
  t_cfg : option config;
  t_policy : option creation_policy;
  t_count : Z;
  t_props : gmap Z proposal;
  t_ballots : gmap (Z * addr) ballot;
  t_phooks : list addr;
  t_vhooks : list addr }.

(** What this version sees; without its configuration it cannot run. *)
Definition live (t : store) : option state :=
  match t_cfg t, t_policy t with
  | Some c, Some pol =>
      Some (State c (t_count t) (t_props t) (t_ballots t) pol (t_phooks t) (t_vhooks t))
  | _, _ => None
  end.
Definition put (t : store) (s : state) : store :=
  Store (t_admin t) (t_version t) (t_vcfg t) (t_vprops t) (Some (s_cfg s)) (Some (s_policy s))
    (s_count s) (s_props s) (s_ballots s) (s_phooks s) (s_vhooks s).

(** msg.rs:215-248 [MigrateMsg]. *)
Inductive migrate_msg :=
| FromV1 (close : bool) (i : pre_propose_info) (veto : option veto_config)
| FromCompatible.

(** 1024-1038: a deposit still to be returned. *)
Definition outstanding (v : vproposal) : bool :=
  match vr_deposit v with
  | Some n =>
      negb (n =? 0) &&
      match vr_status v with VClosed | VExecuted => false | _ => true end
  | None => false
  end.
(** 1040-1054. *)
Definition prop_to_v2 (v : vproposal) : proposal :=
  Proposal (vr_proposer v) (vr_start v) (option_map exp_to_v2 (vr_min v)) (exp_to_v2 (vr_exp v))
    (thr_to_v2 (vr_thr v)) (vr_total v) (vr_msgs v) (status_to_v2 (vr_status v))
    (votes_to_v2 (vr_votes v)) (vr_revote v) None.
(** 996-1007. *)
Definition cfg_to_v2 (c : vconfig) (close : bool) (veto : option veto_config) : config :=
  Config (thr_to_v2 (vg_thr c)) (dur_to_v2 (vg_max c)) (option_map dur_to_v2 (vg_min c))
    (vg_only_members c) (vg_revote c) (vg_dao c) close veto.

(** 966-1066 [migrate]; [v] is the version of the code migrated to. *)
Definition migrate (t : store) (v : N) (m : migrate_msg) : result (store * list sub) :=
  match m with
  | FromV1 close i veto =>
      check! negb (t_version t =? v)%N else "AlreadyMigrated";
      some! c <- t_vcfg t else "NotFound";
      do! _ <- validate_veto_opt veto (dur_to_v2 (vg_max c));
      let '(pol, subs) := into_initial_policy_and_messages i in
      check! forallb (fun kv => negb (outstanding kv.2)) (map_to_list (t_vprops t))
        else "PendingProposals";
      Ok (Store (t_admin t) v (t_vcfg t) (t_vprops t) (Some (cfg_to_v2 c close veto)) (Some pol)
            (t_count t) ((prop_to_v2 <$> t_vprops t) ∪ t_props t) (t_ballots t)
            (t_phooks t) (t_vhooks t), subs)
  | FromCompatible =>
      Ok (Store (t_admin t) v (t_vcfg t) (t_vprops t) (t_cfg t) (t_policy t)
            (t_count t) (t_props t) (t_ballots t) (t_phooks t) (t_vhooks t), [])
  end.

(** ** The module with its migrations *)
Inductive tmsg := TCall (m : msg) | TMigrate (v : N) (m : migrate_msg).

Definition t_handle (O : oracle) (t : store) (b : block) (sender : addr) (m : tmsg)
  : result (store * list sub) :=
  match m with
  | TCall m =>
      some! s <- live t else "NotFound";
      do! ' (s', subs) <- handle O s b sender m;
      Ok (put t s', subs)
  | TMigrate v m =>
      check! (sender =? t_admin t)%N else "Unauthorized";
      migrate t v m
  end.
Definition t_fail (t : store) (b : block) (x : sub) : result store :=
  some! s <- live t else "NotFound";
  do! s' <- on_fail s b x; Ok (put t s').
Definition t_ok (t : store) (b : block) (x : sub) (d : addr) : result store :=
  some! s <- live t else "NotFound";
  do! s' <- on_ok s b x d; Ok (put t s').
