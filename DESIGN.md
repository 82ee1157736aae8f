# Formal model of DAO DAO contracts — design

Subject: `/repo` (DA0-DA0/dao-contracts, pinned commit). Prover: Coq 8.16.1, std++ for finite maps.
Properties: `properties.jsonl` (ids C01 …). Status per property: `MANIFEST.json`.

## 1. Method

* Every contract is modelled by total computable Gallina functions, one per Rust function, with the
  file and lines in a comment. Amounts, heights and times are `Z`; 128-bit checked or panicking
  arithmetic is explicit (`add128`, `sub128`, … return an error where Rust returns an error or panics).
  Addresses are numbers (`addr := N`); only equality of addresses is ever used.
* A Rust `Result` is `result A := Ok a | Err msg`. A panic is `Err "panic"`.
* An entry point has type `state -> block -> sender -> msg -> result (state * list submsg)`.
* CosmWasm transaction semantics (atomic revert, sub-messages, replies, re-entrancy) is modelled once,
  in `Exec.v`: a *call tree* says for every sub-message a call emits whether it succeeds (and which
  calls back into this contract it makes while running) or fails. The tree is universally quantified,
  so theorems cover all schedules of re-entrancy and all failure points. A history is a list of trees
  with non-decreasing blocks; a transaction that errors leaves the state unchanged.
* Specifications are written over the observable state and event log, in `…Spec.v` files or in the
  theorem statements themselves, not with the model's helper functions.
* Per component: `XModel.v` (definitions only), `XProofs.v` (lemmas), `XProps.v` (final theorems, each
  closed by `exact`, with `Print Assumptions` and a concrete instance).

## 2. Trusted base

* The Coq kernel (and `vm_compute` for concrete examples / refutation witnesses).
* The faithfulness of the hand-written model to the Rust text (citations in comments).
* Behaviour of code outside `/repo` that the contracts rely on, modelled from its documentation:
  CosmWasm transaction semantics; `cw_utils::{Expiration, Duration}`; `cw_storage_plus`
  maps / snapshot maps; `cosmwasm_std::{Uint128, Uint256, Decimal}` rounding and overflow;
  `cw_controllers::Claims`; `cw20`/bank transfers; `wynd_utils::Curve`.
* `Print Assumptions` of every theorem in the `…Props.v` files: see section 5.

## 3. Plan per property

| id | modelled | proof idea |
|----|----------|------------|
| C01–C03 | dao-proposal-single votes/ballots, oracle voting power | invariant over call trees; sums over finite maps |
| C04–C07 | dao-voting comparisons, is_passed / is_rejected | arithmetic (floor division) + monotonicity under tally extension; C07 refuted by an 18-digit witness, proved under side conditions |
| C08–C09 | is_passed / is_rejected, propose | case analysis + invariant on recorded status |
| C10–C14, C17, C18 | execute / close / veto / reply | event log invariants over call trees |
| C15 | authorisation of every entry point | case analysis per message, lifted to trees |
| C16, C21 | checked arithmetic in status computation | well-formedness invariant implies all checked operations succeed |
| C19 | cw-hooks, dao-hooks, reply | single failure proved; two failures refuted by witness |
| C20 | dao-voting reply ids on 64-bit words | bit arithmetic |
| C22–C26 | dao-proposal-multiple | as for single, plus maximum / runner-up reasoning |
| C27–C30 | dao-proposal-condorcet | triangular index bijection; matrix invariant; stats fold lemma |
| C31–C35 | pre-propose base / approval / approver, composed with the proposal module | deposit ledger invariant; C35 refuted by witness |
| C36–C40 | cw20-stake with unbonding claims and snapshots | ledger invariant with floor-division lemmas; C40 refuted by witness |
| C72 | dao-voting-token-staked claims | per-member conservation invariant |
| C70, C71 | cw20-stake unstake, StakedValue | both refuted by large-number witnesses, proved below them |
| C41, C42 | dao-voting-token-staked + composition with the three proposal modules | snapshot refinement; projection of joint histories |
| C43 | dao-voting-cw721-staked | custody invariant |
| C73 | administration of both staking modules | case analysis lifted to histories |
| C44 | active thresholds | arithmetic |
| C45–C48 | cw-vesting with native staking tracker | ledger invariant; C48 refuted by witness |
| C49, C50 | cw-wormhole, cw-stake-tracker | refinement to sum of updates |
| C51 | cw20-stake-external-rewards | potential-function argument on reward-per-token |
| C52 | cw20-stake-reward-distributor | telescoping sum; last sentence refuted by witness |
| C53 | cw-fund-distributor | floor-sum bound; refuted when heights differ |
| C54, C55 | dao-rewards-distributor | potential function; C55 refuted by witness |
| C56–C59 | dao-dao-core | authorisation case analysis, counting invariant, injectivity by induction |
| C60 | cw-token-swap | ledger invariant |
| C61, C62 | cw-tokenfactory-issuer | allowance ledger, case analysis |
| C63 | cw721-roles | refuted by witness; invariant for transfer-free histories |
| C64 | cw-paginate-storage | induction on sorted key lists |
| C74, C75 | cw-stake-tracker: number of validators, undelegating | refuted by witness; induction with the flat-future lemma for the rest |
| C76 | cw-vesting cancel | refuted by witnesses; follows from books = balance otherwise |
| C77 | the external rewards hook | bounds on the growth of reward-per-token; refuted by a large-number witness |
| C78 | external rewards administration | case analysis |
| C79 | fund distribution claims accepted | solvency lemma; claim-all refuted by witness |
| C80 | distributor balances | accounting invariant |
| C81 | distribution terms and payees | case analysis |
| C63, C83, C84 | cw721-roles, dao-voting-cw721-roles queries | sums over the members, snapshots |
| C82 | set-up of dao-voting-cw721-roles, ownership | no call but the owner's |
| C64 | cw-paginate-storage, listings built on it | sorted lists |
| C85, C86 | dao-voting-onft-staked | ledger of snapshots; counts and custody while the DAO cancels no staked token; refuted by witness otherwise |
| C87 | the same, with transfers at the chain | log of preparations, case analysis of every payment; refuted by witness |
| C88 | dao-dao-core records | last call about each record, by induction over steps |
| C89 | cw-payroll-factory with cw-vesting | list determined by the log of contracts made; each is reached in the vesting model |
| C90 | same | one order unfolded; invariant: the factory holds nothing |
| C91 | cw-admin-factory | induction over nested calls |
| C92 | dao-voting-cw20-staked with cw20-stake and a token | projection to the model of cw20-stake; token ledger invariant |
| C93 | same | one-to-one invariant without funding; refuted by witnesses, one of them over all futures |
| C94 | dao-voting-cw4 whole, with a cw4-group | sums over snapshot maps; fold of the log |
| C95 | same | new groups; refuted for existing ones by witnesses |
| C96 | the proposal modules on dao-voting-cw4, dao-voting-cw721-roles and dao-voting-onft-staked | the section of C42, instantiated |
| C97 | `migrate` of dao-proposal-single over the model of C01–C21; v1 types with relations to v2's | case analysis of the conversion; an invariant relating a v1 proposal to its successor through histories |
| C98 | same | histories without a second FromV1: the invariant of C01; refuted by witnesses |
| C99 | `migrate` of dao-dao-core over the model of C56 | induction over the list of modules |
| C100 | same | the invariant of C57 holds after the first migration; refuted by witnesses |
| C101 | the three staking contracts with their migration | the invariant of C36 does not mention owner and settings |
| C102 | same | refuted by witnesses |
| C103 | DAO core joined with one single-choice module, one list of pending messages | invariant: module state sound (C01, C04), pending executions are of executed proposals |
| C104 | same, from a sovereign start | pending messages of the DAO stem from carried proposals |
| C105 | same | computation; refuted by a witness |
| C106 | `MgrModel.v`, `MgrProps.v` | lists without duplicates, permutations |
| C107 | same, joined with `MigModel.v` | induction over the migrations; refuted by a witness |
| C108 | same | computation; refuted by a witness |
| C109 | `FanModel.v`, `FanProps.v` | induction over the mints; one witness |
| C110 | `DenModel.v`, `DenProps.v` | all 256 bytes by computation, induction over strings |
| C111 | `PreMigModel.v`, `PreMigProps.v` | case analysis |
| C112 | `VerModel.v`, `VerProps.v` | decimal texts, case analysis on digits |
| C113 | `PreMultModel.v`, `PreMultProps.v` | invariant of both modules and counting over traces |
| C114 | `PreMultModel.v`, `PreMultProps.v` | the same invariant |
| C115 | `RewModel.v`, `RewHookProps.v` | invariant: the amount per unit of power plus what is left stays within what was funded, scaled |
| C116 | `TokNewModel.v`, `TokNewProps.v` | set-up messages run through the issuer's model; by induction over the list of holders |
| C117 | `RewTokModel.v`, `RewTokProps.v` | Histories of both contracts are shown to be histories of the distributor alone with the module's storage as its voting-power contract (C54, C55, C115 apply) |
| C118 | `GovTokModel.v`, `GovTokProps.v` | balance equation over joint histories; members can leave when nothing was taken and the bank lets pass |
| C119 | `WholeModel.v`, `WholeProps.v` | answers about begun blocks do not change, so a joint history is one of the DAO with fixed answers; C103 and C104 applied |
| C120 | `CollModel.v`, `NftNewModel.v`, `NftNewProps.v` | nobody but the module may move its tokens once it approved nobody, so a joint history is one of `NftModel.v`; C43 applied; a token nobody staked stays |
| C121–C123 | `MDaoModel.v`, `MDaoProps.v` | as C103–C105; the winner of an executed proposal is locked (C23), so a pending dispatch always carries the messages of the present winner |
| C124 | `MWholeModel.v`, `MWholeProps.v` | as C119; the votes of all options add up to the ballots of the proposal |
| C125–C127 | `CDaoModel.v`, `CDaoProps.v` | as C121–C123; a passed proposal's winner is kept by later rankings (C69), so a pending dispatch always carries the messages of the present winner |
| C128 | `CWholeModel.v`, `CWholeProps.v` | as C124; pairwise margins become sums over the voters with either preference |
| C129 | `SettleModel.v`, `SettleProps.v` | the invariant is kept relative to the state in which a call began (`ExecFrame.v`), since a completion hook is delivered after the messages of the proposal, which may call either module |
| C130 | `MSettleModel.v`, `MSettleProps.v` | as C129, on the joint model of C113; `SettleOwed.v` and `SettlePre.v` are shared |
| C131 | `ExchModel.v`, `ExchProps.v` | `SingleModel.v` with a voting module per address and the DAO's exchange; `calm` says when exchanges do no harm |
| C132 | `MExchModel.v`, `MExchProps.v` | The same for `MultModel.v` |
| C133 | `TwoModel.v`, `TwoProps.v` | Two DAOs joined by approval: invariants over one list of pending messages |
| C134 | `VestModel.v`, `VAuthProps.v` | Who may do what with a vest: each accepted call opened; the schedule check against a separate definition |
| C135 | `FlowModel.v`, `FlowProps.v` | Streamed rewards reach the stakers: share price as a rational, lower bound by induction over the joint log |
| C136 | `RewGrpModel.v`, `RewGrpProps.v` | Histories with a group are shown to be histories of the distributor alone, one change of power for each changed weight; its snapshots answer as those of the group (C54, C55, C115 apply) |
| C137 | `FundOnModel.v`, `FundOnProps.v` | A joint history is shown to be a history of the distributor alone under the answers of the module's last state (C53 applies without assumptions about the answers), once for any module and then for each of the six; the bound on what is left sums the shares |
| C138 | `RewOnModel.v`, `RewOnProps.v` | As C136, once for a staking contract given by its handler, stakes, hooks and reports, of which four facts are shown for each of the three contracts; the delivery of all reports is an induction on those waiting |
| C139 | `CExchModel.v`, `CExchProps.v` | As C131 and C132 for Condorcet: the tally of each proposal is shown to be that of an oracle of its own, which gives every voter the power with which they were counted |
| C140 | `ManyModel.v`, `ManyProps.v` | Each module sees the DAO as one with this module only, the others being outside (`ManySingle.v`, `ManyMult.v`, `ManyCond.v`): the invariants of C103, C121 and C125 hold of every one of these views |
| C141 | `RolesModel.v`, `RolesProps.v` | A holder's weight is at most the total and at least the role's weight (C63, C84), so no check fails |
| C142 | `ManyModel.v`, `ManyLiveProps.v` | The counters of the core agree with its modules in every state of the joint model (`counted`); winners by C123 and C127 through the views of C140 |
| C143 | `VQueryModel.v`, `VQueryProps.v` | The queries are functions of the stored vest; shape of its curve from the invariant of C45 |
| C144 | `StakeModel.v`, `StakeRunProps.v` | Leaving as a relation of its own (`StakeRunSpec.v`); induction over the list of stakers, whose stakes add up to the total |
| C145 | `StakeModel.v`, `StakeSplitProps.v` | Parts as relations of their own (`StakeSplitSpec.v`); induction with the arithmetic of two parts |
| C146 | `ExtModel.v`, `ExtShareProps.v` | The shares are counted over the history (`ExtShareSpec.v`) without any of the contract's accumulators; induction with the accrual of one stretch and the invariance under calls (C51) |
| C147 | `ExtModel.v`, `ExtStuckProps.v` | The invariant of C51 with the tokens out of reach taken off the funding; it is preserved by every call |
| C148 | `RewModel.v`, `RewLostProps.v` | The upper bound is that of C54; the losses are concrete histories, for all accounts and for all histories that follow: from then on no more is paid out than what is still to come and what is brought anew (`RewLost.v`, under the conditions of C54) |

## 4. Not modelled

JSON (de)serialisation and the 30 000-byte proposal size limit (an oracle bit), address validation
(inputs are addresses), attributes/events emitted for indexers, gas, the contract-version bookkeeping of
migrations other than C111 and C112, `title`/`description` strings, and code in `contracts/test`,
`packages/dao-testing`.

## 5. Assumptions of the theorems

Every theorem in the `…Props.v` files is followed by `Print Assumptions`; every one of them reports
"Closed under the global context". No axiom of the standard library is used by any theorem. (Loading
std++ brings the standard library's `Coq.ssr.ssrunder` axioms into scope; no theorem depends on them.)

## 6. What is modelled, component by component

**Voting arithmetic** (`VotingModel`): `packages/dao-voting` comparisons, thresholds, voting periods, veto
configuration, reply-id masks. **Hooks** (`HooksModel`): `packages/cw-hooks`, `dao-hooks` message lists.

**dao-proposal-single** (`SingleModel`): instantiate-time validation, propose, vote, execute, veto, close,
update_rationale, update_config, pre-propose policy, hooks, reply, status query. The voting module is an
oracle (`vp`, `tp`): any answers; theorems that need more say so (`sane`). DAO address changes are allowed
except in theorems that say `reached_for`.

**dao-proposal-multiple** (`MultModel`): the same entry points; option lists, tallies by option index, quorum,
tie rules, "none of the above". Total power is asked for without a height, so the oracle `tnow` takes the block.

**dao-proposal-condorcet** (`CondModel`): cells, packed matrix, statistics, winner computation, ranking
validation, tally, proposal status, all five messages and the reply. 32-bit index arithmetic is checked.
Choice counts are cast to `u32`; the cast of `usize` to `u32` in `execute_propose` is not modelled as wrapping
(2^32 choices do not fit in a transaction).

**Pre-propose modules** (`PreModel`): dao-pre-propose-base (propose, config and policy updates, withdraw,
hooks, completion hook, deposit refunds), dao-pre-propose-single and dao-pre-propose-approval-single (approve,
reject, update approver), `dao-voting` deposits and submission policies; `ApproverModel`:
dao-pre-propose-approver. Each is *joined* to a dao-proposal-single module: one state holding both contracts and
two ledgers (deposits taken, deposits paid), one message type. The pre-propose module's message to the proposal
module is run inside its own handler (it is sent with reply-never, so a failure reverts both). The proposal
module calls the pre-propose module only through the new-proposal / completed hooks; calls that pretend to come
from it are excluded. A completion hook whose handler errors is a failing sub-message. The multiple-choice
pre-propose module is modelled in `PreMultModel`. Observations kept in the model: the
DAO's withdraw can take deposits; a proposal whose execution failed counts as passed under `OnlyPassed`.

**Storage helpers** (`StoreModel`): cw-storage-plus snapshot maps and items (value at the start of a block),
`cw_controllers::Claims`, `cw_ownable`, `validate_duration`. **Contracts without replies** use `Plain.v`:
histories in which no sub-message failure is caught.

**cw20-stake** (`StakeModel`): stake, fund, unstake, claim, config, hooks, ownership, share arithmetic, queries.
The token contract is not modelled as code: the ghost field `k_held` is this contract's balance, moved by
transfers fused into the handler and by donations (`KDonate`, anybody sends tokens without a message). Messages
carry unsigned 128-bit amounts; a transfer whose balance does not fit 128 bits cannot happen.

**dao-voting-token-staked** (`TokModel`, with `ActiveModel` for active thresholds):
instantiate with its reply, execute, all messages, the power, total-power and
is-active queries. The bank balance of the module is part of the state; a send is
part of the call that makes it (sends cannot call back and are the first
message). Sending coins to the module without a call is the message `TDonate`.
The supply answered by the bank is part of the message or query. Creating a new
denomination is reduced to the initial supply it reports (`CreatedToken`); the
token-factory messages themselves, list queries and migrate are not modelled.

**dao-voting-cw721-staked** (`NftModel`): instantiate with replies, all messages, claims
(packages/cw721-controllers), power, total-power and is-active queries. The collection is a correct cw721: the
set `n_held` of tokens it records for the module grows when it calls `ReceiveNft` and when somebody transfers a
token without a call (`NDeposit`), and shrinks when the module transfers one out (part of the same call). List
queries and migrate are not modelled.

**Proposal modules on staking modules** (`Compose`, `JointModel`): one state holding a proposal module and a
voting module, one history of calls to both, re-entrancy included; the proposal module's questions about power
and activity are answered by the voting module's state at that moment. `Project` shows that a joint history
is a history of each part, with the oracle of the proposal module answering from the voting module's final
snapshots. Instances: single / multiple / condorcet, each on token-staked, on cw721-staked and on cw20-stake (the cw20-staked
voting module forwards the power queries; its answer about activity is arbitrary). The voting module may have
any past before the proposal module is created. For a DAO that replaces its voting module see C131.

**cw-wormhole, cw-stake-tracker** (`WormModel`): `load`, `update` with its stateful closure, `increment`,
`decrement`, `dangerously_update`; all five tracker hooks and the three queries. The snapshots of a key are a
list in storage order; times are whole seconds; keys are numbers. The JSON query wrapper is not modelled.

**cw-vesting** (`VestModel`): instantiate (native and cw20 funding), receive, distribute, cancel, withdraw of a
cancelled payment, ownership, delegate, redelegate, undelegate, set-withdraw-address, withdraw-reward,
register-slash, with the stake tracker of `WormModel`. `wynd_utils` curves (constant, saturating linear,
piecewise linear; range, monotonicity, interpolation with an 18-digit decimal for the linear and integer division
for the piecewise curve) are an external library, written from its documented behaviour. The chain is a ghost part
of the state: the contract's balance, bonded tokens per validator and a list of unbonding entries with their end
times, which the environment may slash (`VSlash`, `VSlashUnb`) and to which anybody may donate (`VDonate`).
Staking messages that the chain would refuse fail the call. The chain's unbonding period is at most the configured
one. Staking rewards go elsewhere and are not followed; the vest-info and stake queries are not modelled.

**cw20-stake-external-rewards** (`ExtModel.v`, contract.rs of contracts/staking/cw20-stake-external-rewards).
Modelled: instantiate, fund (native and cw20), claim, update_reward_duration, ownership, the stake-change hook,
`update_rewards`, `get_reward_per_token`, `get_rewards_earned`, pending-rewards query, with 128-bit and 256-bit
overflow. It runs jointly with the cw20-stake model of `StakeModel.v`, which has any past; every hook the staking
contract sends to the rewards contract has to be delivered in the same block, before or after other calls of that
block. Not modelled: migration, the info query, paging. The staking contract's balance queries without a height
give the stake at the start of the block, as in the code.

**cw20-stake-reward-distributor** (`DistModel.v`). All of contract.rs except migration and the info query: instantiate,
update_config, distribute, withdraw, ownership. The two validating queries are a bit of the message; transfers are
applied to the contract's balances at once.

**cw-fund-distributor** (`FundModel.v`). Instantiate, fund (cw20 and native), the three claims, redistribution by
migration. The voting contract is an oracle: what it answers in each block about each height; cw20 tokens may refuse
transfers. Not modelled: paged queries; the order in which claim-all visits tokens.

**dao-rewards-distributor** (`RewModel.v`). contract.rs 35-580 (instantiate, create, update, fund in both ways,
claim, withdraw, ownership), hooks.rs, rewards.rs, state.rs (epochs, transitions, funded period duration) and the two
reward queries, with 128-bit, 256-bit and 64-bit overflow. The voting-power contracts are part of the state: histories
of powers whose sum is the total, answering for the start of the block as the voting modules do. A change of power
(`EPower`) names the hook caller that will report it; a block ends only when all reports to registered callers are
delivered. Hooks are modelled as the list of members they name. Not modelled: migration, the distribution list queries.
`RewProofs.v` holds the invariant of one distribution, `RewAccount.v` the balances, `RewPoke.v` the cost of updates.

**dao-dao-core** (`CoreModel.v`). contract.rs 37-562 and 953-1039: instantiate, every execute message, the replies of
module creation, the derivation of prefixes; of the queries pause info, active modules and module count. A state is the
DAO's storage and the list of messages it has dispatched and which are not finished, so a call may arrive in the middle
of the execution of the DAO's messages; failed executions are undone and do not occur in histories. Calls by the DAO to
itself occur only as such messages (no authorisation grants by other chain modules). A new contract has an address that
is not a module's. Not modelled: migration from version 1, pages of queries, balances, attributes; the verification
query of a listed token is an input.

**cw-token-swap** (`SwapModel.v`): contract.rs 20-230 (instantiate, receive with a cw20, fund with native coins, withdraw, the completing transfers) and state.rs (all). The outgoing transfers are fused into the handler against a ghost account of what the contract holds. Not modelled: the status query and `migrate`.

**cw-tokenfactory-issuer** (`IssuerModel.v`): contract.rs 23-66, 70-121 and 178-189; execute.rs (all), helpers.rs (all), hooks.rs (all), state.rs (all). The chain's part is modelled beside it: the balances of the managed token, the admin of its denomination, the contract the bank asks before a transfer; calls by others to the chain are messages beginning with `X`. Simplified: the denomination is known at once; the hook is not run for burns and forced transfers; a hook contract other than this one lets everything pass. Not modelled: queries.rs, `migrate`.

**Role tokens** (`RolesModel.v` ...): cw721-roles with its weights, totals, hooks and ownership, and
of dao-voting-cw721-roles the set-up with a new token contract and the two power queries. The
tokens and their owners, kept by cw721-base, are modelled from its documentation; roles, URIs and
approvals change nothing that is modelled and are one message each. Not modelled: an existing token
contract given to the voting module (it is only checked to answer a query), and the limits on pages
of listings.

**Pages** (`PageModel.v` ...): `paginate_map` and its four variants, which drop the key or the value,
and the listing of enabled proposal modules of the core. Storage is a finite map from byte strings,
read in byte order; that cw-storage-plus writes different keys as different bytes is assumed.

**ONFT staking** (`OnftModel.v` ...): dao-voting-onft-staked whole, except the active-threshold
query (the same code as in dao-voting-cw721-staked). The chain's record of owners is part of the
state; others move, burn and create tokens by messages of their own, and the module's transfers take
effect in the call that makes them. The collection's existence check at set-up is left out, and the
token ids of a confirmation are not sorted (this only changes the order of hook messages).

**Payroll factory** (`PayModel.v` ...): cw-payroll-factory whole, except labels and the pages of its
queries (C64). One call runs the transaction to its end: entry point, instantiation of the vesting
contract in the model of cw-vesting, reply, funding. Standard cw20 tokens are a set with balances in
the state; any other account may pose as a token and its answer to the funding message is an input.

**Admin factory** (`AdmModel.v` ...): cw-admin-factory whole. Instantiation of the new contract is a
sub-message during which that contract may call the factory. The messages, labels and funds handed on
are not modelled.

**cw20 voting** (`C20Model.v` ...): dao-voting-cw20-staked whole, joined to the model of cw20-stake and
to a standard cw20 token (balances, minter; external). Allowances are over-approximated: anybody may
move the tokens of anybody except those of the staking contract. Names, decimals, caps, marketing and
code ids are left out. The set-up runs to its end in one step (replies included).

**cw4 voting** (`GrpModel.v` ...): dao-voting-cw4 whole, asking a cw4-group (external, from its
documentation: additions then removals, admin only, snapshots of members and total in every block).
Left out: contracts other than cw4-group that answer the same queries, addresses that are not valid,
and the check for equal pairs of members at set-up, which the group repeats.

**Electorates** (`ElectSpec.v` ...): the three proposal modules on the voting modules for cw4 groups,
role tokens and ONFTs, with the section of `JointClaims.v`. The first two have no query for being
active, so proposal modules take the DAO to be. Weights held when a block begins are the current
answers of the module; what these are is the subject of C94, C83 and C85.

**Migrations** (`MigModel.v`, `MigCoreModel.v`, `MigStakeModel.v`). dao-proposal-single contract.rs 966-1066 and v1_state.rs; dao-dao-core contract.rs 871-950; cw20-stake contract.rs 458-489; cw20-stake-external-rewards contract.rs 85-119; cw20-stake-reward-distributor contract.rs 231-259. The contract's storage is modelled with what version one left beside what this version uses, together with its chain admin and the version written by cw2. A migration names the version of the new code, whose text is taken to be that of this commit; that is what makes a second upgrade expressible. Version one's own code is not in the repository: what it leaves is a hypothesis (`v1_left`, `z_left`, `k_left`). Not modelled: the migrations of the other contracts, which write the version and, for pre-propose modules, convert the submission policy.

**A DAO as a whole** (`DaoModel.v`). dao-dao-core (as in `CoreModel.v`) and dao-proposal-single (as in `SingleModel.v`) with one list of dispatched and unfinished messages, executed depth first: the module's execution calls the DAO's hook as the module; the DAO's messages to the module call it as the DAO; failures the module catches are told to it; all others are outsiders who may call both at any time. Messages in proposals are numbers, read by two functions that are arbitrary in the theorems. Votes come from an oracle; the voting module is not replaced. Other modules, hook receivers and created contracts are outsiders.

**The migrator** (`MgrModel.v`). contracts/external/dao-migrator as one transaction with the core of `CoreModel.v`: planning, the test before, the DAO's migrations and SubDAOs, the test after, the migrator's end. The other contracts are a state with arbitrary queries (version one's and version two's) and arbitrary effects of migrations; they do not change the core meanwhile. `real_chain` instantiates the proposal modules with the storages and the migration of `MigModel.v`. Not modelled: the core's own migration that creates the migrator (see `MigCoreModel.v`), the code of version one, JSON encodings, the order in which the core lists its modules (that of the map is used).

**Fan-token factory** (`FanModel.v` ...): btsg-ft-factory whole, with the chain's module of fan tokens (external; from its documentation). Creation, reply and its messages run in one step; symbols, names and URIs are one number; fees are left out.

**Denominations** (`DenModel.v` ...): packages/cw-denom whole, except the display of denominations. Balances are a function of asset and account; bank and cw20 transfers are standard and refuse zero.

**Migration of pre-propose modules** (`PreMigModel.v`). `migrate` of packages/dao-pre-propose-base (543-615) with the entry points of the four modules; the store is that of `PreModel.v` with the configuration in either format, and the recorded version. Of semver, matching against ">=2.4.1, <2.5.0" is modelled; of a pre-release part only whether there is one (a pre-release never matches). Recorded deposits are one map, as both versions write them alike. The approver module's own state is not part of this store; the base's is.

**Version records** (`VerModel.v`). The migrations of the other contracts change nothing but what cw2 records: unconditionally (dao-proposal-multiple, btsg-ft-factory, cw-admin-factory, cw-token-swap), if the text of the recorded version is below "2.5.0" (cw-tokenfactory-issuer, dao-voting-cw20-staked, -cw4, -cw721-staked, -onft-staked, -token-staked), or if the version is older and the name right (dao-rewards-distributor). Versions are three numbers and a pre-release part, with their decimal text; build metadata are left out.

**Pre-propose for multiple choice** (`PreMultModel.v`). dao-pre-propose-multiple whole, joined to the model of dao-proposal-multiple. The base of `PreModel.v` never looks into the message that makes a proposal, so it is given a fixed one and the joint handler sends the multiple-choice message, with the sender as proposer, in its place.

- `TokNewModel.v`: the set-up of dao-voting-token-staked with a new token (`instantiate` 62-126, `reply` 573-735), joined to `IssuerModel.v`: the messages sent to the new issuer in order, and the callback by which the DAO accepts ownership, which dao-dao-core carries out at creation only. The fee for a denomination and the contents of the metadata are left out.

**The distributor with the token module (C117, `RewTokModel.v`).** Both contracts are the models of
`RewModel.v` and `TokModel.v`; the messages a stake change sends wait in a list and are delivered
in order before the block ends. The distributor's voting-power queries are answered from the module's
storage. Other receivers on the module's list may call either contract at any time. A refused
delivery undoes the stake change; such a call is no part of the history. `e_instantiate` takes
the set of voting-power contracts that already exist, without power, when the distributor is made.

**The token module with the issuer (C118, `GovTokModel.v`).** `TokModel.v` and `IssuerModel.v` joined by the
bank: stakes are moved before the call, payments after it, and the issuer is asked where it is the token's
hook. The module's balance is the bank's, not the ghost field `t_held` of `TokModel.v`, and can change
by messages to the issuer or the chain. The issuer may be in any state when the module is made; `dreached`
starts from the set-up of C116. Other denominations are not followed.

**A DAO with its voting module (C119, `WholeModel.v`).** `DaoModel.v` joined to a voting module that answers from
its own state, for each of the six voting modules.  The DAO's messages reach the voting module (`for_v` reads which
are for it, as `call_of` does for the proposal module), others call it when they like, also within a transaction.
The answer to `IsActive` is any.  Not in these histories: a DAO that exchanges its voting module; what the voting
module sends (hooks, payments).  `backed` is stated with the lists of voters and what each held, not with the
tallies of the module.

**A DAO's own NFT collection (C120, `CollModel.v`, `NftNewModel.v`).** The set-up of
dao-voting-cw721-staked with `NftContract::New`, message by message, and the module joined to
the collection. The collection (cw721-base 0.18) is modelled from its documentation: minting by
the owner, transfers, sends with the call of the receiver, approvals and operators with their
expiry, burning, two-step ownership. What `NftModel.v` assumed of a collection (a token leaves
the module only when the module asks, a token sent was not the module's before) is proved here
where the module approved nobody, and false otherwise. Left out: a token taken from the
module whose new owner lets the module move it; the factory variant (`NftModel.v` has it).

**A DAO with a multiple-choice module (C121–C123, `MDaoModel.v`).** As `DaoModel.v`, with
dao-proposal-multiple in place of dao-proposal-single. The module computes the winner when the
proposal is executed, and votes may still be cast before and while its messages are carried
out; the mandate is stated of the state in which they are carried out.

**A multiple-choice DAO with its voting module (C124, `MWholeModel.v`).** As `WholeModel.v`,
with `MDaoModel.v` in place of `DaoModel.v`. The module asks for the total without a height when
a proposal is created and stores it; the voting modules answer for the present height.

**A DAO with a Condorcet module (C125–C127, `CDaoModel.v`).** As `DaoModel.v`, with
dao-proposal-condorcet in place of dao-proposal-single. The module belongs to the DAO that
created it for good, so no step has to be excluded from the histories. Unlike in the other two
modules execution is refused to those without power, whatever the configuration.

**A Condorcet DAO with its voting module (C128, `CWholeModel.v`).** As `MWholeModel.v`, with
`CDaoModel.v`. "None of the above" can win a Condorcet proposal and be executed: the DAO is then
given no messages, so `C126_nothing_before` allows carrying out empty options.

**What the pre-propose module holds (C129, `SettleModel.v`).** `PreModel.v` records payments but not
balances. Here the module's holdings are part of the state: coins sent with a call arrive before its
code runs, a bank transfer fails exactly if the module holds less than is sent, and the balance that a
withdrawal asks for is what is held. A completion hook then fails only if the module refuses it or
the transfer fails; a cw20 may refuse for other reasons. Not modelled: the bank module's list of
accounts that cannot be sent coins. `SettleSingle.v` shows that a proposal module with a pre-propose
module sends exactly one completion hook for each proposal that ends.

**What a multiple-choice pre-propose module holds (C130, `MSettleModel.v`).** As `SettleModel.v`, on the joint
model `PreMultModel.v`. The same is left out. `MSettleMult.v` shows that dao-proposal-multiple with a
pre-propose module sends exactly one completion hook for each proposal that ends.

**A DAO that exchanges its voting module (C131, `ExchModel.v`).** dao-proposal-single as in `SingleModel.v`;
powers are asked of the voting module the DAO has at that moment, one oracle for each address. The exchange
and the reply that records the new address are one message, which only the DAO may send. Also the list query,
for which a limit of `S n` stands for any page that is not empty. Left out: the rest of the DAO, and that a new
voting module may fail to be created.

**The same for multiple choice (C132, `MExchModel.v`).** dao-proposal-multiple as in `MultModel.v`, with one
oracle for each voting module, the exchange, and the list query, as in `ExchModel.v`.

**Two DAOs joined by approval (C133, `TwoModel.v`).** The joint system of `PreModel.v` (dao-proposal-single and
dao-pre-propose-approval-single) and that of `ApproverModel.v` (dao-proposal-single and dao-pre-propose-approver)
with one list of messages dispatched and not finished, as in `DaoModel.v`. The messages between the two
pre-propose modules are executed: the hook of a submission makes a proposal in the approving DAO, and the
completion of that proposal makes the approver approve or reject. Everybody else, both DAOs included, is outside and
calls what they like at any time. Not modelled: the instantiation of the approver (its new state is a hypothesis,
`tstart`), and what contracts other than these four do with hooks.

**Distributor and staking contract (C135, `FlowModel.v`).** `DistModel.v` and `StakeModel.v` joined: the message that
funds the staking contract is executed within the call of the distributor, as it is sent without a reply. Both
contracts have any past before. The supply of the staked token fits in 128 bits. Not modelled: the token contract
other than the two balances, and calls made to the two contracts by hooks of the staking contract in the middle of a
call (they are calls of their own).

**The distributor with a cw4 group (C136, `RewGrpModel.v`).** The group and its voting module are `GrpModel.v`, the
distributor is `RewModel.v`. The distributor's view of the powers is set member by member from the changes the group
reports; that it equals the module's answers at all heights is a theorem. One report carries all changes of a call.
The group starts without members; `C136_made` shows that creating it with members comes to the same as adding them.
Not modelled: calls by other receivers of the report other than as calls of their own, and a group whose hooks answer
with errors that are caught (cw4-group sends them without a reply).

**The fund distributor with a voting module (C137, `FundOnModel.v`).** The distributor is `FundModel.v`, the module any of
the six, with `Compose.v` as for the proposal modules: no answer is assumed, all come from the module's state at the
time. Redistributions for another height are left out here (`C53_redistribution_refuted` has them); so is a change of
the module's address, which the contract does not allow.

**The rewards distributor with a staking contract (C138, `RewOnModel.v`).** Covers the NFT module and cw20-stake with its
voting module, which C117 does not, and the token module again with any number of receivers of reports. The
distributor's view of the powers is kept by `RewModel.v` and proved to be the staking contract's own answers, at every
height. The theorems quantify over `one_of_three`, an inductive list of the three contracts with their first states.

**Condorcet proposals and exchanged voting modules (C139, `CExchModel.v`).** The DAO's exchange of the module is one message
of the DAO (its instantiation and the reply that records the address are not apart); everything else is
`CondModel.v` with the answers of the module in force.

**DAOs with modules of all kinds (C140, `ManyModel.v`).** The core, any number of modules of the three kinds and what is
dispatched, as in the models with one module. Not modelled: what a module sends while it is created (a
pre-propose module's instantiation), calls of a module by another, modules of other kinds and the voting module
(outside; an oracle). A module that is created is new and attached to the DAO.

## 7. Claims that are false of the code

| id | theorem | what happens |
|----|---------|--------------|
| C04, C17 | `C04_early_pass_final_refuted`, … | with a passing percentage below one billionth a proposal reported passed can become rejected |
| C07 | `C07_…_refuted` | 18-digit percentages: the nine-digit scaling makes the threshold test differ from the exact one |
| C19, C68 | `C19_…_refuted`, `C68_…_refuted` | two failing hook receivers in one transaction: the second removal uses a stale index, so a healthy receiver is dropped or the call reverts |
| C22 | `C22_…_refuted` | multiple-choice asks for the total power without a height; if it answers less than the powers at the start of the block, tallies exceed the total and the status computation aborts |
| C69 | `C69_vote_accepted_iff_refuted` | Condorcet has the same flaw: the outstanding power underflows and members cannot vote |
| C35 | `C35_refuted` | vetoing a proposal of the approver module: its completion hook errors on `Vetoed`, the proposal module removes it and the policy becomes "anyone" |
| C37 | `C37_round_trip_refuted` | rewards funded while nobody stakes go to the next staker, who gets out more than they put in |
| C40 | `C40_refuted` | a deposit worth less than one share is absorbed by the pool and gives no stake |
| C70 | `C70_refuted` | `amount + balance >= 2^128 - 1` refuses an honest unstake from a pool above half of the range |
| C71 | `C71_refuted` | the StakedValue query multiplies in 128 bits and aborts for stake and pool of 2^64 |
| C44 | `C44_percent_refuted` | a percentage threshold so small that it asks for less than a billionth of a token is truncated to zero: the module reports active with nothing staked |
| C44 | `C44_nft_factory_refuted` | dao-voting-cw721-staked does not check an absolute count when the collection comes from a factory: a module that can never become active is accepted |
| C50 | `C50_unbonding_slash_refuted` | a slash of unbonding tokens is written to one snapshot only; with two unbondings it is forgotten when the first one ends |
| C74 | `C74_delegating_again_refuted`, `C74_redelegating_refuted` | the count of validators looks at the present amount only: delegating again while everything unbonds loses a validator, redelegating the bonded rest keeps an empty one |
| C75 | `C75_undelegate_refuted` | after delegating again while everything unbonds, undelegating that stake decrements a zero count and panics: the tokens stay bonded |
| C45 | `C45_later_slash_refuted` | a slash registered after a payment is not taken back: paid exceeds vested less slashed |
| C46 | `C46_unreported_slash_refuted` | a slash of unbonding tokens nobody registers: distributable exceeds the balance and distribute fails |
| C48 | `C48_covered_refuted` | slash, cancel, partial undelegation: the slash is charged to the owner first, so distributable (30) exceeds the balance (20) and distribute fails |
| C76 | `C76_recipient_blocks_refuted`, `C76_unfunded_refuted` | the recipient donates one token and delegates total + 1: `liquid` underflows, cancel panics, and the recipient later receives everything; an unfunded vest cannot be cancelled after it starts |
| C77 | `C77_overflow_refuted` | funding 2^128-1 tokens over one block to a stake of one: the reward per token overflows 256 bits, so every later stake or unstake fails at the hook |
| C52 | `C52_config_change_refuted` | update_config saves the current height as last payment block before computing the distribution, which then always fails: rewards accrued under the old configuration are never paid |
| C53 | `C53_floor_refuted` | shares are rounded to 18 decimals first: one third of three tokens pays 0 instead of 1 |
| C53 | `C53_other_height_refuted`, `C53_redistribution_refuted` | the total power is taken at instantiation, powers at the distribution height: one member takes all, the other is refused; redistribution changes the height and keeps the total |
| C53 | `C53_future_height_refuted` | a distribution height in the future is accepted; power that moves is paid twice |
| C79 | `C79_claim_all_refuted` | anybody can fund a token whose transfers fail; claim-all then fails for everybody |
| C54 | `C54_same_block_refuted` | a member's power grows (hook delivered) and an immediate distribution is funded in the same block: the reward per power is divided by the total before the block and later multiplied by the power after it |
| C54 | `C54_funding_the_past_refuted` | the same when an exhausted continuous distribution is funded again |
| C54 | `C54_other_voting_contract_refuted` | the owner exchanges the voting-power contract: rewards not yet settled are computed with powers of the new contract |
| C55 | `C55_updates_between_periods_refuted` | each update counts whole periods since the last update and moves the clock to now: updating every nine blocks with a period of ten earns nothing |
| C56 | `C56_callbacks_refuted` | a DAO that nobody has called sends the messages the data of its new modules ask for |
| C56 | `C56_lists_refuted` | with automatic adding on, anybody calls `Receive` and is listed as a cw20 token |
| C62 | `C62_unhooked_refuted` | The owner freezes the token and denies account 6, then sets the hook to nothing. `IS_FROZEN` and the denylist remain, the features are disabled (so neither can be lifted), and account 6 transfers freely. |
| C63 | `C63_transfer_refuted` | The owner transfers a token of weight 10 from 5 to 6. 5 keeps weight 10 holding nothing; 6 holds 17 and weighs 7, and the token cannot be burned. |
| C82 | `C82_handover_refuted` | The voting module nominates the DAO as owner of the new token contract; `execute` asserts that the sender owns the contract before looking at the message, so every call of the DAO is refused, acceptance included. |
| C83 | `C83_lowered_refuted` | A token's weight is lowered from 10 to 1; the hook is told the weight changed from nothing to nothing. |
| C85 | `C85_count_refuted` | The DAO cancels the stake of a token already staked and returns it; the stake stays counted, and staking it again gives power 2 for one token. |
| C86 | `C86_cancelled_refuted`, `C86_shared_refuted` | As above: the token is gone and unstaking fails for ever; the recipient stakes it too and two members hold one token. |
| C87 | `C87_stale_refuted` | A preparation is not removed when the token changes owner: the former owner confirms a token that its new owner moved to the module, and can unstake it to themselves. |
| C90 | `C90_bypass_refuted` | `Receive` does not look at its caller: an account posing as a token orders in the owner's name, with itself as the token. The contract is listed under the owner. |
| C90 | `C90_stuck_refuted` | The token sent is not compared with the token to be vested: the tokens sent stay in the factory while it pays with others it holds. |
| C90 | `C90_spends_refuted` | The native path takes an order in a cw20 token without any money, and pays from what the factory holds. |
| C91 | `C91_expected_refuted` | `EXPECT` is one slot. A contract that has another one made while it is instantiated, with an expected address of its own, clears the outer caller's expectation, whose contract is then made at any address. |
| C91 | `C91_confused_refuted` | A nested call of the second message without an expectation is held against the outer one's and refused. |
| C93 | `C93_inflated_refuted` | One token is staked, then 99 are added with `Fund`: all 100 tokens are in the pool, but the total staked is 1, so a threshold of half the supply is not met. |
| C93 | `C93_burnt_refuted` | A count equal to the supply is accepted; after a burn nobody can meet it. |
| C93 | `C93_locked_refuted` | The DAO gets 900 of 1000 new tokens and half of the supply must be staked: the others can stake 100 at most, and an inactive DAO cannot stake, mint or lower the threshold. For every later history without the DAO the answer is inactive. |
| C95 | `C95_old_zero_refuted` | An existing group is accepted if it lists one member, even one of weight 0: the DAO then has no power at all. A new group of weight 0 is refused. |
| C95 | `C95_first_block_refuted` | Weights count from the next block on: in the block of its set-up the DAO has total power 0. |
| C95 | `C95_foreign_refuted` | An existing group keeps its admin: the DAO cannot change a weight, and the admin can remove every member. |
| C98 | `C98_twice_refuted` | `FromV1` leaves version one's proposals in place and is refused only if the version is the same: sent again at the next upgrade it reopens a proposal executed since, which is executed a second time. |
| C98 | `C98_undone_refuted` | The same message puts version one's configuration back in the place of the one the DAO has set. |
| C100 | `C100_disabled_refuted` | `FromV1` at a second upgrade enables a module that the DAO has disabled: it can make the DAO act again. |
| C100 | `C100_counts_refuted` | It sets both counts to the number of version one's modules: 3 enabled of 4 are counted as 2 of 2. |
| C100 | `C100_prefixes_refuted` | The next module then gets the prefix of an existing one. |
| C100 | `C100_stuck_refuted` | With the counts wrong, disabling two of three enabled modules is refused as leaving none. |
| C102 | `C102_stake_refuted` | The only migration of cw20-stake resets owner and unbonding period to version one's: an owner who renounced is back and may end unbonding. |
| C102 | `C102_rewards_refuted` | The same for the rewards contract after ownership was handed over. |
| C102 | `C102_distributor_refuted` | The same for the distributor: the former owner withdraws its tokens. |
| C105 | `C105_stays_executable_refuted` | With close-on-failure, executing a passed proposal while the DAO is paused fails, is caught, and marks the proposal failed for good; where execution is not limited to members a stranger can do this, so a pause lets anyone destroy passed proposals. |
| C107 | `C107_powers_refuted` | The test after the upgrade compares the total and one account's power at one height; new voting code that multiplies everybody else's power passes. |
| C108 | `C108_any_module_refuted` | One proposal module without proposals makes the upgrade of the whole DAO impossible (NoProposalsOnModule), whatever the message. |
| C109 | `C109_nonempty_refuted` | Initial balances of a fan token "cannot be empty" (msg.rs:33), but nothing checks it: a DAO set up on such a token has no votes and, being the only minter, can never get any. |
| C112 | `C112_downgrade_refuted`, `C112_pre_release_refuted` | Six contracts compare the texts of versions: "2.10.0" is below "2.5.0", so migrating 2.10.0 back overwrites its record; "2.5.0-rc.1" is above "2.5.0", so the release does not update the record of its release candidate. |
| C115 | `C115_same_block_refuted` | one base unit is staked; a member stakes 10^24 in the block in which 10^15 are handed out at once: every later report naming the member overflows 256 bits and is refused, so the member cannot unstake |
| C115 | `C115_large_funding_refuted` | 3·10^38 tokens for one block: every report overflows |
| C116 | `C116_percent_refuted` | half of the supply must be staked, the DAO reserved four fifths: even everything staked by the holders leaves the DAO inactive, so no proposal can ever be made |
| C116 | `C116_dao_listed_refuted` | the only holder listed is the DAO itself (its address can be foreseen): the check of the absolute threshold passes, nobody can stake |
| C116 | `C116_exchange_refuted` | the voting module is exchanged for one that makes a token: the module owns the issuer until the DAO accepts |
| C117 | `C117_hook_first_refuted` | With the distributor on the module's hook list before any distribution names the module, its refusal (InvalidHookSender) makes every stake and unstake fail |
| C117 | `C117_late_hook_refuted` | With the hook added after the distribution was funded, a stake made in between is promised rewards from the start: 79398 units of the 1000 paid in |
| C118 | `C118_force_refuted` | The issuer's owner takes 60 of 110 staked tokens by force: after one member left, the other has 50 votes and the module no token |
| C118 | `C118_burner_refuted` | An account the DAO lets burn burns what members staked; their votes stay |
| C118 | `C118_freeze_refuted` | While the token is frozen and the module not on the allowlist no stake can be taken out, though the module holds everything |
| C118 | `C118_denied_votes_refuted` | A member on the denylist cannot leave and keeps the voting power |
| C119 | `C119_quorum_refuted` | Half must vote: members with 40 of 100 vote yes, 15 vote no, and only the no makes the quorum; the DAO acts |
| C120 | `C120_operator_takes_refuted` | `initial_nfts` makes Eve an operator of the module: Eve takes Alice's staked token, Alice keeps the vote and cannot unstake |
| C120 | `C120_operator_votes_refuted` | The same Eve sends the module its own two tokens four times over and has 4 of 6 votes without owning any |
| C120 | `C120_never_active_refuted` | One of two tokens is minted to the module, the active threshold is two: accepted, and never met while the DAO does nothing |
| C123 | `C123_stays_executable_refuted` | Two options passed, then a pause: a stranger's execution of the first proposal marks it failed for good |
| C124 | `C124_alone_refuted` | More than half must vote: members with 40 of 100 choose an option, 15 vote for none, and only these make the quorum; the DAO acts |
| C127 | `C127_stays_executable_refuted` | A proposal passed, then a pause: the member who ranked the winner last executes it, which marks it failed for good |
| C128 | `C128_alone_refuted` | Members 2 and 3 hold 40 of 100 and rank an option first, 4 with 15 ranks none of the above first: a majority has voted, and the DAO carries out the option |
| C129 | `C129_withdraw_refuted` | The message of a passed proposal withdraws the deposits; its own refund fails, the pre-propose module is dropped, and somebody without voting power proposes directly, without a deposit |
| C129 | `C129_replaced_refuted` | A passed proposal installs another pre-propose module; a proposal open at that time is closed later and its deposit stays in the old module |
| C130 | `C130_withdraw_refuted` | As C129: the winning option withdraws the deposits; its own refund fails and the pre-propose module is dropped |
| C130 | `C130_replaced_refuted` | As C129: the winning option installs another module; the deposit of a proposal open at that time stays in the old one |
| C131 | `C131_small_share_refuted` | Majority of a group of three; the DAO turns to a stake of a billion units; an account with four of them passes and executes the open proposal |
| C131 | `C131_stuck_refuted` | The same with re-voting, and the account abstains: `total_power - abstain` panics, after expiry in every message about the proposal, its status query, and the list of proposals |
| C131 | `C131_only_yes_refuted` | Threshold of two votes of three: the account's yes passes; no and abstain panic in `is_rejected` |
| C131 | `C131_nobody_executes_refuted` | Passed in the group; the new module knows no past, so nobody is a member at the proposal's height |
| C132 | `C132_small_share_refuted` | Majority quorum in a group of three; the DAO turns to a stake of a billion units; with re-voting, four of them vote and the option is executed after expiry |
| C132 | `C132_nobody_votes_refuted` | The same without re-voting: any vote is more than the total, and `is_choice_unbeatable` underflows for everybody and every option |
| C132 | `C132_silent_refuted` | The same with a minimum voting period: the vote is accepted before it is over, and then status and list fail until expiry |
| C132 | `C132_nobody_executes_refuted` | As for C131 |
| C133 | `C133_veto_refuted` | A proposal of the approver is vetoed: the approver fails on the hook and is dropped, the submission stays pending, and no submission to the first DAO can be completed any more |
| C133 | `C133_void_refuted` | The approving DAO executes the proposal made of a submission that is larger than a proposal may be: the same |
| C135 | `C135_snipe_refuted` | Staking 900 beside 100, distributing what accrued in 100 blocks and unstaking, all in one block, takes 450 of the 500 accrued |
| C135 | `C135_empty_refuted` | Nobody stakes; staking one token after a distribution and unstaking it pays the whole distribution |
| C135 | `C135_token_refuted` | A distributor whose reward token is not the staking contract's token is accepted; every distribution fails |
| C136 | `C136_wrong_caller_refuted` | A distribution that names the voting module as hook caller, with the distributor on the hook list of the group: every update of the members fails with InvalidHookSender |
| C136 | `C136_late_hook_refuted` | With the hook added after the distribution was funded, a member let in in between is promised 19392 units of the 1000 paid in |
| C137 | `C137_earlier_height_refuted` | Member 1 unstakes 40 of 100; a distributor made afterwards for a height before pays them 399 of 600 (share: 240), and member 2 is refused |
| C137 | `C137_later_height_refuted` | For a height to come, member 1 claims 400 of 1000, unstakes, member 4 stakes the same amount and claims 400; member 2 is refused |
| C138 | `C138_hook_first_refuted` | The DAO adds the distributor to the NFT module's hooks before any distribution names the module: no member can unstake |
| C138 | `C138_wrong_caller_refuted` | A distribution names the voting module, not cw20-stake, as hook caller: no member can stake or unstake |
| C138 | `C138_late_hook_refuted` | The hook is added after the distribution; a member who staked three NFTs in between is promised 2550 of a distribution of 1000 |
| C139 | `C139_small_share_refuted` | The module is exchanged while a proposal is open: accounts with three in a billion in the new module, and none more in any other, pass and execute it with a quorum of a majority |
| C139 | `C139_nobody_votes_refuted` | The new module knows of no powers at the proposal's height: the proposal is open, and nobody can vote |
| C139 | `C139_nobody_executes_refuted` | The proposal passed before the exchange; nobody has power at its height in the new module, so nobody can execute it |
| C140 | `C140_foreign_refuted` | A proposal creates a module of another kind, which makes the DAO set an item without a proposal |
| C141 | `C141_burn_refuted` | 5 holds a role of weight 3 and one of weight 0; the first is burned, which removes 5 from the members; the other can be burned by nobody |
| C143 | `C143_duration_refuted` | Steps at seconds 1, 10, 40 and 90: VestDuration answers 89, and after 89 seconds not everything has vested |
| C143 | `C143_past_refuted` | 45 tokens have been paid; asked what was distributable at second 20, the query aborts with an underflow |
| C143 | `C143_instavest_refuted` | A vest made at second 50 with a duration of 100 but steps that end at second 10 is paid entirely at once: the check reads the duration, the schedule does not |
| C143 | `C143_instavest_linear_refuted` | Start at 0.5 s, 100 s long, made at 100.4 s: the check compares nanoseconds, the schedule whole seconds |
| C147 | `C147_no_stakers_refuted` | 1000 tokens over ten blocks, the first staker comes afterwards: in no continuation more is paid than is brought later, and at least 1000 tokens stay in the contract |
| C147 | `C147_remainder_refuted` | 1999 tokens over 1000 blocks are handed out at one per block: 999 stay in the contract in every continuation, though somebody had a stake from the beginning |
| C148 | `C148_no_power_refuted` | 1000 tokens over a hundred blocks, nobody has voting power until they are over: nothing is claimable by anybody at any later block, nothing reported undistributed, and withdrawals are refused. Whatever follows (under the conditions of C54), no more is paid out than is brought later |
| C148 | `C148_leftover_refuted` | 900 tokens at 1000 per hundred blocks: the period ends after 90 blocks with 900 undistributed. A stranger funds one token: `funded_amount` is overwritten, the contract holds 901 tokens, reports 1 as undistributed and nothing as claimable. Whatever follows (under the conditions of C54), no more is paid out than this token and what is brought later |

## 8. Mutation testing

`seeded/LOG.jsonl`, one line per attempt. A mutant is an edit of one model definition in a scratch copy; the
proofs are rebuilt unchanged and the first lemma or theorem that fails in each file is recorded (theorems that
depend on it are then not established either).
