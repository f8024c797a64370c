# Design

Formal model of yshimizu20/MahjongAI in Coq 8.16.1 (standard library only).

## Plan per property

| id | property | what is modelled / how it is proved |
|----|----------|-------------------------------------|
| C01 | Chi factory round-trip | Naki.v codec on Z; finite sweep over factory arguments |
| C02 | Pon/kan factory round-trip | same |
| C03 | Meld code classification | reduce any integer code to its residue mod 2^16, sweep the 65536 residues with a reflective checker lifted to a forall |
| C04 | Normalisation keeps the call's identity and is idempotent | same residue reduction; the conv code is code + delta(residue) |
| C05 | Normalisation keeps red-five information | expected false for pon/kakan of fives; exact characterisation + refutation witness |
| C06 | Decoded melds are physically possible | residue sweep |
| C07 | Action indices stay inside the heads | residue sweep |
| C08 | Distinct actions get distinct indices | pairwise; expected false (collisions of red chi with pon indices): refutation + exact injectivity on the non-colliding part |
| C09 | Event tokens decode losslessly | algebra on shifts; finite case analysis |
| C10 | Event tokens are unambiguous and never padding | same |
| C11 | Game type flags and round counts | Z arithmetic for all integers |
| C12 | Calls are offered to the right players | Decision.v, hands as arbitrary vectors over Z; abstract a hand to the few counts looked at |
| C13 | Offered calls are playable | expected false for the 4/6 kanchan with red; characterisation + refutation |
| C14 | All playable chi are offered | expected false in the same corner; prove for the rest, then the exact set of offered chi as an inductive rule (SpecDecision.chi_rule), by reduction of the hand to the counts within two tiles of the discard (DecisionExact.v) |
| C15 | All playable pon and open kan are offered | pon with three copies is not offered: refutation + exact condition |
| C16 | Red fives in candidates are real | black-five test reads the wrong count: refutation + true part |
| C17 | A call that happens is among the offered candidates | expected false (which bits); refutation + exact characterisation for chi, pons of non-fives, pons of fives and open kans |
| C18 | decision_mask is total | totality by case analysis |
| C19 | Only supported games are converted | Process.v: event trees as inductive type, int()/split over Coq strings |
| C20 | Rounds partition the log | list induction |
| C21 | Accepted rounds are complete | induction over the event loop |
| C22 | Hand bookkeeping matches the events | invariant over the event loop, refinement to a spec level history of acts |
| C23 | Owned-tile vector includes melds | same |
| C24 | Wall tile counts are conserved | same |
| C25 | Each player's view of unseen tiles is exact | same; new indicators that are red fives are expected to break the red entry |
| C26 | Riichi sticks and points are conserved | same |
| C27 | Status flags follow the events | same |
| C28 | Remaining draws counter | expected false (kans and new indicators also decrement); exact formula proved |
| C29 | One token per public event, in order | refinement |
| C30 | No future information in the sequence input | refinement |
| C31 | Half-turn structure | refinement |
| C32 | State objects are snapshots | aliasing modelled with explicit references into the round heap; expected false; exact set of live fields proved |
| C33 | Tenhou flag | history invariant on the cycle counter |
| C34 | Chiihou and double riichi need an uninterrupted first go-around | expected false for closed kans |
| C35 | Ippatsu is visible to the win evaluator | expected false; prove the flag is never set for a winner |
| C36 | A round fits in the 150-token window | potential argument (linear arithmetic) over the invariant of the event loop |
| C37 | Execution labels | history invariant |
| C38 | Self-turn kan candidates | kakan part expected false |
| C39 | Win evaluator sees only its player's hand and leaves it unchanged | Agari.v with the scoring library as an arbitrary function argument |
| C40 | Hand strings carry the hand | list induction |
| C41 | Melds are passed to the scorer with the right tiles | code sweep |
| C42 | Seat winds differ per player | expected false |
| C43 | Padded token rows | Tensor.v |
| C44 | Action masks list exactly the available actions | Tensor.v |
| C45 | Post-turn labels | Tensor.v |
| C46 | During-turn labels | expected false (loop variable reuse); exact value proved |
| C47 | Discard labels are allowed | expected false via C32; counterexample round |
| C48 | Count planes are faithful | Tensor.v |
| C49 | Discards are presented relative to the acting player | Tensor.v |
| C50 | Embedding lookups stay in range | Encoder.v index arithmetic |
| C51 | The encoder sees who acted | expected false for three of four agents; equality of the inputs carried to the scores (PropsReact.v) |
| C52 | Network shapes fit | Network.v: all layers over the reals with PyTorch's shape checks; every accepted sample fits |
| C53 | An epoch visits every file once | DataLoader.v: state machine over per-file outcomes |
| C54 | Iteration terminates and can be restarted | same |
| C55 | Every batch can be stacked | expected false for three agents |
| C56 | Latest checkpoint wins | Train.v: directory as list of names |
| C57 | Resuming neither repeats nor skips iterations | crash/restart transition system |
| C58 | A crash while saving is survivable | non-atomic write: expected false |
| C59 | Resumed training equals uninterrupted training | optimizer state is not saved: abstract dynamics, expected false |
| C60 | Learning-rate multiplier | Reals (standard library axioms) |
| C61 | Validation is repeatable and bounded | DataLoader.v |
| C62 | ShantenSolver leaves the hand unchanged and terminates | Shanten.v |
| C63 | ShantenSolver recognises standard wins exactly | Shanten.v, DFS soundness and completeness against an inductive decomposition |
| C64 | ShantenSolver reports -1 only for wins | expected false (kokushi) |
| C65 | Red fives do not change the shanten number | expected false |
| C66 | Tile index table | finite check |
| C67 | Log download URLs | string functions |
| C68 | Replacement draws are reported | expected false (the flag is constantly False) |
| C69 | The last tile is reported | expected false for discards (the self-draw flag is passed instead) |
| C70 | Melds follow the calls | history invariant |
| C71 | Robbing a kan | query theorem |
| C72 | Renhou flag | expected false (absolute seat compared with a draw count) |
| C73 | Every processed round can be turned into samples | size and number invariants of the event loop; build_tensors is total on such half-turns |
| C74 | Reaction samples show the deciding player | expected false (rows share the discarder's state); exact source of the state proved |
| C75 | Samples show the state at the decision | expected false for hand, unseen tiles and closed-hand flags; the other fields proved |
| C76 | Padding contributes nothing to the encoder input | sum of table rows over the reals; expected false for three of four agents |
| C77 | The encoder input identifies the event | same |
| C78 | A sample's output does not depend on its batch | relational shape/value lemmas for every tensor operation (Network.v), composed layer by layer |
| C79 | Disallowed actions do not compete | masking and cross entropy over the reals |
| C80 | The loss is bounded by the spread of the allowed logits | true for allowed labels; expected false because of C46/C47 |
| C81 | The shanten number is the distance to a standard win | leaf of the search -> complete hand built from its blocks; expected false both ways (greedy search, four-copy limit) |
| C82 | The special shanten numbers are distances | counting lemmas; seven pairs ignores the number of kinds |
| C83 | A batch holds the samples of all its rounds | relation between games and rounds, mapM/concat |
| C84 | Riichi is offered when the rules allow it | inversion of the draw step plus the flag and hand invariants; expected false (points and wall not checked) |
| C85 | The calls offered after a discard fit the hands | inversion of the discard step, hand invariant, C12/C13/C15 |
| C86 | Players in riichi are offered no calls | expected false: offers are a function of the discard and the hands |
| C87 | A run trains on whole, distinct rows and on nothing else | run as a function to a trace of updates, validations and checkpoints; induction over iterations and batches against an inductive trace relation; randperm as an arbitrary family of permutations |
| C88 | The k-th update of a run uses the k-th learning rate | update numbers of the trace relation by induction; AdamW over the reals at rate 0 |
| C89 | Validation happens once per 1000 games | arithmetic on k*bs mod 1000 |
| C90 | Batches without samples do not stop training | expected false; exact condition from the head loop, witnesses by computation |
| C91 | Samples show the table situation | constants of the round by inversion of the initialisation, scores and counters from C26-C28, samples from C75 |
| C92 | Samples show who can win by ippatsu | expected false; invariant over the flags recorded with every state object |
| C93 | Every link of an index page is found | matcher for the one regular expression as a structural function; induction over the pieces of a rendered page |
| C94 | Every listed game is requested in order | run as a fold that keeps the requests and answers; the client is an arbitrary function of the requests so far; invariant by induction over the links |
| C95 | Downloads never spoil other logs | same invariant, file contents as a function of the trace |
| C96 | Interrupted downloads leave no broken log | kill point inside one write as a relation; refutation by witness and the exact damage |
| C97 | Clean-up keeps exactly the index files | directory as a list of named contents; fold invariants for the two loops, gzip decoder arbitrary |
| C98 | Training years take turns and validation data stay unseen | corollary of the run relation of C87 with the directory list; modular arithmetic and string prefixes |
| C99 | Players who may react to one tile are told apart | expected false for agents 1-3; equal encoder rows and states carried through the forward pass (row-wise congruence lemmas of the network model) |
| C100 | Training on well-formed logs completes | loaders, heads and validation each shown total on games of well-formed logs, induction over batches and iterations; forward pass from C52 |
| C101 | Dropout is on in training and off in validation | mode as part of the run state; corollary of the trace relation of C87 |
| C102 | Every accepted command line trains, every other stops first | int as a scanner over characters, proved equivalent to a grammar of blanks, sign and digit groups; the rest by case analysis and C57 |
| C103 | Shanten does not depend on which suit is which | leaves of the search as one contribution per suit plus the honours, independent of the order; permutation lemmas |
| C104 | Shanten is the same in the mirror | expected false; complete hands are mirrored by C64, a witness by computation |
| C105 | ShantenSolver recognises waiting hands exactly | exchange argument on sets, pairs and one left-over piece: every decomposition with one tile missing is turned into one the search tries; converse from C81 |
| C106 | A draw never makes a hand worse | expected false; draws that complete a hand from C105 and C64 |
| C107 | A failed assertion ends the pass and nothing else does | induction over the files, with the pass cut at the first abort |
| C108 | The validation loss is the mean over fixed, complete data | what the losses are computed from as part of the trace of C87; mean over the reals |
| C109 | Samples do not reveal hidden tiles | two-run simulation: the states of both rounds stay alike outside the hidden rows, play by play; a witness for the reactions by computation |
| C110 | Only the moves and the rules of a log matter | congruence, step by step, for events with the same meaning; grouping as a function of the events outside the header |
| C111 | Furiten players are not offered a ron | expected false; the rule that is applied from the query lemma of C39 and C41, three witnesses by computation |
| C112 | The network is told for whom it decides | expected false for three agents, witness by computation and the congruence of C99; for the ordered agent the first recorded event is the dealer's, which gives the seat |
| C113 | Wins that happen are labelled | expected false; the recorded decisions are known from the recorded-wins invariant, two witnesses by computation |
| C114 | Copies of a tile are interchangeable | two-run simulation: all variables stay equal but the 136-wide hands and the indicators, which are renamed; two witnesses by computation; acceptance from the exact rule of C134, whose conditions are shown to be the same of both rounds (CopiesAccepted.v) |
| C115 | The network can see the dora | expected false, witness by computation; the tokens and the unseen-tile counts as functions of the plays (C25, C29) |
| C116 | Batch numbers in the log | invariant of the call history: the counter is the number of requests; passes by induction with the restart theorem (C54) |
| C117 | Training runs of different models do not disturb each other | interleaving semantics with kills; projection of a schedule to the moves of one process, other models write other names |
| C118 | A complete checkpoint is never overwritten, also with several runs at once | interleaving semantics; invariant for orderly runs, expected false for two overlapping runs of one model (schedule given for all dynamics) |
| C119 | Several downloads at once leave complete logs | partial writes as steps of an interleaving; invariant: every file is old, a prefix being written, or complete |
| C120 | Every training run has its own complete log | expected false for two processes started in the same second; otherwise an invariant of the file over all histories |
| C121 | No call is offered that the rules forbid | expected false, two witnesses by computation; the exact rules are C38 and C85 |
| C122 | Forced discards are not samples | expected false; the discard rows as a function of the plays, witness by computation |
| C123 | Repeating an interrupted download repairs it | induction over the interrupted runs; the content after the last run from C94 and C95 |
| C124 | Cleaning up twice is the same as once | expected false for files packed twice; otherwise from the exact content (C97), every step of a second run changes nothing |
| C125 | Printing a call never fails and names the call | Naki.__repr__ modelled branch by branch (NakiRepr.v); kinds are exclusive for all integers (C03), numerals are injective (TrainLemmas.v). |
| C126 | Every action number names a call | Both action numbers depend on the core bits of the code only (NakiCore.v); the image is found by evaluating all cores, with an explicit call for every number that is reached. |
| C127 | Which rows of the encoder's tables are in use | Rows reached are computed from the exact row lists of every token (EncoderLemmas.v) and the exact set of action numbers; the effect theorems are inductions over the list of rows, over the reals. |
| C128 | Every output of the reaction head can be right | Sweep over all views of a hand that decision_mask distinguishes for the upper bound, explicit hands for every other number; an invariant of the recorded reactions carries it to all rounds and samples. |
| C129 | A called open kan is a target | Invariant over the plays of a round: no candidate with a kan number is marked, and those of the current reaction match no code of an open kan of the tile discarded last (sweep over all candidates and all 16-bit codes); targets then follow from C45, C113 and C128. |
| C130 | A declared kan is a target | Invariant over the plays of a round: every closed kan declared so far is marked in a turn of its player, marked kans stem from calls of that player, and while a turn is open its list holds a closed kan for every type held four times. A sweep over all codes of closed kans and all added-kan candidates gives their normal forms and numbers. |
| C131 | A called chi or pon is the target of the caller's sample | Invariant over the plays of a round: every marked reaction stems from a call of that player at the moment of the call, every call that matches a candidate is marked, and while reactions are open the lists are the candidates for the tile discarded last and the hands at that moment. The sample of the caller exists because at most one reaction is marked. The exact rules of C17 for chi and pon then apply to the hands, which are the tiles dealt and drawn without those discarded and shown; sweeps over all 16-bit codes give the numbers and the order of the copies. |
| C132 | A round that follows the rules is never rejected | Standing of the round, hands and wall in SpecLegal.v, without the variables of the loop. RoundProgress.v: every step whose checks hold returns. RoundLegal.v: along a legal history the loop's flags agree with the standing, hand sizes are 1 or 2 modulo 3, no tile is counted twice, so every check holds, the deal passes its assertions and no count is negative at the end. The rules asked for are weaker than the real ones (any player may draw; chi from anyone), so the theorem covers more rounds. |
| C133 | Logs of games that follow the rules can be trained on | PropsLegalTrain.v: along a legal history in which calls name the discarder the turn variable of C73 is the player who acts, so a fair round is orderly (C73) and a fair game is regular (C100); acceptance comes from C132. The hypotheses of C133 therefore mention the log only, not what the code makes of it. |
| C134 | A round that breaks the rules is rejected | RoundExact.v: with the flags of the loop tied to the standing of the round and the hands to the tiles received and given away (C22), the checks of each step are equivalent to a condition on the plays; the counts at the end are those of C24 and C25. Induction over the plays in both directions. Witnesses for the rules that are not checked. |
| C135 | What the network computes | layer by layer, for one sample of the batch: the tensors are the functions of the formulas (AttentionLemmas.v, and StateForward.v for the convolutions), then the whole forward pass (AttentionForward.v); rearrangements by permuting finite sums |
| C136 | Every weight of the network can matter | expected false: softmax does not change if a constant is added to all scores, and over one position it is 1; on the formulas of C135 (AttentionForward.v) |
| C137 | Scores are bounded by the last two layers | the entries of a normalised vector are at most the root of its size, since one squared deviation is at most the sum of all; then the triangle inequality (PropsBound.v) |
| C138 | Each output learns only from samples in which it is allowed | the forward pass is a head applied to vectors that do not depend on the heads, followed by the mask (PropsHeads.v) |
| C139 | Every output of the own-turn and discard heads can be right | expected false for red fives; a family of rounds with one parameter, evaluated for every output and agent, shows what can happen, the label of a discard sample what cannot (PropsOwnTurn.v) |

"expected false" marks properties that reading the code suggests the code violates.  For those the
development contains a `..._refuted` theorem with a concrete witness, and a theorem stating what the
code guarantees instead.

## Modelling conventions

* Python `int` is `Z`; `&`, `|`, `^`, `<<`, `>>`, `//`, `%` are the `Z` operations, which agree with Python on
  negative operands.  numpy float32 counters are `Z` (exact below 2^24).
* Exceptions are values of an inductive type; functions that can raise return `res A`.
* Objects shared by reference (numpy arrays, lists mutated in place) are modelled by references resolved against the
  heap of the round.
* Third-party code (mahjong.Shanten, HandCalculator) is an explicit argument; theorems hold for every such function.

## Trusted base

* Coq 8.16.1's kernel, including `vm_compute` (used for finite sweeps that are then lifted to quantified statements by
  `forallb_forall` style lemmas); no `native_compute`, no plugins, no disabled checks, no axioms of our own, no
  `Admitted`.
* The standard library, and nothing else (`Require` lists name only `Coq` and `Verif`).
* That the definitions in the model files say what the Python says.  Each carries the lines it models.  This is the
  part no proof covers; `seeded/LOG.jsonl` records how the theorems react to wrong programs.

`Print Assumptions` follows every theorem in the Props files.  Its answers:

* 320 theorems: closed under the global context (every theorem not listed below).
* `ClassicalDedekindReals.sig_forall_dec`, `FunctionalExtensionality.functional_extensionality_dep`: `C108_mean`.
* `ClassicalDedekindReals.sig_forall_dec`, `ClassicalDedekindReals.sig_not_dec`, `FunctionalExtensionality.functional_extensionality_dep`: `C60_warmup`, `C60_bounds`, `C60_decay`, `C60_end`, `C88_first_update_idle`, `C135_attention`, `C135_shares`, `C135_order`.
* `ClassicalDedekindReals.sig_forall_dec`, `ClassicalDedekindReals.sig_not_dec`, `Classical_Prop.classic`, `FunctionalExtensionality.functional_extensionality_dep`: `C127_no_effect`, `C127_effect`, `C51_ordered`, `C51_others_refuted`, `C76_ordered`, `C76_exact_partial`, `C76_refuted`, `C77_ordered`, `C77_others_refuted`, `C52_shapes`, `C52_rounds`, `C78_batch`, `C78_loss`, `C79_masked`, `C79_unmasked`, `C79_choice`, `C79_loss`, `C80_bound_partial`, `C80_refuted`, `C99_scored_alike`, `C99_first_alike`, `C99_refuted`, `C99_ordered_partial`, `C51_same_scores`, `C112_others_refuted`, `C100_completes`, `C133_trains`, `C135_network`, `C136_dead`, `C136_refuted`, `C137_bound`, `C137_choice`, `C137_loss`, `C137_needed`, `C138_other`, `C138_row`, `C138_loss`, `C138_bias`, `C138_never`.

The axioms named are those of the standard library's real numbers (Dedekind reals) and of
`FunctionalExtensionality` and `Classical_Prop`, which `Reals` itself uses.

## What is modelled

| code | model |
|------|-------|
| draw.py (Naki: factories, accessors, convert, indices) | Naki.v |
| decision.py (all decision classes, decision_mask, naki masks) | Decision.v |
| gameinfo.py | GameInfo.v |
| utils/constants.py | Constants.v |
| utils/agari.py (what is passed to the scoring library, and what is done with its answer) | Agari.v |
| process_xml.py:31-591 (process, process_round, event loop), turn.py, state.py, result.py | Process.v |
| process_xml.py:594-667 (event tokens) | Tokens.v |
| utils/shanten.py | Shanten.v |
| utils/dataloader.py, estimate_loss | DataLoader.v |
| supervised_learning.py: find_latest_checkpoint, train's outer loop, learning-rate lambda | Train.v, LearningRate.v |
| supervised_learning.py: train's batch loop, validation schedule; forward of the agents up to the networks (sampling); AdamW's formula | TrainLoop.v |
| data/scrape_data.py: link handling | Scrape.v |
| data/scrape_data.py: link extraction, download loop and files (HTTP client, writable paths as arguments) | ScrapeRun.v |
| supervised_learning.py: several training processes in one directory, with kills | SideRuns.v |
| supervised_learning.py: the log file | LogFile.v |
| data/scrape_data.py: several downloads at once, with partial writes | SideScrape.v |
| utils/dataloader.py: the messages logged with batches | LoaderLog.v |
| draw.py: printed form of a call (Naki.__repr__) | NakiRepr.v |
| supervised_learning.py: data directories | TrainDirs.v |
| supervised_learning.py: command line, choice of the network | Cli.v |
| data/filter_raw.sh: clean-up and unpacking (gzip decoder as argument, no subdirectories) | ScrapeRun.v |
| the tensor processors of the four agents | Tensor.v |
| token embedding of the four agents | Encoder.v, EncoderSum.v |
| all layers, the three heads, masking and loss of the four agents | Network.v |

## What is not modelled

* float32 arithmetic: counters are integers, network values and the learning rate are real numbers.  No statement
  about rounding, overflow or NaN.
* The probabilities of dropout (a forward pass takes the factors of its dropout layers as arguments; statements that
  compare passes assume evaluation mode, all factors 1, the others hold for all factors), gradients, the optimizer's
  internals (C59 takes them as an arbitrary step function), devices and memory.
* Third-party code: the scoring library `mahjong` and its shanten function are arguments, theorems hold for every
  answer they could give; PyTorch and numpy appear only as the operations the code calls, with their shape checks.
* The XML parser (the model starts from the element tree), the network and the file system beyond names, contents and
  crash points.
* The notebooks, the tests, `agents/model_template.py` (empty), progress printing.

## Testing the theorems

`seeded/LOG.jsonl` has one line per wrong program tried in a scratch copy: the definition edited, the edit, the claim it
breaks, the theorems that failed to prove and the theorems tightened as a result.
