{"id": "C01", "title": "Chi factory round-trip", "statement": "A Naki built with from_chi_info(color, number, which, has_red) is a chi (and no other kind), was taken from the player to the left, decodes to the same color, number, which and has_red, its acquired tile and two exposed tiles are the three consecutive tiles number, number+1, number+2 of that suit, and the red five appears among them iff has_red.", "quantifier": "every suit 0-2, run start 0-6, position 0-2, and has_red allowed when the run contains a five", "why_tests_cant": "the unit tests check three chi codes; the claim is about the whole code space and the interplay of pattern packing, red bit toggling and popping", "anchors": ["MahjongAI/draw.py:Naki.from_chi_info", "MahjongAI/draw.py:Naki.pattern_chi"]}
{"id": "C02", "title": "Pon/kan factory round-trip", "statement": "Nakis built with from_pon_info, from_kakan_info, from_minkan_info and from_ankan_info are of exactly that kind, decode to the tile type and caller-relative seat they were built from, and their exposed/acquired tiles are distinct copies of that tile type (3 for pon, 1 for kakan, 3+1 for minkan, 4 for ankan).", "quantifier": "every tile type 0-33, seat 1-3, which in {0,1}, has_red flag", "why_tests_cant": "the tests cover 13 literals", "anchors": ["MahjongAI/draw.py:Naki.from_pon_info", "MahjongAI/draw.py:Naki.from_kakan_info", "MahjongAI/draw.py:Naki.from_minkan_info", "MahjongAI/draw.py:Naki.from_ankan_info"]}
{"id": "C03", "title": "Meld code classification", "statement": "Constructing Naki(code) succeeds for exactly the integers whose kind bits denote a chi, pon, added kan, open kan or closed kan and raises ValueError for all others; whenever it succeeds get_exposed also succeeds.", "quantifier": "every integer code, including negative and oversized ones", "why_tests_cant": "codes come from external logs; a test can only sample integers", "anchors": ["MahjongAI/draw.py:Naki.__init__", "MahjongAI/draw.py:Naki._clean", "MahjongAI/draw.py:Naki.get_exposed"]}
{"id": "C04", "title": "Normalisation keeps the call's identity and is idempotent", "statement": "The comparison code (convenient_naki_code) of any accepted code is itself accepted, is of the same kind, tile type(s) and caller-relative seat, and normalising it again changes nothing.", "quantifier": "every integer code the constructor accepts", "why_tests_cant": "unbounded code space; bit-level interactions", "anchors": ["MahjongAI/draw.py:Naki._clean", "MahjongAI/draw.py:Naki._clean_chi", "MahjongAI/draw.py:Naki._clean_pon", "MahjongAI/draw.py:Naki._clean_kakan", "MahjongAI/draw.py:Naki._clean_minkan", "MahjongAI/draw.py:Naki._clean_ankan"]}
{"id": "C05", "title": "Normalisation keeps red-five information", "statement": "Normalising a call keeps whether the claimed/added tile and the exposed tiles include the red five, so two calls that differ in who supplies the red five never compare equal and two that agree always do.", "quantifier": "every integer code the constructor accepts", "why_tests_cant": "depends on the joint value of four bit fields", "anchors": ["MahjongAI/draw.py:Naki._clean_pon", "MahjongAI/draw.py:Naki._clean_kakan", "MahjongAI/draw.py:Naki._clean_minkan", "MahjongAI/draw.py:Naki.convenient_naki_code"]}
{"id": "C06", "title": "Decoded melds are physically possible", "statement": "For every code whose pattern field is in range, the tiles a call exposes and acquires are pairwise distinct ids in 0..135 forming a run in one suit (chi), three copies (pon) or the four copies (open/closed kan) of one tile type.", "quantifier": "every integer code with an in-range pattern", "why_tests_cant": "whole code space", "anchors": ["MahjongAI/draw.py:Naki.pattern_chi", "MahjongAI/draw.py:Naki.pattern_pon", "MahjongAI/draw.py:Naki.pattern_kakan", "MahjongAI/draw.py:Naki.pattern_minkan", "MahjongAI/draw.py:Naki.pattern_ankan", "MahjongAI/draw.py:Naki.get_exposed"]}
{"id": "C07", "title": "Action indices stay inside the heads", "statement": "get_during_turn_filter_idx lies in 3..70 for closed/added kans and get_post_turn_filter_idx in 2..153 for chi/pon/open kan, and both raise for calls of the other family.", "quantifier": "every integer code describing a real meld", "why_tests_cant": "an out-of-range index corrupts or crashes the 71/154-wide masks; only sampled by tests", "anchors": ["MahjongAI/draw.py:Naki.get_during_turn_filter_idx", "MahjongAI/draw.py:Naki.get_post_turn_filter_idx"]}
{"id": "C08", "title": "Distinct actions get distinct indices", "statement": "Two different call decisions (different kind, tile types, claimed position or use of the red five) never share an action index in the same head.", "quantifier": "every pair of meld codes", "why_tests_cant": "pairs over the whole code space", "anchors": ["MahjongAI/draw.py:Naki.get_post_turn_filter_idx", "MahjongAI/draw.py:Naki.get_during_turn_filter_idx"]}
{"id": "C09", "title": "Event tokens decode losslessly", "statement": "Splitting an event token with the shifts and masks the encoder uses gives back the event state, the acting player, the tile / action index and the tsumogiri flag it was built from.", "quantifier": "every player 0-3, tile type 0-36, flag, and every legal meld", "why_tests_cant": "bit-packing over the full product space", "anchors": ["MahjongAI/process_xml.py:discard2idx", "MahjongAI/process_xml.py:naki2idx", "MahjongAI/process_xml.py:reach2idx", "MahjongAI/process_xml.py:new_dora2idx", "MahjongAI/agents/transformer_conv_ordered.py:Encoder.forward"]}
{"id": "C10", "title": "Event tokens are unambiguous and never padding", "statement": "Tokens of two different events (different kind, player, tile, flag or action index) differ, no token equals the padding value 0, and every token is below 2^16 so it survives the float32 padding buffer exactly.", "quantifier": "all pairs of events", "why_tests_cant": "pairs over the product space", "anchors": ["MahjongAI/process_xml.py:discard2idx", "MahjongAI/process_xml.py:naki2idx", "MahjongAI/process_xml.py:reach2idx", "MahjongAI/process_xml.py:new_dora2idx", "MahjongAI/agents/transformer.py:TransformerTensorProcessor._build_discard_tensor"]}
{"id": "C11", "title": "Game type flags and round counts", "statement": "For any GO type the flags are the documented bits (0/1), n_rounds is 4 or 8, and for any round number the four per-player dealer-round counts differ by at most one, are non-decreasing and sum to the rounds remaining.", "quantifier": "every integer type and every round number (also past the last scheduled round)", "why_tests_cant": "unbounded integers", "anchors": ["MahjongAI/gameinfo.py:GameInfo", "MahjongAI/gameinfo.py:RoundInfo"]}
{"id": "C12", "title": "Calls are offered to the right players", "statement": "decision_mask never offers anything to the discarder, offers chi only to the next player, and every pon/open-kan candidate names the discarder as its source seat.", "quantifier": "all discarders, tiles, red flags and hands", "why_tests_cant": "all hand contents", "anchors": ["MahjongAI/decision.py:decision_mask"]}
{"id": "C13", "title": "Offered calls are playable", "statement": "Every candidate from decision_mask claims the discarded tile, and the player really holds the tiles (by type) it would expose.", "quantifier": "all discarders, tiles, red flags and hands with non-negative counts", "why_tests_cant": "all hand contents", "anchors": ["MahjongAI/decision.py:decision_mask", "MahjongAI/decision.py:_one_and_nine_mask", "MahjongAI/decision.py:_two_and_eight_mask", "MahjongAI/decision.py:_three_and_seven_mask", "MahjongAI/decision.py:_four_and_six_mask", "MahjongAI/decision.py:_five_mask", "MahjongAI/decision.py:_jihai_mask"]}
{"id": "C14", "title": "All playable chi are offered", "statement": "For every run through the discarded tile whose other two tiles the next player holds, decision_mask offers that chi (same run and same claimed position).", "quantifier": "all discarders, tiles, red flags and hands", "why_tests_cant": "all hand contents", "anchors": ["MahjongAI/decision.py:decision_mask"]}
{"id": "C15", "title": "All playable pon and open kan are offered", "statement": "decision_mask offers a pon whenever a player holds at least two copies of the discarded tile and an open kan whenever the player holds three.", "quantifier": "all discarders, tiles, red flags and hands", "why_tests_cant": "all hand contents", "anchors": ["MahjongAI/decision.py:decision_mask"]}
{"id": "C16", "title": "Red fives in candidates are real", "statement": "A candidate that contains the red five is offered only if the discarded tile is the red five or the player holds it, and a candidate without it that exposes a five is offered only if the player holds a black five.", "quantifier": "all discarders, tiles, red flags and hands", "why_tests_cant": "all hand contents", "anchors": ["MahjongAI/decision.py:_three_and_seven_mask", "MahjongAI/decision.py:_four_and_six_mask", "MahjongAI/decision.py:_five_mask"]}
{"id": "C17", "title": "A call that happens is among the offered candidates", "statement": "If a player who holds the tiles calls the discarded tile, the candidate list for that player contains a candidate whose comparison code equals that of the logged call (so that the example gets its label).", "quantifier": "every legal call code and every hand that can make it", "why_tests_cant": "codes x hands", "anchors": ["MahjongAI/decision.py:decision_mask", "MahjongAI/draw.py:Naki._clean", "MahjongAI/process_xml.py:process"]}
{"id": "C18", "title": "decision_mask is total", "statement": "decision_mask raises no exception and returns four lists for every discarder, tile type, red flag and hand.", "quantifier": "all discarders, tile types 0-33, red flags and hands", "why_tests_cant": "assertions inside the helper functions over all hands", "anchors": ["MahjongAI/decision.py:decision_mask"]}
{"id": "C19", "title": "Only supported games are converted", "statement": "process returns data only for games against humans, with red fives, without kansaki and with four players, and raises InvalidGameException for the other supported-format games; a log containing BYE is rejected.", "quantifier": "every parsed log tree", "why_tests_cant": "all trees", "anchors": ["MahjongAI/process_xml.py:process", "MahjongAI/process_xml.py:_get_rounds"]}
{"id": "C20", "title": "Rounds partition the log", "statement": "_get_rounds returns the log's play events in order, each in exactly one round, each round starting with its only INIT.", "quantifier": "every parsed log tree", "why_tests_cant": "all trees", "anchors": ["MahjongAI/process_xml.py:_get_rounds"]}
{"id": "C21", "title": "Accepted rounds are complete", "statement": "Every round process accepts is INIT, then play events, then at least one AGARI/RYUUKYOKU and nothing but results after it.", "quantifier": "every accepted log", "why_tests_cant": "all event sequences", "anchors": ["MahjongAI/process_xml.py:process"]}
{"id": "C22", "title": "Hand bookkeeping matches the events", "statement": "At the end of every accepted round, and at every event in between, the tiles a player holds are exactly the dealt and drawn ones not yet discarded or exposed; the 37-wide hand vector counts them by type and red five, with type counts in 0..4 and red counts in 0..1.", "quantifier": "every accepted round of any length", "why_tests_cant": "all histories", "anchors": ["MahjongAI/process_xml.py:process"]}
{"id": "C23", "title": "Owned-tile vector includes melds", "statement": "The vector used for win evaluation equals concealed tiles plus all tiles of the player's melds, at every event of every accepted round.", "quantifier": "every accepted round", "why_tests_cant": "all histories", "anchors": ["MahjongAI/process_xml.py:process", "MahjongAI/utils/agari.py:evaluate_ron"]}
{"id": "C24", "title": "Wall tile counts are conserved", "statement": "The number of unseen tiles of each type equals 4 minus dealt, drawn and indicator tiles at every event, and the round is rejected if any count ever ends negative.", "quantifier": "every accepted round", "why_tests_cant": "all histories", "anchors": ["MahjongAI/process_xml.py:process"]}
{"id": "C25", "title": "Each player's view of unseen tiles is exact", "statement": "A player's private remaining-tile vector equals the full set minus exactly the tiles that player can see: own dealt and drawn tiles, indicators, other players' discards and other players' exposed tiles.", "quantifier": "every accepted round and player", "why_tests_cant": "all histories", "anchors": ["MahjongAI/process_xml.py:process"]}
{"id": "C26", "title": "Riichi sticks and points are conserved", "statement": "At every recorded state the scores plus ten per kyotaku stick equal the initial scores plus ten per initial stick, and each accepted riichi moves exactly ten points of its player.", "quantifier": "every accepted round", "why_tests_cant": "all histories", "anchors": ["MahjongAI/process_xml.py:process"]}
{"id": "C27", "title": "Status flags follow the events", "statement": "reaches[p] is set iff p's riichi was accepted, double_reaches[p] implies reaches[p], is_menzen[p] is cleared iff p has called a tile from another player, and discarded-tile furiten markers are set iff p discarded that type.", "quantifier": "every accepted round", "why_tests_cant": "all histories", "anchors": ["MahjongAI/process_xml.py:process"]}
{"id": "C28", "title": "Remaining draws counter", "statement": "remaining_tsumo equals the number of draws left in the live wall (70 minus tiles drawn) at every event.", "quantifier": "every accepted round", "why_tests_cant": "all histories", "anchors": ["MahjongAI/process_xml.py:process"]}
{"id": "C29", "title": "One token per public event, in order", "statement": "The token list of a round is exactly one token per discard, call, accepted riichi and new indicator, in log order, and none for draws.", "quantifier": "every accepted round", "why_tests_cant": "all histories", "anchors": ["MahjongAI/process_xml.py:process"]}
{"id": "C30", "title": "No future information in the sequence input", "statement": "The encoding index of each half-turn is the number of public events strictly before the decision, so the visible token prefix contains no later event; indices never decrease along a round.", "quantifier": "every accepted round and half-turn", "why_tests_cant": "all histories", "anchors": ["MahjongAI/process_xml.py:process", "MahjongAI/agents/transformer.py:TransformerTensorProcessor.build_tensors"]}
{"id": "C31", "title": "Half-turn structure", "statement": "Each draw yields one DuringTurn of the drawer, each discard a DiscardTurn then a PostTurn of the discarder, each added kan one PostTurn, and nothing else.", "quantifier": "every accepted round", "why_tests_cant": "all histories", "anchors": ["MahjongAI/process_xml.py:process", "MahjongAI/turn.py"]}
{"id": "C32", "title": "State objects are snapshots", "statement": "The StateObject of a half-turn shows the game state at that half-turn: later events do not change its hand, remaining tiles, discards, melds, scores or flags.", "quantifier": "every accepted round and half-turn", "why_tests_cant": "aliasing: needs all later histories", "anchors": ["MahjongAI/process_xml.py:process", "MahjongAI/state.py:StateObject"]}
{"id": "C33", "title": "Tenhou flag", "statement": "The win evaluator is told 'tenhou' exactly on the first draw of the round.", "quantifier": "every accepted round and draw", "why_tests_cant": "all histories", "anchors": ["MahjongAI/process_xml.py:process"]}
{"id": "C34", "title": "Chiihou and double riichi need an uninterrupted first go-around", "statement": "chiihou and double riichi are only flagged when no call of any kind (closed kans included) has happened before.", "quantifier": "every accepted round", "why_tests_cant": "all histories", "anchors": ["MahjongAI/process_xml.py:process"]}
{"id": "C35", "title": "Ippatsu is visible to the win evaluator", "statement": "A riichi player who can win within one uninterrupted go-around is evaluated with the ippatsu flag set.", "quantifier": "every accepted round", "why_tests_cant": "all histories", "anchors": ["MahjongAI/process_xml.py:process", "MahjongAI/utils/agari.py:evaluate_ron", "MahjongAI/utils/agari.py:evaluate_tsumo"]}
{"id": "C36", "title": "A round fits in the 150-token window", "statement": "No accepted round in which each player declares riichi at most once produces more than 149 tokens, so the encoding-index assertions of the tensor builders cannot fail.", "quantifier": "every accepted round", "why_tests_cant": "needs a potential argument over all histories", "anchors": ["MahjongAI/process_xml.py:process", "MahjongAI/agents/transformer.py:TransformerTensorProcessor.build_tensors"]}
{"id": "C37", "title": "Execution labels", "statement": "A logged call marks as executed only a candidate of the calling player, at most one, and with the same tiles; a declared riichi marks the declarer's riichi decision; nothing else is marked.", "quantifier": "every accepted round with consistent seats", "why_tests_cant": "all histories", "anchors": ["MahjongAI/process_xml.py:process"]}
{"id": "C38", "title": "Self-turn kan candidates", "statement": "On a draw a closed kan is offered for exactly the tile types held four times and an added kan for exactly the player's pons whose fourth tile is held.", "quantifier": "every accepted round and draw", "why_tests_cant": "all histories", "anchors": ["MahjongAI/process_xml.py:process"]}
{"id": "C39", "title": "Win evaluator sees only its player's hand and leaves it unchanged", "statement": "evaluate_ron never offers ron to the discarder or to a player who has discarded that tile type, returns one slot per player, and leaves all hand vectors as they were.", "quantifier": "all hands, melds, discards and any behaviour of the scoring library", "why_tests_cant": "all inputs and all library behaviours", "anchors": ["MahjongAI/utils/agari.py:evaluate_ron", "MahjongAI/utils/agari.py:evaluate_tsumo"]}
{"id": "C40", "title": "Hand strings carry the hand", "statement": "hand_tensor2strs lists exactly hand[k] digits for each tile type k, in order, digits 1-9 for suits and 1-7 for honours.", "quantifier": "all non-negative hand vectors", "why_tests_cant": "all hand contents", "anchors": ["MahjongAI/utils/agari.py:hand_tensor2strs"]}
{"id": "C41", "title": "Melds are passed to the scorer with the right tiles", "statement": "Each meld handed to the scoring library has the tile types of the logged call, is marked open unless it is a closed kan, and contains the red five id iff the call contains it.", "quantifier": "every meld code", "why_tests_cant": "whole code space", "anchors": ["MahjongAI/utils/agari.py:evaluate_ron", "MahjongAI/utils/agari.py:evaluate_tsumo"]}
{"id": "C42", "title": "Seat winds differ per player", "statement": "The scorer is given each player's own seat wind.", "quantifier": "every round number and player", "why_tests_cant": "all rounds", "anchors": ["MahjongAI/utils/agari.py:evaluate_ron", "MahjongAI/gameinfo.py:RoundInfo"]}
{"id": "C43", "title": "Padded token rows", "statement": "Each training row has 150 entries: the first encoding_idx tokens of the round followed by zeros.", "quantifier": "every token list and index below 150", "why_tests_cant": "all sequences", "anchors": ["MahjongAI/agents/transformer.py:TransformerTensorProcessor.build_tensors"]}
{"id": "C44", "title": "Action masks list exactly the available actions", "statement": "During/post masks are binary, allow pass plus exactly the offered decisions, and therefore always have at least two allowed actions (the builders' assertion never fires); turns without decisions produce no row.", "quantifier": "every list of half-turns whose candidates are real melds", "why_tests_cant": "all decision lists", "anchors": ["MahjongAI/agents/transformer.py:TransformerTensorProcessor._build_during_tensor", "MahjongAI/agents/transformer.py:TransformerTensorProcessor._build_post_tensor"]}
{"id": "C45", "title": "Post-turn labels", "statement": "The label of a post-turn row is the executed decision's action or 0 for pass, it is always allowed by the row's mask, players are visited in turn order from the discarder's right, and no row follows the player who acted.", "quantifier": "every post-turn", "why_tests_cant": "all decision lists", "anchors": ["MahjongAI/agents/transformer.py:TransformerTensorProcessor._build_post_tensor"]}
{"id": "C46", "title": "During-turn labels", "statement": "The label of a during-turn row is the executed decision's action, or 0 (pass) if none was executed, and is always allowed by the row's mask.", "quantifier": "every during-turn", "why_tests_cant": "all decision lists", "anchors": ["MahjongAI/agents/transformer.py:TransformerTensorProcessor._build_during_tensor"]}
{"id": "C47", "title": "Discard labels are allowed", "statement": "For every discard half-turn of a processed round the discarded tile is allowed by the row's hand mask.", "quantifier": "every accepted round", "why_tests_cant": "aliasing over all later histories", "anchors": ["MahjongAI/agents/transformer.py:TransformerTensorProcessor._build_discard_tensor", "MahjongAI/process_xml.py:process"]}
{"id": "C48", "title": "Count planes are faithful", "statement": "The 4-plane unary encoding of tile counts is injective on 0..4 and sums back to the count.", "quantifier": "every count vector", "why_tests_cant": "all vectors", "anchors": ["MahjongAI/agents/transformer_conv.py:TransformerTensorProcessor._convert_state_obj_to_tensors"]}
{"id": "C49", "title": "Discards are presented relative to the acting player", "statement": "In the ordered model channel 2+i of the state tensor is the discard vector of the i-th player after the acting player.", "quantifier": "every player and discard matrix", "why_tests_cant": "all states", "anchors": ["MahjongAI/agents/transformer_conv_ordered.py:TransformerTensorProcessor._convert_state_obj_to_tensors"]}
{"id": "C50", "title": "Embedding lookups stay in range", "statement": "Every table index the encoders compute from a produced token (or padding) is within the table, for every token and player.", "quantifier": "every token process can produce", "why_tests_cant": "all tokens", "anchors": ["MahjongAI/agents/transformer.py:Encoder.forward", "MahjongAI/agents/transformer_conv_ordered.py:Encoder.forward"]}
{"id": "C51", "title": "The encoder sees who acted", "statement": "Two tokens that differ only in the acting player contribute different features to the encoder.", "quantifier": "all tokens", "why_tests_cant": "all token pairs", "anchors": ["MahjongAI/agents/transformer.py:Encoder.forward", "MahjongAI/agents/transformer_conv_ordered.py:Encoder.forward"]}
{"id": "C52", "title": "Network shapes fit", "statement": "For every batch size the forward pass is shape-correct and produces one logit row of the head's width per sample.", "quantifier": "every positive batch size, number of layers and head", "why_tests_cant": "all batch sizes", "anchors": ["MahjongAI/agents/transformer.py:StateNet", "MahjongAI/agents/transformer.py:Decoder", "MahjongAI/agents/transformer_conv.py:StateNet", "MahjongAI/agents/transformer_conv_ordered.py:StateNet", "MahjongAI/agents/transformer.py:MultiHeadAttention"]}
{"id": "C53", "title": "An epoch visits every file once", "statement": "Iterating a DataLoader yields the successfully processed games of the directory in listing order, each exactly once, in batches of at most batch_size, skipping invalid games.", "quantifier": "every directory listing, batch size >= 1 and per-file outcome without assertion failures", "why_tests_cant": "all listings and outcomes", "anchors": ["MahjongAI/utils/dataloader.py:DataLoader.__next__"]}
{"id": "C54", "title": "Iteration terminates and can be restarted", "statement": "With batch_size >= 1 iteration ends after at most one call per file plus one, and after reset() the same sequence is produced again.", "quantifier": "every directory listing and outcome", "why_tests_cant": "all listings", "anchors": ["MahjongAI/utils/dataloader.py:DataLoader.__next__", "MahjongAI/utils/dataloader.py:DataLoader.reset"]}
{"id": "C55", "title": "Every batch can be stacked", "statement": "Every batch a DataLoader yields can be turned into tensors by the model.", "quantifier": "every directory and outcome", "why_tests_cant": "needs all-invalid tails", "anchors": ["MahjongAI/utils/dataloader.py:DataLoader.__next__", "MahjongAI/agents/transformer.py:TransformerTensorProcessor.stack_batches", "MahjongAI/agents/transformer_conv_ordered.py:TransformerTensorProcessor.stack_batches"]}
{"id": "C56", "title": "Latest checkpoint wins", "statement": "find_latest_checkpoint returns the highest iteration among the checkpoints of exactly the requested model and that file's path, or (0, None) when there is none.", "quantifier": "every directory content and model name", "why_tests_cant": "all directory contents", "anchors": ["MahjongAI/supervised_learning.py:find_latest_checkpoint"]}
{"id": "C57", "title": "Resuming neither repeats nor skips iterations", "statement": "However training is interrupted between checkpoints and restarted, iteration numbers whose checkpoints were written form a gap-free sequence, and no existing checkpoint is overwritten.", "quantifier": "every crash/restart history at checkpoint boundaries", "why_tests_cant": "all crash points", "anchors": ["MahjongAI/supervised_learning.py:train", "MahjongAI/supervised_learning.py:find_latest_checkpoint"]}
{"id": "C58", "title": "A crash while saving is survivable", "statement": "After a crash at any point, including in the middle of writing a checkpoint, the next run can start.", "quantifier": "every crash point", "why_tests_cant": "crash in the middle of a write", "anchors": ["MahjongAI/supervised_learning.py:train"]}
{"id": "C59", "title": "Resumed training equals uninterrupted training", "statement": "Stopping after n iterations and resuming for m gives the same parameters as n+m iterations in one run.", "quantifier": "every training dynamics and split", "why_tests_cant": "all dynamics", "anchors": ["MahjongAI/supervised_learning.py:train"]}
{"id": "C60", "title": "Learning-rate multiplier", "statement": "The multiplier rises linearly from 0 to 1 over the first 1000 steps, then never leaves [0,1] and does not increase until step 1000000.", "quantifier": "every step number", "why_tests_cant": "all steps; real arithmetic", "anchors": ["MahjongAI/supervised_learning.py:train"]}
{"id": "C61", "title": "Validation is repeatable and bounded", "statement": "Each validation pass uses the same leading batches of the validation directory, at most ceil(20/batch_size)+1 of them.", "quantifier": "every directory and history", "why_tests_cant": "all histories", "anchors": ["MahjongAI/supervised_learning.py:estimate_loss"]}
{"id": "C62", "title": "ShantenSolver leaves the hand unchanged and terminates", "statement": "solve() terminates for every hand and restores the hand vector it searches over.", "quantifier": "every hand vector", "why_tests_cant": "exponential search space", "anchors": ["MahjongAI/utils/shanten.py:ShantenSolver.solve", "MahjongAI/utils/shanten.py:ShantenSolver.solve_normal"]}
{"id": "C63", "title": "ShantenSolver recognises standard wins exactly", "statement": "For a hand without red markers, solve_normal reports -1 exactly when the concealed tiles are (4 - melds) sets and one pair.", "quantifier": "every hand with counts 0-4 and 14 - 3*melds tiles", "why_tests_cant": "all hands", "anchors": ["MahjongAI/utils/shanten.py:ShantenSolver.solve_normal"]}
{"id": "C64", "title": "ShantenSolver reports -1 only for wins", "statement": "solve() returns -1 only for standard, seven-pairs or thirteen-orphans wins.", "quantifier": "every 14-tile hand", "why_tests_cant": "all hands", "anchors": ["MahjongAI/utils/shanten.py:ShantenSolver.solve", "MahjongAI/utils/shanten.py:ShantenSolver.solve_kokushi"]}
{"id": "C65", "title": "Red fives do not change the shanten number", "statement": "Marking fives as red does not change the result of ShantenSolver.", "quantifier": "every hand", "why_tests_cant": "all hands", "anchors": ["MahjongAI/utils/shanten.py:ShantenSolver._init", "MahjongAI/utils/shanten.py:ShantenSolver.solve_kokushi", "MahjongAI/utils/constants.py:YAOCHU_TENSOR"]}
{"id": "C66", "title": "Tile index table", "statement": "Every tile id 0..135 maps to its type id//4 and additionally to exactly one red index iff it is a red five; each type has four ids and each red index one, matching REMAINING_TILES.", "quantifier": "every tile id", "why_tests_cant": "whole domain", "anchors": ["MahjongAI/utils/constants.py:TILE2IDX", "MahjongAI/utils/constants.py:REMAINING_TILES"]}
{"id": "C67", "title": "Log download URLs", "statement": "Every link of the form http://tenhou.net/0/?log=G is turned into the download URL for G and file name G.log, with G the text up to the next '='.", "quantifier": "every URL string", "why_tests_cant": "all strings", "anchors": ["MahjongAI/data/scrape_data.py"]}
{"id": "C68", "title": "Replacement draws are reported", "statement": "A self-drawn win on the draw after a kan is evaluated with the rinshan flag set.", "quantifier": "every accepted round and draw after a kan", "why_tests_cant": "all histories", "anchors": ["MahjongAI/process_xml.py:process", "MahjongAI/utils/agari.py:evaluate_tsumo"]}
{"id": "C69", "title": "The last tile is reported", "statement": "A win on the last self-draw is evaluated as haitei and a win on the last discard as houtei, and on no other.", "quantifier": "every accepted round", "why_tests_cant": "all histories", "anchors": ["MahjongAI/process_xml.py:process", "MahjongAI/utils/agari.py:evaluate_ron"]}
{"id": "C70", "title": "Melds follow the calls", "statement": "At every point the melds kept for a player are that player's calls in order, an added kan replacing the pon it extends.", "quantifier": "every accepted round and every point in it", "why_tests_cant": "all histories", "anchors": ["MahjongAI/process_xml.py:process"]}
{"id": "C71", "title": "Robbing a kan", "statement": "A ron evaluated against an added kan, and no other evaluation, carries the chankan flag, and it is about the added tile.", "quantifier": "every accepted round", "why_tests_cant": "all histories", "anchors": ["MahjongAI/process_xml.py:process", "MahjongAI/utils/agari.py:evaluate_ron"]}
{"id": "C72", "title": "Renhou flag", "statement": "A ron is evaluated as renhou exactly for players who have not drawn yet when nobody has called.", "quantifier": "every accepted round", "why_tests_cant": "all histories", "anchors": ["MahjongAI/process_xml.py:process", "MahjongAI/utils/agari.py:evaluate_ron"]}
{"id": "C73", "title": "Every processed round can be turned into samples", "statement": "For every accepted round with consistent seats, unambiguous calls, one riichi payment per player and four starting scores, every model builds its tensors without an exception.", "quantifier": "every accepted round and every model variant", "why_tests_cant": "all histories", "anchors": ["MahjongAI/agents/transformer.py:TransformerTensorProcessor.build_tensors", "MahjongAI/agents/transformer_conv_ordered.py:TransformerTensorProcessor.build_tensors"]}
{"id": "C74", "title": "Reaction samples show the deciding player", "statement": "The state tensors of a post-turn row show the hand and the unseen tiles of the player whose decision it is.", "quantifier": "every post-turn row", "why_tests_cant": "all histories", "anchors": ["MahjongAI/agents/transformer.py:TransformerTensorProcessor._build_post_tensor", "MahjongAI/process_xml.py:process"]}
{"id": "C75", "title": "Samples show the state at the decision", "statement": "The state tensors of a sample show the game as it was when the decision was made.", "quantifier": "every accepted round, sample and model variant", "why_tests_cant": "all histories; aliasing of arrays across a round", "anchors": ["MahjongAI/process_xml.py:process", "MahjongAI/agents/transformer.py:TransformerTensorProcessor._convert_state_obj_to_tensors"]}
{"id": "C76", "title": "Padding contributes nothing to the encoder input", "statement": "At a padded position of a token row the encoder input is the zero vector, whatever the trainable weights are.", "quantifier": "every position and all weights", "why_tests_cant": "all real weights", "anchors": ["MahjongAI/agents/transformer.py:Encoder.forward", "MahjongAI/agents/transformer_conv_ordered.py:Encoder.forward"]}
{"id": "C77", "title": "The encoder input identifies the event", "statement": "Two different public events at the same position have different encoder inputs for some weights.", "quantifier": "every pair of events a log can contain", "why_tests_cant": "all pairs of events, all weights", "anchors": ["MahjongAI/agents/transformer.py:Encoder.forward", "MahjongAI/agents/transformer_conv_ordered.py:Encoder.forward"]}
{"id": "C78", "title": "A sample's output does not depend on its batch", "statement": "The logits of a sample are the same in every batch that contains it, and the loss of a batch is the mean of its samples' losses.", "quantifier": "all weights, layer counts, samples and batches, in evaluation mode", "why_tests_cant": "all real weights and batches", "anchors": ["MahjongAI/agents/transformer.py:TransformerModel.forward", "MahjongAI/agents/transformer.py:Decoder.forward", "MahjongAI/agents/transformer_conv_ordered.py:TransformerConvOrderedModel.forward"]}
{"id": "C79", "title": "Disallowed actions do not compete", "statement": "Every action whose mask entry is 0 gets the logit -1e9, allowed actions keep the network's output whatever the mask is, the best action is allowed as long as an allowed logit exceeds -1e9, and the loss is never negative.", "quantifier": "all weights, samples and masks", "why_tests_cant": "all real weights", "anchors": ["MahjongAI/agents/transformer.py:Decoder.forward", "MahjongAI/agents/transformer_conv_ordered.py:Decoder.forward"]}
{"id": "C80", "title": "The loss is bounded by the spread of the allowed logits", "statement": "For a sample built from an accepted round, the loss is at most ln(number of actions) plus the spread of the logits of the allowed actions.", "quantifier": "all weights and accepted rounds", "why_tests_cant": "all real weights and histories", "anchors": ["MahjongAI/agents/transformer.py:Decoder.forward", "MahjongAI/process_xml.py:process"]}
{"id": "C81", "title": "The shanten number is the distance to a standard win", "statement": "For a hand of tiles and m melds, one more than the number of the standard search is the least number of draws that turns it into 4-m sets and a pair.", "quantifier": "every hand of 13-3m or 14-3m tiles", "why_tests_cant": "all hands", "anchors": ["MahjongAI/utils/shanten.py:ShantenSolver"]}
{"id": "C82", "title": "The special shanten numbers are distances", "statement": "One more than the number for seven pairs (thirteen orphans) is the least number of draws that turns the hand into seven different pairs (thirteen orphans).", "quantifier": "every hand", "why_tests_cant": "all hands", "anchors": ["MahjongAI/utils/shanten.py:ShantenSolver"]}
{"id": "C83", "title": "A batch holds the samples of all its rounds", "statement": "The rows of a batch are exactly the rows of the rounds of its games, in order, each round built with its own tokens.", "quantifier": "every batch of games and every model variant", "why_tests_cant": "all batches", "anchors": ["MahjongAI/agents/transformer.py:TransformerTensorProcessor", "MahjongAI/agents/transformer_conv_ordered.py:TransformerTensorProcessor"]}
{"id": "C84", "title": "Riichi is offered when the rules allow it", "statement": "On a draw a riichi decision is recorded exactly when the player has a closed hand, has not declared riichi, is tenpai according to the shanten library, has 1000 points and at least four draws are left.", "quantifier": "every accepted round and every draw", "why_tests_cant": "all histories", "anchors": ["MahjongAI/process_xml.py:process"]}
{"id": "C85", "title": "The calls offered after a discard fit the hands", "statement": "After a discard every recorded call candidate claims the discarded tile from the discarder, shows tiles the player holds concealed at that moment, chi goes to the next player only, the discarder gets none, and pon and open kan are offered by the number of copies held.", "quantifier": "every accepted round and every discard", "why_tests_cant": "all histories", "anchors": ["MahjongAI/process_xml.py:process", "MahjongAI/decision.py:decision_mask"]}
{"id": "C86", "title": "Players in riichi are offered no calls", "statement": "After a discard no chi, pon or open kan is recorded as a decision of a player in riichi.", "quantifier": "every accepted round and every discard", "why_tests_cant": "all histories", "anchors": ["MahjongAI/process_xml.py:process", "MahjongAI/decision.py:decision_mask"]}
{"id": "C87", "title": "A run trains on whole, distinct rows and on nothing else", "statement": "Every completed training run makes, for each batch of the directory of each iteration, one update per head that has samples, in the order during, discard, post, on at most 2250 different complete rows of that batch (all of them when there are no more); it validates after the batches that are due and saves one checkpoint per iteration.", "quantifier": "every model, directory contents, outcome of random sampling, batch size and number of iterations", "why_tests_cant": "random sampling, all histories", "anchors": ["MahjongAI/supervised_learning.py:train", "MahjongAI/agents/transformer.py:TransformerModel.forward", "MahjongAI/agents/transformer_conv_ordered.py:TransformerConvOrderedModel.forward"]}
{"id": "C88", "title": "The k-th update of a run uses the k-th learning rate", "statement": "The learning-rate multiplier of the k-th parameter update of a run (counting from 0 at the start of the process) is the scheduler's value at k, so it does not depend on batches, heads or skipped files; the first update of every run changes nothing.", "quantifier": "every completed run", "why_tests_cant": "all histories, all real parameters", "anchors": ["MahjongAI/supervised_learning.py:train"]}
{"id": "C89", "title": "Validation happens once per 1000 games", "statement": "During an iteration exactly one validation is made per 1000 games of the training directory, after the batch that starts with that game for the batch sizes in use.", "quantifier": "every batch size up to 1000, every block of 1000 games, every model name", "why_tests_cant": "all positions in a directory", "anchors": ["MahjongAI/supervised_learning.py:train"]}
{"id": "C90", "title": "Batches without samples do not stop training", "statement": "A batch that contains no samples is skipped and training continues.", "quantifier": "every model, directory and position of the batch", "why_tests_cant": "depends on which files are rejected", "anchors": ["MahjongAI/supervised_learning.py:train", "MahjongAI/agents/transformer.py:TransformerTensorProcessor.stack_batches", "MahjongAI/agents/transformer_conv_ordered.py:TransformerTensorProcessor.stack_batches"]}
{"id": "C91", "title": "Samples show the table situation", "statement": "The score, dealer, deals-left, riichi, remaining-draw, stick, honba and rounds-left inputs of every sample are those of the log after the last draw or call before the decision: scores less the sticks paid, the seat in the INIT event as the only dealer, for each seat the number of regular rounds still to be dealt (up to the last regular round), and the numbers of the INIT seed.", "quantifier": "every accepted round, every model and every sample", "why_tests_cant": "all histories", "anchors": ["MahjongAI/process_xml.py:process", "MahjongAI/agents/transformer.py:TransformerTensorProcessor._convert_state_obj_to_tensors"]}
{"id": "C92", "title": "Samples show who can win by ippatsu", "statement": "The ippatsu input of a sample marks exactly the players whose win at that moment would be ippatsu.", "quantifier": "every accepted round, sample and player", "why_tests_cant": "all histories", "anchors": ["MahjongAI/process_xml.py:process", "MahjongAI/agents/transformer.py:TransformerTensorProcessor._convert_state_obj_to_tensors"]}
{"id": "C93", "title": "Every link of an index page is found", "statement": "The addresses taken from an index page are exactly those of its links, in page order.", "quantifier": "every page made of text and links, in any number and order, whose tags do not break the line after the address", "why_tests_cant": "all pages; lazy regular expressions are easily defeated by attributes and other tags", "anchors": ["MahjongAI/data/scrape_data.py:re.findall"]}
{"id": "C94", "title": "Every listed game is requested in order", "statement": "A run requests every log address in the .html files of the directory, once per link and in order, until the client raises or an answer cannot be stored; if neither happens none is left out.", "quantifier": "every directory, HTTP client (its answers may depend on earlier requests) and set of writable paths", "why_tests_cant": "all histories of answers and failures", "anchors": ["MahjongAI/data/scrape_data.py:requests.get"]}
{"id": "C95", "title": "Downloads never spoil other logs", "statement": "After a run a file holds the last successful (status 200) answer stored under its name, and a file with no such answer is unchanged.", "quantifier": "every directory, client, and previous content of the disk", "why_tests_cant": "all histories of answers and failures", "anchors": ["MahjongAI/data/scrape_data.py:requests.get"]}
{"id": "C96", "title": "Interrupted downloads leave no broken log", "statement": "If the run is killed while storing an answer, every log file on disk is complete (an old or a new answer).", "quantifier": "every directory, client and kill point", "why_tests_cant": "all kill points", "anchors": ["MahjongAI/data/scrape_data.py:data_file.write"]}
{"id": "C97", "title": "Clean-up keeps exactly the index files", "statement": "filter_raw.sh keeps exactly the hidden files and the files whose names start with scc, replaces each packed one that is not damaged by its unpacked content under the name without .gz, and deletes everything else.", "quantifier": "every directory in which no file is present both packed and unpacked", "why_tests_cant": "all directory contents", "anchors": ["MahjongAI/data/filter_raw.sh"]}
{"id": "C98", "title": "Training years take turns and validation data stay unseen", "statement": "Iteration i trains on exactly the files of the year 2012 + i mod 8, so eight consecutive iterations use every training year once however the run was resumed, and no validation file is ever trained on.", "quantifier": "every run, starting iteration, listing of the directories and game outcome", "why_tests_cant": "all runs and restarts", "anchors": ["MahjongAI/supervised_learning.py:train", "MahjongAI/utils/dataloader.py:DataLoader"]}
{"id": "C99", "title": "Players who may react to one tile are told apart", "statement": "If two players may react to the same discard, the network's scores for the two of them may differ for an action both may take: the scores depend on whose decision it is.", "quantifier": "all weights, all batches, every reaction of an accepted round", "why_tests_cant": "all weights and histories", "anchors": ["MahjongAI/agents/transformer.py:TransformerTensorProcessor._build_post_tensor", "MahjongAI/agents/transformer.py:Encoder.forward", "MahjongAI/agents/transformer.py:TransformerModel.forward"]}
{"id": "C100", "title": "Training on well-formed logs completes", "statement": "Training for any number of iterations on directories of well-formed logs (rejected files allowed, the last file of each directory accepted) ends without an error, and for every update the network has an output and a loss for the samples selected.", "quantifier": "every model, batch size, starting iteration, random order, weights and outcome of dropout", "why_tests_cant": "all directories, random orders and histories", "anchors": ["MahjongAI/supervised_learning.py:train", "MahjongAI/utils/dataloader.py:DataLoader", "MahjongAI/agents/transformer.py:TransformerModel.forward", "MahjongAI/process_xml.py:process"]}
{"id": "C101", "title": "Dropout is on in training and off in validation", "statement": "Every parameter update of a run is computed in training mode and every validation in evaluation mode, also after earlier validations.", "quantifier": "every model, directory contents, batch size and number of iterations", "why_tests_cant": "all histories of updates and validations", "anchors": ["MahjongAI/supervised_learning.py:train", "MahjongAI/supervised_learning.py:estimate_loss"]}
{"id": "C102", "title": "Every accepted command line trains, every other stops first", "statement": "The program accepts exactly the command lines with one of the nine model names and the text of an integer n; it never ends with NotImplementedError, adds n checkpoints of that model (none for negative n) and uses a different network for every name. All other command lines end with ValueError or AssertionError before training starts.", "quantifier": "every list of arguments (any text), every directory left by earlier runs and every outcome of training", "why_tests_cant": "all texts", "anchors": ["MahjongAI/supervised_learning.py:__main__", "MahjongAI/supervised_learning.py:train"]}
{"id": "C103", "title": "Shanten does not depend on which suit is which", "statement": "Renaming the suits and the honours of a hand (any permutation of the three suits and of the seven honours) does not change the result of ShantenSolver.", "quantifier": "every vector of counts and every renaming, in any combination", "why_tests_cant": "all hands; the search walks the suits in a fixed order", "anchors": ["MahjongAI/utils/shanten.py:ShantenSolver.solve"]}
{"id": "C104", "title": "Shanten is the same in the mirror", "statement": "Reading every suit backwards (one becomes nine, two becomes eight) does not change the result of ShantenSolver.", "quantifier": "every hand", "why_tests_cant": "all hands; the search walks every suit from its lowest tile", "anchors": ["MahjongAI/utils/shanten.py:ShantenSolver.solve"]}
{"id": "C105", "title": "ShantenSolver recognises waiting hands exactly", "statement": "For 13 - 3m tiles without red markers, solve_normal reports 0 exactly when one more tile (possibly a fifth copy) makes 4 - m sets and a pair, and never less; solve() reports 0 exactly for these hands, for six types held at least twice, and for hands whose orphan types plus the copies of one orphan make 14.", "quantifier": "every hand of 13 - 3m tiles without red markers, every m", "why_tests_cant": "all hands; the search does not try every split of three or four equal tiles", "anchors": ["MahjongAI/utils/shanten.py:ShantenSolver.solve_normal", "MahjongAI/utils/shanten.py:ShantenSolver.solve"]}
{"id": "C106", "title": "A draw never makes a hand worse", "statement": "Drawing a tile never raises the number of ShantenSolver and lowers it by at most one.", "quantifier": "every hand and every drawn tile", "why_tests_cant": "all hands", "anchors": ["MahjongAI/utils/shanten.py:ShantenSolver.solve"]}
{"id": "C107", "title": "A failed assertion ends the pass and nothing else does", "statement": "If processing a log fails an assertion, the pass over the directory ends with an exit after handing over the games before that file in full batches; the fewer than batch_size games collected since are lost. Every other exception only skips its file.", "quantifier": "every directory, batch size and outcome of processing, any position of the file", "why_tests_cant": "all positions and outcomes", "anchors": ["MahjongAI/utils/dataloader.py:DataLoader.__next__"]}
{"id": "C108", "title": "The validation loss is the mean over fixed, complete data", "statement": "Every validation of a run averages, with equal weight, one loss per batch and head that has samples, each computed on all rows of that head in the leading batches of the validation directory (up to the batch that starts with game 20 or later); nothing is sampled, so all validations use the same data.", "quantifier": "every run, model, batch size, directory contents and outcome of random sampling", "why_tests_cant": "all histories and random orders", "anchors": ["MahjongAI/supervised_learning.py:estimate_loss", "MahjongAI/agents/transformer.py:TransformerModel.forward"]}
{"id": "C109", "title": "Samples do not reveal hidden tiles", "statement": "The samples of a player do not depend on what the player cannot see: in two rounds with the same scores, dealer, seed, own tiles, own draws, discards, calls, riichi and indicators, but other tiles dealt to or drawn by the others, the player's samples are the same, rows, masks and labels.", "quantifier": "every pair of accepted rounds that look the same to the player, every model", "why_tests_cant": "all pairs of histories (a two-run property)", "anchors": ["MahjongAI/process_xml.py:process", "MahjongAI/agents/transformer.py:TransformerTensorProcessor._convert_state_obj_to_tensors", "MahjongAI/agents/transformer.py:TransformerTensorProcessor._build_post_tensor"]}
{"id": "C110", "title": "Only the moves and the rules of a log matter", "statement": "Two logs whose elements, in document order and without the header elements, agree in their tags and in the attributes that describe the game (deal, tiles, who, call codes, riichi steps, score changes) and whose game types have the same rule bits are converted to exactly the same half-turns and tokens, or raise the same exception: names, ranks, time stamps, waits, the order of attributes, other attributes, the nesting of elements and the speed and level bits do not matter.", "quantifier": "every pair of parsed logs, well-formed or not", "why_tests_cant": "all logs (a two-run property)", "anchors": ["MahjongAI/process_xml.py:process", "MahjongAI/process_xml.py:get_rounds"]}
{"id": "C111", "title": "Furiten players are not offered a ron", "statement": "A ron on a discard is not offered to a player in furiten: one who has discarded any tile that completes the hand, one who has let such a tile of another player pass since the own last play, or one who has let one pass after the own riichi; every other player whose hand the tile completes is offered it.", "quantifier": "every accepted round up to a discard, every player, every rule for won hands and scoring library", "why_tests_cant": "all histories", "anchors": ["MahjongAI/process_xml.py:process", "MahjongAI/utils/agari.py:evaluate_ron"]}
{"id": "C112", "title": "The network is told for whom it decides", "statement": "The network can tell for which seat an own-turn or discard decision is made, so that the scores, riichi flags and the dealer mark, which are listed by seat, can be attributed: samples of players in different seats, from the same or from different rounds, never give the network the same input.", "quantifier": "every pair of own-turn or discard samples of accepted rounds in which the dealer opens, all weights", "why_tests_cant": "all pairs of histories (a two-run property) and all weights", "anchors": ["MahjongAI/agents/transformer.py:TransformerTensorProcessor._convert_state_obj_to_tensors", "MahjongAI/agents/transformer.py:Encoder.forward", "MahjongAI/agents/transformer_conv_ordered.py:Encoder.forward"]}
{"id": "C113", "title": "Wins that happen are labelled", "statement": "If a round ends with a win that was offered in a recorded decision of the winner, the sample of that decision has the win as its target.", "quantifier": "every accepted round that ends with a win, by discard or self-draw, and every model", "why_tests_cant": "all histories", "anchors": ["MahjongAI/process_xml.py:process", "MahjongAI/agents/transformer.py:TransformerTensorProcessor._build_during_tensor", "MahjongAI/agents/transformer.py:TransformerTensorProcessor._build_post_tensor"]}
{"id": "C114", "title": "Copies of a tile are interchangeable", "statement": "Of two rounds that differ only in which copies of the tiles (red fives apart) are dealt, drawn, discarded, called and turned up either both are accepted or none is, and accepted ones give the same tokens and the same samples.", "quantifier": "every pair of rounds that are copies of each other, every renaming of copies, every model and every scoring library that does not tell copies apart", "why_tests_cant": "all pairs of histories (a two-run property) and all renamings", "anchors": ["MahjongAI/process_xml.py:process", "MahjongAI/draw.py:Naki", "MahjongAI/agents/transformer.py:TransformerTensorProcessor"]}
{"id": "C115", "title": "The network can see the dora", "statement": "Two rounds in which different tiles are dora never give the network the same input: the first indicator is part of what the samples show.", "quantifier": "every pair of accepted rounds, every sample, every model", "why_tests_cant": "all pairs of histories (a two-run property)", "anchors": ["MahjongAI/process_xml.py:process", "MahjongAI/agents/transformer.py:TransformerTensorProcessor._convert_state_obj_to_tensors"]}
{"id": "C116", "title": "Batch numbers in the log", "statement": "The number in the message the data loader logs with a batch is the number of batches requested from it so far, the requests that ended a pass included: it never repeats and never goes back, resets do not restart it, and in the k-th of several complete passes over the same files, each of B batches, the numbers are (k-1)(B+1)+1 to (k-1)(B+1)+B.", "quantifier": "every directory, batch size, outcome of reading each file, and history of requests and resets", "why_tests_cant": "all histories of requests, failures and resets", "anchors": ["MahjongAI/utils/dataloader.py:DataLoader.__next__", "MahjongAI/utils/dataloader.py:DataLoader.reset"]}
{"id": "C117", "title": "Training runs of different models do not disturb each other", "statement": "If training processes of different models run at the same time in the same directory, each of them starts from the checkpoint, trains and saves exactly as it would alone, whatever the other processes do and wherever they are killed.", "quantifier": "any number of processes, every interleaving of their steps, every kill point, every training outcome and every directory left by earlier runs", "why_tests_cant": "all schedules and crash points", "anchors": ["MahjongAI/supervised_learning.py:find_latest_checkpoint", "MahjongAI/supervised_learning.py:train"]}
{"id": "C118", "title": "A complete checkpoint is never overwritten, also with several runs at once", "statement": "Once a checkpoint has been saved completely its content never changes again, whatever training processes run in the directory.", "quantifier": "any number of processes and models, every interleaving of their steps and every kill point", "why_tests_cant": "all schedules and crash points", "anchors": ["MahjongAI/supervised_learning.py:find_latest_checkpoint", "MahjongAI/supervised_learning.py:train"]}
{"id": "C119", "title": "Several downloads at once leave complete logs", "statement": "If several download processes run at the same time in one directory, then, provided good answers to the same request are the same text, every log file that no process is writing at the moment, or was killed while writing, is complete: it is as it was before or holds the whole answer to its address.", "quantifier": "any number of processes, every interleaving of their writes, every kill point and previous content of the disk", "why_tests_cant": "all schedules and crash points", "anchors": ["MahjongAI/data/scrape_data.py:requests.get", "MahjongAI/data/scrape_data.py:data_file.write"]}
{"id": "C120", "title": "Every training run has its own complete log", "statement": "The log file of a training process holds the header and exactly the lines this process has logged, in order, whatever other training processes run in the directory.", "quantifier": "any number of processes, every interleaving of their log lines, every text", "why_tests_cant": "all schedules", "anchors": ["MahjongAI/supervised_learning.py:log_file", "MahjongAI/supervised_learning.py:log_message"]}
{"id": "C121", "title": "No call is offered that the rules forbid", "statement": "With the last tile of the wall nobody is offered a chi, pon or kan, and after four kans no further kan is offered.", "quantifier": "every accepted round, every discard and draw", "why_tests_cant": "all histories", "anchors": ["MahjongAI/process_xml.py:process", "MahjongAI/decision.py:decision_mask"]}
{"id": "C122", "title": "Forced discards are not samples", "statement": "A discard becomes a training sample exactly if the player had a choice: those of players in riichi, who must discard the tile they have drawn, are left out.", "quantifier": "every accepted round, every model", "why_tests_cant": "all histories", "anchors": ["MahjongAI/process_xml.py:process", "MahjongAI/agents/transformer.py:TransformerTensorProcessor._build_discard_tensor"]}
{"id": "C123", "title": "Repeating an interrupted download repairs it", "statement": "After any number of interrupted downloads of the same pages, one run that ends without an error and gets good answers leaves every listed log complete and every other file as it was in the beginning.", "quantifier": "every set of pages, any number of interruptions at any point, every client (answers may differ between the runs)", "why_tests_cant": "all crash points and histories of answers", "anchors": ["MahjongAI/data/scrape_data.py:requests.get", "MahjongAI/data/scrape_data.py:data_file.write"]}
{"id": "C124", "title": "Cleaning up twice is the same as once", "statement": "Running filter_raw.sh again on the directory it has left changes nothing.", "quantifier": "every directory and decoder in which no file is present both packed and unpacked", "why_tests_cant": "all directory contents", "anchors": ["MahjongAI/data/filter_raw.sh"]}
{"id": "C125", "title": "Printing a call never fails and names the call", "statement": "Printing a call object succeeds for every integer code. For the code of a real call the text is the kind of the call (Chi, Pon, Kakan, Minkan, Ankan), a colon and the number of the action in the head it belongs to; two real calls print the same exactly when they have the same kind and the same action number. The text 'Invalid naki code' is printed exactly for the codes that are no call.", "quantifier": "every integer code; every pair of codes of real calls", "why_tests_cant": "the codes are unbounded integers and the text depends on the order in which overlapping bit patterns are tested", "anchors": ["MahjongAI/draw.py:Naki.__repr__", "MahjongAI/draw.py:Naki.get_post_turn_filter_idx", "MahjongAI/draw.py:Naki.get_during_turn_filter_idx"]}
{"id": "C126", "title": "Every action number names a call", "statement": "On the player's own turn each number from 3 to 70 is the action number of some call and no other number is. After another player's discard each number from 2 to 153 should be the number of some call; it is not: exactly 65, 66, 67, 70, 73, 76, 79 and 82 belong to no call, so these eight outputs of the network can never be right.", "quantifier": "every action number and every meld code", "why_tests_cant": "that no code gives a number is a statement about all codes", "anchors": ["MahjongAI/draw.py:Naki.get_post_turn_filter_idx", "MahjongAI/draw.py:Naki.get_during_turn_filter_idx"]}
{"id": "C127", "title": "Which rows of the encoder's tables are in use", "statement": "A row of one of the encoder's embedding tables is part of the network's input for some event or padding token exactly when it is not on this list. Ordered agent: the first type row, the row for discards from the hand, the during-turn rows 0 to 2, the post-turn rows 0, 1 and the eight action numbers that name no call. Other agents: every type row and player row except the first, during-turn rows 65 to 67, post-turn rows 71 to 127. Weights in rows on the list never change an input; every other trainable row changes every coordinate of the input of some token.", "quantifier": "every agent, table, row, weight assignment, deciding player, position and token of a legal event or of the padding", "why_tests_cant": "that a weight has no effect is a statement about all tokens and all weights", "anchors": ["MahjongAI/agents/transformer.py:Encoder.forward", "MahjongAI/agents/transformer_conv_ordered.py:Encoder.forward", "MahjongAI/process_xml.py:naki2idx", "MahjongAI/process_xml.py:discard2idx"]}
{"id": "C128", "title": "Every output of the reaction head can be right", "statement": "For each output of the head for reactions (0 pass, 1 ron, 2 to 153 calls) there is a discard after which it is allowed. It is not so: a call with number i is offered for some hands exactly if i is none of 65, 66, 67, 69, 70, 73, 75, 76, 79, 81, 82, 110, 111, 112; no sample of any round allows one of these fourteen outputs or has it as its target, although six of them are numbers of real calls.", "quantifier": "every output, all hands, discards and rounds", "why_tests_cant": "that an output is never allowed is a statement about all rounds", "anchors": ["MahjongAI/decision.py:decision_mask", "MahjongAI/draw.py:Naki.get_post_turn_filter_idx", "MahjongAI/agents/transformer.py:TransformerTensorProcessor._build_post_tensor"]}
{"id": "C129", "title": "A called open kan is a target", "statement": "If a player calls an open kan that was offered in a recorded reaction, the sample of that reaction has the kan as its target. It is not so: in a round in which open kans claim the tile just discarded, the target of every reaction is to pass or a chi or pon; never a kan, never a ron.", "quantifier": "every accepted round in which the open kans claim the tile discarded last, every model", "why_tests_cant": "all histories", "anchors": ["MahjongAI/process_xml.py:process", "MahjongAI/decision.py:decision_mask", "MahjongAI/draw.py:Naki.from_minkan_info", "MahjongAI/agents/transformer.py:TransformerTensorProcessor._build_post_tensor"]}
{"id": "C130", "title": "A declared kan is a target", "statement": "If a player declares a closed kan, or an added kan that is offered, the sample of that turn has it as its target. For closed kans this is so: a player has a sample whose target is the closed kan of a tile type exactly if the player declares one. For added kans it is not: the target of an own turn is always riichi or a closed kan.", "quantifier": "every accepted round with consistent seats in which closed kans have the codes of the game server and the codes of added kans name the player from whom the pon was claimed, every model", "why_tests_cant": "all histories", "anchors": ["MahjongAI/process_xml.py:process", "MahjongAI/draw.py:Naki.from_ankan_info", "MahjongAI/draw.py:Naki.from_kakan_info", "MahjongAI/draw.py:Naki._clean_ankan", "MahjongAI/draw.py:Naki._clean_kakan", "MahjongAI/agents/transformer.py:TransformerTensorProcessor._build_during_tensor"]}
{"id": "C131", "title": "A called chi or pon is the target of the caller's sample", "statement": "If a player calls a chi or a pon, a sample of that player has the call as its target. This fails for some calls, and the targets are exactly these: a chi, unless the hand gives a five and contains the red five of the suit and either the claimed tile goes between the other two, or the five given is not red and the hand does not contain two copies of the type claimed; and a pon, if the red five comes from the hand and is one of exactly two copies held, or if the red five is not in the pon, the claimed copy is the lowest of the three and exactly two copies that are not red are held.", "quantifier": "every accepted round with consistent seats in which calls have the codes of the game server, claim the tile discarded last and, for a chi, claim from the player on the left; every model, player and target", "why_tests_cant": "all histories", "anchors": ["MahjongAI/process_xml.py:process", "MahjongAI/decision.py:decision_mask", "MahjongAI/draw.py:Naki._clean_chi", "MahjongAI/draw.py:Naki._clean_pon", "MahjongAI/draw.py:Naki.get_post_turn_filter_idx", "MahjongAI/agents/transformer.py:TransformerTensorProcessor._build_post_tensor"]}
{"id": "C132", "title": "A round that follows the rules is never rejected", "statement": "If a round starts with a proper deal (four scores, a dealer, the six seed numbers, thirteen tiles for each player, all different and different from the indicator), if each of its events may follow the ones before it (a draw of a tile still in the wall after a discard or a kan; a discard by the player who drew or called, of a tile in that player's hand; a chi, pon or open kan of the tile just discarded by someone else with tiles in the caller's hand; a concealed or added kan and a riichi declaration by the player who drew; a riichi deposit after that player's discard; a new indicator from the wall at any time), and if it ends with results that carry scores, then processing the round returns its half-turns and tokens and raises nothing. A log of a supported game that consists of such rounds is processed as a whole. The scoring and shanten libraries are assumed to answer.", "quantifier": "every round and log that follows the rules, of any length, every game type, every pair of libraries that answer", "why_tests_cant": "the loop checks some fifteen assertions at each event and several more at the end; whether a legal sequence can trip one depends on the whole history of hands, melds and counts, and real logs only sample it", "anchors": ["MahjongAI/process_xml.py:process", "MahjongAI/process_xml.py:_get_rounds", "MahjongAI/draw.py:Naki"]}
{"id": "C133", "title": "Logs of games that follow the rules can be trained on", "statement": "A round that follows the rules (the legal rounds of C132, where in addition the code of a chi, pon or open kan names the player who discarded and no player pays two riichi sticks) is processed and becomes samples for every model. Training for any number of iterations on directories whose files all hold supported games of such rounds, each game with at least one discard, comes to its end without an error.", "quantifier": "every such round and game, every model, batch size, starting iteration, number of iterations and random order, all libraries that answer", "why_tests_cant": "all histories, directories and random orders", "anchors": ["MahjongAI/supervised_learning.py:train", "MahjongAI/utils/dataloader.py:DataLoader", "MahjongAI/process_xml.py:process", "MahjongAI/agents/transformer.py:TransformerTensorProcessor.build_tensors"]}
{"id": "C134", "title": "A round that breaks the rules is rejected", "statement": "If an event of a round breaks the rules of the game, processing the round raises an error. It is not so: a tile may be drawn twice or dealt to two players, a pon may claim a tile that was not discarded, a riichi may be declared or paid by someone else. Exactly this is checked of a round with a readable deal and meaningful events: each player is dealt thirteen different tiles; a draw comes at the start, after a discard or after a kan, to a hand of 1 mod 3 tiles that does not contain the tile; a discard comes after a draw, chi or pon, from a hand of 2 mod 3 tiles that contains the tile; the tiles shown by a call are in the caller's hand, and the call comes after a draw (closed and added kan) or after a discard (the others); a riichi declaration comes after a draw and a deposit after a discard; of no tile type did more copies come up than exist, in all and in the view of each player; every result has its scores. The type of game and the answers of the libraries do not matter.", "quantifier": "every round whose deal has readable attributes and names tiles, with events about real players, tiles and melds; every game type; all libraries that answer", "why_tests_cant": "an exact rule of acceptance is about all histories", "anchors": ["MahjongAI/process_xml.py:process", "MahjongAI/draw.py:Naki.get_exposed"]}
{"id": "C135", "title": "What the network computes", "statement": "In evaluation mode the score of an allowed action is that of a transformer: the state features become a vector by two convolutions of the counted tiles and three layers, the tokens are embedded, every encoder block adds attention over the normalised history and then a two-layer network, every decoder block adds self-attention, attention over the encoded history and a two-layer network to the state vector, and the head is applied to the normalised result. An attention layer returns the projection of eight heads side by side, each the mean of the values weighted by the softmax of the scaled products of query and keys. Every position has a positive share, padding included, the shares add up to one, and the order of the history matters only through the embedding of positions.", "quantifier": "every agent, head, network in evaluation mode with any number of blocks, non-empty batch, sample and allowed action; every rearrangement of the embedded history", "why_tests_cant": "all weights and inputs over the reals", "anchors": ["MahjongAI/agents/transformer.py:MultiHeadAttention", "MahjongAI/agents/transformer.py:Head", "MahjongAI/agents/transformer.py:EncoderBlock", "MahjongAI/agents/transformer.py:DecoderBlock", "MahjongAI/agents/transformer_conv_ordered.py:DecoderBlock"]}
{"id": "C136", "title": "Every weight of the network can matter", "statement": "For every trainable weight of the network there are inputs for which changing it changes the scores.", "quantifier": "every weight, network and batch", "why_tests_cant": "all weights and inputs over the reals", "anchors": ["MahjongAI/agents/transformer.py:Head", "MahjongAI/agents/transformer_conv_ordered.py:DecoderBlock"]}
{"id": "C137", "title": "Scores are bounded by the last two layers", "statement": "The score of an allowed action is, for every sample and with or without dropout, at most |b| plus the sum of |w| (8 |scale| + |shift|), over the weights of its row of the head and of the last normalisation; the other layers, the tokens and the features cannot push it further. So if these sums are below 1e9 the best action of every sample is allowed, and the loss of a sample with an allowed label is at most ln(number of actions) plus twice the largest of them. Without a condition on the weights the best action need not be allowed.", "quantifier": "every agent, head, network, batch, sample and action", "why_tests_cant": "all weights and inputs over the reals", "anchors": ["MahjongAI/agents/transformer.py:Decoder.forward", "MahjongAI/agents/transformer_conv_ordered.py:Decoder.forward"]}
{"id": "C138", "title": "Each output learns only from samples in which it is allowed", "statement": "The scores and the loss of a decision do not depend on the heads of the other two decisions. Within a head, the score of an action depends on the weights of its own output only, and on none of them where the action is not allowed, so the loss of a batch depends only on the outputs allowed in one of its samples; no batch made of rounds depends on the fourteen outputs of the reaction head that are never allowed. Where an action is allowed, its bias is added to its score.", "quantifier": "every agent, decision, network, other heads, non-empty batch and action", "why_tests_cant": "all weights and inputs over the reals, compared between two networks", "anchors": ["MahjongAI/agents/transformer.py:Decoder.forward", "MahjongAI/agents/transformer_conv_ordered.py:Decoder.forward"]}
{"id": "C139", "title": "Every output of the own-turn and discard heads can be right", "statement": "For each output of the own-turn head and of the discard head there is a round with a sample that allows it and has it as its target. It is not so: all 71 and all 37 outputs are allowed in some round, for every model, but in the own-turn head only riichi and the closed kans are ever targets, and in the discard head only the 34 tile types. A discarded red five has the number of its tile type, so the three outputs for red fives, although they are allowed, are never targets.", "quantifier": "every agent and output of the two heads; every accepted round", "why_tests_cant": "that an output is never a target is a statement about all rounds", "anchors": ["MahjongAI/agents/transformer.py:TransformerTensorProcessor._build_discard_tensor", "MahjongAI/agents/transformer.py:TransformerTensorProcessor._build_during_tensor"]}
