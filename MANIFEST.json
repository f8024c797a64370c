{
 "claims": [
  {
   "property": "C01",
   "status": "proved",
   "theorems": [
    "C01_chi_factory_round_trip"
   ],
   "note": ""
  },
  {
   "property": "C02",
   "status": "proved",
   "theorems": [
    "C02_pon_factory_round_trip",
    "C02_kakan_factory_round_trip",
    "C02_minkan_factory_round_trip",
    "C02_ankan_factory_round_trip"
   ],
   "note": ""
  },
  {
   "property": "C03",
   "status": "proved",
   "theorems": [
    "C03_classification",
    "C03_kind_predicates"
   ],
   "note": ""
  },
  {
   "property": "C04",
   "status": "proved",
   "theorems": [
    "C04_normalisation"
   ],
   "note": ""
  },
  {
   "property": "C05",
   "status": "partial",
   "theorems": [
    "C05_red_kept_partial",
    "C05_equal_codes_agree_partial",
    "C05_chi_normal_form_partial",
    "C05_equal_exact_partial",
    "C05_kakan_equal_exact",
    "C05_kakan_red_after_normalisation",
    "C05_refuted",
    "C05_refuted_distinct"
   ],
   "note": "False as stated (C05_refuted*): pon normalisation drops the red-five information. C05_equal_exact_partial says exactly which pairs of calls compare equal, C05_kakan_equal_exact the same for added kans; the other partial theorems state what is kept."
  },
  {
   "property": "C06",
   "status": "proved",
   "theorems": [
    "C06_melds_possible"
   ],
   "note": ""
  },
  {
   "property": "C07",
   "status": "proved",
   "theorems": [
    "C07_action_index_range"
   ],
   "note": ""
  },
  {
   "property": "C08",
   "status": "partial",
   "theorems": [
    "C08_during_injective",
    "C08_post_injective_partial",
    "C08_post_exact",
    "C08_post_reaction",
    "C08_refuted_same_suit",
    "C08_refuted_chi_pon",
    "C08_refuted_red_pon"
   ],
   "note": "During-turn indices are injective. Post-turn indices are not (C08_refuted_*); C08_post_exact says exactly which calls share an index, C08_post_reaction which reaction an index stands for."
  },
  {
   "property": "C09",
   "status": "proved",
   "theorems": [
    "C09_token_decodes"
   ],
   "note": ""
  },
  {
   "property": "C10",
   "status": "proved",
   "theorems": [
    "C10_unambiguous",
    "C10_never_padding"
   ],
   "note": ""
  },
  {
   "property": "C11",
   "status": "proved",
   "theorems": [
    "C11_flags",
    "C11_round_counts"
   ],
   "note": ""
  },
  {
   "property": "C12",
   "status": "proved",
   "theorems": [
    "C12_right_players"
   ],
   "note": ""
  },
  {
   "property": "C13",
   "status": "partial",
   "theorems": [
    "C13_playable_partial",
    "C13_refuted"
   ],
   "note": "Proved except for one corner (run centred on a discarded 4/6 with the red five in hand); C13_refuted shows the code violates the property there."
  },
  {
   "property": "C14",
   "status": "partial",
   "theorems": [
    "C14_chi_complete_partial",
    "C14_chi_exact",
    "C14_refuted"
   ],
   "note": "False in the corner of C13 (C14_refuted); C14_chi_exact gives exactly the chi that are offered, for every hand and discard."
  },
  {
   "property": "C15",
   "status": "partial",
   "theorems": [
    "C15_pon_minkan_exact",
    "C15_refuted"
   ],
   "note": "The exact rule is proved; the property as stated is false (C15_refuted: three copies of a non-five give no pon)."
  },
  {
   "property": "C16",
   "status": "partial",
   "theorems": [
    "C16_red_real_partial",
    "C16_refuted_minkan",
    "C16_black_five_rule",
    "C16_refuted_black_five"
   ],
   "note": "Proved for chi/pon; false for open kans of fives and for black fives (C16_refuted_*); the rule actually applied is C16_black_five_rule."
  },
  {
   "property": "C17",
   "status": "partial",
   "theorems": [
    "C17_chi_label_exact",
    "C17_pon_label_exact",
    "C17_pon_five_label_exact",
    "C17_minkan_never_labelled",
    "C17_refuted"
   ],
   "note": "Property as stated is false (C17_refuted). The logged calls that do get their label are characterised exactly: chi (C17_chi_label_exact), pons of non-fives (C17_pon_label_exact) and of fives (C17_pon_five_label_exact); open kans never do (C17_minkan_never_labelled)."
  },
  {
   "property": "C18",
   "status": "proved",
   "theorems": [
    "C18_total"
   ],
   "note": ""
  },
  {
   "property": "C19",
   "status": "proved",
   "theorems": [
    "C19_only_supported",
    "C19_unsupported_rejected",
    "C19_bye_rejected"
   ],
   "note": ""
  },
  {
   "property": "C20",
   "status": "proved",
   "theorems": [
    "C20_document_order",
    "C20_partition",
    "C20_header_tags",
    "C20_all_converted"
   ],
   "note": ""
  },
  {
   "property": "C21",
   "status": "proved",
   "theorems": [
    "C21_complete",
    "C21_points"
   ],
   "note": ""
  },
  {
   "property": "C22",
   "status": "proved",
   "theorems": [
    "C22_hands"
   ],
   "note": ""
  },
  {
   "property": "C23",
   "status": "proved",
   "theorems": [
    "C23_owned"
   ],
   "note": ""
  },
  {
   "property": "C24",
   "status": "proved",
   "theorems": [
    "C24_wall",
    "C24_wall_red",
    "C24_never_negative"
   ],
   "note": "Exact for every tile type; the red components (C24_wall_red) do not count new indicators."
  },
  {
   "property": "C25",
   "status": "partial",
   "theorems": [
    "C25_view",
    "C25_view_red",
    "C25_refuted_red_indicator"
   ],
   "note": "Exact for the 34 tile types and for the red components; red components ignore new indicators, which C25_refuted_red_indicator exhibits."
  },
  {
   "property": "C26",
   "status": "proved",
   "theorems": [
    "C26_points",
    "C26_recorded"
   ],
   "note": ""
  },
  {
   "property": "C27",
   "status": "proved",
   "theorems": [
    "C27_flags"
   ],
   "note": ""
  },
  {
   "property": "C28",
   "status": "partial",
   "theorems": [
    "C28_counter_partial",
    "C28_exact_without_kans",
    "C28_refuted"
   ],
   "note": "False as stated (C28_refuted): kans and new indicators also decrement the counter. C28_counter_partial is the exact value; C28_exact_without_kans the case where the property holds."
  },
  {
   "property": "C29",
   "status": "proved",
   "theorems": [
    "C29_tokens"
   ],
   "note": ""
  },
  {
   "property": "C30",
   "status": "partial",
   "theorems": [
    "C30_indices",
    "C30_no_future",
    "C30_monotone",
    "C30_refuted_post_turn"
   ],
   "note": "Exact indices, no future information and monotonicity are proved; a PostTurn's index leaves out the discard it responds to (C30_refuted_post_turn), so it is not the number of all earlier public events there."
  },
  {
   "property": "C31",
   "status": "proved",
   "theorems": [
    "C31_half_turns"
   ],
   "note": ""
  },
  {
   "property": "C32",
   "status": "partial",
   "theorems": [
    "C32_copied_fields_partial",
    "C32_aliased_fields_show_the_end",
    "C32_refuted"
   ],
   "note": "False as stated (C32_refuted): five fields alias live arrays and show the end of the round. The copied fields are proved to be snapshots."
  },
  {
   "property": "C33",
   "status": "proved",
   "theorems": [
    "C33_tenhou",
    "C33_never_ron"
   ],
   "note": ""
  },
  {
   "property": "C34",
   "status": "partial",
   "theorems": [
    "C34_chiihou_partial",
    "C34_double_riichi_partial",
    "C34_chiihou_exact_partial",
    "C34_double_riichi_exact_partial",
    "C34_closed_kan_steps",
    "C34_refuted_chiihou",
    "C34_refuted_double_riichi"
   ],
   "note": "False as stated (C34_refuted_*): closed kans need not interrupt. The exact theorems characterise both flags for every round: nobody has claimed a tile and the step count (draws, kans and seat offsets) is within the limit; a closed kan of seat w counts w+1 steps."
  },
  {
   "property": "C35",
   "status": "partial",
   "theorems": [
    "C35_tsumo_never",
    "C35_ron_never",
    "C35_chankan_never",
    "C35_refuted"
   ],
   "note": "False (C35_refuted). C35_*_never prove that no query to the scoring library ever has the ippatsu flag (rons: for logs with consistent seats)."
  },
  {
   "property": "C36",
   "status": "proved",
   "theorems": [
    "C36_window",
    "C36_bound"
   ],
   "note": "Bound 117 + number of riichi; 121 when everybody declares at most once."
  },
  {
   "property": "C37",
   "status": "proved",
   "theorems": [
    "C37_claims",
    "C37_own_kans",
    "C37_riichi",
    "C37_nothing_else",
    "C37_always"
   ],
   "note": ""
  },
  {
   "property": "C38",
   "status": "partial",
   "theorems": [
    "C38_kans_partial",
    "C38_refuted"
   ],
   "note": "Closed kans exact; the added-kan test indexes the 136-wide hand with a type number, so C38_refuted; C38_kans_partial is the exact rule."
  },
  {
   "property": "C39",
   "status": "proved",
   "theorems": [
    "C39_ron",
    "C39_ron_own_seat",
    "C39_tsumo_own_seat",
    "C39_in_a_round"
   ],
   "note": ""
  },
  {
   "property": "C40",
   "status": "proved",
   "theorems": [
    "C40_strings",
    "C40_in_a_round"
   ],
   "note": ""
  },
  {
   "property": "C41",
   "status": "proved",
   "theorems": [
    "C41_meld",
    "C41_in_a_round",
    "C41_in_a_round_ron"
   ],
   "note": ""
  },
  {
   "property": "C42",
   "status": "partial",
   "theorems": [
    "C42_same_for_all",
    "C42_refuted"
   ],
   "note": "False (C42_refuted for every encoding of winds); C42_same_for_all is the value passed."
  },
  {
   "property": "C43",
   "status": "proved",
   "theorems": [
    "C43_rows",
    "C43_any"
   ],
   "note": ""
  },
  {
   "property": "C44",
   "status": "proved",
   "theorems": [
    "C44_accepted",
    "C44_during",
    "C44_post",
    "C44_total"
   ],
   "note": ""
  },
  {
   "property": "C45",
   "status": "proved",
   "theorems": [
    "C45_labels",
    "C45_order"
   ],
   "note": ""
  },
  {
   "property": "C46",
   "status": "partial",
   "theorems": [
    "C46_exact_partial",
    "C46_refuted"
   ],
   "note": "False: the loop variable is reused as the label, so a turn without a marked call is labelled 2 (riichi), even where riichi is masked out (C46_refuted). Proved: the label is the marked call's action, then allowed, or 2; a marked win or riichi is never the label."
  },
  {
   "property": "C47",
   "status": "partial",
   "theorems": [
    "C47_exact_partial",
    "C47_refuted"
   ],
   "note": "False: the mask is taken from the hand at the end of the round (aliased array), so most discards are masked out (C47_refuted). Proved: the label is the type of the discarded tile; the mask lists exactly the classes held when the round has ended."
  },
  {
   "property": "C48",
   "status": "proved",
   "theorems": [
    "C48_faithful",
    "C48_injective",
    "C48_clamps",
    "C48_rows"
   ],
   "note": ""
  },
  {
   "property": "C49",
   "status": "proved",
   "theorems": [
    "C49_ordered",
    "C49_others",
    "C49_rounds"
   ],
   "note": ""
  },
  {
   "property": "C50",
   "status": "proved",
   "theorems": [
    "C50_exact",
    "C50_in_range",
    "C50_no_clamping"
   ],
   "note": ""
  },
  {
   "property": "C51",
   "status": "partial",
   "theorems": [
    "C51_ordered",
    "C51_others_refuted",
    "C51_same_scores"
   ],
   "note": "True for the ordered agent (C51_ordered). False for the other three: the masks are inverted, so the player row is added for every event except discards and calls; C51_others_refuted shows that the input never depends on the player, and C51_same_scores that then the scores of the whole network do not either."
  },
  {
   "property": "C52",
   "status": "proved",
   "theorems": [
    "C52_samples_fit",
    "C52_shapes",
    "C52_rounds",
    "C52_empty"
   ],
   "note": "For all weights, any number of blocks and any non-empty batch; also that every sample of an accepted round has the required shape; for all dropout outcomes. float32 rounding is not modelled."
  },
  {
   "property": "C53",
   "status": "proved",
   "theorems": [
    "C53_epoch"
   ],
   "note": ""
  },
  {
   "property": "C54",
   "status": "proved",
   "theorems": [
    "C54_terminates",
    "C54_same_again",
    "C54_needs_positive"
   ],
   "note": "C54_needs_positive shows why batch_size >= 1 is needed."
  },
  {
   "property": "C55",
   "status": "partial",
   "theorems": [
    "C55_exact_partial",
    "C55_refuted"
   ],
   "note": "False for three of four models: a batch without rounds raises ValueError (C55_refuted). Proved: for buildable half-turns this is the only failure, and the ordered model has none."
  },
  {
   "property": "C56",
   "status": "partial",
   "theorems": [
    "C56_latest_checkpoint_partial",
    "C56_other_models_ignored",
    "C56_refuted",
    "C56_exact_partial"
   ],
   "note": "Holds when every file that looks like a checkpoint of the model has a number in the middle (C56_latest_checkpoint_partial); the regular expression is not anchored, so a leftover like ..._iter_9.pt.tmp.pt is taken for checkpoint 9 (C56_refuted). C56_exact_partial: what is returned for any directory."
  },
  {
   "property": "C57",
   "status": "proved",
   "theorems": [
    "C57_gap_free",
    "C57_no_overwrite",
    "C57_progress"
   ],
   "note": ""
  },
  {
   "property": "C58",
   "status": "partial",
   "theorems": [
    "C58_survivable_partial",
    "C58_refuted"
   ],
   "note": "False: C58_refuted shows that a crash while a checkpoint is written leaves a directory on which every later run raises. C58_survivable_partial is the true part (no half-written file)."
  },
  {
   "property": "C59",
   "status": "partial",
   "theorems": [
    "C59_stateless_partial",
    "C59_refuted"
   ],
   "note": "False when the optimizer or scheduler has state (C59_refuted, since only the parameters are saved); C59_stateless_partial is the true part."
  },
  {
   "property": "C60",
   "status": "proved",
   "theorems": [
    "C60_warmup",
    "C60_bounds",
    "C60_decay",
    "C60_end"
   ],
   "note": "Real arithmetic; uses the axioms of the standard library Reals (listed in DESIGN.md). Rounding is not modelled."
  },
  {
   "property": "C61",
   "status": "proved",
   "theorems": [
    "C61_same_batches",
    "C61_leading_bounded",
    "C61_all_losses",
    "C61_empty_raises"
   ],
   "note": ""
  },
  {
   "property": "C62",
   "status": "proved",
   "theorems": [
    "C62_restores",
    "C62_terminates"
   ],
   "note": ""
  },
  {
   "property": "C63",
   "status": "proved",
   "theorems": [
    "C63_standard_wins"
   ],
   "note": ""
  },
  {
   "property": "C64",
   "status": "partial",
   "theorems": [
    "C64_exact",
    "C64_wins_found",
    "C64_partial",
    "C64_refuted"
   ],
   "note": "False as stated (C64_refuted: three or more copies of an orphan are counted as several orphans). C64_exact gives the exact condition for -1; C64_partial proves the claim when no orphan occurs three times; C64_wins_found: every win is reported."
  },
  {
   "property": "C65",
   "status": "partial",
   "theorems": [
    "C65_partial",
    "C65_hidden_partial",
    "C65_refuted"
   ],
   "note": "False (C65_refuted): the markers are added to the tile total and marker 34 counts as an orphan. C65_partial: red fives of pinzu and souzu are harmless while the tiles leave room (one on 3k+1, two on 3k tiles). C65_hidden_partial: on 14-3m tiles any marker hides every standard wait and win; distance 0 or less then only appears for six pairs or for orphans counting the 5m marker."
  },
  {
   "property": "C66",
   "status": "proved",
   "theorems": [
    "C66_tile_index",
    "C66_counts",
    "C66_out_of_range"
   ],
   "note": ""
  },
  {
   "property": "C67",
   "status": "partial",
   "theorems": [
    "C67_download_partial",
    "C67_others_ignored",
    "C67_refuted"
   ],
   "note": "True for log names that do not begin with a slash (C67_download_partial); otherwise os.path.join drops the output directory (C67_refuted). Which names the page yields and the download loop are C93-C95; the HTTP request is not modelled."
  },
  {
   "property": "C68",
   "status": "partial",
   "theorems": [
    "C68_rinshan_never",
    "C68_refuted"
   ],
   "note": "False (C68_refuted): the flag is never set."
  },
  {
   "property": "C69",
   "status": "partial",
   "theorems": [
    "C69_last_tile_tsumo",
    "C69_last_tile_ron_partial",
    "C69_refuted"
   ],
   "note": "Self-draws: exact condition in terms of the counter of C28. Discards: the haitei flag is set instead of houtei (C69_refuted)."
  },
  {
   "property": "C70",
   "status": "proved",
   "theorems": [
    "C70_melds"
   ],
   "note": ""
  },
  {
   "property": "C71",
   "status": "proved",
   "theorems": [
    "C71_chankan",
    "C71_not_on_draws",
    "C71_not_on_discards"
   ],
   "note": ""
  },
  {
   "property": "C72",
   "status": "partial",
   "theorems": [
    "C72_renhou_partial",
    "C72_renhou_exact_partial",
    "C72_refuted"
   ],
   "note": "False (C72_refuted); C72_renhou_exact_partial states exactly the rule applied, for every round."
  },
  {
   "property": "C73",
   "status": "proved",
   "theorems": [
    "C73_buildable"
   ],
   "note": ""
  },
  {
   "property": "C74",
   "status": "partial",
   "theorems": [
    "C74_exact_partial",
    "C74_refuted"
   ],
   "note": "False: all rows of a post-turn share the state captured for the discarder (C74_refuted). Proved: exactly that state is shown."
  },
  {
   "property": "C75",
   "status": "partial",
   "theorems": [
    "C75_source",
    "C75_fields_partial",
    "C75_refuted"
   ],
   "note": "Proved for scores, dealer, riichi flags, remaining draws, sticks, honba, remaining rounds and discards (after the last draw or call). False for hand, unseen tiles and closed-hand flags, which show the end of the round (C75_refuted); for the one-shot flags see C92."
  },
  {
   "property": "C76",
   "status": "partial",
   "theorems": [
    "C76_ordered",
    "C76_exact_partial",
    "C76_refuted"
   ],
   "note": "True for the ordered agent, false for the other three (C76_refuted); the exact contribution is proved."
  },
  {
   "property": "C77",
   "status": "partial",
   "theorems": [
    "C77_ordered",
    "C77_others_refuted"
   ],
   "note": "True for the ordered agent. False for the others: drawn-and-discarded tiles 25-36 of any player have the same input (C77_others_refuted)."
  },
  {
   "property": "C78",
   "status": "proved",
   "theorems": [
    "C78_batch",
    "C78_loss"
   ],
   "note": ""
  },
  {
   "property": "C79",
   "status": "proved",
   "theorems": [
    "C79_masked",
    "C79_unmasked",
    "C79_choice",
    "C79_loss"
   ],
   "note": ""
  },
  {
   "property": "C80",
   "status": "partial",
   "theorems": [
    "C80_bound_partial",
    "C80_refuted"
   ],
   "note": "Proved for samples whose label is allowed. False in general: discard rows are masked with the hand at the end of the round, so the label can be masked and one sample costs 10^9 (C80_refuted)."
  },
  {
   "property": "C81",
   "status": "partial",
   "theorems": [
    "C81_reachable_partial",
    "C81_refuted_too_high",
    "C81_refuted_too_low"
   ],
   "note": "Proved: with unlimited copies a standard win is at most (number+1) draws away. False in both directions as stated: 11 34 777 88 99m with one meld is one draw from complete but reported as two (C81_refuted_too_high), and 1111 2222 3333 44z is reported nearer than any physical win (C81_refuted_too_low)."
  },
  {
   "property": "C82",
   "status": "partial",
   "theorems": [
    "C82_pairs_never_too_high",
    "C82_pairs_distance_partial",
    "C82_refuted",
    "C82_orphans_distance_partial"
   ],
   "note": "Property as stated is false (C82_refuted). The exact error is proved for all plain hands: C82_pairs_distance_partial (seven pairs, in terms of the kinds held) and C82_orphans_distance_partial (thirteen orphans, in terms of the most copies of one orphan)."
  },
  {
   "property": "C83",
   "status": "proved",
   "theorems": [
    "C83_rows",
    "C83_games"
   ],
   "note": ""
  },
  {
   "property": "C84",
   "status": "partial",
   "theorems": [
    "C84_offer_partial",
    "C84_refuted_points",
    "C84_refuted_wall"
   ],
   "note": "Exact condition proved (closed, no stick paid, shanten library <= 0 on the concealed tiles). Points and remaining draws are not checked: C84_refuted_points, C84_refuted_wall."
  },
  {
   "property": "C85",
   "status": "partial",
   "theorems": [
    "C85_calls_partial",
    "C85_chi_exact"
   ],
   "note": "For every accepted round; the exceptions are those of C13 and C15. C85_chi_exact gives the exact rule for chi."
  },
  {
   "property": "C86",
   "status": "partial",
   "theorems": [
    "C86_hands_only",
    "C86_refuted"
   ],
   "note": "False: a player in riichi is offered a chi (C86_refuted). Proved: the offers depend on nothing but the discard and the concealed hands."
  },
  {
   "property": "C87",
   "status": "proved",
   "theorems": [
    "C87_run",
    "C87_rows_together"
   ],
   "note": ""
  },
  {
   "property": "C88",
   "status": "proved",
   "theorems": [
    "C88_schedule",
    "C88_first_update_idle"
   ],
   "note": ""
  },
  {
   "property": "C89",
   "status": "proved",
   "theorems": [
    "C89_once_per_block",
    "C89_batch_sizes",
    "C89_known_names"
   ],
   "note": ""
  },
  {
   "property": "C90",
   "status": "partial",
   "theorems": [
    "C90_exact_partial",
    "C90_refuted",
    "C90_no_validation_files"
   ],
   "note": "False (C90_refuted): an empty batch raises ValueError in three models, and in the ordered model UnboundLocalError before the first sample of a run. Exact condition of the latter: C90_exact_partial; an empty validation directory: C90_no_validation_files."
  },
  {
   "property": "C91",
   "status": "proved",
   "theorems": [
    "C91_table",
    "C91_overtime"
   ],
   "note": "In overtime (round number beyond the regular length) the counts of rounds left become negative: C91_overtime."
  },
  {
   "property": "C92",
   "status": "partial",
   "theorems": [
    "C92_exact_partial",
    "C92_not_on_own_draw",
    "C92_refuted"
   ],
   "note": "False (C92_refuted). Exact characterisation proved: the mark is shown only right after the first draw (by another player) or call after the riichi."
  },
  {
   "property": "C93",
   "status": "proved",
   "theorems": [
    "C93_links"
   ],
   "note": ""
  },
  {
   "property": "C94",
   "status": "proved",
   "theorems": [
    "C94_requests",
    "C94_pages"
   ],
   "note": ""
  },
  {
   "property": "C95",
   "status": "proved",
   "theorems": [
    "C95_files",
    "C95_untouched"
   ],
   "note": ""
  },
  {
   "property": "C96",
   "status": "partial",
   "theorems": [
    "C96_one_file_partial",
    "C96_refuted"
   ],
   "note": "False (C96_refuted): answers are written in place, so a prefix can remain under the final name. C96_one_file_partial: only the file being written can be affected."
  },
  {
   "property": "C97",
   "status": "proved",
   "theorems": [
    "C97_cleanup"
   ],
   "note": ""
  },
  {
   "property": "C98",
   "status": "proved",
   "theorems": [
    "C98_run",
    "C98_every_year",
    "C98_validation_unseen",
    "C98_downloads"
   ],
   "note": ""
  },
  {
   "property": "C99",
   "status": "partial",
   "theorems": [
    "C99_scored_alike",
    "C99_first_alike",
    "C99_refuted",
    "C99_ordered_partial"
   ],
   "note": "False in all four agents: C99_first_alike shows that while nothing is recorded before the tile (the first discard of a round) every action two players may take is scored alike for both, for all weights, and C99_refuted gives a recorded round in which two players are concerned. In the first three agents this holds for every tile (C99_scored_alike). The ordered agent can tell the players apart when the recorded discards, calls and riichi are unequally shared between opposite seats (C99_ordered_partial); nothing is proved about its scores for non-empty histories balanced in this way."
  },
  {
   "property": "C100",
   "status": "proved",
   "theorems": [
    "C100_completes"
   ],
   "note": ""
  },
  {
   "property": "C101",
   "status": "proved",
   "theorems": [
    "C101_modes"
   ],
   "note": ""
  },
  {
   "property": "C102",
   "status": "proved",
   "theorems": [
    "C102_accepted",
    "C102_rejected",
    "C102_implemented",
    "C102_networks",
    "C102_trains"
   ],
   "note": ""
  },
  {
   "property": "C103",
   "status": "proved",
   "theorems": [
    "C103_renaming"
   ],
   "note": ""
  },
  {
   "property": "C104",
   "status": "partial",
   "theorems": [
    "C104_wins_partial",
    "C104_refuted"
   ],
   "note": "False: 11 34 777 88 99m with one meld is reported as 1, its mirror image as 0 (C104_refuted), because three equal low tiles are not split into two runs and a part. Proved: complete hands are recognised in the mirror (C104_wins_partial)."
  },
  {
   "property": "C105",
   "status": "proved",
   "theorems": [
    "C105_exact",
    "C105_solver"
   ],
   "note": ""
  },
  {
   "property": "C106",
   "status": "partial",
   "theorems": [
    "C106_win_partial",
    "C106_special_partial",
    "C106_refuted"
   ],
   "note": "False: 24m 778899m and two Easts with one meld called is reported as 0, and as 1 after drawing a third 7m (C106_refuted). Proved: a draw that makes a standard win always lowers the number from 0 to -1 (C106_win_partial). The seven-pairs and thirteen-orphans numbers never rise with a draw and fall by at most one, the latter once an orphan is held (C106_special_partial)."
  },
  {
   "property": "C107",
   "status": "proved",
   "theorems": [
    "C107_exit",
    "C107_only"
   ],
   "note": ""
  },
  {
   "property": "C108",
   "status": "proved",
   "theorems": [
    "C108_rows",
    "C108_same",
    "C108_mean"
   ],
   "note": ""
  },
  {
   "property": "C109",
   "status": "partial",
   "theorems": [
    "C109_own_partial",
    "C109_public_partial",
    "C109_refuted"
   ],
   "note": "False for reactions: the sample of a player who may react to a discard contains the concealed hand of the discarder (C109_refuted), because the state of a half-turn is always converted from the point of view of the player who discards. Proved: own-turn and discard samples are identical in both rounds (C109_own_partial), and in every half-turn the tokens, the decisions of the player and every input except the hand and unseen-tile rows are identical (C109_public_partial)."
  },
  {
   "property": "C110",
   "status": "proved",
   "theorems": [
    "C110_meaning"
   ],
   "note": ""
  },
  {
   "property": "C111",
   "status": "partial",
   "theorems": [
    "C111_exact_partial",
    "C111_chankan_exact_partial",
    "C111_single_wait_partial",
    "C111_refuted_own_discard",
    "C111_refuted_let_pass",
    "C111_refuted_riichi"
   ],
   "note": "False: only the type of the discarded tile itself is looked up among the own discards. A player who has discarded 1m is offered a ron on 4m although 1m completes the same hand (C111_refuted_own_discard), and tiles let pass, before or after riichi, are not remembered (C111_refuted_let_pass, C111_refuted_riichi). Proved: for a library that goes by any fixed rule, a ron is offered to exactly the other players who have not discarded this type and whose hand it completes (C111_exact_partial); so the own-discard rule holds for players who wait for one type only (C111_single_wait_partial). The same exact rule holds for a fourth tile added to a pon (C111_chankan_exact_partial)."
  },
  {
   "property": "C112",
   "status": "partial",
   "theorems": [
    "C112_ordered_partial",
    "C112_others_refuted"
   ],
   "note": "False for transformer, transformer_conv and transformer_conv_large (C112_others_refuted): two rounds in which a leading player on seat 2 and a bankrupt one on seat 3 decide on the same discard give the same score to every action, for all weights, because the acting players are masked out of the encoder and scores are listed by seat. Proved for transformer_conv_ordered (C112_ordered_partial). Reactions are the subject of C99."
  },
  {
   "property": "C113",
   "status": "partial",
   "theorems": [
    "C113_never_partial",
    "C113_refuted_ron",
    "C113_refuted_tsumo"
   ],
   "note": "False in every case: no sample of any accepted round has the win as its target (C113_never_partial, all rounds and models), because the result of a round is read only after the samples' decisions are settled. Witnesses with a ron (target: pass) and with a self-draw (target: the first other action) that did happen: C113_refuted_ron, C113_refuted_tsumo."
  },
  {
   "property": "C114",
   "status": "partial",
   "theorems": [
    "C114_copies_partial",
    "C114_refuted_label",
    "C114_refuted_kan",
    "C114_accepted",
    "C114_copied_round_partial"
   ],
   "note": "Acceptance is proved without restriction (C114_accepted: either both rounds are processed to the end or none is, for libraries that answer). Tokens and samples: proved (C114_copies_partial) for all renamings under which the tiles of calls keep their numbers and, after a pon of tiles of type k, the tile with the number k keeps its number. False otherwise: which copy of 9m is claimed decides whether the pon becomes the target (C114_refuted_label), and after a pon of 9m (type 8) holding tile 8 instead of tile 9, both 3m, adds a decision about an added kan of 9m (C114_refuted_kan). C114_copied_round_partial joins the two: the copy of an accepted round is accepted and has the same tokens and samples."
  },
  {
   "property": "C115",
   "status": "partial",
   "theorems": [
    "C115_counts_partial",
    "C115_refuted"
   ],
   "note": "False for all models (C115_refuted): with White as indicator and Red discarded last, or the other way round, the first own-turn and discard samples of the dealer are the same. The indicators are not converted into features and the first has no token; it is seen only as one unseen tile less of its type, in counts of the end of the round. Proved: with the same deal and plays the tokens do not depend on the first indicator and the counts differ exactly in its type (C115_counts_partial)."
  },
  {
   "property": "C116",
   "status": "proved",
   "theorems": [
    "C116_numbers",
    "C116_passes"
   ],
   "note": ""
  },
  {
   "property": "C117",
   "status": "proved",
   "theorems": [
    "C117_alone",
    "C117_alone_fails",
    "C117_apart"
   ],
   "note": ""
  },
  {
   "property": "C118",
   "status": "partial",
   "theorems": [
    "C118_kept_partial",
    "C118_refuted"
   ],
   "note": "Proved (C118_kept_partial) for every schedule in which at most one process of a model is between its scan and its end at a time, with kills and any processes of other models. False for two overlapping runs of the same model, whatever the training computes (C118_refuted): both scan, both save the same iteration, the second opens the complete file of the first for writing."
  },
  {
   "property": "C119",
   "status": "proved",
   "theorems": [
    "C119_complete",
    "C119_needs_same_answers"
   ],
   "note": ""
  },
  {
   "property": "C120",
   "status": "partial",
   "theorems": [
    "C120_complete_partial",
    "C120_refuted"
   ],
   "note": "Proved (C120_complete_partial) for a process that is alone in having loaded the module in its second. False for two processes whose start times have the same text (C120_refuted): the second empties the file and both write to it."
  },
  {
   "property": "C121",
   "status": "partial",
   "theorems": [
    "C121_refuted_last_tile",
    "C121_refuted_fifth_kan"
   ],
   "note": "False: the next player is offered a chi on the discard after the 70th draw (C121_refuted_last_tile), and after four kans a closed kan is offered on a draw (C121_refuted_fifth_kan). The offers depend on the hands alone (C86_hands_only); the exact rules, for every round, are C38_kans_partial, C85_calls_partial and C85_chi_exact."
  },
  {
   "property": "C122",
   "status": "partial",
   "theorems": [
    "C122_every_discard_partial",
    "C122_refuted"
   ],
   "note": "False for all models (C122_refuted). Proved: the discard samples of a round are exactly its discards, all of them, in order, each with its player and tile type (C122_every_discard_partial)."
  },
  {
   "property": "C123",
   "status": "proved",
   "theorems": [
    "C123_repaired"
   ],
   "note": ""
  },
  {
   "property": "C124",
   "status": "partial",
   "theorems": [
    "C124_once_partial",
    "C124_refuted"
   ],
   "note": "Proved if no file is packed twice (C124_once_partial). A file packed twice is unpacked once per run (C124_refuted)."
  },
  {
   "property": "C125",
   "status": "proved",
   "theorems": [
    "C125_total",
    "C125_text",
    "C125_same",
    "C125_invalid"
   ],
   "note": ""
  },
  {
   "property": "C126",
   "status": "partial",
   "theorems": [
    "C126_own",
    "C126_other_partial",
    "C126_refuted"
   ],
   "note": "The own-turn half holds (C126_own). For the other head the property is false (C126_refuted, number 65); C126_other_partial is the exact set: all but eight numbers."
  },
  {
   "property": "C127",
   "status": "proved",
   "theorems": [
    "C127_reached",
    "C127_no_effect",
    "C127_effect"
   ],
   "note": "Exact set of rows (C127_reached) and its effect on the sum of rows over the reals (C127_no_effect, C127_effect). The player and position tables are not trainable, so C127_effect is about the other five."
  },
  {
   "property": "C128",
   "status": "partial",
   "theorems": [
    "C128_offered_partial",
    "C128_never_partial",
    "C128_refuted"
   ],
   "note": "False: C128_refuted gives a number of a real pon that no sample of any round allows. C128_offered_partial is the exact set of numbers that are ever offered, C128_never_partial says that no sample allows or is labelled with one of the others."
  },
  {
   "property": "C129",
   "status": "partial",
   "theorems": [
    "C129_targets_partial",
    "C129_refuted"
   ],
   "note": "False: in the round of C129_refuted the kan is allowed and called, and the target is to pass. C129_targets_partial says what the targets of reactions are in all rounds in which open kans claim the last discard."
  },
  {
   "property": "C130",
   "status": "partial",
   "theorems": [
    "C130_closed_partial",
    "C130_targets_partial",
    "C130_refuted"
   ],
   "note": "False for added kans: C130_refuted is a round in which one is offered and declared and is no target; C130_targets_partial says that none ever is. True for closed kans (C130_closed_partial)."
  },
  {
   "property": "C131",
   "status": "partial",
   "theorems": [
    "C131_targets_partial",
    "C131_refuted"
   ],
   "note": "False: C131_refuted is a round in which a pon is allowed and called and is no target. C131_targets_partial says for every player and number exactly which calls become targets, in terms of the tiles dealt, drawn, discarded and shown."
  },
  {
   "property": "C132",
   "status": "proved",
   "theorems": [
    "C132_round_accepted",
    "C132_log_accepted"
   ],
   "note": "Sufficient condition, proved for single rounds and for whole logs. The libraries are assumed to answer every question; a log with a BYE entry is rejected (C19)."
  },
  {
   "property": "C133",
   "status": "proved",
   "theorems": [
    "C133_samples",
    "C133_trains"
   ],
   "note": "Combines C132 with C73 and C100: all conditions are on the log, none on the outcome of processing. At least one discard per game is asked for, as in C100."
  },
  {
   "property": "C134",
   "status": "partial",
   "theorems": [
    "C134_exact_partial",
    "C134_same_for_all",
    "C134_refuted"
   ],
   "note": "False (C134_refuted, five breaches that are accepted). C134_exact_partial is the exact condition for acceptance, for all rounds with a readable deal and meaningful events; C134_same_for_all: it depends on neither the libraries nor the game type."
  },
  {
   "property": "C135",
   "status": "proved",
   "theorems": [
    "C135_network",
    "C135_attention",
    "C135_shares",
    "C135_order"
   ],
   "note": "C135_network (the scores are those of the formulas of SpecAttention.v and, for the state features, SpecState.v), C135_attention (one layer), C135_shares, C135_order."
  },
  {
   "property": "C136",
   "status": "partial",
   "theorems": [
    "C136_dead",
    "C136_refuted"
   ],
   "note": "False (C136_refuted, for every network in evaluation mode): the bias of the keys has no influence in any attention layer of any agent, and in the self-attention of the decoder of the ordered agent, which looks at one position, neither keys nor queries have any. C136_dead: networks that differ in these weights only have the same scores and losses. That all other weights matter is not proved."
  },
  {
   "property": "C137",
   "status": "proved",
   "theorems": [
    "C137_bound",
    "C137_choice",
    "C137_loss",
    "C137_needed"
   ],
   "note": "C137_bound, C137_choice, C137_loss (reach: SpecBound.v); C137_needed: a network with the bias -2e9 whose best action is not allowed. Real numbers, as for all of the network."
  },
  {
   "property": "C138",
   "status": "proved",
   "theorems": [
    "C138_other",
    "C138_row",
    "C138_loss",
    "C138_bias",
    "C138_never"
   ],
   "note": "C138_other, C138_row, C138_loss, C138_bias, C138_never (vocabulary: SpecHeads.v). With or without dropout, as long as it is the same in both runs."
  },
  {
   "property": "C139",
   "status": "partial",
   "theorems": [
    "C139_own",
    "C139_targets",
    "C139_discard_partial",
    "C139_types_partial",
    "C139_refuted"
   ],
   "note": "False: the outputs for discarding red fives are allowed and never targets (C139_refuted). C139_own: every own-turn output is allowed in some round; C139_targets: riichi and every closed kan are targets (that the others are not: C130_targets_partial). C139_discard_partial and C139_types_partial: the targets of the discard head are exactly the 34 tile types."
  }
 ]
}