{
 "claims": [
  {
   "property": "C01",
   "status": "proved",
   "theorems": [
    "C01_load_write",
    "C01_strip"
   ],
   "note": "every arithmetic, GCode and LightGCode"
  },
  {
   "property": "C02",
   "status": "proved",
   "theorems": [
    "C02_idxs"
   ],
   "note": "every arithmetic"
  },
  {
   "property": "C03",
   "status": "proved",
   "theorems": [
    "C03_prepend",
    "C03_C04_empty_layer",
    "C03_C04_missing_layer"
   ],
   "note": "for every program reached by loading and any sequence of prepend/rewrite calls"
  },
  {
   "property": "C04",
   "status": "proved",
   "theorems": [
    "C04_rewrite",
    "C03_C04_empty_layer",
    "C03_C04_missing_layer"
   ],
   "note": "for every program reached by loading and any sequence of prepend/rewrite calls"
  },
  {
   "property": "C05",
   "status": "partial",
   "theorems": [
    "C05_append_partial",
    "C05_append_blank",
    "C05_append_idxs_off_by_one",
    "C05_append_idxs_refuted"
   ],
   "note": "the text part is proved; the index part is false of the code (append records len(append_layer) after the append) and refuted"
  },
  {
   "property": "C06",
   "status": "proved",
   "theorems": [
    "C06_incremental"
   ],
   "note": "every split point, every arithmetic; also the line objects and the written text agree"
  },
  {
   "property": "C07",
   "status": "partial",
   "theorems": [
    "C07_comment_partial",
    "C07_program",
    "C07_comment_refuted"
   ],
   "note": "proved for every machine state except lines that are one parenthesis with nested ones (refuted: '(G1 X5 (note)) ; x' moves) and the command text of free text"
  },
  {
   "property": "C08",
   "status": "proved",
   "theorems": [
    "C08_comment_line"
   ],
   "note": ""
  },
  {
   "property": "C09",
   "status": "proved",
   "theorems": [
    "C09_case",
    "C09_program"
   ],
   "note": ""
  },
  {
   "property": "C10",
   "status": "proved",
   "theorems": [
    "C10_only_errors",
    "C10_value_error",
    "C10_malformed",
    "C10_well_formed",
    "C10_zero_division",
    "C10_binary64_well_formed",
    "C10_binary64_zero_division"
   ],
   "note": "the absence of ZeroDivisionError is proved for exact arithmetic and for IEEE doubles"
  },
  {
   "property": "C11",
   "status": "partial",
   "theorems": [
    "C11_free_text_refuted",
    "C11_step_partial",
    "C11_program_partial"
   ],
   "note": "false of the code: 'Start printing' raises ValueError; text without the letters G, T and M never raises and changes nothing but the layers; which other free text raises is settled by C10 (line_ok)"
  },
  {
   "property": "C12",
   "status": "partial",
   "theorems": [
    "C12_position_partial",
    "C12_binary64_partial",
    "C13_home_refuted"
   ],
   "note": "exact arithmetic, and doubles up to a billionth of a millimetre per relative move or G92 (millimetres, numbers up to a million): every program without a G28 whose axis words are all zero and without a bare G92; false of the code for these (C13, C74)"
  },
  {
   "property": "C13",
   "status": "partial",
   "theorems": [
    "C13_home_partial",
    "C13_home_refuted"
   ],
   "note": "false of the code: the words of G28 are tested for truth, so 'G28 X0' homes all axes; proved when some word is non-zero"
  },
  {
   "property": "C14",
   "status": "proved",
   "theorems": [
    "C14_head",
    "C14_logical"
   ],
   "note": "head: every arithmetic; logical coordinates: exact arithmetic"
  },
  {
   "property": "C15",
   "status": "partial",
   "theorems": [
    "C15_rebase_refuted",
    "C15_rebase_partial"
   ],
   "note": "false of the code: G92 Ek stores k as offset; the exact effect is proved"
  },
  {
   "property": "C16",
   "status": "proved",
   "theorems": [
    "C16_filament",
    "C16_binary64_partial"
   ],
   "note": "exact arithmetic; doubles up to a billionth of a millimetre per extruding command (millimetres, numbers up to a million)"
  },
  {
   "property": "C17",
   "status": "proved",
   "theorems": [
    "C17_modes",
    "C17_moves"
   ],
   "note": "every arithmetic"
  },
  {
   "property": "C18",
   "status": "proved",
   "theorems": [
    "C18_box",
    "C18_size",
    "C18_machine",
    "C18_binary64_partial"
   ],
   "note": "exact arithmetic; doubles up to the error of C12_binary64_partial"
  },
  {
   "property": "C19",
   "status": "partial",
   "theorems": [
    "C19_bounds_partial",
    "C19_zmax_refuted"
   ],
   "note": "the bounds and that zmin/zmax are 0 or recorded Z values are proved; that something was printed at zmax is false of the code"
  },
  {
   "property": "C20",
   "status": "proved",
   "theorems": [
    "C20_layers",
    "C20_layers_set_z",
    "C20_numbered",
    "C20_binary64_numbered"
   ],
   "note": "blocks: every arithmetic; that the opening line sets Z: exact arithmetic; that every change of height of at least a fiftieth of a millimetre opens a layer: exact arithmetic and doubles"
  },
  {
   "property": "C21",
   "status": "partial",
   "theorems": [
    "C21_durations",
    "C10_zero_division",
    "C21_binary64_partial",
    "C21_binary64_refuted"
   ],
   "note": "proved for exact arithmetic; for IEEE doubles with modest numbers the total is the sum up to one part in 2^53; with a feed rate near the smallest double a layer's duration is NaN"
  },
  {
   "property": "C22",
   "status": "proved",
   "theorems": [
    "C22_rewrite",
    "C22_close",
    "C22_binary64_partial"
   ],
   "note": "read-back: every arithmetic with finite arguments; error bound: exact arithmetic, and doubles up to a billionth more (values up to a million). The command is any G command other than G20, read in millimetres (in inches see C23_inch_refuted)"
  },
  {
   "property": "C23",
   "status": "partial",
   "theorems": [
    "C23_words_refuted",
    "C23_radius_refuted",
    "C23_inch_refuted",
    "C23_move_partial"
   ],
   "note": "false of the code: only X Y Z E F I J survive, and values are written scaled in inch mode; in millimetres a rewritten move asks for the same position, extrusion and feedrate up to rounding"
  },
  {
   "property": "C24",
   "status": "partial",
   "theorems": [
    "C24_equality_partial",
    "C24_same_length_partial",
    "C24_reflexive",
    "C24_symmetric_refuted"
   ],
   "note": "the exact meaning of == is proved; as stated the property is false of the code (one extra line on the left is accepted, == is not symmetric)"
  },
  {
   "property": "C25",
   "status": "partial",
   "theorems": [
    "C25_diff_none",
    "C25_diff_at",
    "C25_diff_other",
    "C25_diff_self_partial",
    "C25_diff_self_refuted"
   ],
   "note": "proved except that a line remaining in self is reported off by one (false of the code)"
  },
  {
   "property": "C26",
   "status": "partial",
   "theorems": [
    "C26_light_equal_refuted",
    "C26_light_refuted"
   ],
   "note": "false of the code: any two LightGCode programs compare equal"
  },
  {
   "property": "C27",
   "status": "proved",
   "theorems": [
    "C27_filter",
    "C27_filter_error"
   ],
   "note": "every filter with any state, every program, every arithmetic; also when the filter raises"
  },
  {
   "property": "C28",
   "status": "partial",
   "theorems": [
    "C28_extrusion_partial",
    "C28_binary64_partial",
    "C28_undeclared_refuted",
    "C28_g90_refuted",
    "C28_g91_refuted",
    "C28_stale_refuted"
   ],
   "note": "false of the code without M82/M83, with G90 or G91 after M82, with M82 after M83 without G92, and in inches; proved (exact arithmetic, up to half a unit of the fifth decimal per move; doubles: and a billionth, numbers up to a million) for every other program"
  },
  {
   "property": "C29",
   "status": "proved",
   "theorems": [
    "C29_total",
    "C29_lines",
    "C29_no_m82"
   ],
   "note": "every program, every arithmetic"
  },
  {
   "property": "C30",
   "status": "proved",
   "theorems": [
    "C30_drift",
    "C30_binary64"
   ],
   "note": "exact arithmetic, and doubles with numbers up to a million; programs as in C28_extrusion_partial, which include every sequence of absolute E values after M82 with any G92 in between"
  },
  {
   "property": "C31",
   "status": "partial",
   "theorems": [
    "C31_idempotent_partial",
    "C31_twice_refuted"
   ],
   "note": "false of the code for programs that move E before any M82 or M83; proved for all others, every arithmetic"
  },
  {
   "property": "C32",
   "status": "proved",
   "theorems": [
    "C32_total",
    "C32_lines"
   ],
   "note": "every program, every arithmetic; the specification also says what becomes of G92"
  },
  {
   "property": "C33",
   "status": "partial",
   "theorems": [
    "C33_moves_partial",
    "C33_feeds_partial",
    "C33_drift_partial",
    "C33_bare_refuted",
    "C33_binary64_partial",
    "C33_binary64_feeds_partial",
    "C33_binary64_drift_partial",
    "C33_undeclared_refuted",
    "C33_relative_refuted",
    "C33_rebase_refuted"
   ],
   "note": "false of the code without G90, after G91, and for G92 after moves; proved (exact arithmetic, up to a thousandth; doubles: and a billionth, numbers up to a million) under the conditions of the theorem"
  },
  {
   "property": "C34",
   "status": "partial",
   "theorems": [
    "C34_zero_partial",
    "C34_zero_refuted"
   ],
   "note": "false of the code: G92 E0 also zeroes X and Y; proved for programs without G92"
  },
  {
   "property": "C35",
   "status": "partial",
   "theorems": [
    "C35_translate_refuted",
    "C35_relative_refuted",
    "C35_scaled_refuted"
   ],
   "note": "false of the code for both filters, and for every rewritten move: its numbers are 25.4 times the original ones"
  },
  {
   "property": "C36",
   "status": "proved",
   "theorems": [
    "C36_visits",
    "C36_unknown_height",
    "C36_numbers"
   ],
   "note": "every program, every visitor that does not change the program, with any state and any exceptions; a layer without lines reports the line before it at the end of the visit"
  },
  {
   "property": "C37",
   "status": "partial",
   "theorems": [
    "C37_pause_count_partial",
    "C37_harmless",
    "C37_pause_partial",
    "C37_equal_layers_refuted"
   ],
   "note": "false of the code when a printed layer has the same lines as an earlier layer; the exact placement is proved otherwise, and the number of pauses and the effect on the machine for every program"
  },
  {
   "property": "C38",
   "status": "partial",
   "theorems": [
    "C38_once_partial",
    "C38_hop_refuted"
   ],
   "note": "false of the code when the head returns to a height; proved (exact arithmetic) when no two layers round to the same height"
  },
  {
   "property": "C39",
   "status": "partial",
   "theorems": [
    "C39_works_partial",
    "C39_fails",
    "C39_unknown_heights",
    "C39_unknown_refuted"
   ],
   "note": "false of the code: exactly the programs that extrude before any Z word fail, with TypeError"
  },
  {
   "property": "C40",
   "status": "proved",
   "theorems": [
    "C40_bounds",
    "C40_binary64"
   ],
   "note": "exact arithmetic and doubles; every program and parameters, also when writing is interrupted"
  },
  {
   "property": "C41",
   "status": "proved",
   "theorems": [
    "C41_keeps",
    "C41_same_motion"
   ],
   "note": "every program, every arithmetic; the reference machine moves and extrudes the same"
  },
  {
   "property": "C42",
   "status": "proved",
   "theorems": [
    "C42_no_repeat",
    "C42_binary64"
   ],
   "note": "exact arithmetic and doubles; targets outside the bounds are blank lines"
  },
  {
   "property": "C43",
   "status": "proved",
   "theorems": [
    "C43_added_lines",
    "C43_linear",
    "C43_binary64_partial"
   ],
   "note": "exact arithmetic; for doubles within a ten-millionth of a degree before rounding, when heights and temperatures are no more than a million and the print is at least 10^-9 mm high"
  },
  {
   "property": "C44",
   "status": "partial",
   "theorems": [
    "C44_range_partial",
    "C44_binary64_partial",
    "C44_overshoot_refuted"
   ],
   "note": "false of the code for falling gradients, which go one step below the end; proved for rising ones, and the exact range for falling ones"
  },
  {
   "property": "C45",
   "status": "partial",
   "theorems": [
    "C45_steps_refuted"
   ],
   "note": "false of the code: the step gradient is a steeper continuous gradient (C43_added_lines gives its shape)"
  },
  {
   "property": "C46",
   "status": "partial",
   "theorems": [
    "C46_above_partial",
    "C46_binary64_partial",
    "C46_min_z_refuted"
   ],
   "note": "false of the code: the first layer counts whatever its height; proved when the first layer is above the limit"
  },
  {
   "property": "C47",
   "status": "proved",
   "theorems": [
    "C47_refuses",
    "C47_works",
    "C47_binary64_refuses",
    "C47_binary64_works"
   ],
   "note": "exact arithmetic, and doubles up to a million; gradients that can be constructed"
  },
  {
   "property": "C48",
   "status": "partial",
   "theorems": [
    "C48_steps_refuted"
   ],
   "note": "false of the code: every use of the option fails"
  },
  {
   "property": "C49",
   "status": "proved",
   "theorems": [
    "C49_shape",
    "C49_no_arc"
   ],
   "note": "any arithmetic; a comment that is kept may have taken over noted positions, its text is the same"
  },
  {
   "property": "C50",
   "status": "proved",
   "theorems": [
    "C50_others"
   ],
   "note": "any arithmetic; generated G92 lines set E only"
  },
  {
   "property": "C51",
   "status": "proved",
   "theorems": [
    "C51_fitted"
   ],
   "note": "over the reals; the run consists of moves with E words only"
  },
  {
   "property": "C52",
   "status": "partial",
   "theorems": [
    "C52_short_partial",
    "C52_only_errors",
    "C52_refuted"
   ],
   "note": "false of the code; true without 9 moves and comments in a row; the only exceptions are TypeError and ZeroDivisionError"
  },
  {
   "property": "C53",
   "status": "partial",
   "theorems": [
    "C53_absolute_partial",
    "C53_relative_partial",
    "C53_refuted"
   ],
   "note": "relative extrusion mode over the reals; false of the code in absolute mode; in absolute mode only the exact amount is proved (proportional to the signed length of the arc)"
  },
  {
   "property": "C54",
   "status": "partial",
   "theorems": [
    "C54_absolute_partial",
    "C54_end_partial",
    "C54_rebased_refuted",
    "C54_relative_refuted",
    "C54_inch_refuted"
   ],
   "note": "over the reals, for absolute coordinates in millimetres without G92 X/Y: X and Y within 0.0005 after every line; false of the code behind G92 X/Y, in relative coordinates and in inches"
  },
  {
   "property": "C55",
   "status": "proved",
   "theorems": [
    "C55_phase_diff"
   ],
   "note": "over the reals"
  },
  {
   "property": "C56",
   "status": "partial",
   "theorems": [
    "C56_shape",
    "C56_texts",
    "C56_inch_refuted"
   ],
   "note": "texts: every program; numbers: false of the code in inches, where lines are parsed again without their scale; proved without G20"
  },
  {
   "property": "C57",
   "status": "proved",
   "theorems": [
    "C57_bounded",
    "C57_binary64_partial"
   ],
   "note": "over the reals, up to the rounding to 3 decimals; the limit is edge width * ratio of the loop * strength. For doubles: loaded programs in millimetres with numbers up to a million and settings of ordinary sizes, with a billionth of a millimetre added"
  },
  {
   "property": "C58",
   "status": "proved",
   "theorems": [
    "C58_zero"
   ],
   "note": "exact arithmetic; loaded programs without G20 (see C56); texts gain remarks only"
  },
  {
   "property": "C59",
   "status": "proved",
   "theorems": [
    "C59_words",
    "C59_binary64_partial"
   ],
   "note": "over the reals, up to rounding; for doubles as C57, when the limit is at most a millimetre"
  },
  {
   "property": "C60",
   "status": "partial",
   "theorems": [
    "C60_feed_partial",
    "C60_binary64_partial",
    "C60_feed_refuted"
   ],
   "note": "false of the code: feedrates set outside loops are ignored; proved when the last F word belongs to a move of a loop, over the reals and for doubles"
  },
  {
   "property": "C61",
   "status": "partial",
   "theorems": [
    "C61_from_partial",
    "C61_binary64_partial",
    "C61_from_refuted"
   ],
   "note": "false of the code: positions reached outside loops are ignored; proved when the previous move is a move of a loop with X and Y, over the reals and for doubles"
  },
  {
   "property": "C62",
   "status": "partial",
   "theorems": [
    "C62_slic3r_partial",
    "C62_cura_partial",
    "C62_skeinforge_partial",
    "C62_endless_refuted",
    "C62_cura_refuted",
    "C62_skeinforge_refuted"
   ],
   "note": "false of the code, for each of the three slicers; proved for Slic3r programs whose marks delimit their loops and for loaded Cura programs whose marks delimit their walls; for Skeinforge if every stretched loop is closed and long enough"
  },
  {
   "property": "C63",
   "status": "partial",
   "theorems": [
    "C63_cura_partial",
    "C63_any_partial",
    "C63_index_refuted",
    "C63_profile_refuted"
   ],
   "note": "false of the code; proved when no layer ends with a move and there is no profile string"
  },
  {
   "property": "C64",
   "status": "proved",
   "theorems": [
    "C64_returns",
    "C64_order"
   ],
   "note": "any arithmetic"
  },
  {
   "property": "C65",
   "status": "proved",
   "theorems": [
    "C65_loops",
    "C65_all_lines",
    "C65_outside"
   ],
   "note": "programs that were not stretched before; the loop in force as a function of the slicer's comments; any arithmetic"
  },
  {
   "property": "C66",
   "status": "proved",
   "theorems": [
    "C66_space",
    "C66_components",
    "C66_div",
    "C66_cross",
    "C66_magnitude",
    "C66_distance",
    "C66_reflect",
    "C66_normalized",
    "C66_order"
   ],
   "note": "over the reals"
  },
  {
   "property": "C67",
   "status": "partial",
   "theorems": [
    "C67_nonzero_partial",
    "C67_zeros_refuted"
   ],
   "note": "false of the code for 0.0 and -0.0; proved for vectors without zero components"
  },
  {
   "property": "C68",
   "status": "proved",
   "theorems": [
    "C68_dialect",
    "C68_main"
   ],
   "note": "every program; the lines are those after the conversion to relative extrusion, which keeps comment lines (C29)"
  },
  {
   "property": "C69",
   "status": "proved",
   "theorems": [
    "C69_identity"
   ],
   "note": "every program, every arithmetic"
  },
  {
   "property": "C70",
   "status": "proved",
   "theorems": [
    "C70_stages"
   ],
   "note": "every program, all options, every arithmetic; an equivalence, so it also covers failure"
  },
  {
   "property": "C71",
   "status": "partial",
   "theorems": [
    "C71_hidden_command_refuted"
   ],
   "note": "false of the code: every such line is skipped"
  },
  {
   "property": "C72",
   "status": "proved",
   "theorems": [
    "C72_framed"
   ],
   "note": ""
  },
  {
   "property": "C73",
   "status": "partial",
   "theorems": [
    "C73_padded_refuted"
   ],
   "note": "false of the code, for every state and every such line"
  },
  {
   "property": "C74",
   "status": "partial",
   "theorems": [
    "C74_bare_rebase_refuted"
   ],
   "note": "false of the code for every state; the extruder offset is not touched either"
  },
  {
   "property": "C75",
   "status": "proved",
   "theorems": [
    "C75_light_same"
   ],
   "note": "every arithmetic"
  },
  {
   "property": "C76",
   "status": "proved",
   "theorems": [
    "C76_in_force",
    "C76_binary64_partial"
   ],
   "note": "exact arithmetic; for doubles as C43"
  },
  {
   "property": "C77",
   "status": "partial",
   "theorems": [
    "C77_level_partial",
    "C77_height_refuted"
   ],
   "note": "over the reals, when no move extrudes while changing the height (and as in C54); false of the code when the first segment changes the height"
  },
  {
   "property": "C78",
   "status": "partial",
   "theorems": [
    "C78_output_refuted",
    "C78_reload_refuted",
    "C78_slic3r_partial",
    "C78_cura_partial",
    "C78_slic3r_total_partial",
    "C78_cura_total_partial"
   ],
   "note": "false of the code; proved for programs of Slic3r and Cura whose loops begin and end, as their marks say, in one layer"
  },
  {
   "property": "C79",
   "status": "partial",
   "theorems": [
    "C79_inch_refuted"
   ],
   "note": "false of the code"
  },
  {
   "property": "C80",
   "status": "partial",
   "theorems": [
    "C80_relative_refuted"
   ],
   "note": "false of the code"
  },
  {
   "property": "C81",
   "status": "partial",
   "theorems": [
    "C81_layers_partial",
    "C81_layer_refuted",
    "C81_support_refuted"
   ],
   "note": "false of the code; with C65: Slic3r programs whose layers close their loops"
  },
  {
   "property": "C82",
   "status": "partial",
   "theorems": [
    "C82_absolute_refuted"
   ],
   "note": "false of the code"
  },
  {
   "property": "C83",
   "status": "partial",
   "theorems": [
    "C83_truth_refuted"
   ],
   "note": "false of the code with Python 3, which does not call __nonzero__"
  },
  {
   "property": "C84",
   "status": "proved",
   "theorems": [
    "C84_width",
    "C84_cura"
   ],
   "note": "any arithmetic; with a profile string Python 3 raises TypeError: C63_profile_refuted"
  },
  {
   "property": "C85",
   "status": "proved",
   "theorems": [
    "C85_others",
    "C85_stretch_plugin",
    "C85_tempcal_plugin"
   ],
   "note": "any arithmetic; every state the run passes through, written text counted character by character"
  },
  {
   "property": "C86",
   "status": "partial",
   "theorems": [
    "C86_old_result_refuted",
    "C86_emptied",
    "C86_lost",
    "C86_missing_partial",
    "C86_harmless_partial"
   ],
   "note": "false of the code: argparse opens the output file before anything is read, so every failing run empties it; true when the input file is missing"
  },
  {
   "property": "C87",
   "status": "partial",
   "theorems": [
    "C87_same_file_refuted"
   ],
   "note": "false of the code: every command, with every option and on every program, leaves an empty file"
  },
  {
   "property": "C88",
   "status": "partial",
   "theorems": [
    "C88_fails",
    "C88_done",
    "C88_gap_refuted"
   ],
   "note": "the failing and the finished run are proved; false of the code when the run is cut off: every finished run passes through a state with an empty file"
  },
  {
   "property": "C89",
   "status": "partial",
   "theorems": [
    "C89_outfile_refuted"
   ],
   "note": "false of the code: the output file is emptied in every such run"
  },
  {
   "property": "C90",
   "status": "partial",
   "theorems": [
    "C90_stretch_partial",
    "C90_tempcal",
    "C90_tempcal_refuted"
   ],
   "note": "proved for the stretch plug-in; false of the temperature plug-in, which opens the file for writing first"
  },
  {
   "property": "C91",
   "status": "proved",
   "theorems": [
    "C91_copy",
    "C91_again",
    "C91_then"
   ],
   "note": "any arithmetic; the last part for programs with at least one line and commands without --inplace"
  },
  {
   "property": "C92",
   "status": "proved",
   "theorems": [
    "C92_pipe"
   ],
   "note": "any arithmetic; messages printed before an exception are not modelled"
  },
  {
   "property": "C93",
   "status": "proved",
   "theorems": [
    "C93_line_ends"
   ],
   "note": "any arithmetic"
  },
  {
   "property": "C94",
   "status": "partial",
   "theorems": [
    "C94_above_partial",
    "C94_refuted"
   ],
   "note": "over the reals: no step is more than 5 degrees above the mean; false of the code for steps below the mean, since the sign of the error is ignored (arc_optimizer.py 214)"
  },
  {
   "property": "C95",
   "status": "partial",
   "theorems": [
    "C95_first_partial",
    "C95_refuted"
   ],
   "note": "over the reals: the arc turns as the first two segments do; false of the code when the run turns back"
  },
  {
   "property": "C96",
   "status": "partial",
   "theorems": [
    "C96_formula_partial",
    "C96_round_partial",
    "C96_points",
    "C96_skeinforge_partial",
    "C96_skeinforge_open_partial",
    "C96_skeinforge_points",
    "C96_points_any"
   ],
   "note": "over the reals, up to the rounding of the written text; C96_formula_partial: all slicers, points whose walks stay in the loop; C96_round_partial: every point of a loop of Slic3r or Cura, with the walk round the loop; false of the code for loops that follow another without a retraction (C99) and for moves that name only one of X and Y (C100); C96_skeinforge_partial: every point of a closed loop of Skeinforge that is long enough; missing: shorter ones"
  },
  {
   "property": "C97",
   "status": "partial",
   "theorems": [
    "C97_corner",
    "C97_sharp_partial",
    "C97_fine_partial",
    "C97_blunt_refuted",
    "C97_binary64_refuted"
   ],
   "note": "over the reals: corners between long threads whose angle is at most 90 degrees and finely divided curves are pushed outwards; false of the code for every blunt corner between long threads, which is pulled inwards since only the part along the second thread of the part along the first is kept (stretch.py get_cross_limited_stretch)"
  },
  {
   "property": "C98",
   "status": "partial",
   "theorems": [
    "C98_slic3r_partial",
    "C98_any_partial",
    "C98_skeinforge_partial",
    "C98_slic3r_refuted",
    "C98_cura_refuted",
    "C98_skeinforge_refuted",
    "C98_skeinforge_short_refuted"
   ],
   "note": "for loops of Slic3r without other marks inside, in every arithmetic, and over the reals for loops of Skeinforge that are long enough and first in their layer or after another one; false of the code: a Skeinforge loop that is shorter than the distance walked or comes after other lines of its layer, a Slic3r loop that follows another without a retraction and a Cura wall whose travel is inside the block are opened, since the walk back from the first point does not go round to the last"
  },
  {
   "property": "C99",
   "status": "partial",
   "theorems": [
    "C99_partial",
    "C99_any_partial",
    "C99_skeinforge_partial",
    "C99_refuted",
    "C99_cura_refuted",
    "C98_skeinforge_refuted"
   ],
   "note": "for loops without other marks inside, in every arithmetic (Skeinforge: over the reals, closed, long enough, first in the layer or after another one); false of the code when a loop follows another one without a retraction: the walk back leaves it"
  },
  {
   "property": "C100",
   "status": "partial",
   "theorems": [
    "C100_refuted"
   ],
   "note": "false of the code: in the walks along the path a missing coordinate is taken from the point that is being moved, not from the point before it"
  },
  {
   "property": "C101",
   "status": "proved",
   "theorems": [
    "C101_stable"
   ],
   "note": "doubles up to a billion, in millimetres; every G command and every combination of words"
  },
  {
   "property": "C102",
   "status": "partial",
   "theorems": [
    "C102_calls_partial",
    "C102_texts_partial",
    "C102_prefix",
    "C102_layer",
    "C102_layer_refuted"
   ],
   "note": "false of the code: the last layer is never announced; everything else is proved, every arithmetic"
  },
  {
   "property": "C103",
   "status": "partial",
   "theorems": [
    "C103_deferred",
    "C103_replaced",
    "C103_state_partial",
    "C103_again_refuted"
   ],
   "note": "false of the code: modes, position, offsets and extruded length of the first program stay; proved: text, layers and indices (every arithmetic), deferred construction, and positions as after both programs (exact arithmetic)"
  },
  {
   "property": "C104",
   "status": "proved",
   "theorems": [
    "C104_report",
    "C104_binary64"
   ],
   "note": "exact arithmetic, and doubles whose measures are finite; the two lines about the size of Python objects are not modelled"
  },
  {
   "property": "C105",
   "status": "proved",
   "theorems": [
    "C105_head",
    "C105_fixed",
    "C105_binary64_head_partial",
    "C105_binary64_fixed_partial",
    "C105_small_refuted"
   ],
   "note": "exact arithmetic, and doubles up to a billionth per word when no number is beyond a million; in relative mode the errors do add up (C105_small_refuted), so that only the bound per move holds there; inches are excluded by the property, see C35"
  },
  {
   "property": "C106",
   "status": "partial",
   "theorems": [
    "C106_mod_partial",
    "C106_binary64_partial"
   ],
   "note": "exact arithmetic, and doubles up to a billionth when no number is beyond a million; all options, for programs that select G90 before they move, stay in absolute mode and millimetres, use G92 only between homing and the first move of an axis and, with -e, announce M82 or M83 after G90; false of the code otherwise, as C28 and C33 are"
  },
  {
   "property": "C107",
   "status": "proved",
   "theorems": [
    "C107_in_place",
    "C107_extremes",
    "C107_operators",
    "C107_untouched",
    "C107_attributes"
   ],
   "note": "any arithmetic; components are floats and divisors are numbers"
  },
  {
   "property": "C108",
   "status": "proved",
   "theorems": [
    "C108_floor",
    "C108_reverse",
    "C108_coordinates"
   ],
   "note": "floor division over the reals"
  },
  {
   "property": "C109",
   "status": "partial",
   "theorems": [
    "C109_count_partial",
    "C109_binary64_partial",
    "C109_spiral_refuted",
    "C109_close_refuted"
   ],
   "note": "false of the code for prints that rise while printing (vases count one layer) and for heights a hundredth of a millimetre apart; proved otherwise, in exact arithmetic and for doubles with heights up to a kilometre"
  },
  {
   "property": "C110",
   "status": "partial",
   "theorems": [
    "C110_sum_partial",
    "C110_heads_partial",
    "C110_back_partial",
    "C110_binary64_partial",
    "C110_inch_refuted"
   ],
   "note": "false of the code in inches, where every pass multiplies the numbers by 25.4 again; in millimetres proved for every program, word by word, in exact arithmetic; the positions of the head also for doubles, for the programs whose translation moves the part"
  },
  {
   "property": "C111",
   "status": "partial",
   "theorems": [
    "C111_box_partial",
    "C111_faint_refuted"
   ],
   "note": "false of the code where the extruder advances by less than the last written place of E; proved in exact arithmetic for programs with absolute positions and extrusion, without G92, that move X and Y before they print"
  },
  {
   "property": "C112",
   "status": "partial",
   "theorems": [
    "C112_measures_partial",
    "C112_faint_refuted"
   ],
   "note": "false of the code where the extruder advances by less than the last written place of E; proved in exact arithmetic for programs in millimetres that do not set E by G92, with the bound of half a thousandth on the box where positions are absolute and half a thousandth per move otherwise"
  },
  {
   "property": "C113",
   "status": "partial",
   "theorems": [
    "C113_translated_partial",
    "C113_converted_partial",
    "C113_binary64_partial",
    "C113_binary64_converted_partial",
    "C113_fine_refuted"
   ],
   "note": "false of the code for heights of more than three decimals, where one layer can become two; proved in exact arithmetic and for IEEE doubles for programs in millimetres with Z words of at most three decimals (and E words of at most five for the filament); that a conversion to relative extrusion keeps the printing lines is proved in exact arithmetic only"
  },
  {
   "property": "C114",
   "status": "partial",
   "theorems": [
    "C114_translated_partial",
    "C114_converted_partial",
    "C114_binary64_translated_partial",
    "C114_binary64_converted_partial",
    "C114_backward_refuted"
   ],
   "note": "false of the code for negative feed rates, which can make the loader divide by zero in what was written; proved for all programs without them in exact arithmetic, and for IEEE doubles for programs in millimetres with numbers of at most a million"
  },
  {
   "property": "C115",
   "status": "proved",
   "theorems": [
    "C115_idle",
    "C115_idle_binary64"
   ],
   "note": "the same layers are claimed for programs with at least one line that is not blank: an empty program has no layer and one with a comment has one"
  },
  {
   "property": "C116",
   "status": "proved",
   "theorems": [
    "C116_calibrated",
    "C116_calibrated_binary64",
    "C116_paused",
    "C116_paused_binary64"
   ],
   "note": ""
  },
  {
   "property": "C117",
   "status": "partial",
   "theorems": [
    "C117_order_partial",
    "C117_axes",
    "C117_axes_binary64",
    "C117_bare_refuted"
   ],
   "note": "false of the code for a G92 without words, to which the translation adds X and Y so that the conversion no longer takes it as a reset of E; proved for all other programs, in every arithmetic; the axes for every program, over the reals and for doubles"
  },
  {
   "property": "C118",
   "status": "partial",
   "theorems": [
    "C118_speed_partial",
    "C118_end_partial",
    "C118_unknown_refuted",
    "C118_inches_refuted"
   ],
   "note": "false of the code where no F word came before, since the arc gets F0, and in inches, where its F word is 25.4 times too large; proved over the reals for programs in millimetres in which a feed rate is known at each extruding move; not proved for doubles"
  },
  {
   "property": "C119",
   "status": "partial",
   "theorems": [
    "C119_reload_partial",
    "C119_backward_refuted"
   ],
   "note": "false of the code where feed rates may be negative: an optimised program can then fail to load with a ZeroDivisionError; proved over the reals for programs without negative feed rates; not proved for doubles"
  },
  {
   "property": "C120",
   "status": "partial",
   "theorems": [
    "C120_others_partial",
    "C120_binary64_partial",
    "C120_arcs_refuted"
   ],
   "note": "false of the code for G2 and G3 moves of the original, which are taken for straight moves: nine arcs can become one that goes the other way round; that all other lines are kept, travel moves included, is proved over the reals, and for IEEE doubles for programs with numbers of at most a million"
  },
  {
   "property": "C121",
   "status": "partial",
   "theorems": [
    "C121_layers_partial",
    "C121_height_refuted"
   ],
   "note": "false of the code if an extruding move has a Z word, which an arc swallows together with the layer it starts; proved over the reals for programs without such moves and without negative feed rates; not proved for doubles"
  },
  {
   "property": "C122",
   "status": "partial",
   "theorems": [
    "C122_none_partial",
    "C122_short_partial",
    "C122_arcs_refuted"
   ],
   "note": "false of the code: the second pass takes arcs for straight moves and makes one arc of arcs and the straight moves between them; proved in every arithmetic if no arc was found, and over the reals if the first pass leaves no more than eight moves and comments in a row"
  },
  {
   "property": "C123",
   "status": "partial",
   "theorems": [
    "C123_within_partial",
    "C123_bulge_refuted",
    "C123_absolute_refuted"
   ],
   "note": "false of the code: only the end point of an arc is measured, so the box loses what bulges, and in absolute extrusion a clockwise arc moves the extruder back, so that later moves print which did not; proved over the reals, for programs in absolute coordinates, millimetres and relative extrusion, that the box never grows by more than the rounding of a word"
  },
  {
   "property": "C124",
   "status": "partial",
   "theorems": [
    "C124_lines_partial",
    "C124_from_start",
    "C124_layers_refuted"
   ],
   "note": "false of the code for layers: the number is looked for in a table of non-negative numbers, so every edit of a layer named from the end raises ValueError; proved for line numbers, in every arithmetic and after any edits"
  },
  {
   "property": "C125",
   "status": "partial",
   "theorems": [
    "C125_commute",
    "C125_join",
    "C125_rewriting_partial",
    "C125_emptied_refuted"
   ],
   "note": "false of the code for a layer rewritten with no commands: it can never be edited again, every later edit raises ValueError; everything else is proved in every arithmetic and after any edits"
  },
  {
   "property": "C126",
   "status": "proved",
   "theorems": [
    "C126_untouched",
    "C126_alike",
    "C126_session",
    "C126_stored"
   ],
   "note": "the session is claimed for commands that can be loaded as one program"
  },
  {
   "property": "C127",
   "status": "proved",
   "theorems": [
    "C127_tool"
   ],
   "note": ""
  },
  {
   "property": "C128",
   "status": "partial",
   "theorems": [
    "C128_timeless_refuted",
    "C128_optimised_refuted"
   ],
   "note": "false of the code: arcs take no time, a program lasts exactly as long as it does without them; a quarter of a circle made into an arc loses its duration"
  },
  {
   "property": "C129",
   "status": "partial",
   "theorems": [
    "C129_dwells_partial",
    "C129_spelling_refuted"
   ],
   "note": "proved in exact arithmetic for G4 with an upper-case P and some digits; false of the code for a lower-case p and for seconds given with S, which take no time"
  },
  {
   "property": "C130",
   "status": "proved",
   "theorems": [
    "C130_unused",
    "C130_measures"
   ],
   "note": ""
  },
  {
   "property": "C131",
   "status": "partial",
   "theorems": [
    "C131_machine_partial",
    "C131_size_partial",
    "C131_near_partial",
    "C131_parameters_refuted",
    "C131_drift_refuted"
   ],
   "note": "false of the code: words such as S and P are not compared, and in relative moves the tolerance adds up; proved for the same commands with the same numbers, the duration if there is no G4; for programs that compare equal in both orders and move only absolutely (no G91, G92, G28), the final positions are within a thousandth in exact arithmetic; the extruder position and the sizes of such programs are not covered"
  }
 ]
}