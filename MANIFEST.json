{
 "claims": [
  {
   "property": "C01",
   "status": "proved",
   "theorems": [
    "C01_integer_round_trip"
   ],
   "note": "Every integer of at most 10^18 digits, the range of decimal.Decimal through which Integer.from_mcnp reads."
  },
  {
   "property": "C02",
   "status": "proved",
   "theorems": [
    "C02_real_round_trip"
   ],
   "note": "Sign, coefficient and exponent identical for every representable finite Decimal."
  },
  {
   "property": "C03",
   "status": "proved",
   "theorems": [
    "C03_exponent_forms"
   ],
   "note": "All five spellings, any mantissa and exponent digits."
  },
  {
   "property": "C04",
   "status": "partial",
   "theorems": [
    "C04_integer_truncates_partial",
    "C04_integer_exact_refuted"
   ],
   "note": "False of the code: \"1.5\" reads as 1. Proved: the result is the source number truncated towards zero."
  },
  {
   "property": "C05",
   "status": "partial",
   "theorems": [
    "C05_real_partial",
    "C05_integer_partial",
    "C05_number_pattern_partial",
    "C05_zaid",
    "C05_substance",
    "C05_distribution",
    "C05_designator",
    "C05_library_errors_refuted"
   ],
   "note": "False of the code for Integer, Real, Index, Transformation (witnesses). Proved for all texts of Zaid, Substance, Distribution, Designator, all non-empty texts of Real and the texts of the number pattern for Integer."
  },
  {
   "property": "C06",
   "status": "partial",
   "theorems": [
    "C06_shorthand_round_trip_partial",
    "C06_zero_count_refuted"
   ],
   "note": "False for zero counts of r, i, log (written like an absent count). Proved for every other kind and count."
  },
  {
   "property": "C07",
   "status": "partial",
   "theorems": [
    "C07_distribution_round_trip_partial",
    "C07_distribution_refuted"
   ],
   "note": "False for every n >= 10: only the first digit is read. Proved for n <= 9."
  },
  {
   "property": "C08",
   "status": "proved",
   "theorems": [
    "C08_zaid_round_trip",
    "C08_zaid_stable"
   ],
   "note": ""
  },
  {
   "property": "C09",
   "status": "proved",
   "theorems": [
    "C09_index_round_trip",
    "C09_substance_round_trip"
   ],
   "note": ""
  },
  {
   "property": "C10",
   "status": "partial",
   "theorems": [
    "C10_designator_accepts_partial",
    "C10_designator_exact_partial",
    "C10_designator_refuted"
   ],
   "note": "False both ways: the minus sign is refused and letters outside the list are accepted (the class contains the range _-~). Proved: the exact accepted language."
  },
  {
   "property": "C11",
   "status": "proved",
   "theorems": [
    "C11_transformation_round_trip"
   ],
   "note": "All five Transformation classes."
  },
  {
   "property": "C12",
   "status": "partial",
   "theorems": [
    "C12_integers_partial",
    "C12_reals_partial",
    "C12_strings",
    "C12_zaids",
    "C12_substances",
    "C12_distributions_partial",
    "C12_counted_shorthand_refuted"
   ],
   "note": "False for counted shorthand inside a sequence (\"12r\" becomes 12 and r). Proved for numbers, uncounted shorthand, words, zaids, substances, small distribution numbers, any length."
  },
  {
   "property": "C13",
   "status": "partial",
   "theorems": [
    "C13_words_complete_partial",
    "C13_sequence_skips_text_refuted"
   ],
   "note": "False for numbers (\"1 x 2\" reads as 1, 2). Proved for words."
  },
  {
   "property": "C14",
   "status": "partial",
   "theorems": [
    "C14_iteration_partial",
    "C14_text_partial",
    "C14_failing_partial",
    "C14_failure_refuted"
   ],
   "note": "Proved for every interleaving. False for a failing element: its exception comes out once, later iterations end silently before it."
  },
  {
   "property": "C15",
   "status": "proved",
   "theorems": [
    "C15_round_trip",
    "C15_grammar"
   ],
   "note": ""
  },
  {
   "property": "C16",
   "status": "partial",
   "theorems": [
    "C16_precedence_partial",
    "C16_grammar_partial",
    "C16_grammar_refuted",
    "C16_precedence_refuted"
   ],
   "note": "False of the code: the colon binds tighter than the blank. Proved for geometry that does not mix the two at one level."
  },
  {
   "property": "C17",
   "status": "partial",
   "theorems": [
    "C17_or",
    "C17_and_partial",
    "C17_unary_partial",
    "C17_and_refuted",
    "C17_unary_refuted",
    "C17_surface_binary",
    "C17_surface_unary",
    "C17_surface_invert_refuted"
   ],
   "note": "False of the code: & builds a union node and is written without parentheses; unary operators do not parenthesise. Proved for |, for & of operands that are not intersections, and for unary operators on primaries; for surfaces &, |, -, + are right and ~ gives the complement of the cell of that number."
  },
  {
   "property": "C18",
   "status": "partial",
   "theorems": [
    "C18_errors_partial",
    "C18_foreign",
    "C18_errors_refuted"
   ],
   "note": "False of the code: AssertionError and IndexError escape. Proved: these are the only foreign errors, and any character outside the alphabet gives the library error."
  },
  {
   "property": "C19",
   "status": "partial",
   "theorems": [
    "C19_drawing_partial",
    "C19_drawable",
    "C19_drawing_refuted"
   ],
   "note": "False of the code for # with a cell number. Proved for all other geometry over pointwise solids; meshes are not modelled."
  },
  {
   "property": "C20",
   "status": "partial",
   "theorems": [
    "C20_grammar",
    "C20_round_trip_partial",
    "C20_items_partial",
    "C20_round_trip_refuted",
    "C20_errors_partial",
    "C20_errors_refuted"
   ],
   "note": "False for several bins: they are joined into one chain. Proved for one bin; for several, the text and the items in order come back."
  },
  {
   "property": "C21",
   "status": "partial",
   "theorems": [
    "C21_column_limit_partial",
    "C21_first_line",
    "C21_data_cards_partial",
    "C21_column_limit_refuted",
    "C21_own_writers_refuted",
    "C21_written_long_refuted"
   ],
   "note": "False of the code: the continuation indent is 6 columns but counted as 5, so a line can reach 81; the cards DS L/T/Q/S and ring detectors have writers that never wrap. Proved: 81 columns for every text and every other data card, 80 for the first line."
  },
  {
   "property": "C22",
   "status": "proved",
   "theorems": [
    "C22_wrap_undone",
    "C22_layout_irrelevant",
    "C22_comments_set_aside"
   ],
   "note": "First word at most 78 columns."
  },
  {
   "property": "C23",
   "status": "proved",
   "theorems": [
    "C23_compression_cancels",
    "C22_wrap_undone"
   ],
   "note": "Upper-case shorthand may come back in lower case; exact otherwise."
  },
  {
   "property": "C24",
   "status": "partial",
   "theorems": [
    "C24_expansion_partial",
    "C24_expansion_refuted"
   ],
   "note": "False of the code for adjacent counted words of the kinds r, i, log, ilog. Proved for every other arrangement, and for j in any arrangement."
  },
  {
   "property": "C25",
   "status": "partial",
   "theorems": [
    "C25_cards_partial",
    "C25_options_partial",
    "C25_families_partial",
    "C25_regular_classes",
    "C25_coverage",
    "C25_regular_families",
    "C25_dependent_refuted",
    "C25_rings_refuted"
   ],
   "note": "False for DS S cards with distributions from 10 and for ring detectors without numbers. Proved for 534 of the 675 modelled classes (all of the regular form), any values and lengths. Missing: gaps (false, C26), counted shorthand (false, C12), distribution numbers from 10 (false, C07), classes not of the regular form."
  },
  {
   "property": "C26",
   "status": "partial",
   "theorems": [
    "C26_gap_refuted",
    "C26_gaps_close_refuted",
    "C26_trailing_partial"
   ],
   "note": "False of the code: set values move up to the first fields, shown for every regular class. Proved: without gaps nothing moves."
  },
  {
   "property": "C27",
   "status": "partial",
   "theorems": [
    "C27_cards_partial",
    "C27_options_partial",
    "C27_nothing_beside",
    "C27_layouts",
    "C27_own_text_partial",
    "C27_cards_refuted",
    "C27_options_refuted",
    "C27_shifted_refuted",
    "C27_own_text_refuted"
   ],
   "note": "False for exactly four classes (materials, FMULT, entries of DS Q and of PIKMT), for every text they read: the last attribute is read from inside the piece before it. Proved for every accepted text of all other 672 classes."
  },
  {
   "property": "C28",
   "status": "partial",
   "theorems": [
    "C28_constraints_partial",
    "C28_constructed",
    "C28_assigned",
    "C28_coverage",
    "C28_nps_positive",
    "C28_seed_odd",
    "C28_cross_attribute_refuted",
    "C28_meaning_partial",
    "C28_tests_decide",
    "C28_meaning_coverage",
    "C28_thresh_range",
    "C28_detector_number"
   ],
   "note": "Proved for all histories and all 1173 independent attribute tests, 1165 of them also read as arithmetic on rationals and equality of texts. False for tests between attributes (XLIMS), which hold after construction and after assigning the tested attribute only."
  },
  {
   "property": "C29",
   "status": "proved",
   "theorems": [
    "C29_rejected_unchanged",
    "C29_accepted_changes_one",
    "C29_history"
   ],
   "note": ""
  },
  {
   "property": "C30",
   "status": "partial",
   "theorems": [
    "C30_density_partial",
    "C30_assigned",
    "C30_refuted"
   ],
   "note": "False of the code: assigning material does not look at the density. Proved for every history whose assignments keep the cell void or filled, and after every accepted density assignment."
  },
  {
   "property": "C31",
   "status": "partial",
   "theorems": [
    "C31_number_partial",
    "C31_transform",
    "C31_unchecked",
    "C31_refuted"
   ],
   "note": "False of the code: with a transformation the number is not checked at all (proved for every number). Proved without a transformation, and that transformations stay in 0..999."
  },
  {
   "property": "C32",
   "status": "partial",
   "theorems": [
    "C32_automatic_distinct",
    "C32_chosen_partial",
    "C32_refuted"
   ],
   "note": "Automatic numbers are pairwise distinct (proved for every history). They can equal a number the program chose; proved that they do not when that number exceeds the count of automatic creations."
  },
  {
   "property": "C33",
   "status": "proved",
   "theorems": [
    "C33_get_after_set",
    "C33_read",
    "C33_accepts",
    "C33_rest_unchanged",
    "C33_refused"
   ],
   "note": "Cards are objects in a heap, so a card listed twice is covered."
  },
  {
   "property": "C34",
   "status": "proved",
   "theorems": [
    "C34_get_after_set",
    "C34_read",
    "C34_accepts",
    "C34_rest_unchanged",
    "C34_refused"
   ],
   "note": "Option objects shared between two cards are not modelled."
  },
  {
   "property": "C42",
   "status": "proved",
   "theorems": [
    "C42_own_directory",
    "C42_start",
    "C42_post_hooks",
    "C42_terminates",
    "C42_complete",
    "C42_taken"
   ],
   "note": "Interleaving semantics: a started job may end at any moment. Hooks are assumed to return. The command line is passed to the job as one single word."
  },
  {
   "property": "C43",
   "status": "partial",
   "theorems": [
    "C43_refused",
    "C43_done",
    "C43_contents_partial",
    "C43_atomic_refuted"
   ],
   "note": "False of the code: the file is emptied before it is filled. Proved: a file that does not parse or cannot be written keeps its content; otherwise it holds the old text or a beginning of the new one. Inp.from_mcnp and to_mcnp are arbitrary functions here."
  },
  {
   "property": "C44",
   "status": "partial",
   "theorems": [
    "C44_convert_partial",
    "C44_convert_parquet_partial",
    "C44_convert_refuted",
    "C44_plot_refuted"
   ],
   "note": "False of the code for numbers ending in zero (4 and 40) and for every plot. Proved for converted tallies whose numbers do not end in zero, which are all the tally numbers of MCNP."
  },
  {
   "property": "C45",
   "status": "proved",
   "theorems": [
    "C45_bounded",
    "C45_six_lines",
    "C45_defined"
   ],
   "note": "The number of lines is bounded; the length of a line is not."
  },
  {
   "property": "C51",
   "status": "partial",
   "theorems": [
    "C51_beside_input",
    "C51_no_extension_refuted"
   ],
   "note": "False of the code for a file name without extension. Proved for every other path."
  },
  {
   "property": "C52",
   "status": "partial",
   "theorems": [
    "C52_failed_batch",
    "C52_abandoned_refuted"
   ],
   "note": "False of the code: the jobs already started are abandoned and no post-hook is called."
  },
  {
   "property": "C46",
   "status": "partial",
   "theorems": [
    "C46_integers",
    "C46_strings",
    "C46_other_elements",
    "C46_reals_partial",
    "C46_equivalence_partial",
    "C46_real_text_refuted",
    "C46_reflexive_refuted",
    "C46_symmetric_refuted",
    "C46_transitive_refuted",
    "C46_total_refuted"
   ],
   "note": "False of the code for Reals (1.5 and 1.50), NaN, and across classes. Proved within each class; Reals compare by value."
  },
  {
   "property": "C53",
   "status": "partial",
   "theorems": [
    "C53_opposite_partial",
    "C53_opposite_refuted"
   ],
   "note": "False of the code across classes: Integer 5 and Real 5 are neither equal nor unequal. Proved within each class."
  },
  {
   "property": "C37",
   "status": "partial",
   "theorems": [
    "C37_event_types",
    "C37_j_line",
    "C37_p_line",
    "C37_n_line",
    "C37_i_line_partial",
    "C37_v_line_partial",
    "C37_l_line_partial",
    "C37_event",
    "C37_history",
    "C37_header",
    "C37_file",
    "C37_refuted"
   ],
   "note": "Lines, events, histories, headers and whole files of any length. False for L lines whose count is a multiple of thirty, V lines whose count is not a multiple of ten, zero fields of I lines and three-digit exponents; these are excluded by the hypotheses."
  },
  {
   "property": "C38",
   "status": "proved",
   "theorems": [
    "C38_classification",
    "C38_filter"
   ],
   "note": "Every file and every predicate per category; the predicates are called once per event in file order."
  },
  {
   "property": "C39",
   "status": "proved",
   "theorems": [
    "C39_ptrac_processor",
    "C39_meshtal_processor",
    "C39_ptrac_processor_raising",
    "C39_meshtal_processor_raising"
   ],
   "note": "Also states which calls are made when a hook raises."
  },
  {
   "property": "C49",
   "status": "partial",
   "theorems": [
    "C49_written_partial",
    "C49_refuted",
    "C49_problem_partial"
   ],
   "note": "False of the code: a cell whose geometry is given by a surface is accepted and can never be written. Proved for geometries given as text or tree."
  },
  {
   "property": "C50",
   "status": "proved",
   "theorems": [
    "C50_ranges",
    "C50_accepts"
   ],
   "note": ""
  },
  {
   "property": "C54",
   "status": "partial",
   "theorems": [
    "C54_p_line_partial",
    "C54_v_line_partial",
    "C54_l_line_partial",
    "C54_library_errors_refuted"
   ],
   "note": "False of the code: an unknown event type gives UnboundLocalError. Proved for P, V and L lines."
  },
  {
   "property": "C55",
   "status": "partial",
   "theorems": [
    "C55_positions_partial",
    "C55_directions_refuted"
   ],
   "note": "False of the code: the file pattern groups its alternatives wrongly. Proved for files whose events carry positions."
  },
  {
   "property": "C40",
   "status": "proved",
   "theorems": [
    "C40_tally_line",
    "C40_every_line"
   ],
   "note": "A line end after the line is not part of what is written."
  },
  {
   "property": "C56",
   "status": "partial",
   "theorems": [
    "C56_columns_partial",
    "C56_positions",
    "C56_refuted"
   ],
   "note": "False of the code for lines without energy or time: C56_positions states how every such line is misread. Proved for lines with all columns."
  },
  {
   "property": "C57",
   "status": "partial",
   "theorems": [
    "C57_file_partial",
    "C57_refuted",
    "C57_energy_refuted"
   ],
   "note": "False of the code: the last line end is lost, and lines with energy and positions but no time are cut. Proved up to the last line end, for headers in MCNP layout and lines of the other widths."
  },
  {
   "property": "C58",
   "status": "partial",
   "theorems": [
    "C58_tally_line_partial",
    "C58_refuted"
   ],
   "note": "False of the code for headers: a number of histories that is Infinity raises OverflowError. Proved for lines."
  },
  {
   "property": "C47",
   "status": "partial",
   "theorems": [
    "C47_operators_partial",
    "C47_translate_partial",
    "C47_refuted",
    "C47_rotate_refuted"
   ],
   "note": "False of the code for the torus, wedge and hexagonal shapes, whose predicates are not booleans, and for rotations. Proved for all boolean shapes."
  },
  {
   "property": "C59",
   "status": "partial",
   "theorems": [
    "C59_sense_partial",
    "C59_cylinders",
    "C59_refuted",
    "C59_errors_refuted",
    "C59_transform_refuted",
    "C59_points_refuted"
   ],
   "note": "False of the code for cylinders, cones, bodies off the axes, transformed surfaces and planes by three points. Proved, in exact arithmetic, for planes, spheres, RPP, and BOX and RCC along the axes."
  },
  {
   "property": "C60",
   "status": "partial",
   "theorems": [
    "C60_cells_partial",
    "C60_refuted"
   ],
   "note": "False of the code for the complement of a cell. Proved for problems without it."
  },
  {
   "property": "C48",
   "status": "partial",
   "theorems": [
    "C48_table",
    "C48_zaids",
    "C48_from_formula_partial",
    "C48_refuted"
   ],
   "note": "The table part is proved. from_formula is proved to succeed for elements in the table; for any other symbol it raises KeyError. molmass is external: compositions are arguments."
  },
  {
   "property": "C61",
   "status": "partial",
   "theorems": [
    "C61_total_partial",
    "C61_bounded_partial",
    "C61_refuted"
   ],
   "note": "False of the code: elements with no natural isotope and nuclides below the cutoff are dropped without renormalising. Proved for the rest, in exact arithmetic."
  },
  {
   "property": "C62",
   "status": "partial",
   "theorems": [
    "C62_atoms_partial",
    "C62_modes",
    "C62_refuted"
   ],
   "note": "False of the code: both modes use the mass fraction, and weights use isotope abundances. Proved for formulas of one element."
  },
  {
   "property": "C41",
   "status": "partial",
   "theorems": [
    "C41_every_page",
    "C41_determined",
    "C41_frames_partial",
    "C41_frames_refuted"
   ],
   "note": "Proved that every page some class reads is a block, in order. False of to_dataframe: of two tallies with one number only the last is there."
  },
  {
   "property": "C63",
   "status": "partial",
   "theorems": [
    "C63_tables",
    "C63_header_partial",
    "C63_starting_partial",
    "C63_analysis_partial",
    "C63_density_partial",
    "C63_refuted"
   ],
   "note": "Proved for four of the eight tables. In each of the other four one place is rewritten, and the theorems say which."
  },
  {
   "property": "C64",
   "status": "partial",
   "theorems": [
    "C64_file_partial",
    "C64_refuted"
   ],
   "note": "False of the code: a page no class reads is dropped. Proved for files whose pages are each read and written back."
  },
  {
   "property": "C65",
   "status": "partial",
   "theorems": [
    "C65_line",
    "C65_cell_subtally",
    "C65_surface_subtally",
    "C65_angle_subtally",
    "C65_refuted"
   ],
   "note": "Proved for lines in the layout of MCNP; a line in another layout is skipped without an error."
  },
  {
   "property": "C66",
   "status": "partial",
   "theorems": [
    "C66_volumes",
    "C66_areas",
    "C66_angles",
    "C66_pulses_read",
    "C66_pulses_partial",
    "C66_refuted",
    "C66_angles_refuted"
   ],
   "note": "False of the code for pulse-height pages with a line of their own, and where the line after a total holds a blank. Proved for the rest."
  },
  {
   "property": "C35",
   "status": "partial",
   "theorems": [
    "C35_blocks_partial",
    "C35_message_refuted"
   ],
   "note": "Proved for files of any number of lines, words and continuation lines: every line comes back in its block, in its place. False of the code for the message, which gets a line end more. Missing: vertical input, tabs, equal signs and comments at the end of a line."
  },
  {
   "property": "C36",
   "status": "partial",
   "theorems": [
    "C36_refuted",
    "C36_text_refuted",
    "C36_comment_lines_partial",
    "C36_written_partial"
   ],
   "note": "False of the code: comments after $ are lost, and blanks and equal signs in comment lines are changed. Proved that comment lines keep all their words in every block."
  },
  {
   "property": "C67",
   "status": "partial",
   "theorems": [
    "C67_refuted",
    "C67_accepted_partial"
   ],
   "note": "False of the code: importances on an IMP card do not count. The theorem says exactly when a file whose cards are read is accepted."
  },
  {
   "property": "C68",
   "status": "partial",
   "theorems": [
    "C68_problem_partial",
    "C68_cell_partial",
    "C68_surface_partial"
   ],
   "note": "Every number of cards; data cards of every class of regular form but the eight of C69, also with lists of options (C70), surfaces of every class, comments, cells with any readable geometry and any list of options as in C70, and cells like others. Not the message, and not cells without options that are written with a blank line (C71)."
  },
  {
   "property": "C69",
   "status": "partial",
   "theorems": [
    "C69_refuted",
    "C69_cards_partial",
    "C69_comments",
    "C69_options_refuted",
    "C69_options_partial"
   ],
   "note": "Proved for all but eight data card classes and 25 option classes, by deciding emptiness of the intersection of the languages of their patterns. False of the code for Df_1, Phys_4 and Tf_1, and for the option dir 0 of a source, which is read as a distribution and written as dir d0."
  },
  {
   "property": "C70",
   "status": "partial",
   "theorems": [
    "C70_refuted",
    "C70_list_partial",
    "C70_cards_partial",
    "C70_data_partial",
    "C70_coverage"
   ],
   "note": "False of the code: of a sequence of values in an option of a list only the first is kept. Proved for lists of any length of options without such sequences, for every family, and for the 31 classes, SDEF and PTRAC among them, that end with a list (all but the filter of PTRAC, which has a writer of its own)."
  },
  {
   "property": "C71",
   "status": "partial",
   "theorems": [
    "C71_blocks_refuted",
    "C71_card_partial",
    "C71_blocks_partial"
   ],
   "note": "False of the code: a cell without options of 78 columns is written with a blank line. Proved for comments, surfaces, data cards and cells with options, for every number of cards and continuation lines."
  },
  {
   "property": "C72",
   "status": "partial",
   "theorems": [
    "C72_classes_refuted",
    "C72_classes_partial",
    "C72_shorthands_partial",
    "C72_data_partial",
    "C72_file_refuted",
    "C72_cards_refuted",
    "C72_problem_partial"
   ],
   "note": "False of the code: 170 of the 675 classes raise errors of Python, each shown with a text. Proved for every text of 504 others, as cards and as members of a family; one class (surface_P_1, whose tests call numpy) is not decided. All but 46 classes raise only when a field is a shorthand. An error of the data block is one of a listed class."
  },
  {
   "property": "C73",
   "status": "partial",
   "theorems": [
    "C73_check_partial",
    "C73_fix_partial",
    "C73_check_refuted",
    "C73_run_partial",
    "C73_run_refuted",
    "C73_run_twice_refuted",
    "C73_convert_partial",
    "C73_convert_refuted",
    "C73_convert_name_refuted",
    "C73_plot_partial"
   ],
   "note": "False of the code: run says Done! and returns 0 when the command does not exist; convert empties the place of the new file before it looks for the tally, and then fails with a KeyError; names without a suffix and problems that raise errors of Python (C72) are not caught. Proved for all else. visualize is C75; docopt is not modelled."
  },
  {
   "property": "C74",
   "status": "partial",
   "theorems": [
    "C74_filter_partial",
    "C74_raises_partial"
   ],
   "note": "For checks that return or raise an error of Python; the generator is taken to be drained."
  },
  {
   "property": "C75",
   "status": "partial",
   "theorems": [
    "C75_windows_partial",
    "C75_files_partial",
    "C75_unread_partial",
    "C75_skip_files_refuted",
    "C75_listed_files_refuted",
    "C75_cell_file_refuted",
    "C75_surface_file_refuted",
    "C75_like_refuted",
    "C75_complement_refuted",
    "C75_numbers_refuted",
    "C75_surface_refuted"
   ],
   "note": "False of the code: with --pdf the lists to skip are ignored and listed cells or surfaces always end in an error of Python; a cell like a skipped one raises KeyError and the complement of a skipped one is another set; lists that are no numbers and surfaces that cannot be shown are not caught. Proved for windows of every combination of options, and for files of all cells and surfaces."
  },
  {
   "property": "C76",
   "status": "partial",
   "theorems": [
    "C76_small_partial",
    "C76_same_partial",
    "C76_options_partial",
    "C76_same_options_partial",
    "C76_both_partial",
    "C76_both_options_partial",
    "C76_numbers_partial",
    "C76_capital_E",
    "C76_patterns",
    "C76_text",
    "C76_numbers_refuted",
    "C76_words_refuted",
    "C76_rings_refuted",
    "C76_cards_partial",
    "C76_entries_partial",
    "C76_cells_partial",
    "C76_surfaces_partial",
    "C76_data_partial",
    "C76_blocks",
    "C76_files_partial",
    "C76_lines_refuted"
   ],
   "note": "False of the code: nps e5 is read and nps E5 is not, and NO (totnu) and ND (tallies f5) are refused in capitals. Proved for all classes: what is read in any spelling is read in small letters, as the same card, so two spellings that are both read agree; and, but for the three classes with such a word, in every spelling without a capital E. Numbers that do not begin with a capital E are the same in every spelling, the others are always refused. Cards, options, cells, surfaces, data lines and whole files without a capital E, and without those three classes, have the same outcome in every spelling, errors included; every file is cut into the same blocks."
  },
  {
   "property": "C77",
   "status": "partial",
   "theorems": [
    "C77_twice_partial",
    "C77_letters_partial",
    "C77_options_partial",
    "C77_cards_partial",
    "C77_texts_refuted",
    "C77_options_refuted"
   ],
   "note": "False of the code: crowded counted words, shorthands in capitals and two equal signs are changed again, and imp:n = = 1 is refused alone but read from a text prepared before. Proved for all texts of clean words without crowded or zero counts (j may be crowded)."
  }
 ]
}
