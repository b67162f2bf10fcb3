"""Writes /verif/MANIFEST.json.  Each row: property, status, theorems, note."""
import json
import os

ROWS = [
    ('C01', 'proved', ['C01_integer_round_trip'], 'Every integer of at most 10^18 digits, the range of decimal.Decimal through which Integer.from_mcnp reads.'),
    ('C02', 'proved', ['C02_real_round_trip'], 'Sign, coefficient and exponent identical for every representable finite Decimal.'),
    ('C03', 'proved', ['C03_exponent_forms'], 'All five spellings, any mantissa and exponent digits.'),
    ('C04', 'partial', ['C04_integer_truncates_partial', 'C04_integer_exact_refuted'], 'False of the code: "1.5" reads as 1. Proved: the result is the source number truncated towards zero.'),
    ('C05', 'partial', ['C05_real_partial', 'C05_integer_partial', 'C05_number_pattern_partial', 'C05_zaid', 'C05_substance', 'C05_distribution', 'C05_designator', 'C05_library_errors_refuted'], 'False of the code for Integer, Real, Index, Transformation (witnesses). Proved for all texts of Zaid, Substance, Distribution, Designator, all non-empty texts of Real and the texts of the number pattern for Integer.'),
    ('C06', 'partial', ['C06_shorthand_round_trip_partial', 'C06_zero_count_refuted'], 'False for zero counts of r, i, log (written like an absent count). Proved for every other kind and count.'),
    ('C07', 'partial', ['C07_distribution_round_trip_partial', 'C07_distribution_refuted'], 'False for every n >= 10: only the first digit is read. Proved for n <= 9.'),
    ('C08', 'proved', ['C08_zaid_round_trip', 'C08_zaid_stable'], ''),
    ('C09', 'proved', ['C09_index_round_trip', 'C09_substance_round_trip'], ''),
    ('C10', 'partial', ['C10_designator_accepts_partial', 'C10_designator_exact_partial', 'C10_designator_refuted'], 'False both ways: the minus sign is refused and letters outside the list are accepted (the class contains the range _-~). Proved: the exact accepted language.'),
    ('C11', 'proved', ['C11_transformation_round_trip'], 'All five Transformation classes.'),
    ('C12', 'partial', ['C12_integers_partial', 'C12_reals_partial', 'C12_strings', 'C12_zaids', 'C12_substances', 'C12_distributions_partial', 'C12_counted_shorthand_refuted'], 'False for counted shorthand inside a sequence ("12r" becomes 12 and r). Proved for numbers, uncounted shorthand, words, zaids, substances, small distribution numbers, any length.'),
    ('C13', 'partial', ['C13_words_complete_partial', 'C13_sequence_skips_text_refuted'], 'False for numbers ("1 x 2" reads as 1, 2). Proved for words.'),
    ('C14', 'partial', ['C14_iteration_partial', 'C14_text_partial', 'C14_failing_partial', 'C14_failure_refuted'], 'Proved for every interleaving. False for a failing element: its exception comes out once, later iterations end silently before it.'),
    ('C15', 'proved', ['C15_round_trip', 'C15_grammar'], ''),
    ('C16', 'partial', ['C16_precedence_partial', 'C16_grammar_partial', 'C16_grammar_refuted', 'C16_precedence_refuted'], 'False of the code: the colon binds tighter than the blank. Proved for geometry that does not mix the two at one level.'),
    ('C17', 'partial', ['C17_or', 'C17_and_partial', 'C17_unary_partial', 'C17_and_refuted', 'C17_unary_refuted', 'C17_surface_binary', 'C17_surface_unary', 'C17_surface_invert_refuted'], 'False of the code: & builds a union node and is written without parentheses; unary operators do not parenthesise. Proved for |, for & of operands that are not intersections, and for unary operators on primaries; for surfaces &, |, -, + are right and ~ gives the complement of the cell of that number.'),
    ('C18', 'partial', ['C18_errors_partial', 'C18_foreign', 'C18_errors_refuted'], 'False of the code: AssertionError and IndexError escape. Proved: these are the only foreign errors, and any character outside the alphabet gives the library error.'),
    ('C19', 'partial', ['C19_drawing_partial', 'C19_drawable', 'C19_drawing_refuted'], 'False of the code for # with a cell number. Proved for all other geometry over pointwise solids; meshes are not modelled.'),
    ('C20', 'partial', ['C20_grammar', 'C20_round_trip_partial', 'C20_items_partial', 'C20_round_trip_refuted', 'C20_errors_partial', 'C20_errors_refuted'], 'False for several bins: they are joined into one chain. Proved for one bin; for several, the text and the items in order come back.'),
    ('C21', 'partial', ['C21_column_limit_partial', 'C21_first_line', 'C21_data_cards_partial', 'C21_column_limit_refuted', 'C21_own_writers_refuted', 'C21_written_long_refuted'], 'False of the code: the continuation indent is 6 columns but counted as 5, so a line can reach 81; the cards DS L/T/Q/S and ring detectors have writers that never wrap. Proved: 81 columns for every text and every other data card, 80 for the first line.'),
    ('C22', 'proved', ['C22_wrap_undone', 'C22_layout_irrelevant', 'C22_comments_set_aside'], 'First word at most 78 columns.'),
    ('C23', 'proved', ['C23_compression_cancels', 'C22_wrap_undone'], 'Upper-case shorthand may come back in lower case; exact otherwise.'),
    ('C24', 'partial', ['C24_expansion_partial', 'C24_expansion_refuted'], 'False of the code for adjacent counted words of the kinds r, i, log, ilog. Proved for every other arrangement, and for j in any arrangement.'),
    ('C25', 'partial', ['C25_cards_partial', 'C25_options_partial', 'C25_families_partial', 'C25_regular_classes', 'C25_coverage', 'C25_regular_families', 'C25_dependent_refuted', 'C25_rings_refuted'], 'False for DS S cards with distributions from 10 and for ring detectors without numbers. Proved for 534 of the 675 modelled classes (all of the regular form), any values and lengths. Missing: gaps (false, C26), counted shorthand (false, C12), distribution numbers from 10 (false, C07), classes not of the regular form.'),
    ('C26', 'partial', ['C26_gap_refuted', 'C26_gaps_close_refuted', 'C26_trailing_partial'], 'False of the code: set values move up to the first fields, shown for every regular class. Proved: without gaps nothing moves.'),
    ('C27', 'partial', ['C27_cards_partial', 'C27_options_partial', 'C27_nothing_beside', 'C27_layouts', 'C27_own_text_partial', 'C27_cards_refuted', 'C27_options_refuted', 'C27_shifted_refuted', 'C27_own_text_refuted'], 'False for exactly four classes (materials, FMULT, entries of DS Q and of PIKMT), for every text they read: the last attribute is read from inside the piece before it. Proved for every accepted text of all other 672 classes.'),
    ('C28', 'partial', ['C28_constraints_partial', 'C28_constructed', 'C28_assigned', 'C28_coverage', 'C28_nps_positive', 'C28_seed_odd', 'C28_cross_attribute_refuted', 'C28_meaning_partial', 'C28_tests_decide', 'C28_meaning_coverage', 'C28_thresh_range', 'C28_detector_number'], 'Proved for all histories and all 1173 independent attribute tests, 1165 of them also read as arithmetic on rationals and equality of texts. False for tests between attributes (XLIMS), which hold after construction and after assigning the tested attribute only.'),
    ('C29', 'proved', ['C29_rejected_unchanged', 'C29_accepted_changes_one', 'C29_history'], ''),
    ('C30', 'partial', ['C30_density_partial', 'C30_assigned', 'C30_refuted'], 'False of the code: assigning material does not look at the density. Proved for every history whose assignments keep the cell void or filled, and after every accepted density assignment.'),
    ('C31', 'partial', ['C31_number_partial', 'C31_transform', 'C31_unchecked', 'C31_refuted'], 'False of the code: with a transformation the number is not checked at all (proved for every number). Proved without a transformation, and that transformations stay in 0..999.'),
    ('C32', 'partial', ['C32_automatic_distinct', 'C32_chosen_partial', 'C32_refuted'], 'Automatic numbers are pairwise distinct (proved for every history). They can equal a number the program chose; proved that they do not when that number exceeds the count of automatic creations.'),
    ('C33', 'proved', ['C33_get_after_set', 'C33_read', 'C33_accepts', 'C33_rest_unchanged', 'C33_refused'], 'Cards are objects in a heap, so a card listed twice is covered.'),
    ('C34', 'proved', ['C34_get_after_set', 'C34_read', 'C34_accepts', 'C34_rest_unchanged', 'C34_refused'], 'Option objects shared between two cards are not modelled.'),
    ('C42', 'proved', ['C42_own_directory', 'C42_start', 'C42_post_hooks', 'C42_terminates', 'C42_complete', 'C42_taken'], 'Interleaving semantics: a started job may end at any moment. Hooks are assumed to return. The command line is passed to the job as one single word.'),
    ('C43', 'partial', ['C43_refused', 'C43_done', 'C43_contents_partial', 'C43_atomic_refuted'], 'False of the code: the file is emptied before it is filled. Proved: a file that does not parse or cannot be written keeps its content; otherwise it holds the old text or a beginning of the new one. Inp.from_mcnp and to_mcnp are arbitrary functions here.'),
    ('C44', 'partial', ['C44_convert_partial', 'C44_convert_parquet_partial', 'C44_convert_refuted', 'C44_plot_refuted'], 'False of the code for numbers ending in zero (4 and 40) and for every plot. Proved for converted tallies whose numbers do not end in zero, which are all the tally numbers of MCNP.'),
    ('C45', 'proved', ['C45_bounded', 'C45_six_lines', 'C45_defined'], 'The number of lines is bounded; the length of a line is not.'),
    ('C51', 'partial', ['C51_beside_input', 'C51_no_extension_refuted'], 'False of the code for a file name without extension. Proved for every other path.'),
    ('C52', 'partial', ['C52_failed_batch', 'C52_abandoned_refuted'], 'False of the code: the jobs already started are abandoned and no post-hook is called.'),
    ('C46', 'partial', ['C46_integers', 'C46_strings', 'C46_other_elements', 'C46_reals_partial', 'C46_equivalence_partial', 'C46_real_text_refuted', 'C46_reflexive_refuted', 'C46_symmetric_refuted', 'C46_transitive_refuted', 'C46_total_refuted'], 'False of the code for Reals (1.5 and 1.50), NaN, and across classes. Proved within each class; Reals compare by value.'),
    ('C53', 'partial', ['C53_opposite_partial', 'C53_opposite_refuted'], 'False of the code across classes: Integer 5 and Real 5 are neither equal nor unequal. Proved within each class.'),
    ('C37', 'partial', ['C37_event_types', 'C37_j_line', 'C37_p_line', 'C37_n_line', 'C37_i_line_partial', 'C37_v_line_partial', 'C37_l_line_partial', 'C37_event', 'C37_history', 'C37_header', 'C37_file', 'C37_refuted'], 'Lines, events, histories, headers and whole files of any length. False for L lines whose count is a multiple of thirty, V lines whose count is not a multiple of ten, zero fields of I lines and three-digit exponents; these are excluded by the hypotheses.'),
    ('C38', 'proved', ['C38_classification', 'C38_filter'], 'Every file and every predicate per category; the predicates are called once per event in file order.'),
    ('C39', 'proved', ['C39_ptrac_processor', 'C39_meshtal_processor', 'C39_ptrac_processor_raising', 'C39_meshtal_processor_raising'], 'Also states which calls are made when a hook raises.'),
    ('C49', 'partial', ['C49_written_partial', 'C49_refuted', 'C49_problem_partial'], 'False of the code: a cell whose geometry is given by a surface is accepted and can never be written. Proved for geometries given as text or tree.'),
    ('C50', 'proved', ['C50_ranges', 'C50_accepts'], ''),
    ('C54', 'partial', ['C54_p_line_partial', 'C54_v_line_partial', 'C54_l_line_partial', 'C54_library_errors_refuted'], 'False of the code: an unknown event type gives UnboundLocalError. Proved for P, V and L lines.'),
    ('C55', 'partial', ['C55_positions_partial', 'C55_directions_refuted'], 'False of the code: the file pattern groups its alternatives wrongly. Proved for files whose events carry positions.'),
    ('C40', 'proved', ['C40_tally_line', 'C40_every_line'], 'A line end after the line is not part of what is written.'),
    ('C56', 'partial', ['C56_columns_partial', 'C56_positions', 'C56_refuted'], 'False of the code for lines without energy or time: C56_positions states how every such line is misread. Proved for lines with all columns.'),
    ('C57', 'partial', ['C57_file_partial', 'C57_refuted', 'C57_energy_refuted'], 'False of the code: the last line end is lost, and lines with energy and positions but no time are cut. Proved up to the last line end, for headers in MCNP layout and lines of the other widths.'),
    ('C58', 'partial', ['C58_tally_line_partial', 'C58_refuted'], 'False of the code for headers: a number of histories that is Infinity raises OverflowError. Proved for lines.'),
    ('C47', 'partial', ['C47_operators_partial', 'C47_translate_partial', 'C47_refuted', 'C47_rotate_refuted'], 'False of the code for the torus, wedge and hexagonal shapes, whose predicates are not booleans, and for rotations. Proved for all boolean shapes.'),
    ('C59', 'partial', ['C59_sense_partial', 'C59_cylinders', 'C59_refuted', 'C59_errors_refuted', 'C59_transform_refuted', 'C59_points_refuted'], 'False of the code for cylinders, cones, bodies off the axes, transformed surfaces and planes by three points. Proved, in exact arithmetic, for planes, spheres, RPP, and BOX and RCC along the axes.'),
    ('C60', 'partial', ['C60_cells_partial', 'C60_refuted'], 'False of the code for the complement of a cell. Proved for problems without it.'),
    ('C48', 'partial', ['C48_table', 'C48_zaids', 'C48_from_formula_partial', 'C48_refuted'], 'The table part is proved. from_formula is proved to succeed for elements in the table; for any other symbol it raises KeyError. molmass is external: compositions are arguments.'),
    ('C61', 'partial', ['C61_total_partial', 'C61_bounded_partial', 'C61_refuted'], 'False of the code: elements with no natural isotope and nuclides below the cutoff are dropped without renormalising. Proved for the rest, in exact arithmetic.'),
    ('C62', 'partial', ['C62_atoms_partial', 'C62_modes', 'C62_refuted'], 'False of the code: both modes use the mass fraction, and weights use isotope abundances. Proved for formulas of one element.'),
    ('C41', 'partial', ['C41_every_page', 'C41_determined', 'C41_frames_partial', 'C41_frames_refuted'], 'Proved that every page some class reads is a block, in order. False of to_dataframe: of two tallies with one number only the last is there.'),
    ('C63', 'partial', ['C63_tables', 'C63_header_partial', 'C63_starting_partial', 'C63_analysis_partial', 'C63_density_partial', 'C63_refuted'], 'Proved for four of the eight tables. In each of the other four one place is rewritten, and the theorems say which.'),
    ('C64', 'partial', ['C64_file_partial', 'C64_refuted'], 'False of the code: a page no class reads is dropped. Proved for files whose pages are each read and written back.'),
    ('C65', 'partial', ['C65_line', 'C65_cell_subtally', 'C65_surface_subtally', 'C65_angle_subtally', 'C65_refuted'], 'Proved for lines in the layout of MCNP; a line in another layout is skipped without an error.'),
    ('C66', 'partial', ['C66_volumes', 'C66_areas', 'C66_angles', 'C66_pulses_read', 'C66_pulses_partial', 'C66_refuted', 'C66_angles_refuted'], 'False of the code for pulse-height pages with a line of their own, and where the line after a total holds a blank. Proved for the rest.'),
    ('C35', 'partial', ['C35_blocks_partial', 'C35_message_refuted'], 'Proved for files of any number of lines, words and continuation lines: every line comes back in its block, in its place. False of the code for the message, which gets a line end more. Missing: vertical input, tabs, equal signs and comments at the end of a line.'),
    ('C36', 'partial', ['C36_refuted', 'C36_text_refuted', 'C36_comment_lines_partial', 'C36_written_partial'], 'False of the code: comments after $ are lost, and blanks and equal signs in comment lines are changed. Proved that comment lines keep all their words in every block.'),
    ('C67', 'partial', ['C67_refuted', 'C67_accepted_partial'], 'False of the code: importances on an IMP card do not count. The theorem says exactly when a file whose cards are read is accepted.'),
    ('C68', 'partial', ['C68_problem_partial', 'C68_cell_partial', 'C68_surface_partial'], 'Every number of cards; data cards of every class of regular form but the eight of C69, also with lists of options (C70), surfaces of every class, comments, cells with any readable geometry and any list of options as in C70, and cells like others. Not the message, and not cells without options that are written with a blank line (C71).'),
    ('C69', 'partial', ['C69_refuted', 'C69_cards_partial', 'C69_comments', 'C69_options_refuted', 'C69_options_partial'], 'Proved for all but eight data card classes and 25 option classes, by deciding emptiness of the intersection of the languages of their patterns. False of the code for Df_1, Phys_4 and Tf_1, and for the option dir 0 of a source, which is read as a distribution and written as dir d0.'),
    ('C70', 'partial', ['C70_refuted', 'C70_list_partial', 'C70_cards_partial', 'C70_data_partial', 'C70_coverage'], 'False of the code: of a sequence of values in an option of a list only the first is kept. Proved for lists of any length of options without such sequences, for every family, and for the 31 classes, SDEF and PTRAC among them, that end with a list (all but the filter of PTRAC, which has a writer of its own).'),
    ('C71', 'partial', ['C71_blocks_refuted', 'C71_card_partial', 'C71_blocks_partial'], 'False of the code: a cell without options of 78 columns is written with a blank line. Proved for comments, surfaces, data cards and cells with options, for every number of cards and continuation lines.'),
    ('C72', 'partial', ['C72_classes_refuted', 'C72_classes_partial', 'C72_shorthands_partial', 'C72_data_partial', 'C72_file_refuted', 'C72_cards_refuted', 'C72_problem_partial'], 'False of the code: 170 of the 675 classes raise errors of Python, each shown with a text. Proved for every text of 504 others, as cards and as members of a family; one class (surface_P_1, whose tests call numpy) is not decided. All but 46 classes raise only when a field is a shorthand. An error of the data block is one of a listed class.'),
    ('C73', 'partial', ['C73_check_partial', 'C73_fix_partial', 'C73_check_refuted', 'C73_run_partial', 'C73_run_refuted', 'C73_run_twice_refuted', 'C73_convert_partial', 'C73_convert_refuted', 'C73_convert_name_refuted', 'C73_plot_partial'], 'False of the code: run says Done! and returns 0 when the command does not exist; convert empties the place of the new file before it looks for the tally, and then fails with a KeyError; names without a suffix and problems that raise errors of Python (C72) are not caught. Proved for all else. visualize is C75; docopt is not modelled.'),
    ('C74', 'partial', ['C74_filter_partial', 'C74_raises_partial'], 'For checks that return or raise an error of Python; the generator is taken to be drained.'),
    ('C75', 'partial', ['C75_windows_partial', 'C75_files_partial', 'C75_unread_partial', 'C75_skip_files_refuted', 'C75_listed_files_refuted', 'C75_cell_file_refuted', 'C75_surface_file_refuted', 'C75_like_refuted', 'C75_complement_refuted', 'C75_numbers_refuted', 'C75_surface_refuted'], 'False of the code: with --pdf the lists to skip are ignored and listed cells or surfaces always end in an error of Python; a cell like a skipped one raises KeyError and the complement of a skipped one is another set; lists that are no numbers and surfaces that cannot be shown are not caught. Proved for windows of every combination of options, and for files of all cells and surfaces.'),
    ('C76', 'partial', ['C76_small_partial', 'C76_same_partial', 'C76_options_partial', 'C76_same_options_partial', 'C76_both_partial', 'C76_both_options_partial', 'C76_numbers_partial', 'C76_capital_E', 'C76_patterns', 'C76_text', 'C76_numbers_refuted', 'C76_words_refuted', 'C76_rings_refuted', 'C76_cards_partial', 'C76_entries_partial', 'C76_cells_partial', 'C76_surfaces_partial', 'C76_data_partial', 'C76_blocks', 'C76_files_partial', 'C76_lines_refuted'], 'False of the code: nps e5 is read and nps E5 is not, and NO (totnu) and ND (tallies f5) are refused in capitals. Proved for all classes: what is read in any spelling is read in small letters, as the same card, so two spellings that are both read agree; and, but for the three classes with such a word, in every spelling without a capital E. Numbers that do not begin with a capital E are the same in every spelling, the others are always refused. Cards, options, cells, surfaces, data lines and whole files without a capital E, and without those three classes, have the same outcome in every spelling, errors included; every file is cut into the same blocks.'),
    ('C77', 'partial', ['C77_twice_partial', 'C77_letters_partial', 'C77_options_partial', 'C77_cards_partial', 'C77_texts_refuted', 'C77_options_refuted'], 'False of the code: crowded counted words, shorthands in capitals and two equal signs are changed again, and imp:n = = 1 is refused alone but read from a text prepared before. Proved for all texts of clean words without crowded or zero counts (j may be crowded).'),
]

if __name__ == '__main__':
    here = os.path.dirname(os.path.abspath(__file__))
    claims = [dict(property=p, status=s, theorems=t, note=n) for p, s, t, n in ROWS]
    with open(os.path.join(here, '..', 'MANIFEST.json'), 'w') as f:
        json.dump({'claims': claims}, f, indent=1)
        f.write('\n')
