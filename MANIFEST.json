{
 "claims": [
  {
   "property": "C01",
   "status": "proved",
   "theorems": [
    "C01_satsys_roundtrip",
    "C01_satsys_letters"
   ],
   "note": ""
  },
  {
   "property": "C02",
   "status": "proved",
   "theorems": [
    "C02_obscode_roundtrip",
    "C02_obscode_print_injective",
    "C02_obscode_big_band_lossy",
    "C02_obscode_any_rejected"
   ],
   "note": ""
  },
  {
   "property": "C03",
   "status": "proved",
   "theorems": [
    "C03_obscode_rejects_iff",
    "C03_obscode_accepts"
   ],
   "note": ""
  },
  {
   "property": "C04",
   "status": "partial",
   "theorems": [
    "C04_full_refuted",
    "C04_symmetry_refuted",
    "C04_equivalence_partial"
   ],
   "note": "The full statement is false of the code: operator== is not symmetric when a part is repeated (and not reflexive with a NaN coefficient). Proved: refutation with witness; equivalence on duplicate-free observables."
  },
  {
   "property": "C05",
   "status": "proved",
   "theorems": [
    "C05_mixed_iff",
    "C05_mixed_order"
   ],
   "note": ""
  },
  {
   "property": "C06",
   "status": "proved",
   "theorems": [
    "C06_frequency",
    "C06_frequency_add",
    "C06_frequency_terminates_iff"
   ],
   "note": "IEEE rounding included; the value for at most 2^50 parts and a sum of absolute contributions up to 2^990 MHz."
  },
  {
   "property": "C07",
   "status": "proved",
   "theorems": [
    "C07_rtrim_end",
    "C07_rtrim_start",
    "C07_ltrim",
    "C07_string_is_empty",
    "C07_rtrim_idempotent"
   ],
   "note": ""
  },
  {
   "property": "C08",
   "status": "proved",
   "theorems": [
    "C08_for2cpp_exact",
    "C08_d2e",
    "C08_for2cpp_idempotent",
    "C08_for2cpp_total"
   ],
   "note": ""
  },
  {
   "property": "C09",
   "status": "proved",
   "theorems": [
    "C09_antenna_safe",
    "C09_model_from_first_20",
    "C09_compare_model_iff",
    "C09_compare_model_equivalence",
    "C09_set_serial_keeps_model"
   ],
   "note": ""
  },
  {
   "property": "C10",
   "status": "partial",
   "theorems": [
    "C10_full_refuted",
    "C10_short_radome_lost",
    "C10_radome_exact_partial"
   ],
   "note": "The full statement is false of the code: a 20-character name with blank radome columns keeps the blanks, and a 17-19 character name loses its radome characters to NONE. The exact behaviour is proved."
  },
  {
   "property": "C100",
   "status": "partial",
   "theorems": [
    "C100_full_refuted",
    "C100_near_partial",
    "C100_exact_partial",
    "C100_interval_partial"
   ],
   "note": "False for every field: \"1.00100000\" is read as 1000999 microseconds (C100_full_refuted). Proved for all F11.8 fields: the microseconds are the written ones or one less, one less only for a whole number of microseconds; exact for every multiple of 1/64 s (whole, half, quarter seconds). The same for the interval of the header."
  },
  {
   "property": "C101",
   "status": "partial",
   "theorems": [
    "C101_full_refuted",
    "C101_refused",
    "C101_whole_seconds_partial"
   ],
   "note": "False: starts at 6.2 s (code 24), at 1.001 s (code 22) and at the whole second 00:03:19 of 2040-01-01 (code 24) are refused although both header lines give the same instant. Proved: starts at whole seconds are accepted for MJD 32768-65535, from MJD 65536 on those at multiples of 5 seconds; any calendar function, library values correctly rounded."
  },
  {
   "property": "C102",
   "status": "proved",
   "theorems": [
    "C102_record",
    "C102_nanometres",
    "b64_nearest",
    "b32_nearest"
   ],
   "note": "Lines of 80 columns (shorter lines: C28); the orbit-prediction mark is the one the code looks for (C29). b64_nearest, b32_nearest: the rounding functions of the model are round to nearest, ties to even, in the sense of SpecB64."
  },
  {
   "property": "C103",
   "status": "partial",
   "theorems": [
    "C103_full_refuted",
    "C103_always_100",
    "C103_exit_codes_partial",
    "C103_files_partial",
    "C103_conforming"
   ],
   "note": "Refuted: the request combines a GLONASS and a GPS code, which set_read_map always turns down; proved for all files that the program ends with 100 without reading an epoch (C94 and the like are about the loop that would follow)."
  },
  {
   "property": "C104",
   "status": "partial",
   "theorems": [
    "C104_full_refuted",
    "C104_listing_partial",
    "C104_uninitialised"
   ],
   "note": "Refuted: the line buffer of the search is read before it is written. Proved exact when that buffer happens to hold a text."
  },
  {
   "property": "C105",
   "status": "proved",
   "theorems": [
    "C105_iod",
    "C105_sisa",
    "C105_sisa_too_large"
   ],
   "note": "Galileo blocks conforming to RINEX 3.04 table A8, whatever the frame held before; float and double rounding included."
  },
  {
   "property": "C106",
   "status": "proved",
   "theorems": [
    "C106_medium",
    "C106_half",
    "C106_turn"
   ],
   "note": "Doubles rounded to nearest (B64), every operation; the sine is any function within 2^-53 of the real one on doubles. Beyond these ranges (e.g. 0.2 at more than 63 rad) the spacing of doubles exceeds the limit and nothing is claimed."
  },
  {
   "property": "C107",
   "status": "proved",
   "theorems": [
    "C107_position"
   ],
   "note": "Finite doubles, each operation rounded on its own; sqrt, sin, cos, atan2 are any functions accurate as SpecFloat says (shown to exist). Ranges of the ephemeris: SpecFloat.broadcast."
  },
  {
   "property": "C108",
   "status": "proved",
   "theorems": [
    "C108_clock"
   ],
   "note": "As C107. E is the anomaly for the time since ToC, as the code has it (C48 says how far that is from the time since ToE)."
  },
  {
   "property": "C109",
   "status": "partial",
   "theorems": [
    "C109_orbit_partial",
    "C109_clock",
    "C109_both_partial",
    "C109_date_partial",
    "C109_late"
   ],
   "note": "Missing: the closed computation boxes_hold (the error boxes of fifteen Runge-Kutta steps stay within the bounds), a hypothesis of the theorems with _partial: vm_compute gives true, but coqchk, which has no virtual machine, does not finish it. C109_clock and C109_late are unconditional. C109_orbit_partial takes the double that ref2toe returns, C109_date_partial starts from the date (within 899 s of ToE). The seconds of day of ToE are whole. The integration steps are those of the code: fixed steps of 60 s, so the state is that of the next whole minute after ToE (C49). C109_late: beyond 15 minutes (and a millisecond) no status 0 and no clock. Assumes of libm only an accurate sqrt."
  },
  {
   "property": "C11",
   "status": "partial",
   "theorems": [
    "C11_full_refuted",
    "C11_serial_partial"
   ],
   "note": "compare_serial(s) after set_serial_nr(s) is false for every serial shorter than 20 characters; has_serial part proved in full, exact compare_serial condition proved."
  },
  {
   "property": "C110",
   "status": "proved",
   "theorems": [
    "C110_predicted",
    "C110_measured",
    "C110_residuals",
    "C110_jacobian"
   ],
   "note": "The vectors built by update before its linear algebra; Eigen computes the rest in an order of operations that is not in /repo, so it is modelled over the reals only (C71-C76). Ranges: SpecKalD. Assumes of libm only an accurate sqrt."
  },
  {
   "property": "C12",
   "status": "proved",
   "theorems": [
    "C12_is_same_iff",
    "C12_is_same_sym_trans"
   ],
   "note": ""
  },
  {
   "property": "C13",
   "status": "partial",
   "theorems": [
    "C13_full_refuted",
    "C13_is_same_inverted_partial",
    "C13_set_then_to_string"
   ],
   "note": "SatelliteAntenna::is_same returns the negation of the documented result; proved exactly so."
  },
  {
   "property": "C14",
   "status": "proved",
   "theorems": [
    "C14_compact_name",
    "C14_three_chars",
    "C14_names_identify",
    "C14_long_name_uninitialised",
    "C14_long_name",
    "C14_long_names_identify"
   ],
   "note": ""
  },
  {
   "property": "C15",
   "status": "proved",
   "theorems": [
    "C15_two_digit_years",
    "C15_injective"
   ],
   "note": ""
  },
  {
   "property": "C16",
   "status": "partial",
   "theorems": [
    "C16_full_refuted",
    "C16_table_exact_partial",
    "C16_multiple_of_13"
   ],
   "note": "False for a number of codes that is a multiple of 13 (the reader then takes one more line); proved exactly for all other counts, and the multiple-of-13 behaviour is proved."
  },
  {
   "property": "C17",
   "status": "proved",
   "theorems": [
    "C17_success",
    "C17_failure",
    "C17_duplicate"
   ],
   "note": "for every line, stream state and table"
  },
  {
   "property": "C18",
   "status": "partial",
   "theorems": [
    "C18_reads_outside",
    "C18_full_refuted",
    "C18_epoch_line_partial",
    "C18_reject_partial",
    "C18_accept_partial",
    "C18_count_unchecked"
   ],
   "note": "The count field is read with a checker that lets non-numbers pass, and reads can leave a line without terminator; conforming lines are proved exact."
  },
  {
   "property": "C19",
   "status": "partial",
   "theorems": [
    "C19_full_refuted",
    "C19_blank_lli_partial",
    "C19_contaminated",
    "C19_blank"
   ],
   "note": "A digit in the loss-of-lock column is glued to the number (refuted, and the error is proved exactly); with a blank LLI column everything is exact."
  },
  {
   "property": "C20",
   "status": "proved",
   "theorems": [
    "C20_plan_columns"
   ],
   "note": ""
  },
  {
   "property": "C21",
   "status": "partial",
   "theorems": [
    "C21_full_refuted",
    "C21_requests_partial",
    "C21_mixed_means_clashing",
    "C21_no_parts"
   ],
   "note": "A request with a part missing from the header before a part of another system is treated as missing, not as mixed; the exact rule is proved."
  },
  {
   "property": "C22",
   "status": "partial",
   "theorems": [
    "C22_full_refuted",
    "C22_records_fit_partial",
    "C22_epochs_fit_partial",
    "C22_one_type_unreadable"
   ],
   "note": "False for epoch lines when the header has one observation type (and for lines with clock offset when fewer than four); proved otherwise."
  },
  {
   "property": "C23",
   "status": "partial",
   "theorems": [
    "C23_full_refuted",
    "C23_values_exact_partial",
    "C23_intended_partial",
    "C23_single",
    "C23_all_present"
   ],
   "note": "A present field after a missing one is added to the missing value; the exact value is proved for every line and plan, and equality with the intended one when no present field follows a missing one."
  },
  {
   "property": "C24",
   "status": "partial",
   "theorems": [
    "C24_full_refuted",
    "C24_prn_partial",
    "C24_conforming"
   ],
   "note": "Other spellings are accepted; the exact accepted set is proved, and exactness for conforming columns."
  },
  {
   "property": "C25",
   "status": "partial",
   "theorems": [
    "C25_full_refuted",
    "C25_success_partial",
    "C25_forward_partial",
    "C25_initial_vector"
   ],
   "note": "Undefined behaviour when the epoch has more satellites than the output vector; otherwise proved."
  },
  {
   "property": "C26",
   "status": "partial",
   "theorems": [
    "C26_full_refuted",
    "C26_codes_partial",
    "C26_minus_one_partial",
    "C26_zero_partial",
    "C26_epoch_partial",
    "C26_bad_record_partial",
    "C26_end_of_file",
    "C26_unterminated",
    "C26_failed_stream_returns_zero"
   ],
   "note": "False for a last line without newline (-1 although the epoch was delivered) and for a failed stream (0 for ever); all other parts proved."
  },
  {
   "property": "C27",
   "status": "proved",
   "theorems": [
    "C27_flag_set",
    "C27_independent"
   ],
   "note": ""
  },
  {
   "property": "C28",
   "status": "partial",
   "theorems": [
    "C28_full_refuted",
    "C28_record_partial",
    "C28_short_line"
   ],
   "note": "False for lines shorter than 80 columns: event flags come from the previous contents of the line buffer (proved exactly); lines with all columns are proved exact for every buffer and flag."
  },
  {
   "property": "C29",
   "status": "partial",
   "theorems": [
    "C29_full_refuted",
    "C29_mark_partial",
    "C29_predicted_never_flagged"
   ],
   "note": "The code looks for E instead of P in column 80; proved exactly."
  },
  {
   "property": "C30",
   "status": "partial",
   "theorems": [
    "C30_full_refuted",
    "C30_never_returns",
    "C30_overflow",
    "C30_epoch_partial",
    "C30_last_epoch_partial",
    "C30_zero_any_partial",
    "C30_result_partial",
    "C30_decided"
   ],
   "note": "False: no EOF line -> never returns; more records than the vector -> out of bounds write. Proved: these two for all such files; exact delivery otherwise; on 0 the count and stream position for any content."
  },
  {
   "property": "C31",
   "status": "partial",
   "theorems": [
    "C31_full_refuted",
    "C31_closest_partial",
    "C31_ends",
    "C31_no_blocks"
   ],
   "note": "Refuted as stated: an absent antenna is reported with 0, and a file without blocks reads an uninitialised status. Exact match, last plain record and termination are proved."
  },
  {
   "property": "C32",
   "status": "partial",
   "theorems": [
    "C32_full_refuted",
    "C32_absent_partial",
    "C32_must_match",
    "C32_ends"
   ],
   "note": "Proved without must_match_serial (non-empty files); refuted with it: 10 is returned also when the model is absent."
  },
  {
   "property": "C33",
   "status": "partial",
   "theorems": [
    "C33_full_refuted",
    "C33_returns_partial",
    "C33_position_partial",
    "C33_defined_partial",
    "C33_skips"
   ],
   "note": "Refuted: a short or missing first line is compared on uninitialised bytes. Bound of 5000 lines and position proved."
  },
  {
   "property": "C34",
   "status": "partial",
   "theorems": [
    "C34_full_refuted",
    "C34_interval_partial",
    "C34_diverges",
    "C34_bad_date"
   ],
   "note": "The interval is proved exact for blocks with a START OF FREQUENCY line; without one (and without both dates) the check never returns."
  },
  {
   "property": "C35",
   "status": "partial",
   "theorems": [
    "C35_full_refuted",
    "C35_frequencies_partial",
    "C35_counts",
    "C35_ends"
   ],
   "note": "Exact on well-formed blocks and count proved on any content; refuted: malformed north/east/up kills the process."
  },
  {
   "property": "C36",
   "status": "partial",
   "theorems": [
    "C36_full_refuted",
    "C36_satellite_partial",
    "C36_position",
    "C36_offsets_partial",
    "C36_uninitialised"
   ],
   "note": "Identity and validity proved; refuted: SVN and COSPAR of an earlier block leak, and the line buffer is read uninitialised."
  },
  {
   "property": "C37",
   "status": "partial",
   "theorems": [
    "C37_full_refuted",
    "C37_lookup_partial",
    "C37_answer_unique",
    "C37_stale_errno",
    "C37_empty_part",
    "C37_ends"
   ],
   "note": "Exact answer proved on well-formed files for every SVN and epoch; refuted: errno left at ERANGE makes the first MW record unreadable, and an empty part 2 reads uninitialised memory."
  },
  {
   "property": "C38",
   "status": "partial",
   "theorems": [
    "C38_full_refuted",
    "C38_read_is_ignore",
    "C38_ignore_lines_partial",
    "C38_conforming_partial",
    "C38_mixed_refuted"
   ],
   "note": "Agreement of read and ignore proved for all contents; false only for the letter M, which ignore_next_block accepts without consuming anything."
  },
  {
   "property": "C39",
   "status": "partial",
   "theorems": [
    "C39_full_refuted",
    "C39_decode_partial",
    "C39_slots",
    "C39_stale_refuted",
    "C39_irnss_refuted",
    "C39_errno_refuted",
    "C39_blank_fit_refuted"
   ],
   "note": "Decoding proved for all conforming blocks but IRNSS, for every previous frame; slots without a number keep previous contents; IRNSS blocks, blank GPS fit fields and a stale errno are refused (each proved in general)."
  },
  {
   "property": "C40",
   "status": "partial",
   "theorems": [
    "C40_full_refuted",
    "C40_keeps",
    "C40_answer_partial",
    "C40_eof_refuted",
    "C40_failed_refuted"
   ],
   "note": "False for byte 0xFF and for a failed stream; otherwise exact."
  },
  {
   "property": "C41",
   "status": "partial",
   "theorems": [
    "C41_full_refuted",
    "C41_match",
    "C41_minus_one",
    "C41_first",
    "C41_none",
    "C41_returns_partial",
    "C41_conforming_returns",
    "C41_hangs_refuted",
    "C41_rewind"
   ],
   "note": "Soundness, first match, -1 and rewind proved; termination proved when no line starts with M, refuted otherwise."
  },
  {
   "property": "C42",
   "status": "partial",
   "theorems": [
    "C42_full_refuted",
    "C42_sound",
    "C42_first_partial",
    "C42_none",
    "C42_wildcard_refuted",
    "C42_stop",
    "C42_rewind",
    "C42_terminate_refuted",
    "C42_hangs_refuted"
   ],
   "note": "Soundness for all files (except GPS fit fields below -596523 h, which wrap), exact search on conforming files; the PRN wildcard never matches."
  },
  {
   "property": "C43",
   "status": "partial",
   "theorems": [
    "C43_full_refuted",
    "C43_fit",
    "C43_health",
    "C43_zero_fit_refuted"
   ],
   "note": "Values proved; a GPS fit field of 0 makes a message valid at no epoch."
  },
  {
   "property": "C44",
   "status": "partial",
   "theorems": [
    "C44_full_refuted",
    "C44_week",
    "C44_glonass",
    "C44_nearest_partial"
   ],
   "note": "Week instants proved for GPS, Galileo, BeiDou; GLONASS uses the week of the time of clock, which is the nearest instant exactly when within half a week."
  },
  {
   "property": "C45",
   "status": "proved",
   "theorems": [
    "C45_ref2toe",
    "C45_ref2toc"
   ],
   "note": "For day differences that fit an int."
  },
  {
   "property": "C46",
   "status": "proved",
   "theorems": [
    "C46_contracts",
    "C46_residual",
    "C46_root",
    "C46_stops",
    "C46_fails_iff",
    "C46_succeeds"
   ],
   "note": "Doubles are real numbers in this model. Success is proved for every eccentricity up to 0.96."
  },
  {
   "property": "C47",
   "status": "proved",
   "theorems": [
    "C47_position",
    "C47_radius",
    "C47_slots",
    "C47_defined"
   ],
   "note": "Doubles are real numbers in this model; agreement with the interface document formulas and constants for 0 <= e < 1."
  },
  {
   "property": "C48",
   "status": "partial",
   "theorems": [
    "C48_full_refuted",
    "C48_value",
    "C48_bound",
    "C48_circular",
    "C48_defined",
    "C48_error_partial"
   ],
   "note": "The formula, bound and circular case are proved, but E is computed with the time since ToC instead of ToE; refuted as the anomaly at that instant, with a proved error bound."
  },
  {
   "property": "C49",
   "status": "partial",
   "theorems": [
    "C49_full_refuted",
    "C49_reached_partial",
    "C49_same_minute",
    "C49_error",
    "C49_day_wrap",
    "C49_at_toe"
   ],
   "note": "The last step is never shortened: proved that the state is that of the next whole minute, identical for all instants of a minute; beyond half a day the broadcast state is returned."
  },
  {
   "property": "C50",
   "status": "proved",
   "theorems": [
    "C50_bounded",
    "C50_time"
   ],
   "note": "Doubles are real numbers in this model."
  },
  {
   "property": "C51",
   "status": "proved",
   "theorems": [
    "C51_clock",
    "C51_half_day"
   ],
   "note": "Doubles are real numbers in this model; C109_clock has the rounded evaluation."
  },
  {
   "property": "C52",
   "status": "proved",
   "theorems": [
    "C52_symmetric",
    "C52_form"
   ],
   "note": "Exact arithmetic (any real closed field)."
  },
  {
   "property": "C53",
   "status": "partial",
   "theorems": [
    "C53_full_refuted",
    "C53_move_double_free",
    "C53_move_assign_leaks",
    "C53_no_moves_partial"
   ],
   "note": "The defaulted move operations copy the raw buffer pointer: proved double free and leak; histories without moves are proved correct."
  },
  {
   "property": "C54",
   "status": "partial",
   "theorems": [
    "C54_full_refuted",
    "C54_header_partial",
    "C54_success_means_end",
    "C54_stale_label",
    "C54_bad_line"
   ],
   "note": "The second line of the file is never interpreted and a short line is taken under the label of the previous one; conforming headers with any second line are proved exact, and a header with an unreadable position, antenna offset, clock flag or start time is refused."
  },
  {
   "property": "C55",
   "status": "partial",
   "theorems": [
    "C55_full_refuted",
    "C55_rewind_partial",
    "C55_rewind_after_eof",
    "C55_stuck"
   ],
   "note": "rewind() does not clear failbit; proved for every history whose stream is not failed, and after end of file."
  },
  {
   "property": "C56",
   "status": "partial",
   "theorems": [
    "C56_full_refuted",
    "C56_truncated_refuted",
    "C56_truncated_terminates",
    "C56_open_partial",
    "C56_epochs"
   ],
   "note": "Observation files: a header truncated after an OBS TYPES line terminates the program; proved that this (or an unknown system letter) is the only way and that reading epochs never does."
  },
  {
   "property": "C57",
   "status": "partial",
   "theorems": [
    "C57_table",
    "C57_unusable",
    "C57_monotone",
    "C57_metres_refuted",
    "C57_float_table",
    "C57_float_unusable",
    "C57_float_monotone"
   ],
   "note": "In floats and doubles too (C57_float_*: the float nearest to the tabulated value, for any pow within 2^-50; monotone for any monotone one). As a function of the index everything is proved; but RINEX stores metres in that slot, for which the result is wrong (refuted)."
  },
  {
   "property": "C58",
   "status": "partial",
   "theorems": [
    "C58_full_refuted",
    "C58_radome_lost"
   ],
   "note": "The radome is dropped for every antenna."
  },
  {
   "property": "C60",
   "status": "partial",
   "theorems": [
    "C60_full_refuted",
    "C60_sentinel",
    "C60_other_partial"
   ],
   "note": "The number -999.990 is indistinguishable from a missing field; proved exactly."
  },
  {
   "property": "C61",
   "status": "proved",
   "theorems": [
    "C61_whole_file"
   ],
   "note": ""
  },
  {
   "property": "C62",
   "status": "partial",
   "theorems": [
    "C62_full_refuted",
    "C62_header_partial",
    "C62_any_content"
   ],
   "note": "The fourth column of the agency is dropped; all other members proved exact. The calendar is a parameter."
  },
  {
   "property": "C63",
   "status": "partial",
   "theorems": [
    "C63_full_refuted",
    "C63_interpolator_undefined",
    "C63_no_satellites_partial"
   ],
   "note": "The constructor indexes an empty vector: undefined for every conforming file."
  },
  {
   "property": "C64",
   "status": "proved",
   "theorems": [
    "C64_whole_file"
   ],
   "note": ""
  },
  {
   "property": "C65",
   "status": "proved",
   "theorems": [
    "C65_header",
    "C65_sound",
    "C65_codes"
   ],
   "note": "Conforming headers with lines of at most 84 characters and at most 999 lines; soundness and return codes for all files."
  },
  {
   "property": "C66",
   "status": "proved",
   "theorems": [
    "C66_file"
   ],
   "note": "IRNSS blocks excluded (see C39)."
  },
  {
   "property": "C67",
   "status": "partial",
   "theorems": [
    "C67_full_refuted",
    "C67_truncated_file_partial",
    "C67_unknown_letter_refuted",
    "C67_bad_date_refuted",
    "C67_short_first_refuted"
   ],
   "note": "Files ending within a block are refused; unknown letters and bad dates end the program, short first lines are undefined behaviour, cut orbit lines are accepted (C67_cut_line_refuted)."
  },
  {
   "property": "C68",
   "status": "proved",
   "theorems": [
    "C68_motion",
    "C68_integrates"
   ],
   "note": "Doubles are real numbers in this model."
  },
  {
   "property": "C69",
   "status": "proved",
   "theorems": [
    "C69_kepler",
    "C69_glonass",
    "C69_others",
    "C69_status",
    "C69_doubles"
   ],
   "note": "Doubles are real numbers in this model, except in C69_doubles: from the date to the state of GPS, Galileo and BeiDou with every operation rounded. The anomaly in the clock is the one of C48."
  },
  {
   "property": "C70",
   "status": "proved",
   "theorems": [
    "C70_at_toe"
   ],
   "note": "Together with C39_decode_partial."
  },
  {
   "property": "C71",
   "status": "partial",
   "theorems": [
    "C71_full_refuted",
    "C71_not_geo_partial"
   ],
   "note": "The GEO rotations are missing: refuted for PRN 1-5, proved for the others."
  },
  {
   "property": "C72",
   "status": "proved",
   "theorems": [
    "C72_positive",
    "C72_defined",
    "C72_shrinks"
   ],
   "note": "Exact arithmetic."
  },
  {
   "property": "C73",
   "status": "partial",
   "theorems": [
    "C73_full_refuted",
    "C73_unweighted_singular",
    "C73_fits"
   ],
   "note": "Refuted: with five or more satellites and no weights the residual covariance is always singular (the drift column of the Jacobian is zero). When defined, the fit is proved exact."
  },
  {
   "property": "C74",
   "status": "partial",
   "theorems": [
    "C74_full_refuted",
    "C74_gradient_partial",
    "C74_clock_column"
   ],
   "note": "Proved for coefficient 1; refuted for others (the predicted clock term is not scaled)."
  },
  {
   "property": "C75",
   "status": "proved",
   "theorems": [
    "C75_order"
   ],
   "note": "Exact arithmetic."
  },
  {
   "property": "C76",
   "status": "proved",
   "theorems": [
    "C76_optimal"
   ],
   "note": "Exact arithmetic."
  },
  {
   "property": "C77",
   "status": "proved",
   "theorems": [
    "C77_prediction",
    "C77_no_innovation",
    "C77_no_satellites",
    "C77_counts",
    "C77_covariance"
   ],
   "note": "Exact arithmetic."
  },
  {
   "property": "C78",
   "status": "partial",
   "theorems": [
    "C78_full_refuted",
    "C78_history_partial"
   ],
   "note": "Proved on well-formed files for every history; refuted in general (an overlong line leaves failbit set)."
  },
  {
   "property": "C79",
   "status": "partial",
   "theorems": [
    "C79_full_refuted",
    "C79_header_partial",
    "C79_rejects_version",
    "C79_rejects_system",
    "C79_rejects_type",
    "C79_rejects_unended"
   ],
   "note": "Refuted only by short first lines (uninitialised read)."
  },
  {
   "property": "C80",
   "status": "partial",
   "theorems": [
    "C80_full_refuted",
    "C80_history_partial",
    "C80_after_eof"
   ],
   "note": "Proved for files whose part 2 is ended by a line; refuted for files ending with the last record (failbit stays set)."
  },
  {
   "property": "C81",
   "status": "partial",
   "theorems": [
    "C81_full_refuted",
    "C81_accepts",
    "C81_total",
    "C81_sound",
    "C81_rejects_title",
    "C81_rejects_no_part2",
    "C81_rejects_columns",
    "C81_truncated"
   ],
   "note": "Acceptance, soundness and rejections proved; refuted: a file cut after the column titles is accepted with position -1."
  },
  {
   "property": "C82",
   "status": "proved",
   "theorems": [
    "C82_answer",
    "C82_position",
    "C82_others",
    "C82_history",
    "C82_complete",
    "C82_cached",
    "C82_again"
   ],
   "note": "test/pp_rnx.cpp get_valid_msg, for every history of lookups; the success theorem is on well-formed files in which no message of the satellite lies more than four hours ahead."
  },
  {
   "property": "C83",
   "status": "partial",
   "theorems": [
    "C83_full_refuted",
    "C83_from_file_partial",
    "C83_only_one_partial"
   ],
   "note": "Refuted: the first usable message of the file is delivered, not the most recent. Origin of every cached message proved, and exactness when one message is usable."
  },
  {
   "property": "C84",
   "status": "proved",
   "theorems": [
    "C84_switch",
    "C84_answers",
    "C84_open",
    "C84_refused"
   ],
   "note": "For every history of switches (also failing ones) and lookups."
  },
  {
   "property": "C85",
   "status": "partial",
   "theorems": [
    "C85_full_refuted",
    "C85_coefficient",
    "C85_distinct_partial",
    "C85_same",
    "C85_empty"
   ],
   "note": "Refuted: coefficients are cut to six decimals (and an emptied observable is undefined behaviour). Proved for coefficients with at most six decimals."
  },
  {
   "property": "C86",
   "status": "partial",
   "theorems": [
    "C86_full_refuted",
    "C86_peek_skip",
    "C86_read_partial",
    "C86_search_partial",
    "C86_conforming",
    "C86_read_conforming",
    "C86_fraction_refuted",
    "C86_no_newline_refuted",
    "C86_not_good"
   ],
   "note": "Refuted: a time of ephemeris with a fraction of a second aborts the debug build only, and a file whose last line has no newline ends searches with another code. Proved: alike on every stream whose last line is complete unless the debug build stops; equal on conforming files with whole seconds."
  },
  {
   "property": "C87",
   "status": "partial",
   "theorems": [
    "C87_full_refuted",
    "C87_sp3_refuted",
    "C87_nav_refuted",
    "C87_sp3_partial",
    "C87_sp3_stuck",
    "C87_sp3_after",
    "C87_nav_partial",
    "C87_nav_after"
   ],
   "note": "Refuted: a call after the EOF line, or a block cut short, sets failbit and rewind does nothing. Proved for every history that leaves failbit clear, in particular after every epoch or block delivered, after the end of the file and after every search."
  },
  {
   "property": "C88",
   "status": "partial",
   "theorems": [
    "C88_full_refuted",
    "C88_partial",
    "C88_any_file_partial",
    "C88_observed_text"
   ],
   "note": "Refuted: if a message cannot be evaluated (Kepler iteration without convergence) the status is ignored and the observation goes with the position of the satellite before it. Proved when the messages of the file are plausible (GLONASS, or eccentricity 0 to 0.96); for any file with the state unspecified for implausible messages."
  },
  {
   "property": "C89",
   "status": "partial",
   "theorems": [
    "C89_full_refuted",
    "C89_aborts",
    "C89_few_partial",
    "C89_many_partial"
   ],
   "note": "Refuted: five or more satellites of which none is usable end the program by assertion. Proved for up to four satellites; with five or more the only ways not to reach the filter are the assertion and the exception for a satellite far below the horizon."
  },
  {
   "property": "C90",
   "status": "partial",
   "theorems": [
    "C90_full_refuted",
    "C90_partial"
   ],
   "note": "Refuted: more than 30 usable satellites overrun the arrays. Proved for up to 30."
  },
  {
   "property": "C91",
   "status": "proved",
   "theorems": [
    "C91_angle",
    "C91_sv_zen_angle",
    "C91_angles"
   ],
   "note": "Real arithmetic; the ellipsoidal coordinates are an arbitrary function (ggeodesy is external)."
  },
  {
   "property": "C92",
   "status": "partial",
   "theorems": [
    "C92_full_refuted",
    "C92_partial"
   ],
   "note": "Refuted: 1/cos(a)*cos(a) is 1. Proved: every weight is 1."
  },
  {
   "property": "C93",
   "status": "partial",
   "theorems": [
    "C93_full_refuted",
    "C93_too_dry",
    "C93_dry_partial",
    "C93_monotone",
    "C93_pole"
   ],
   "note": "Refuted: temperature in Celsius and a missing factor remove the wet part (at least 3 cm at sea level) and put a pole at 2769 m. Proved: equal to the dry formula within 1e-7 m, positive and increasing, for heights 0 to 2000 m and the mask of 80 degrees."
  },
  {
   "property": "C94",
   "status": "partial",
   "theorems": [
    "C94_full_refuted",
    "C94_no_epochs",
    "C94_run_partial",
    "C94_any_file_partial"
   ],
   "note": "Refuted: an observation file without epochs makes the program read an unset variable. Proved for files with at least one epoch (up to the two ways C89 names to end the program), and for any files if main returns."
  },
  {
   "property": "C95",
   "status": "partial",
   "theorems": [
    "C95_full_refuted",
    "C95_second_of_day",
    "C95_partial"
   ],
   "note": "Refuted: the second of the day is handed over instead. Proved: exactly which value is handed over, and that it is the elapsed time only if the epoch before is midnight of the same day."
  },
  {
   "property": "C96",
   "status": "partial",
   "theorems": [
    "C96_full_refuted",
    "C96_after_missing",
    "C96_open_set",
    "C96_forever",
    "C96_epoch_set",
    "C96_nav",
    "C96_nav_find",
    "C96_nav_valid",
    "C96_same_partial",
    "C96_conforming_fits"
   ],
   "note": "Refuted: errno left over from anything (a file that does not exist is enough) makes the next conforming observation file be refused, and with coordinates in the header all that follow; an epoch line is lost in the same way and no navigation record is delivered. Proved for programs in which every file opened exists and is accepted: everything is then read as in a fresh program. The calendar library is assumed not to touch errno."
  },
  {
   "property": "C97",
   "status": "partial",
   "theorems": [
    "C97_full_refuted",
    "C97_negative_refuted",
    "C97_crowded",
    "C97_same_or_stops",
    "C97_when_partial",
    "C97_stops",
    "C97_reads",
    "C97_inside",
    "C97_file"
   ],
   "note": "Refuted: a negative satellite count, or more satellites than the vector holds even if none of them is asked for, ends the debug program where the release program reads the epoch. Proved: for any object, plan and vector the debug build gives the same result or stops; exactly when it stops; after a conforming epoch line it never writes outside the vectors whatever follows; conforming files are read alike."
  },
  {
   "property": "C98",
   "status": "partial",
   "theorems": [
    "C98_full_refuted",
    "C98_release_unlimited",
    "C98_same",
    "C98_far_toe",
    "C98_far_toc",
    "C98_debug",
    "C98_glonass"
   ],
   "note": "Refuted for the release build, which gives a GPS, Galileo or BeiDou position at any distance. Proved for the debug build, for GLONASS in both builds, and that the builds agree within half a week of both reference times; far from the time of clock alone the debug build returns -1 with the position written."
  },
  {
   "property": "C99",
   "status": "partial",
   "theorems": [
    "C99_full_refuted",
    "C99_same",
    "C99_history_partial",
    "C99_refused",
    "C99_second_try",
    "C99_epoch_lost",
    "C99_epoch_skipped"
   ],
   "note": "Refuted: ERANGE left in errno, which a file refused with code 22, 24 or 30 may leave, makes the next conforming SP3 file be refused (code 11; the attempt clears errno, so the one after succeeds); a whole epoch is lost in the same way. Proved: with any other value of errno everything is read as in a fresh program and errno is not touched on success; a program that opens only acceptable files never sees ERANGE. The calendar library is assumed not to touch errno."
  }
 ]
}