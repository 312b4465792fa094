{
 "claims": [
  {
   "property": "C01",
   "status": "proved",
   "theorems": [
    "C01_jd_to_date_and_back",
    "C01_jalali"
   ],
   "note": "The Chinese calendar's eight lost days are covered by C04_chinese_refuted."
  },
  {
   "property": "C02",
   "status": "partial",
   "theorems": [
    "C02_date_to_jd_and_back",
    "C02_switchover",
    "C02_jalali",
    "C02_jalali_last_year_refuted",
    "C02_hebrew_partial",
    "C02_hebrew_refuted"
   ],
   "note": "Refuted for the last year of the Jalali chart and for the Hebrew edge years; proved for every other date."
  },
  {
   "property": "C03",
   "status": "proved",
   "theorems": [
    "C03_dates_well_formed",
    "C03_charts_well_formed"
   ],
   "note": ""
  },
  {
   "property": "C04",
   "status": "partial",
   "theorems": [
    "C04_terminates",
    "C04_chinese_partial",
    "C04_chinese_refuted"
   ],
   "note": "Proved for every day of every calendar except eight days of the Chinese table, for which the search is proved never to return."
  },
  {
   "property": "C05",
   "status": "proved",
   "theorems": [
    "C05_gregorian_is_day_count",
    "C05_gregorian_is_day_count_exists",
    "C05_julian_is_day_count",
    "C05_julian_is_day_count_exists"
   ],
   "note": ""
  },
  {
   "property": "C06",
   "status": "proved",
   "theorems": [
    "C06_no_overflow_dmy_to_day",
    "C06_no_overflow_day_to_dmy",
    "C06_month_out_of_range_refuted"
   ],
   "note": "The month argument must be 1..13; outside it the read is out of bounds (C06_month_out_of_range_refuted)."
  },
  {
   "property": "C07",
   "status": "proved",
   "theorems": [
    "C07_four_then_fifteen",
    "C07_consecutive",
    "C07_injective",
    "C07_result_in_use",
    "C07_skipped_dates"
   ],
   "note": ""
  },
  {
   "property": "C08",
   "status": "partial",
   "theorems": [
    "C08_new_year_partial",
    "C08_new_year_refuted",
    "C08_weekday",
    "C08_year_and_months_partial",
    "C08_edge_years_refuted"
   ],
   "note": "The molad comparison is off by one part: refuted for the edge years, proved for all others."
  },
  {
   "property": "C09",
   "status": "proved",
   "theorems": [
    "C09_islamic_is_day_count",
    "C09_islamic_is_day_count_exists",
    "C09_cycle"
   ],
   "note": ""
  },
  {
   "property": "C10",
   "status": "proved",
   "theorems": [
    "C10_modern_persian_is_day_count",
    "C10_modern_persian_is_day_count_exists",
    "C10_french_is_day_count",
    "C10_french_leap_spacing",
    "C10_years"
   ],
   "note": ""
  },
  {
   "property": "C11",
   "status": "partial",
   "theorems": [
    "C11_jalali_years",
    "C11_jalali_anchor_and_spacing",
    "C11_jalali_errors",
    "C11_jalali_last_year_refuted"
   ],
   "note": "Refuted for the last year of the chart (month of 126 days); proved for the others."
  },
  {
   "property": "C12",
   "status": "partial",
   "theorems": [
    "C12_chinese_months",
    "C12_chinese_join_partial",
    "C12_chinese_join_refuted",
    "C12_chinese_days_partial"
   ],
   "note": "Refuted for the eight years whose end does not meet the next new year."
  },
  {
   "property": "C13",
   "status": "partial",
   "theorems": [
    "C13_unknown_calendar",
    "C13_outside_charts_partial",
    "C13_chinese_year_refuted",
    "C13_month_untouched"
   ],
   "note": "Refuted for Chinese years beyond int."
  },
  {
   "property": "C14",
   "status": "partial",
   "theorems": [
    "C14_dates_ordered",
    "C14_charts_ordered",
    "C14_hebrew_partial",
    "C14_switchover"
   ],
   "note": "Hebrew edge years overlap (C02_hebrew_refuted)."
  },
  {
   "property": "C15",
   "status": "partial",
   "theorems": [
    "C15_days_in_month",
    "C15_additive_partial",
    "C15_additive_refuted"
   ],
   "note": "Refuted for day -999; proved for the others."
  },
  {
   "property": "C16",
   "status": "proved",
   "theorems": [
    "C16_two_gregorian_conversions",
    "C16_gregorian_conversion_inverse"
   ],
   "note": ""
  },
  {
   "property": "C17",
   "status": "proved",
   "theorems": [
    "C17_month_macros",
    "C17_macros_match_dmy_to_day"
   ],
   "note": ""
  },
  {
   "property": "C18",
   "status": "proved",
   "theorems": [
    "C18_half_year"
   ],
   "note": "MJD up to 10^9 (2.7 million years)."
  },
  {
   "property": "C19",
   "status": "proved",
   "theorems": [
    "C19_leap_seconds",
    "C19_numbering_exists"
   ],
   "note": ""
  },
  {
   "property": "C20",
   "status": "proved",
   "theorems": [
    "C20_easter",
    "C20_easter_period",
    "C20_easter_negative_refuted",
    "C20_orthodox_easter",
    "C20_orthodox_easter_period"
   ],
   "note": "For years >= 0; negative years refuted."
  },
  {
   "property": "C21",
   "status": "proved",
   "theorems": [
    "C21_digit_of_value",
    "C21_value_of_digit",
    "C21_no_digit_of_value",
    "C21_encode",
    "C21_decode",
    "C21_round_trip",
    "C21_decode_rejects",
    "C21_decode_overflow_refuted"
   ],
   "note": "get_mutant_hex_value overflows an int from six digits on (C21_decode_overflow_refuted); proved whenever the value is an int."
  },
  {
   "property": "C22",
   "status": "proved",
   "theorems": [
    "C22_number",
    "C22_number_too_large_refuted"
   ],
   "note": "All n up to 620000+62^4-1. Names with numbers above 2^32 are reduced modulo 2^32 (C22_number_too_large_refuted)."
  },
  {
   "property": "C23",
   "status": "partial",
   "theorems": [
    "C23_asteroid",
    "C23_asteroid_extended",
    "C23_extended_year_refuted",
    "C23_second_letter_I_refuted",
    "C23_survey",
    "C23_survey_refuted",
    "C23_comet",
    "C23_comet_asteroidal",
    "C23_numbered_comet",
    "C23_fragment_refuted",
    "C23_injective"
   ],
   "note": "Proved for all years 1600-2099, letters and cycle counts below 620, the extended scheme in 2000-2061, surveys below 9000, comets and fragments. Refuted for surveys from 9000, cycle counts from 620 in other years, second letter I in the extended scheme, three-letter fragments."
  },
  {
   "property": "C24",
   "status": "partial",
   "theorems": [
    "C24_satellite_partial",
    "C24_long_satellite_refuted",
    "C24_provisional_satellite_partial",
    "C24_provisional_satellite_refuted",
    "C24_artificial_satellite"
   ],
   "note": "Proved for satellite names of at most 15 characters and provisional numbers except 100-109; refuted, for all parameters, for the others."
  },
  {
   "property": "C25",
   "status": "partial",
   "theorems": [
    "C25_twelve_characters_partial",
    "C25_hypotheses_met",
    "C25_blank_name_refuted",
    "C25_long_number_refuted",
    "C25_620_refuted"
   ],
   "note": "Proved for names that are not blank, have no number of more than seven digits and no 620/621 after a capital letter; refuted for each of these."
  },
  {
   "property": "C26",
   "status": "partial",
   "theorems": [
    "C26_total_partial",
    "C26_long_satellite_refuted",
    "C26_number_and_extended_refuted",
    "C26_no_destination_refuted",
    "C26_invalid_cycle_refuted"
   ],
   "note": "Proved for all fields except long satellite names and a number followed by an extended provisional designation; refuted for these two kinds."
  },
  {
   "property": "C27",
   "status": "proved",
   "theorems": [
    "C27_strlcpy",
    "C27_strlcpy_size_zero",
    "C27_strlcat",
    "C27_strlcat_unterminated"
   ],
   "note": ""
  },
  {
   "property": "C28",
   "status": "proved",
   "theorems": [
    "C28_strlcpy_err",
    "C28_strlcat_err",
    "C28_strlcat_err_unterminated",
    "C28_snprintf_append",
    "C28_snprintf_append_trunc",
    "C28_snprintf_err"
   ],
   "note": "Assertions enabled. vsnprintf of the C library is a parameter: the text the format produces. The text written to stderr is not modelled."
  },
  {
   "property": "C29",
   "status": "partial",
   "theorems": [
    "C29_piece",
    "C29_last_piece",
    "C29_piece_cut",
    "C29_piece_safe_partial",
    "C29_bad_escape_refuted",
    "C29_lower_case_refuted",
    "C29_size_zero_refuted",
    "C29_form"
   ],
   "note": "Decoding, truncation and memory safety proved; refuted for size 0, bad escapes (no terminator, reported as success) and lower-case digits."
  },
  {
   "property": "C30",
   "status": "partial",
   "theorems": [
    "C30_make_partial",
    "C30_decode",
    "C30_round_trip",
    "C30_distinct",
    "C30_two_letters",
    "C30_one_letter",
    "C30_five_digits_refuted",
    "C30_zero_refuted",
    "C30_undefined_refuted"
   ],
   "note": "Decoding proved for every number; naming proved below 10000 and refuted from there on (only four digits are written)."
  },
  {
   "property": "C31",
   "status": "partial",
   "theorems": [
    "C31_code_to_name",
    "C31_code_unknown",
    "C31_name_to_code",
    "C31_name_unknown",
    "C31_inverse",
    "C31_long_name_refuted",
    "C31_small_dr_refuted"
   ],
   "note": "Proved for every text of fewer than 80 significant characters; longer texts overrun a local buffer."
  },
  {
   "property": "C32",
   "status": "proved",
   "theorems": [
    "C32_roman_numeral"
   ],
   "note": ""
  },
  {
   "property": "C33",
   "status": "proved",
   "theorems": [
    "C33_spin_matrix",
    "C33_pre_spin_matrix",
    "C33_turn",
    "C33_matrices_stay_rotations",
    "C33_opposite_angle",
    "C33_identity",
    "C33_inverse",
    "C33_rotate_vector",
    "C33_rotate_vector_isometry",
    "C33_rotate_vector_axis_refuted"
   ],
   "note": "Over exact real arithmetic. Refuted for an axis number below -1, which reads outside the vector."
  },
  {
   "property": "C34",
   "status": "partial",
   "theorems": [
    "C34_ecliptic",
    "C34_from_2000",
    "C34_ecliptic_inverse",
    "C34_equatorial_inverse",
    "C34_equatorial",
    "C34_mean_obliquity",
    "C34_mean_obliquity_clip",
    "C34_composition",
    "C34_via_2000_refuted",
    "C34_sentinel_refuted",
    "C34_equatorial_from_2000",
    "C34_with_nutation",
    "C34_without_nutation",
    "C34_vectors",
    "C34_ecliptic_equatorial",
    "C34_ecliptic_equatorial_back",
    "C34_precess_ra_dec",
    "C34_precess_ra_dec_back"
   ],
   "note": "Over exact reals, nutation a parameter. Orthonormality, inverse in both directions, composition where it holds and independence of the call history proved; precessing by way of 2000 is refuted for general pairs of years, and the cache's initial sentinel year pair is a counterexample."
  },
  {
   "property": "C35",
   "status": "proved",
   "theorems": [
    "C35_distance",
    "C35_symmetric",
    "C35_zero",
    "C35_position_angle",
    "C35_undefined_angle",
    "C35_reverse",
    "C35_reverse_coordinates",
    "C35_there"
   ],
   "note": "Over exact real arithmetic."
  },
  {
   "property": "C36",
   "status": "partial",
   "theorems": [
    "C36_cubic_in_bounds",
    "C36_cubic_short_refuted",
    "C36_cubic_nodes_partial",
    "C36_cubic_end_nodes",
    "C36_cubic_end_nodes_refuted",
    "C36_cubic_smooth",
    "C36_cubic_quadratics",
    "C36_cubic_err_code",
    "C36_lagrange",
    "C36_lagrange_polynomials",
    "C36_lagrange_nodes",
    "C36_lagrange_slope",
    "C36_lagrange_slope_nodes",
    "C36_lagrange_many_refuted"
   ],
   "note": "Over exact reals. The cubic spline hits its nodes except the first and the last, where it is off by a third difference (proved, and the full claim refuted); C1 everywhere; in bounds for four or more entries and never with fewer. Lagrange interpolation hits all nodes, equals the interpolating polynomial and its derivative, in bounds iff n_pts <= n_entries."
  },
  {
   "property": "C37",
   "status": "proved",
   "theorems": [
    "C37_init",
    "C37_bracket",
    "C37_shrinks",
    "C37_suggestion",
    "C37_add_never_fails",
    "C37_next_fails_only",
    "C37_four_lowest",
    "C37_quadratic_step",
    "C37_cubic_step",
    "C37_golden_step",
    "C37_done",
    "C37_session_exists",
    "C37_zero_tolerance_refuted",
    "C37_tie_refuted",
    "C37_flat_refuted",
    "C37_convergence_refuted",
    "C37_convergence_follows"
   ],
   "note": "Over exact real arithmetic (rounding not modelled). The assertions that can fail are characterised: zero tolerance, ties, flat data and a distance of exactly 0.9 tolerance (refuted claims); convergence is refuted by an explicit function."
  },
  {
   "property": "C38",
   "status": "partial",
   "theorems": [
    "C38_constellation",
    "C38_one",
    "C38_turns",
    "C38_negative",
    "C38_negative_refuted",
    "C38_far_negative_refuted",
    "C38_all_used",
    "C38_name",
    "C38_poles"
   ],
   "note": "Proved for right ascensions of 0 degrees or more (exact reals, values that fit the integer types); negative ones proved for whole seconds down to -3600 degrees and refuted otherwise. The table is the model's data: its agreement with the IAU boundaries is not claimed."
  },
  {
   "property": "C39",
   "status": "proved",
   "theorems": [
    "C39_decode",
    "C39_every_stamp",
    "C39_quiet",
    "C39_warnings",
    "C39_short_refuted",
    "C39_invalid_refuted"
   ],
   "note": "Arguments shorter than six characters and characters that are no base-62 digits are recorded as refuted claims. The Julian date printed after the text (get_time_from_string) is not modelled."
  },
  {
   "property": "C40",
   "status": "partial",
   "theorems": [
    "C40_pass_through",
    "C40_plain_file",
    "C40_stack_safe",
    "C40_nested",
    "C40_document",
    "C40_psv_header",
    "C40_psv_data",
    "C40_psv_end",
    "C40_psv_names",
    "C40_extra_close_refuted",
    "C40_silent_close_refuted",
    "C40_deep_refuted",
    "C40_unknown_column_refuted",
    "C40_control_character_refuted",
    "C40_name_without_end_refuted",
    "C40_long_code_refuted",
    "C40_two_values_refuted"
   ],
   "note": "Proved for data whose tags match and nest less than twenty deep, for PSV sections and for plain lines; what fills in an observation is a parameter. Refuted: one closing tag too many or twenty open tags and the next opening tag writes outside the stack; unknown PSV columns abort; a lone control character hangs; others."
  },
  {
   "property": "C41",
   "status": "proved",
   "theorems": [
    "C41_inverse",
    "C41_rate",
    "C41_equation_of_time",
    "C41_monotone",
    "C41_true_solar_back",
    "C41_true_solar_unique",
    "C41_published"
   ],
   "note": "Over exact real arithmetic; the true-solar-time inverse and the equation of time within a million days of J2000."
  },
  {
   "property": "C42",
   "status": "partial",
   "theorems": [
    "C42_copy",
    "C42_long_text",
    "C42_pieces",
    "C42_leading_spaces",
    "C42_case_and_spacing",
    "C42_overrun_refuted"
   ],
   "note": "Copy, rejection, sizes of all pieces and insensitivity to spacing proved for every text; the claim fails for texts that overrun the copy buffer (C42_overrun_refuted characterises them). Numbers with exponents, hexadecimal, inf and nan are outside of the number-reading model."
  },
  {
   "property": "C43",
   "status": "proved",
   "theorems": [
    "C43_normalize",
    "C43_cross_product",
    "C43_dot_and_length",
    "C43_polar",
    "C43_acose_asine"
   ],
   "note": "Over exact real arithmetic."
  },
  {
   "property": "C44",
   "status": "partial",
   "theorems": [
    "C44_offsets_add_up_partial",
    "C44_signed_number",
    "C44_hang_refuted",
    "C44_zero_offset_refuted"
   ],
   "note": "Offsets with a nonzero value add up for every text; refuted in general: a zero offset stops the collection (C44_zero_offset_refuted) and some texts are never read (C44_hang_refuted)."
  },
  {
   "property": "C45",
   "status": "partial",
   "theorems": [
    "C45_named_month",
    "C45_numbers",
    "C45_small_year",
    "C45_small_year_named_month",
    "C45_named_month_and_day",
    "C45_named_month_and_year",
    "C45_year_and_day_of_year",
    "C45_day_and_month",
    "C45_year_alone",
    "C45_day_alone",
    "C45_compact",
    "C45_jd_digits",
    "C45_decimal_year",
    "C45_month_alone",
    "C45_weekday_partial",
    "C45_weekday_refuted",
    "C45_time_of_day",
    "C45_fits",
    "C45_fits_short_refuted",
    "C45_keywords",
    "C45_gps",
    "C45_now",
    "C45_moon_phase",
    "C45_assert_refuted",
    "C45_month_number_refuted",
    "C45_double_space_refuted"
   ],
   "note": "One theorem for each form of text; refuted: day of week before 1999 Dec 26, FITS times without seconds, dates that fail an assert or read a table out of bounds, doubled spaces, era in the middle, JD 0. Not covered: BC years, am/pm, Chinese calendar."
  },
  {
   "property": "C46",
   "status": "partial",
   "theorems": [
    "C46_text",
    "C46_rounding",
    "C46_round_trip",
    "C46_round_trip_day_of_year",
    "C46_julian_days",
    "C46_julian_days_round_trip",
    "C46_years",
    "C46_picodays_refuted",
    "C46_month_13_refuted",
    "C46_jd_rounding_refuted",
    "C46_five_digit_year_refuted",
    "C46_no_zeroes_refuted"
   ],
   "note": "The text is given exactly, with a bound on the error, for every format with seconds, minutes, hours, days, years 0 to 9999.99, and Julian days, in every calendar but the Persian and the Chinese; texts that name an instant in full are read back as the instant shown (years 33 to 999999999). Formats with two-digit years, omitted fields, removed spaces or colons are written exactly but their reading back is not claimed. Long doubles are exact rationals. Findings: overflow with twelve or more decimals of days, missing names for a 13th month, Julian days rounded twice, five-digit years cut, texts without leading zeroes misread."
  },
  {
   "property": "C47",
   "status": "partial",
   "theorems": [
    "C47_write",
    "C47_write_signed",
    "C47_read",
    "C47_read_signed",
    "C47_round_trip",
    "C47_round_trip_signed",
    "C47_long_formats",
    "C47_report",
    "C47_no_digits",
    "C47_seven_digits_refuted",
    "C47_packed_overflow_refuted",
    "C47_whole_degrees_refuted"
   ],
   "note": "Writing and reading, with and without sign, for all documented formats, rounding, precision, report lines, blank columns. Refuted: format 307 is never read, packed digits over 2147483647 overflow, formats 100 and 200. Not covered: unknown formats, and malformed columns that contain digits."
  },
  {
   "property": "C48",
   "status": "proved",
   "theorems": [
    "C48_replace",
    "C48_unique",
    "C48_empty_refuted"
   ],
   "note": "For every non-empty old text; refuted for the empty one, with which it never ends. The room after the string is the caller's business."
  },
  {
   "property": "C49",
   "status": "partial",
   "theorems": [
    "C49_usual",
    "C49_packed",
    "C49_clock",
    "C49_minutes",
    "C49_julian",
    "C49_columns",
    "C49_radar",
    "C49_reject",
    "C49_total",
    "C49_october_1582_refuted",
    "C49_month_refuted",
    "C49_short_month_refuted",
    "C49_not_a_digit_refuted",
    "C49_decimals_refuted",
    "C49_no_minutes_refuted"
   ],
   "note": "Every documented layout, radar rounding, refusal, totality. Refuted: October 1582 after the change of calendar, months and days that do not exist, other characters in place of digits, hours only. Decimal numbers are exact rationals (no floating point rounding)."
  },
  {
   "property": "C50",
   "status": "partial",
   "theorems": [
    "C50_place",
    "C50_outside",
    "C50_same_kind",
    "C50_ra",
    "C50_dec",
    "C50_over",
    "C50_total",
    "C50_range",
    "C50_no_digits",
    "C50_xxx",
    "C50_bare_number_refuted",
    "C50_hours_refuted",
    "C50_beyond_pole_refuted",
    "C50_decimals_refuted",
    "C50_unchecked_refuted",
    "C50_xxx_codes_refuted"
   ],
   "note": "Angles, places, altitudes, refusals, ranges, totality for text without long digit runs. Refuted: a bare number at the end is read beyond the terminator, \"HH MM.mm\" is taken as degrees, declinations beyond 90 degrees count as one byte read, ten decimals overflow, limits not checked by get_xxx_location_info( ). Decimal numbers are exact rationals; rho cos phi and rho sin phi are not modelled."
  },
  {
   "property": "C51",
   "status": "partial",
   "theorems": [
    "C51_parallax",
    "C51_latitude",
    "C51_closest",
    "C51_roundtrip",
    "C51_pole",
    "C51_pole_height_refuted",
    "C51_sphere_refuted"
   ],
   "note": "Off the axis everything is proved, over the reals (no floating-point rounding). Refuted: on the axis the height is measured from the equatorial radius; in the equatorial plane of a sphere the result is 0/0."
  },
  {
   "property": "C52",
   "status": "partial",
   "theorems": [
    "C52_standard",
    "C52_rover",
    "C52_dynamical",
    "C52_satellite",
    "C52_short",
    "C52_total",
    "C52_tiny_refuted",
    "C52_zero_refuted",
    "C52_name_refuted",
    "C52_negative_planet_refuted",
    "C52_no_such_planet_refuted",
    "C52_at_sign_refuted"
   ],
   "note": "Numbers are exact (no floating-point rounding). Refuted: places on the equator or Greenwich's meridian get the parallax constants of the centre; the name of a short rovers line lies beyond its end; texts under three bytes are read beyond their end; planet numbers below 0 index outside a table and those from 15 to 9000 give 0/0; an at sign in the name is taken for a planet number."
  },
  {
   "property": "C53",
   "status": "partial",
   "theorems": [
    "C53_axes",
    "C53_edge_on_refuted",
    "C53_kepler",
    "C53_kepler_near_parabolic_partial",
    "C53_ellipse",
    "C53_near_parabolic_ellipse_partial",
    "C53_hyperbola_partial",
    "C53_parabola"
   ],
   "note": "Real numbers, no floating-point rounding. Missing: for eccentricities from 0.9 on, other than 1, that the iteration ends before the assertion on its number of steps. Refuted: an inclination of exactly 90 degrees gives 0/0 instead of the direction of the perihelion."
  },
  {
   "property": "C54",
   "status": "partial",
   "theorems": [
    "C54_orbit",
    "C54_angles",
    "C54_planar_refuted",
    "C54_flatten_refuted",
    "C54_ellipse_time",
    "C54_hyperbola_time",
    "C54_parabola_round_trip",
    "C54_ellipse_round_trip",
    "C54_propagate",
    "C54_hyperbola_propagate_partial"
   ],
   "note": "Real numbers, no floating-point rounding; eccentricities so near 1 that the program rounds them to 1 are left out. Missing: termination of the iteration for hyperbolas and for ellipses from 0.9 on (see C53). Refuted: for an orbit exactly in the plane of reference the argument of the perihelion is mirrored when the perihelion is past the half turn; the step that is to flatten the eccentricity vector into the plane of the orbit divides by h instead of h squared."
  },
  {
   "property": "C55",
   "status": "partial",
   "theorems": [
    "C55_sidereal_time",
    "C55_precess_pt",
    "C55_precess_pt_same_year",
    "C55_alt_az",
    "C55_at_epoch",
    "C55_ra_dec",
    "C55_round_trip",
    "C55_azimuth_refuted",
    "C55_nutation_refuted",
    "C55_poles_refuted",
    "C55_galactic",
    "C55_supergalactic",
    "C55_galactic_refuted"
   ],
   "note": "Real numbers, no rounding; nutation( ) is a parameter; zenith, nadir and the poles of the sky are excluded (there the quotients are 0/0). Refuted: the two functions use different origins of azimuth (south through west, north through east), so one does not undo the other; nutation is used one way only; at the poles the azimuth is mirrored (north) or half a turn off (south); galactic longitudes are not reduced to one turn. Missing: latitudes within 2 arcseconds of a pole other than the poles, precess_pt between two years other than 2000."
  },
  {
   "property": "C56",
   "status": "partial",
   "theorems": [
    "C56_values",
    "C56_result",
    "C56_width",
    "C56_short_refuted",
    "C56_date",
    "C56_date_refuted",
    "C56_month_refuted",
    "C56_name_refuted"
   ],
   "note": "Numbers are exact rationals, no rounding; inf, nan and hexadecimal numbers are not modelled. Refuted: a line shorter than its header is read past its end; dates of other than eight bytes count as day 0 without notice; a month of 15 or more reads past the table of months; any column whose name begins with o or O overwrites an angle. Missing: headers with bytes above 127."
  },
  {
   "property": "C57",
   "status": "partial",
   "theorems": [
    "C57_table",
    "C57_steady",
    "C57_future",
    "C57_huge_refuted",
    "C57_past",
    "C57_jump_refuted",
    "C57_reset",
    "C57_string",
    "C57_string_refuted",
    "C57_utc_sixties",
    "C57_utc_leap",
    "C57_utc_near",
    "C57_utc_predicted",
    "C57_utc_before",
    "C57_tdb",
    "C57_tdb_refuted"
   ],
   "note": "Exact rationals (reals for the sines), no rounding; no file of Earth orientation parameters loaded. Refuted: TD - UT jumps by 28 s at the start of 1620; from the year 4294968916 on the conversion to int comes before the guard; strings with a trailing blank, without colon or with an 'o' year without comma are misread or read past their end; tdb_minus_utc divides TDB - TD, which is in seconds, by 86400. Missing: formulae whose numbers have exponents (except in the default string)."
  },
  {
   "property": "C58",
   "status": "partial",
   "theorems": [
    "C58_load",
    "C58_day",
    "C58_nothing",
    "C58_safe",
    "C58_matrix",
    "C58_info_refuted",
    "C58_end_refuted",
    "C58_trailer_refuted",
    "C58_short_refuted",
    "C58_alloc_refuted",
    "C58_far_refuted",
    "C58_null_refuted"
   ],
   "note": "Numbers of the file are exact rationals and the arithmetic is real, no rounding. Refuted: the 'last fully usable day' reported is three days too late; a file that ends with its last day gives the day before it; text behind the days gives EOP_FILE_NOT_FOUND although the file is loaded; the documented short files are refused; a failed allocation is reported as a wrong format; times 2^31 days away are undefined behaviour; a null pointer for the parameters is checked and then written to. Missing: files whose columns have gaps or days out of order (only the safety of requests is proved for them)."
  },
  {
   "property": "C59",
   "status": "partial",
   "theorems": [
    "C59_columns",
    "C59_lines",
    "C59_spacecraft",
    "C59_psv",
    "C59_date",
    "C59_place",
    "C59_long_ra",
    "C59_long_dec",
    "C59_stale_sigma_refuted",
    "C59_carried_over_refuted",
    "C59_overflow_refuted",
    "C59_no_name_refuted",
    "C59_station_refuted",
    "C59_mode_after_system_refuted",
    "C59_coordinates_refuted",
    "C59_order_refuted",
    "C59_no_newline_refuted",
    "C59_time_without_z_refuted",
    "C59_long_time_refuted"
   ],
   "note": "Refuted: the uncertainty in declination and the correlation are never cleared and appear with later observations; an uncertainty in magnitude or time without one in position is carried over to the next observation; long texts for positions and numbers overflow arrays; the text of an element of 40 characters or more is used unset; short station codes take the separator along; the order of mode and sys, artSat and trkSub, notes and prog matters; the comment line for bands has no newline; a time without Z runs on into the next fields, and one with more than three decimals overwrites the right ascension. a coordinate of a spacecraft with few digits before the point and many after it leaves digits in the next one's columns. Missing: positions of roving observers, velocities, coordinates with exponents (modelled, no theorem beyond the findings), times after 2099, and full magnitudes."
  },
  {
   "property": "C60",
   "status": "proved",
   "theorems": [
    "C60_orientation",
    "C60_frame",
    "C60_handed_refuted",
    "C60_last_refuted",
    "C60_unknown",
    "C60_radii",
    "C60_rate",
    "C60_history",
    "C60_reload_refuted",
    "C60_missing_refuted",
    "C60_first_radii_refuted",
    "C60_earth",
    "C60_minus_refuted"
   ],
   "note": "Theorems are about exact numbers; dates in dynamical time are the date plus an arbitrary function (C57), the Earth's matrix is an arbitrary function (C58). Findings: the last object of a file is never found; the matrix is left-handed for prograde objects, against the comment; a line is cut at the first byte above 127, as happens for the pole of Mars in cospar.txt; answers are stale after load_cospar_file( ); without a file the matrix is computed from unset values; a first question for radii leaves them unset. Periodic terms whose angle is exactly 0, constants with exponents and formulae without numbers are outside the theorems."
  },
  {
   "property": "C61",
   "status": "proved",
   "theorems": [
    "C61_mpcorb",
    "C61_check",
    "C61_astorb",
    "C61_place",
    "C61_refused",
    "C61_hyperbola_refuted",
    "C61_month_refuted",
    "C61_past_end_refuted"
   ],
   "note": "For ellipses whose plane is not edge on (C53_edge_on_refuted), with exact numbers. Findings: the digit before the point of an astorb eccentricity is not read; a month letter after E in a packed date reads past a table; an astorb number without a blank after it is read past the end of the line."
  },
  {
   "property": "C62",
   "status": "proved",
   "theorems": [
    "C62_row",
    "C62_file_needed",
    "C62_program",
    "C62_missing_file",
    "C62_no_names_refuted",
    "C62_last_column_refuted",
    "C62_long_cell_refuted",
    "C62_high_numbers_refuted"
   ],
   "note": "With exact numbers; the text of the error of a magnitude, which takes a logarithm, is left open. Columns are the first whose name ends in (or has in it) the name looked for, which is what the code does. Findings: cells of 90 bytes or more overflow a buffer; the last column is not found; a row before the names fails an assertion; ranges near INT_MAX overflow."
  },
  {
   "property": "C63",
   "status": "proved",
   "theorems": [
    "C63_comet_record",
    "C63_other_lines",
    "C63_asteroid_name",
    "C63_program",
    "C63_comet_file",
    "C63_asteroids_only",
    "C63_overflow_refuted",
    "C63_short_comets_refuted"
   ],
   "note": "With exact numbers. Of the record of an asteroid only the name is covered (its elements are those of C61); the rest of that record is a parameter. The order of records holds if there is room for the comets, that is, if asteroids and comets together are at most the least power of two above the number of asteroids. Findings: with more comets, memory past the end of the buffer is written, with no asteroid through a null pointer; with a comet file of fewer than two lines all asteroids are lost."
  },
  {
   "property": "C64",
   "status": "proved",
   "theorems": [
    "C64_region",
    "C64_whole_turns",
    "C64_wide_refuted",
    "C64_edge_refuted",
    "C64_half_refuted",
    "C64_blank_line_refuted"
   ],
   "note": "With exact numbers; for rectangles that are not exactly 180 degrees wide, and lines of at least one byte of a name. Findings: a rectangle wider than 180 degrees stands for the places outside of it; a place on an edge shared by two rectangles is in neither; for one exactly 180 degrees wide the answer changes with a whole turn; an empty line is read as the rest of the line before, and gives a place that rectangle's name though it is not in it. With doubles, the loops that take off 360 degrees never end for a longitude above about 1e18; that is outside of the model."
  },
  {
   "property": "C65",
   "status": "proved",
   "theorems": [
    "C65_epoch",
    "C65_perihelion",
    "C65_no_perihelion",
    "C65_distance",
    "C65_negative_distance",
    "C65_huge",
    "C65_day_32_refuted",
    "C65_minus_overrun_refuted"
   ],
   "note": "With exact numbers (no floating-point rounding). Of elements_in_mpc_format( ) the lines of epoch and perihelion and the distances are covered, not the angles, vectors, magnitudes and periods, nor epochs before JD 0. Findings: the day shown may be one that does not exist (2000 Dec 32.0, Jan 32) as it is rounded apart from its month; the size of the array is not made smaller behind the minus sign of a negative distance, so that it is overrun by a byte."
  },
  {
   "property": "C66",
   "status": "proved",
   "theorems": [
    "C66_posix",
    "C66_watcom",
    "C66_windows",
    "C66_agree",
    "C66_order",
    "C66_last_moment",
    "C66_after_refuted",
    "C66_current_jd",
    "C66_failure_refuted"
   ],
   "note": "The readings of the system's functions are arguments; the Julian date with exact numbers. After the last instant: signed overflow on POSIX systems, times before 1970 on Windows. Finding: a clock that cannot be read is not reported but gives 1970 January 1."
  },
  {
   "property": "C67",
   "status": "proved",
   "theorems": [
    "C67_which",
    "C67_elements",
    "C67_ellipse",
    "C67_kepler",
    "C67_error",
    "C67_distance",
    "C67_plane",
    "C67_third_law",
    "C67_third_law_refuted"
   ],
   "note": "Exact real numbers. The table is copied number by number. Finding: the semi-major axis and the mean motion of Perdita (725) disagree with those of the other moons of Uranus by 2.8 percent or more under Kepler's third law, which all other moons obey within 0.6 percent."
  },
  {
   "property": "C68",
   "status": "proved",
   "theorems": [
    "C68_numbered",
    "C68_lettered",
    "C68_bare",
    "C68_none",
    "C68_length",
    "C68_longer_refuted",
    "C68_letters_refuted",
    "C68_blank_refuted",
    "C68_huge_refuted"
   ],
   "note": "The output buffer is taken to be large enough; C68_length says how large it must be. Findings: a buffer of the size of the text is too small by one for a text that ends in the year; letters other than P and C, and fragments of numbered comets, are not found; a blank behind the slash hides the designation although the code means to skip it; a long number in parentheses is undefined behaviour."
  },
  {
   "property": "C69",
   "status": "proved",
   "theorems": [
    "C69_relations",
    "C69_back_bv",
    "C69_back_vr",
    "C69_tycho",
    "C69_tycho_end_refuted",
    "C69_marker_refuted"
   ],
   "note": "Exact real numbers. Not part of the statement: that the search finds a root within its 100 steps for every index in the range (it may give 99). Findings: at the accepted upper end B-V = 1.8 the corrections from Tycho are left out; an index out of range is 100 from the polynomials but 99 elsewhere."
  },
  {
   "property": "C70",
   "status": "proved",
   "theorems": [
    "C70_bennett",
    "C70_defined",
    "C70_reverse",
    "C70_round_trip",
    "C70_zenith_refuted",
    "C70_saastamoinen",
    "C70_saasta"
   ],
   "note": "Exact real numbers. reverse_saasta_refraction( ) is not modelled. Finding: Bennett's formula gives less than -0.75 second of arc at the zenith instead of 0."
  }
 ]
}