# Formal model of Bill-Gray/lunar in Rocq

The model is read off the C/C++ text in `/repo` (never built or run).  Each
definition cites the file and lines it models; simplifications are stated there.

Files of one subject `X` (`Date`, `Tstr`, `Mpcf`, ...):

| file | contents |
|---|---|
| `XModel.v` | the code, function by function |
| `XSpec.v` (or `XVocab.v`) | the vocabulary of the properties, independent of the model's helpers |
| `XProofs.v`, `XThms.v`, ... | lemmas and proofs |
| `PropX.v` | the theorems, nothing else: each closed by `exact`, with `Print Assumptions` and an example that meets its hypotheses |

Shared: `CBase.v`, `CLemmas.v` (outcomes, checked integer arithmetic), `CStr.v`
(strings, buffers, character classes, atoi), `RBase.v`, `TrigBase.v` (reals).
Section "Theorems" below lists, for every property, status, theorems and what
`Print Assumptions` prints; "Findings" lists what was refuted.

## Conventions of the model

* **Outcomes.** C functions become total Gallina functions returning
  `outcome A` (`CBase.v`): `Ret a`, `UB` (undefined behaviour: signed overflow,
  out-of-bounds access, read of an uninitialised object), `Abort` (failed
  `assert`, `exit`), `Fuel` (loop bound used up).  Nothing is assumed away: a
  theorem that says "= Ret x" says that none of the other outcomes happens.
* **Integers.** `long` has a width parameter (`L`, the largest `long`):
  2^31-1 or 2^63-1.  `int` is 32 bits.  `char` is 8 bits and signed
  (x86-64 gcc).  `/` and `%` are `Z.quot` and `Z.rem`.  Narrowing conversions
  wrap (gcc's definition of implementation-defined conversions).  Every
  arithmetic expression on signed integers is evaluated by `ev`, which yields
  `UB` if any intermediate result does not fit.
* **Strings/memory.** A string that is only read is the list of its bytes before
  the terminator; the terminator can be read, what is behind it cannot.  A
  buffer that is written is a list of `option Z` (`None`: not yet
  written); reads of unwritten bytes and accesses outside are `UB`.
* **Loops** become structural recursion or recursion on explicit fuel whose
  exhaustion is the separate outcome `Fuel`; the theorems show which fuel
  suffices, or that none does.
* **Floating point.** Values are exact: real numbers (Coq `Reals`) for geometry,
  rational numbers for times and angles in text.  The rounding of
  double and long double operations is not modelled, and neither are
  infinities, NaNs and overflow to infinity.  Conversions from floating point to
  integers are checked (`UB` if the value does not fit).
* **Names of theorems.** `Cnn_...` belongs to property Cnn; `..._partial` covers
  only part of what its comment says; `..._refuted` shows that the code
  violates (part of) the property and is a finding.  Where a property fails on some inputs,
  the positive theorems exclude these by hypotheses and a refutation shows
  that the exclusion is needed.

## Trusted base

* Coq 8.16.1: kernel, including its bytecode evaluator (`vm_compute`), and the
  standard library.  No other library is used, no plugins.
* The axioms listed by `Print Assumptions`.  Theorems on integers, strings,
  rationals: none ("closed").  Theorems on real numbers use
  some of these axioms of the standard library, and no others:
  * **D** `ClassicalDedekindReals.sig_not_dec`,
  * **F** `ClassicalDedekindReals.sig_forall_dec`,
  * **E** `FunctionalExtensionality.functional_extensionality_dep`,
  * **C** `Classical_Prop.classic`.
* The reading of the C text into the model, the C semantics expressed by
  `CBase.v`/`CStr.v`, and the models of the C library functions used: `strlen`,
  `memcpy`, `strcmp`, `strchr`, `strstr`, `isdigit` and its relatives (C
  locale), `atoi`, `atof`/`strtold`, `sscanf` (the conversions used), `snprintf`
  (its output text; `%Lf` rounds the exact value), `floor`, `fmod`.

## What is modelled

| model | code |
|---|---|
| `DateModel.v` | date.cpp: all calendar functions, `dmy_to_day`, `day_to_dmy`, `days_in_month`, `get_calendar_data`, with chinese.h as data (`ChineseData`) |
| `TimeModel.v` | jd.cpp `greg_day_to_dmy`; mjd_defs.h; delta_t.cpp leap-second part of `td_minus_utc`; easter.cpp `easter_date`, `easter_date_julian` |
| `DesigModel.v` | unpack.cpp (all); mpc_fmt.cpp 581-906 (`extract_roman_numeral`, packing of satellites, `create_mpc_packed_desig`) |
| `StrModel.v` | snprintf.cpp: `strlcpy`, `strlcat`, `_err` variants, `snprintf_append`, `snprintf_err` |
| `CgiModel.v` | cgi_func.cpp 108-155: URL-encoded data |
| `MiscModel.v` | miscell.cpp 135-169, 217-261 (variable stars); mpc_fmt.cpp 466-577 (catalogue codes) |
| `RotModel.v` | miscell.cpp: vectors, matrices, `acose`, `asine` |
| `PrecModel.v` | precess.cpp, obliquit.cpp |
| `DistModel.v` | dist_pa.cpp |
| `SplineModel.v` | spline.cpp |
| `BrentModel.v` | brentmin.cpp (except the debugging output) |
| `ConModel.v` | conbound.c |
| `MpctModel.v` | mpc_time.c |
| `AdesModel.v` | ades2mpc.cpp: the reader (tags, PSV, contexts, lines); what fills in a single observation is a parameter |
| `MarsModel.v` | marstime.cpp |
| `TstrModel.v` | get_time.cpp; the times of lunar phases are a parameter |
| `CtimeModel.v` | miscell.cpp 262-464: `full_ctime`, `full_ctimel` |
| `MpcfModel.v` | mpc_fmt.cpp 39-464 (dates and angles of 80-column reports); mpc_fmt2.cpp; mpc_code.cpp `quick_strtod` |
| `AngModel.v` | mpc_code.cpp 435-746 (angles and places written by people), in degrees; parallax constants left out |
| `EllModel.v` | mpc_code.cpp 104-206 (lat_alt_to_parallax, cbrt, point_to_ellipse) over the reals |
| `CodeModel.v` | mpc_code.cpp 30-103, 207-395 (planet tables, convert_base_60_to_decimal, _set_parallax_constants, limited_atof, get_mpc_code_info); mpc_func.h 40-52 |
| `OrbModel.v` | astfuncs.cpp 39, 93-136, 167-352 (setup_orbit_vectors, derive_quantities, near_parabolic, kepler, comet_posn_part_ii, comet_posn_and_vel); miscell.cpp 522-527; comets.h 22-33 |
| `ClaModel.v` | classel.cpp 87-281 (remaining_terms, calc_classical_elements); miscell.cpp 67-74, 474-482 (asine, vector3_length, dot_product) |
| `AzModel.v` | alt_az.cpp (all); miscell.cpp 506-520 (green_sidereal_time); nutation( ) is a parameter |
| `SofModel.v` | sof.cpp (all); the elements' derived quantities are those of `OrbModel.v` |
| `DtModel.v` | delta_t.cpp (all; its leap seconds are those of `TimeModel.v`) |
| `EopModel.v` | eop_prec.cpp:75-275 (all but the test program) |
| `ObsModel.v` | ades2mpc.cpp:40-65, 324-538, 545-938, 950-977 (the hooks of `AdesModel.v`) |
| `CospModel.v` | cospar.cpp:31-401 (all of it but the test program) |
| `MpcoModel.v` | mpcorb.cpp:29-167 (all of it) |
| `CsvModel.v` | csv2ades.c (all of it; bytes of value 0 in files are left out) |
| `M2sModel.v` | mpc2sof.cpp, without the date of the first observation of an asteroid and failures of files and memory |
| `GeoModel.v` | mpc_code.cpp:397-433, the name of the region of a place |
| `ShowModel.v` | showelem.cpp: the lines of epoch and time of perihelion (without the time of day), and distances |
| `NanoModel.v` | nanosecs.cpp |
| `RockModel.v` | rocks.cpp |
| `ComModel.v` | com_file.cpp: extract_periodic_name; the rest of the file is not compiled (OBSOLETE) |
| `ColModel.v` | colors.cpp, without its test programs |
| `RefModel.v` | refract.cpp: refraction, reverse_refraction, saasta_refraction |

**Not modelled**: the planetary and satellite theories (VSOP, ELP, PS-1996,
Uranian, Saturnian and Jovian satellites, Triton, Pluto and the like), orbital elements and
ephemerides (the rest of astfuncs.cpp, moid.cpp, showelem.cpp), nutation,
extinction and visibility, rise/set searches,
file access (all `FILE *` work other than "a line as given"), main programs
except mpc_time.c, and the floating-point rounding of everything.  These are
numerical series or tables for which the reference is an external theory, or
runtime behaviour, so that a theorem about the text would have nothing to be
compared with; the parts of them that are logic (index ranges, buffer sizes,
search loops) are candidates for further models.

## Plan: how each property is expressed and proved

* C01-C04, C14, C15 (calendars): every function of date.cpp from
  `get_jul_greg_year_data` to `day_to_dmy` in the outcome monad.  A generic lemma
  about the year search: if new-year is strictly increasing and year end = next
  new year, the loop reaches the right year from any starting guess.  Instances
  per calendar.
* C05: specification = anchor date + successor function on (d,m,y); dmy_to_day maps successor to +1.
* C06: same model, `UB` on overflow; ranges for both widths of long.
* C07: both switch tests modelled; injectivity and gap stated on dates.
* C08: separate specification of the molad calendar; equality with the code, including where they differ.
* C09-C11: year-step lemmas (`lia` on div/mod), anchors.
* C12: the 30004 bytes of chinese.h embedded as data; sweep by `vm_compute` lifted by `forallb_forall` (domain is finite).
* C13: default branches, including narrowing of the year to int.
* C16: greg_day_to_dmy modelled; both proved inverse of the same function.
* C17-C19: macros and table as functions on Z.
* C20: the usual algorithm on Z; weekday by dmy_to_day.
* C21-C26, C32: mutant hex, packer and unpacker as functions on byte lists.
* C27, C28: byte-level memory model with bounds; induction on strings.
* C29: stream as list of bytes; induction.
* C30, C31: finite domain or induction.
* C33-C36, C41, C43: Coq Reals; algebraic identities of matrices, sine and cosine.
* C37: state machine over the reals, invariant by induction over calls.
* C38: table as data; real arguments.
* C39: base 62 decoding plus div/mod.
* C40: state machine over lines; stack of tags as invariant; grammar of nested elements as specification.
* C42, C44, C45: get_time.cpp as a function on byte lists; each written form of a time has a generator in `TstrSpec.v`, and the theorem says what is read from it.  Safety: every access through checked primitives.
* C46: full_ctime on a buffer of 80 bytes; texts by independent generators (`CtimeSpec.v`), for all format words; read back through the model of C45.
* C47-C49: columns of reports by generators over layouts and numbers of decimals; reading and writing against them.
* C50: model of the readers on lists of bytes (a pointer is the rest of the list, [None] the address behind the terminator); the theorems by lemmas on one number, then one angle, then one piece.
* C51: model over the reals with NaN and infinity as [Abort]; the root of the resolvent cubic that is taken is shown to be the largest, hence the factor of the quartic with one positive root, at most 1; closeness by the multiplier of the ellipse's equation.
* C52: model on lists of bytes and real numbers with exact decimal reading; the standard and rovers formats are inductive specifications of whole lines; latitude and parallax via C51.
* C53: model over the reals; Newton's iteration below e = 0.9 ends because it descends monotonically by more than the threshold towards the root of a convex function; above, the residual after a small last step is bounded by Taylor; the conics, the axes and the constants of motion by algebra from rotations.
* C54: model over the reals; vector identities give eccentricity vector and angular momentum as constants of the motion, from them the conic in the axes of the orbit; the series by bounds on alternating and hyperbolic remainders; the angles by rotating the axes back; the round trip by composing with C53.
* C55: model over the reals on top of that of precession (C34); the horizontal frame as an independent rotation, quadrants by sign analysis of acos; the round trips by injectivity of rotations; for the printed matrices bounds on their distance from rotations.
* C56: model of the loop over the columns on byte lists; columns as (name, text) pairs, induction over their list with one lemma per member (rev induction for 'last column with the name'); the bits found by testbit; dates by the theorems of C05.
* C57: model of the string parser on byte lists with positions, of the table and of the drift table of the 1960s, on rationals; strings by induction over the list of formulae; the table against an independent list of rows; 0.9 s by a sweep over the days with a Lipschitz bound between them; dates by C17-C19.
* C58: model of the loader on the bytes of the file, with fgets and a buffer of 200 bytes, and of the columns as one array with bounds; IERS lines in an independent description; induction over the days with the invariant that the columns so far hold the days; an invariant of the static state for all histories; the matrix by C34.
* C59: model of the elements of a single observation as the hooks of the model of C40; the 80 columns as zones; an induction over the elements with the invariant that the zones of the elements so far show them and the others are blank; composition with C40 for tables and with C47 and C49 for reading the line again.
* C60: the file as bytes, read by the code's own loops; the grammar of the file and the meaning of its formulae as inductive relations (`CospSpec.v`); induction over lines and terms with exact decimal numbers; trigonometric identities for the matrix; an invariant of the static variables for histories of calls (`CospHist.v`).
* C61: both functions with the code's own column numbers; lines as concatenated fields (`MpcoSpec.v`), exact decimal numbers; the orbit through the model of derive_quantities( ) and the theorems of C53.
* C62: cells, rows, files and the program with the code's own loops; tables as cells joined by commas (`CsvSpec.v`); times through the model of full_ctime( ) and C46.
* C63: lines, names, records and the buffer of the program with the code's own loops; what a line says (`M2sSpec.v`) is independent of it; times through the models of get_time_from_string( ) and full_ctime( ) and C45, C46.
* C64: the loops of the function itself with exact numbers; rectangles, arcs and files (`GeoSpec.v`) are independent of it; the code's wrapped differences are shown to have opposite signs exactly on the shorter arc; by induction on the file.
* C65: text of the lines through the printing of C46 and the dates of C01; the same shift of half a day is shown to keep all digits but the first decimal; `ShowSpec.v` is independent of the code.
* C66: 64-bit arithmetic with checked signed and wrapped unsigned operations; instants and readings (`NanoSpec.v`) are independent of it, the origins are days of the calendar of C05.
* C67: real numbers; the ellipse, its plane and its motion (`RockSpec.v`) are written with vectors and cross products and the classical elements, the code with the equinoctial ones.
* C68: texts as lists of bytes; what designations a text has (`ComSpec.v`) is said by splitting it, without the scanning loops.
* C69: real numbers; the relations and tables (`ColSpec.v`) are written as sums of powers and points of a broken line; the search by an invariant on its brackets and the intermediate value theorem.
* C70: real numbers; the formulae (`RefSpec.v`) are written in degrees, minutes and seconds as published; the search by showing that it shrinks its step by 0.36 at each pass (bounds on the cotangent from the mean value theorem).

## Theorems

For each property: status, remark, then its theorems with file and axioms (letters as above).

### C01 JD to date and back is lossless in every rule-based calendar: proved

The Chinese calendar's eight lost days are covered by C04_chinese_refuted.

* `PropDates.v`, closed under the global context: `C01_jd_to_date_and_back`, `C01_jalali`

### C02 Every valid calendar date survives the trip through JD: partial

Refuted for the last year of the Jalali chart and for the Hebrew edge years; proved for every other date.

* `PropDates.v`, closed under the global context: `C02_date_to_jd_and_back`, `C02_switchover`, `C02_jalali`, `C02_jalali_last_year_refuted`, `C02_hebrew_partial`, `C02_hebrew_refuted`

### C03 Dates returned are well formed: proved

* `PropDates.v`, closed under the global context: `C03_dates_well_formed`, `C03_charts_well_formed`

### C04 day_to_dmy always terminates: partial

Proved for every day of every calendar except eight days of the Chinese table, for which the search is proved never to return.

* `PropDates.v`, closed under the global context: `C04_terminates`, `C04_chinese_partial`, `C04_chinese_refuted`

### C05 Gregorian and Julian day numbers agree with the calendars' definition: proved

* `PropDates.v`, closed under the global context: `C05_gregorian_is_day_count`, `C05_gregorian_is_day_count_exists`, `C05_julian_is_day_count`, `C05_julian_is_day_count_exists`

### C06 No integer overflow in calendar conversion: proved

The month argument must be 1..13; outside it the read is out of bounds (C06_month_out_of_range_refuted).

* `PropDates.v`, closed under the global context: `C06_no_overflow_dmy_to_day`, `C06_no_overflow_day_to_dmy`, `C06_month_out_of_range_refuted`

### C07 The 1582 switchover: proved

* `PropDates.v`, closed under the global context: `C07_four_then_fifteen`, `C07_consecutive`, `C07_injective`, `C07_result_in_use`, `C07_skipped_dates`

### C08 Hebrew calendar follows the fixed arithmetic rules: partial

The molad comparison is off by one part: refuted for the edge years, proved for all others.

* `PropDates.v`, closed under the global context: `C08_new_year_partial`, `C08_new_year_refuted`, `C08_weekday`, `C08_year_and_months_partial`, `C08_edge_years_refuted`

### C09 Islamic calendar follows the 30-year cycle: proved

* `PropDates.v`, closed under the global context: `C09_islamic_is_day_count`, `C09_islamic_is_day_count_exists`, `C09_cycle`

### C10 Revolutionary and modern Persian calendars join without gaps: proved

* `PropDates.v`, closed under the global context: `C10_modern_persian_is_day_count`, `C10_modern_persian_is_day_count_exists`, `C10_french_is_day_count`, `C10_french_leap_spacing`, `C10_years`

### C11 Jalali calendar inside and outside its validity range: partial

Refuted for the last year of the chart (month of 126 days); proved for the others.

* `PropDates.v`, closed under the global context: `C11_jalali_years`, `C11_jalali_anchor_and_spacing`, `C11_jalali_errors`, `C11_jalali_last_year_refuted`

### C12 Chinese calendar table is usable for every day it covers: partial

Refuted for the eight years whose end does not meet the next new year.

* `PropDates.v`, closed under the global context: `C12_chinese_months`, `C12_chinese_join_partial`, `C12_chinese_join_refuted`, `C12_chinese_days_partial`

### C13 Out-of-range or unknown calendars are reported, not guessed: partial

Refuted for Chinese years beyond int.

* `PropDates.v`, closed under the global context: `C13_unknown_calendar`, `C13_outside_charts_partial`, `C13_chinese_year_refuted`, `C13_month_untouched`

### C14 Dates are ordered like JDs: partial

Hebrew edge years overlap (C02_hebrew_refuted).

* `PropDates.v`, closed under the global context: `C14_dates_ordered`, `C14_charts_ordered`, `C14_hebrew_partial`, `C14_switchover`

### C15 days_in_month is consistent with date conversion: partial

Refuted for day -999; proved for the others.

* `PropDates.v`, closed under the global context: `C15_days_in_month`, `C15_additive_partial`, `C15_additive_refuted`

### C16 Two Gregorian algorithms agree: proved

* `PropTime.v`, closed under the global context: `C16_two_gregorian_conversions`, `C16_gregorian_conversion_inverse`

### C17 MJD constants agree with the calendar: proved

* `PropTime.v`, closed under the global context: `C17_month_macros`, `C17_macros_match_dmy_to_day`

### C18 Half-year bracketing for leap seconds: proved

MJD up to 10^9 (2.7 million years).

* `PropTime.v`, closed under the global context: `C18_half_year`

### C19 Leap-second table is applied as published: proved

* `PropTime.v`, closed under the global context: `C19_leap_seconds`, `C19_numbering_exists`

### C20 Easter: proved

For years >= 0; negative years refuted.

* `PropTime.v`, closed under the global context: `C20_easter`, `C20_easter_period`, `C20_easter_negative_refuted`, `C20_orthodox_easter`, `C20_orthodox_easter_period`

### C21 Base-62 digits: proved

get_mutant_hex_value overflows an int from six digits on (C21_decode_overflow_refuted); proved whenever the value is an int.

* `PropDesig.v`, closed under the global context: `C21_digit_of_value`, `C21_value_of_digit`, `C21_no_digit_of_value`, `C21_encode`, `C21_decode`, `C21_round_trip`, `C21_decode_rejects`, `C21_decode_overflow_refuted`

### C22 Minor-planet numbers round-trip through the packed form: proved

All n up to 620000+62^4-1. Names with numbers above 2^32 are reduced modulo 2^32 (C22_number_too_large_refuted).

* `PropDesig.v`, closed under the global context: `C22_number`, `C22_number_too_large_refuted`

### C23 Provisional designations round-trip: partial

Proved for all years 1600-2099, letters and cycle counts below 620, the extended scheme in 2000-2061, surveys below 9000, comets and fragments. Refuted for surveys from 9000, cycle counts from 620 in other years, second letter I in the extended scheme, three-letter fragments.

* `PropDesig.v`, closed under the global context: `C23_asteroid`, `C23_asteroid_extended`, `C23_extended_year_refuted`, `C23_second_letter_I_refuted`, `C23_survey`, `C23_survey_refuted`, `C23_comet`, `C23_comet_asteroidal`, `C23_numbered_comet`, `C23_fragment_refuted`, `C23_injective`

### C24 Natural-satellite designations round-trip: partial

Proved for satellite names of at most 15 characters and provisional numbers except 100-109; refuted, for all parameters, for the others.

* `PropDesig.v`, closed under the global context: `C24_satellite_partial`, `C24_long_satellite_refuted`, `C24_provisional_satellite_partial`, `C24_provisional_satellite_refuted`, `C24_artificial_satellite`

### C25 Packed designation is always a 12-character string: partial

Proved for names that are not blank, have no number of more than seven digits and no 620/621 after a capital letter; refuted for each of these.

* `PropDesig.v`, closed under the global context: `C25_twelve_characters_partial`, `C25_hypotheses_met`, `C25_blank_name_refuted`, `C25_long_number_refuted`, `C25_620_refuted`

### C26 unpack_mpc_desig is total on 12-character fields: partial

Proved for all fields except long satellite names and a number followed by an extended provisional designation; refuted for these two kinds.

* `PropDesig.v`, closed under the global context: `C26_total_partial`, `C26_long_satellite_refuted`, `C26_number_and_extended_refuted`, `C26_no_destination_refuted`, `C26_invalid_cycle_refuted`

### C27 Bounded string copy and append: proved

* `PropStr.v`, closed under the global context: `C27_strlcpy`, `C27_strlcpy_size_zero`, `C27_strlcat`, `C27_strlcat_unterminated`

### C28 Error-checked string functions abort exactly on truncation: proved

Assertions enabled. vsnprintf of the C library is a parameter: the text the format produces. The text written to stderr is not modelled.

* `PropStr.v`, closed under the global context: `C28_strlcpy_err`, `C28_strlcat_err`, `C28_strlcat_err_unterminated`, `C28_snprintf_append`, `C28_snprintf_append_trunc`, `C28_snprintf_err`

### C29 CGI field decoding is memory safe and correct: partial

Decoding, truncation and memory safety proved; refuted for size 0, bad escapes (no terminator, reported as success) and lower-case digits.

* `PropCgi.v`, closed under the global context: `C29_piece`, `C29_last_piece`, `C29_piece_cut`, `C29_piece_safe_partial`, `C29_bad_escape_refuted`, `C29_lower_case_refuted`, `C29_size_zero_refuted`, `C29_form`

### C30 Variable-star designations: partial

Decoding proved for every number; naming proved below 10000 and refuted from there on (only four digits are written).

* `PropMisc.v`, closed under the global context: `C30_make_partial`, `C30_decode`, `C30_round_trip`, `C30_distinct`, `C30_two_letters`, `C30_one_letter`, `C30_five_digits_refuted`, `C30_zero_refuted`, `C30_undefined_refuted`

### C31 Catalogue names and MPC net codes: partial

Proved for every text of fewer than 80 significant characters; longer texts overrun a local buffer.

* `PropMisc.v`, closed under the global context: `C31_code_to_name`, `C31_code_unknown`, `C31_name_to_code`, `C31_name_unknown`, `C31_inverse`, `C31_long_name_refuted`, `C31_small_dr_refuted`

### C32 Roman numerals of satellites: proved

* `PropDesig.v`, closed under the global context: `C32_roman_numeral`

### C33 Rotations preserve lengths and are undone by the opposite angle: proved

Over exact real arithmetic. Refuted for an axis number below -1, which reads outside the vector.

* `PropRot.v`, axioms DFE: `C33_spin_matrix`, `C33_pre_spin_matrix`, `C33_turn`, `C33_matrices_stay_rotations`, `C33_opposite_angle`, `C33_rotate_vector`, `C33_rotate_vector_isometry`, `C33_rotate_vector_axis_refuted`
* `PropRot.v`, axioms F: `C33_identity`
* `PropRot.v`, axioms FE: `C33_inverse`

### C34 Precession and its inverse: partial

Over exact reals, nutation a parameter. Orthonormality, inverse in both directions, composition where it holds and independence of the call history proved; precessing by way of 2000 is refuted for general pairs of years, and the cache's initial sentinel year pair is a counterexample.

* `PropPrec.v`, axioms DFE: `C34_ecliptic`, `C34_from_2000`, `C34_ecliptic_inverse`, `C34_equatorial_inverse`, `C34_equatorial`, `C34_mean_obliquity`, `C34_mean_obliquity_clip`, `C34_composition`, `C34_sentinel_refuted`, `C34_equatorial_from_2000`, `C34_with_nutation`, `C34_without_nutation`, `C34_vectors`
* `PropPrec.v`, axioms DFEC: `C34_via_2000_refuted`, `C34_ecliptic_equatorial`, `C34_precess_ra_dec`, `C34_precess_ra_dec_back`
* `PropPrec.v`, axioms FE: `C34_ecliptic_equatorial_back`

### C35 Distance and position angle: proved

Over exact real arithmetic.

* `PropDist.v`, axioms DFEC: `C35_distance`, `C35_symmetric`, `C35_zero`, `C35_position_angle`, `C35_undefined_angle`, `C35_reverse`, `C35_reverse_coordinates`, `C35_there`

### C36 Interpolation hits its nodes and joins smoothly: partial

Over exact reals. The cubic spline hits its nodes except the first and the last, where it is off by a third difference (proved, and the full claim refuted); C1 everywhere; in bounds for four or more entries and never with fewer. Lagrange interpolation hits all nodes, equals the interpolating polynomial and its derivative, in bounds iff n_pts <= n_entries.

* `PropSpline.v`, axioms FE: `C36_cubic_in_bounds`, `C36_cubic_short_refuted`, `C36_cubic_nodes_partial`, `C36_cubic_end_nodes`, `C36_cubic_end_nodes_refuted`, `C36_cubic_smooth`, `C36_cubic_quadratics`, `C36_cubic_err_code`, `C36_lagrange`, `C36_lagrange_polynomials`, `C36_lagrange_nodes`, `C36_lagrange_slope`, `C36_lagrange_slope_nodes`, `C36_lagrange_many_refuted`

### C37 Bracketed minimisation keeps its bracket: proved

Over exact real arithmetic (rounding not modelled). The assertions that can fail are characterised: zero tolerance, ties, flat data and a distance of exactly 0.9 tolerance (refuted claims); convergence is refuted by an explicit function.

* `PropBrent.v`, axioms FE: `C37_init`, `C37_tie_refuted`
* `PropBrent.v`, axioms DFE: `C37_bracket`, `C37_shrinks`, `C37_suggestion`, `C37_add_never_fails`, `C37_next_fails_only`, `C37_four_lowest`, `C37_quadratic_step`, `C37_cubic_step`, `C37_golden_step`, `C37_done`, `C37_session_exists`, `C37_zero_tolerance_refuted`, `C37_flat_refuted`, `C37_convergence_refuted`, `C37_convergence_follows`

### C38 Constellation lookup: partial

Proved for right ascensions of 0 degrees or more (exact reals, values that fit the integer types); negative ones proved for whole seconds down to -3600 degrees and refuted otherwise. The table is the model's data: its agreement with the IAU boundaries is not claimed.

* `PropCon.v`, axioms FE: `C38_constellation`, `C38_one`, `C38_turns`, `C38_negative`, `C38_negative_refuted`, `C38_far_negative_refuted`, `C38_all_used`, `C38_name`, `C38_poles`

### C39 MPC observation ID time stamps: proved

Arguments shorter than six characters and characters that are no base-62 digits are recorded as refuted claims. The Julian date printed after the text (get_time_from_string) is not modelled.

* `PropMpct.v`, closed under the global context: `C39_decode`, `C39_every_stamp`, `C39_quiet`, `C39_warnings`, `C39_short_refuted`, `C39_invalid_refuted`

### C40 ADES to 80-column conversion keeps its tag stack sane: partial

Proved for data whose tags match and nest less than twenty deep, for PSV sections and for plain lines; what fills in an observation is a parameter. Refuted: one closing tag too many or twenty open tags and the next opening tag writes outside the stack; unknown PSV columns abort; a lone control character hangs; others.

* `PropAdes.v`, closed under the global context: `C40_pass_through`, `C40_plain_file`, `C40_stack_safe`, `C40_nested`, `C40_document`, `C40_psv_header`, `C40_psv_data`, `C40_psv_end`, `C40_psv_names`, `C40_extra_close_refuted`, `C40_silent_close_refuted`, `C40_deep_refuted`, `C40_unknown_column_refuted`, `C40_control_character_refuted`, `C40_name_without_end_refuted`, `C40_long_code_refuted`, `C40_two_values_refuted`

### C41 Mars time conversions are mutually inverse: proved

Over exact real arithmetic; the true-solar-time inverse and the equation of time within a million days of J2000.

* `PropMars.v`, axioms FE: `C41_inverse`, `C41_rate`
* `PropMars.v`, axioms DFEC: `C41_equation_of_time`, `C41_monotone`, `C41_true_solar_back`, `C41_true_solar_unique`
* `PropMars.v`, axioms DFE: `C41_published`

### C42 Free-form time parsing is memory safe: partial

Copy, rejection, sizes of all pieces and insensitivity to spacing proved for every text; the claim fails for texts that overrun the copy buffer (C42_overrun_refuted characterises them). Numbers with exponents, hexadecimal, inf and nan are outside of the number-reading model.

* `PropTstr.v`, closed under the global context: `C42_copy`, `C42_long_text`, `C42_pieces`, `C42_leading_spaces`, `C42_case_and_spacing`, `C42_overrun_refuted`

### C43 Vector helpers compute what their names say and never leave a function's domain: proved

Over exact real arithmetic.

* `PropRot.v`, axioms DFE: `C43_normalize`, `C43_dot_and_length`, `C43_polar`
* `PropRot.v`, axioms FE: `C43_cross_product`
* `PropRot.v`, axioms DFEC: `C43_acose_asine`

### C44 Time offsets add up: partial

Offsets with a nonzero value add up for every text; refuted in general: a zero offset stops the collection (C44_zero_offset_refuted) and some texts are never read (C44_hang_refuted).

* `PropTstr.v`, closed under the global context: `C44_offsets_add_up_partial`, `C44_signed_number`, `C44_hang_refuted`, `C44_zero_offset_refuted`

### C45 Dates and times in text are read as the instants they name: partial

One theorem for each form of text; refuted: day of week before 1999 Dec 26, FITS times without seconds, dates that fail an assert or read a table out of bounds, doubled spaces, era in the middle, JD 0. Not covered: BC years, am/pm, Chinese calendar.

* `PropTstr.v`, closed under the global context: `C45_named_month`, `C45_numbers`, `C45_small_year`, `C45_small_year_named_month`, `C45_named_month_and_day`, `C45_named_month_and_year`, `C45_year_and_day_of_year`, `C45_day_and_month`, `C45_year_alone`, `C45_day_alone`, `C45_compact`, `C45_jd_digits`, `C45_decimal_year`, `C45_month_alone`, `C45_weekday_partial`, `C45_weekday_refuted`, `C45_time_of_day`, `C45_fits`, `C45_fits_short_refuted`, `C45_keywords`, `C45_gps`, `C45_now`, `C45_moon_phase`, `C45_assert_refuted`, `C45_month_number_refuted`, `C45_double_space_refuted`

### C46 Times are written as the instants they are, and read back: partial

The text is given exactly, with a bound on the error, for every format with seconds, minutes, hours, days, years 0 to 9999.99, and Julian days, in every calendar but the Persian and the Chinese; texts that name an instant in full are read back as the instant shown (years 33 to 999999999). Formats with two-digit years, omitted fields, removed spaces or colons are written exactly but their reading back is not claimed. Long doubles are exact rationals. Findings: overflow with twelve or more decimals of days, missing names for a 13th month, Julian days rounded twice, five-digit years cut, texts without leading zeroes misread.

* `PropCtime.v`, closed under the global context: `C46_text`, `C46_rounding`, `C46_round_trip`, `C46_round_trip_day_of_year`, `C46_julian_days`, `C46_julian_days_round_trip`, `C46_years`, `C46_picodays_refuted`, `C46_month_13_refuted`, `C46_jd_rounding_refuted`, `C46_five_digit_year_refuted`, `C46_no_zeroes_refuted`

### C47 Angles of 80-column reports are written and read back: partial

Writing and reading, with and without sign, for all documented formats, rounding, precision, report lines, blank columns. Refuted: format 307 is never read, packed digits over 2147483647 overflow, formats 100 and 200. Not covered: unknown formats, and malformed columns that contain digits.

* `PropMpcf.v`, closed under the global context: `C47_write`, `C47_write_signed`, `C47_read`, `C47_read_signed`, `C47_round_trip`, `C47_round_trip_signed`, `C47_long_formats`, `C47_report`, `C47_no_digits`, `C47_seven_digits_refuted`, `C47_packed_overflow_refuted`, `C47_whole_degrees_refuted`

### C48 Search and replace: proved

For every non-empty old text; refuted for the empty one, with which it never ends. The room after the string is the caller's business.

* `PropMpcf.v`, closed under the global context: `C48_replace`, `C48_unique`, `C48_empty_refuted`

### C49 Dates of 80-column reports: partial

Every documented layout, radar rounding, refusal, totality. Refuted: October 1582 after the change of calendar, months and days that do not exist, other characters in place of digits, hours only. Decimal numbers are exact rationals (no floating point rounding).

* `PropMpcd.v`, closed under the global context: `C49_usual`, `C49_packed`, `C49_clock`, `C49_minutes`, `C49_julian`, `C49_columns`, `C49_radar`, `C49_reject`, `C49_total`, `C49_october_1582_refuted`, `C49_month_refuted`, `C49_short_month_refuted`, `C49_not_a_digit_refuted`, `C49_decimals_refuted`, `C49_no_minutes_refuted`

### C50 Angles and places written by people: partial

Angles, places, altitudes, refusals, ranges, totality for text without long digit runs. Refuted: a bare number at the end is read beyond the terminator, "HH MM.mm" is taken as degrees, declinations beyond 90 degrees count as one byte read, ten decimals overflow, limits not checked by get_xxx_location_info( ). Decimal numbers are exact rationals; rho cos phi and rho sin phi are not modelled.

* `PropAng.v`, closed under the global context: `C50_place`, `C50_outside`, `C50_same_kind`, `C50_ra`, `C50_dec`, `C50_over`, `C50_total`, `C50_range`, `C50_no_digits`, `C50_xxx`, `C50_bare_number_refuted`, `C50_hours_refuted`, `C50_beyond_pole_refuted`, `C50_decimals_refuted`, `C50_unchecked_refuted`, `C50_xxx_codes_refuted`

### C51 Latitude and height on a flattened planet, and back: partial

Off the axis everything is proved, over the reals (no floating-point rounding). Refuted: on the axis the height is measured from the equatorial radius; in the equatorial plane of a sphere the result is 0/0.

* `PropEll.v`, axioms DFEC: `C51_parallax`, `C51_latitude`, `C51_closest`, `C51_roundtrip`, `C51_pole`, `C51_pole_height_refuted`, `C51_sphere_refuted`

### C52 Lines of the lists of observatories mean what is in their columns: partial

Numbers are exact (no floating-point rounding). Refuted: places on the equator or Greenwich's meridian get the parallax constants of the centre; the name of a short rovers line lies beyond its end; texts under three bytes are read beyond their end; planet numbers below 0 index outside a table and those from 15 to 9000 give 0/0; an at sign in the name is taken for a planet number.

* `PropCode.v`, axioms DFEC: `C52_standard`, `C52_rover`, `C52_dynamical`, `C52_satellite`, `C52_short`, `C52_total`, `C52_tiny_refuted`, `C52_zero_refuted`, `C52_name_refuted`, `C52_negative_planet_refuted`, `C52_no_such_planet_refuted`, `C52_at_sign_refuted`

### C53 Two-body motion follows the orbit the elements describe: partial

Real numbers, no floating-point rounding. Missing: for eccentricities from 0.9 on, other than 1, that the iteration ends before the assertion on its number of steps. Refuted: an inclination of exactly 90 degrees gives 0/0 instead of the direction of the perihelion.

* `PropOrb.v`, axioms DFEC: `C53_axes`, `C53_edge_on_refuted`, `C53_kepler`, `C53_kepler_near_parabolic_partial`, `C53_ellipse`, `C53_near_parabolic_ellipse_partial`, `C53_hyperbola_partial`, `C53_parabola`

### C54 Elements found from a place and a velocity are those of the orbit through them: partial

Real numbers, no floating-point rounding; eccentricities so near 1 that the program rounds them to 1 are left out. Missing: termination of the iteration for hyperbolas and for ellipses from 0.9 on (see C53). Refuted: for an orbit exactly in the plane of reference the argument of the perihelion is mirrored when the perihelion is past the half turn; the step that is to flatten the eccentricity vector into the plane of the orbit divides by h instead of h squared.

* `PropCla.v`, axioms DFEC: `C54_orbit`, `C54_angles`, `C54_planar_refuted`, `C54_ellipse_time`, `C54_hyperbola_time`, `C54_parabola_round_trip`, `C54_ellipse_round_trip`, `C54_propagate`, `C54_hyperbola_propagate_partial`
* `PropCla.v`, axioms DFE: `C54_flatten_refuted`

### C55 Altitude and azimuth, and galactic coordinates, describe the same direction as the right ascension and declination given: partial

Real numbers, no rounding; nutation( ) is a parameter; zenith, nadir and the poles of the sky are excluded (there the quotients are 0/0). Refuted: the two functions use different origins of azimuth (south through west, north through east), so one does not undo the other; nutation is used one way only; at the poles the azimuth is mirrored (north) or half a turn off (south); galactic longitudes are not reduced to one turn. Missing: latitudes within 2 arcseconds of a pole other than the poles, precess_pt between two years other than 2000.

* `PropAz.v`, axioms DFE: `C55_sidereal_time`
* `PropAz.v`, axioms DFEC: `C55_precess_pt`, `C55_precess_pt_same_year`, `C55_alt_az`, `C55_at_epoch`, `C55_ra_dec`, `C55_round_trip`, `C55_azimuth_refuted`, `C55_nutation_refuted`, `C55_poles_refuted`, `C55_galactic`, `C55_supergalactic`, `C55_galactic_refuted`

### C56 Elements are read from the columns their header names, in any order, or the line is refused: partial

Numbers are exact rationals, no rounding; inf, nan and hexadecimal numbers are not modelled. Refuted: a line shorter than its header is read past its end; dates of other than eight bytes count as day 0 without notice; a month of 15 or more reads past the table of months; any column whose name begins with o or O overwrites an angle. Missing: headers with bytes above 127.

* `PropSof.v`, axioms DFEC: `C56_values`, `C56_result`, `C56_width`, `C56_short_refuted`, `C56_name_refuted`
* `PropSof.v`, closed under the global context: `C56_date`, `C56_date_refuted`, `C56_month_refuted`

### C57 TD - UT, TD - UTC and TDB - UTC are the observed values, the announced leap seconds and the user's own formulae: partial

Exact rationals (reals for the sines), no rounding; no file of Earth orientation parameters loaded. Refuted: TD - UT jumps by 28 s at the start of 1620; from the year 4294968916 on the conversion to int comes before the guard; strings with a trailing blank, without colon or with an 'o' year without comma are misread or read past their end; tdb_minus_utc divides TDB - TD, which is in seconds, by 86400. Missing: formulae whose numbers have exponents (except in the default string).

* `PropDt.v`, closed under the global context: `C57_table`, `C57_steady`, `C57_future`, `C57_huge_refuted`, `C57_past`, `C57_jump_refuted`, `C57_reset`, `C57_string`, `C57_string_refuted`, `C57_utc_sixties`, `C57_utc_leap`, `C57_utc_near`, `C57_utc_predicted`, `C57_utc_before`
* `PropDt.v`, axioms DFE: `C57_tdb`
* `PropDt.v`, axioms DFEC: `C57_tdb_refuted`

### C58 Earth orientation parameters are those of the IERS file, free of leap seconds, and zero where the file has none: partial

Numbers of the file are exact rationals and the arithmetic is real, no rounding. Refuted: the 'last fully usable day' reported is three days too late; a file that ends with its last day gives the day before it; text behind the days gives EOP_FILE_NOT_FOUND although the file is loaded; the documented short files are refused; a failed allocation is reported as a wrong format; times 2^31 days away are undefined behaviour; a null pointer for the parameters is checked and then written to. Missing: files whose columns have gaps or days out of order (only the safety of requests is proved for them).

* `PropEop.v`, axioms DFE: `C58_load`, `C58_day`, `C58_nothing`, `C58_safe`, `C58_matrix`, `C58_info_refuted`, `C58_end_refuted`, `C58_trailer_refuted`, `C58_short_refuted`, `C58_alloc_refuted`, `C58_far_refuted`, `C58_null_refuted`

### C59 An ADES observation becomes the 80-column line and the comment lines that say the same: partial

Refuted: the uncertainty in declination and the correlation are never cleared and appear with later observations; an uncertainty in magnitude or time without one in position is carried over to the next observation; long texts for positions and numbers overflow arrays; the text of an element of 40 characters or more is used unset; short station codes take the separator along; the order of mode and sys, artSat and trkSub, notes and prog matters; the comment line for bands has no newline; a time without Z runs on into the next fields, and one with more than three decimals overwrites the right ascension. a coordinate of a spacecraft with few digits before the point and many after it leaves digits in the next one's columns. Missing: positions of roving observers, velocities, coordinates with exponents (modelled, no theorem beyond the findings), times after 2099, and full magnitudes.

* `PropObs.v`, closed under the global context: `C59_columns`, `C59_lines`, `C59_spacecraft`, `C59_psv`, `C59_date`, `C59_place`, `C59_long_ra`, `C59_long_dec`, `C59_stale_sigma_refuted`, `C59_carried_over_refuted`, `C59_overflow_refuted`, `C59_no_name_refuted`, `C59_station_refuted`, `C59_mode_after_system_refuted`, `C59_coordinates_refuted`, `C59_order_refuted`, `C59_no_newline_refuted`, `C59_time_without_z_refuted`, `C59_long_time_refuted`

### C60 Orientations, rotation rates and radii of planets and satellites are those of the formulae in cospar.txt: proved

Theorems are about exact numbers; dates in dynamical time are the date plus an arbitrary function (C57), the Earth's matrix is an arbitrary function (C58). Findings: the last object of a file is never found; the matrix is left-handed for prograde objects, against the comment; a line is cut at the first byte above 127, as happens for the pole of Mars in cospar.txt; answers are stale after load_cospar_file( ); without a file the matrix is computed from unset values; a first question for radii leaves them unset. Periodic terms whose angle is exactly 0, constants with exponents and formulae without numbers are outside the theorems.

* `PropCosp.v`, axioms DFE: `C60_orientation`, `C60_frame`, `C60_handed_refuted`, `C60_last_refuted`, `C60_unknown`, `C60_radii`, `C60_rate`, `C60_history`, `C60_reload_refuted`, `C60_missing_refuted`, `C60_first_radii_refuted`, `C60_earth`, `C60_minus_refuted`

### C61 Lines of mpcorb.dat and astorb.dat give the orbits in their columns: proved

For ellipses whose plane is not edge on (C53_edge_on_refuted), with exact numbers. Findings: the digit before the point of an astorb eccentricity is not read; a month letter after E in a packed date reads past a table; an astorb number without a blank after it is read past the end of the line.

* `PropMpco.v`, axioms DFEC: `C61_mpcorb`, `C61_check`, `C61_astorb`, `C61_place`, `C61_refused`, `C61_hyperbola_refuted`, `C61_month_refuted`
* `PropMpco.v`, closed under the global context: `C61_past_end_refuted`

### C62 csv2ades prints every Gaia observation asked for, and no other: proved

With exact numbers; the text of the error of a magnitude, which takes a logarithm, is left open. Columns are the first whose name ends in (or has in it) the name looked for, which is what the code does. Findings: cells of 90 bytes or more overflow a buffer; the last column is not found; a row before the names fails an assertion; ranges near INT_MAX overflow.

* `PropCsv.v`, closed under the global context: `C62_row`, `C62_file_needed`, `C62_program`, `C62_missing_file`, `C62_no_names_refuted`, `C62_last_column_refuted`, `C62_long_cell_refuted`, `C62_high_numbers_refuted`

### C63 mpc2sof writes every asteroid and every comet, in order, with the comet's name and elements unchanged: proved

With exact numbers. Of the record of an asteroid only the name is covered (its elements are those of C61); the rest of that record is a parameter. The order of records holds if there is room for the comets, that is, if asteroids and comets together are at most the least power of two above the number of asteroids. Findings: with more comets, memory past the end of the buffer is written, with no asteroid through a null pointer; with a comet file of fewer than two lines all asteroids are lost.

* `PropM2s.v`, closed under the global context: `C63_comet_record`, `C63_other_lines`, `C63_asteroid_name`, `C63_program`, `C63_comet_file`, `C63_asteroids_only`, `C63_overflow_refuted`, `C63_short_comets_refuted`

### C64 A place is given the name of the first rectangle of the region file it is in: proved

With exact numbers; for rectangles that are not exactly 180 degrees wide, and lines of at least one byte of a name. Findings: a rectangle wider than 180 degrees stands for the places outside of it; a place on an edge shared by two rectangles is in neither; for one exactly 180 degrees wide the answer changes with a whole turn; an empty line is read as the rest of the line before, and gives a place that rectangle's name though it is not in it. With doubles, the loops that take off 360 degrees never end for a longitude above about 1e18; that is outside of the model.

* `PropGeo.v`, closed under the global context: `C64_region`, `C64_whole_turns`, `C64_wide_refuted`, `C64_edge_refuted`, `C64_half_refuted`, `C64_blank_line_refuted`

### C65 The epoch, time of perihelion and distances shown with a set of elements are those of the orbit: proved

With exact numbers (no floating-point rounding). Of elements_in_mpc_format( ) the lines of epoch and perihelion and the distances are covered, not the angles, vectors, magnitudes and periods, nor epochs before JD 0. Findings: the day shown may be one that does not exist (2000 Dec 32.0, Jan 32) as it is rounded apart from its month; the size of the array is not made smaller behind the minus sign of a negative distance, so that it is overrun by a byte.

* `PropShow.v`, closed under the global context: `C65_epoch`, `C65_perihelion`, `C65_no_perihelion`, `C65_distance`, `C65_negative_distance`, `C65_huge`, `C65_day_32_refuted`, `C65_minus_overrun_refuted`

### C66 The time now is the same number on every system, never goes back with the clock going forward, and lasts until 2262 April 11: proved

The readings of the system's functions are arguments; the Julian date with exact numbers. After the last instant: signed overflow on POSIX systems, times before 1970 on Windows. Finding: a clock that cannot be read is not reported but gives 1970 January 1.

* `PropNano.v`, closed under the global context: `C66_posix`, `C66_watcom`, `C66_windows`, `C66_agree`, `C66_order`, `C66_last_moment`, `C66_after_refuted`, `C66_current_jd`, `C66_failure_refuted`

### C67 A small moon is on its precessing ellipse at every time: proved

Exact real numbers. The table is copied number by number. Finding: the semi-major axis and the mean motion of Perdita (725) disagree with those of the other moons of Uranus by 2.8 percent or more under Kepler's third law, which all other moons obey within 0.6 percent.

* `PropRock.v`, axioms DFEC: `C67_which`, `C67_elements`, `C67_ellipse`, `C67_kepler`, `C67_error`, `C67_distance`, `C67_plane`
* `PropRock.v`, closed under the global context: `C67_third_law`, `C67_third_law_refuted`

### C68 The designation is found in the name of a comet, the permanent number first: proved

The output buffer is taken to be large enough; C68_length says how large it must be. Findings: a buffer of the size of the text is too small by one for a text that ends in the year; letters other than P and C, and fragments of numbered comets, are not found; a blank behind the slash hides the designation although the code means to skip it; a long number in parentheses is undefined behaviour.

* `PropCom.v`, closed under the global context: `C68_numbered`, `C68_lettered`, `C68_bare`, `C68_none`, `C68_length`, `C68_longer_refuted`, `C68_letters_refuted`, `C68_blank_refuted`, `C68_huge_refuted`

### C69 Color indices are converted by the published relations, and back by their inverses: proved

Exact real numbers. Not part of the statement: that the search finds a root within its 100 steps for every index in the range (it may give 99). Findings: at the accepted upper end B-V = 1.8 the corrections from Tycho are left out; an index out of range is 100 from the polynomials but 99 elsewhere.

* `PropCol.v`, axioms FE: `C69_relations`, `C69_tycho`, `C69_tycho_end_refuted`
* `PropCol.v`, axioms DFE: `C69_back_bv`, `C69_back_vr`, `C69_marker_refuted`

### C70 Refraction follows the published formulae, and true altitudes are turned back into the apparent ones: proved

Exact real numbers. reverse_saasta_refraction( ) is not modelled. Finding: Bennett's formula gives less than -0.75 second of arc at the zenith instead of 0.

* `PropRef.v`, axioms DFEC: `C70_bennett`, `C70_defined`, `C70_reverse`, `C70_round_trip`, `C70_zenith_refuted`, `C70_saastamoinen`, `C70_saasta`

## Findings

What the code does, by theorem; the statement has the exact inputs.

* `C40_extra_close_refuted`: a claim that fails: the stack of tags is never left. After a closing tag too many the depth is -1, and the next opening tag writes before the stack.
* `C40_silent_close_refuted`: a claim that fails: a closing tag without an opening tag is reported. </optical> replaces the error with the return value 1.
* `C40_deep_refuted`: a claim that fails: the stack of tags is never left. Twenty open tags are reported as an error, but the next opening tag writes behind the stack.
* `C40_unknown_column_refuted`: a claim that fails: lines outside of ADES data are passed through. A line of four or more fields that start with lowercase letters ends the program, unless all are column names.
* `C40_control_character_refuted`: a claim that fails: every line is read in finitely many steps. Inside ADES data a control character on its own is never got past.
* `C40_name_without_end_refuted`: a claim that fails: every line is put out once. A name whose closing tag is on the next line is read again and again, longer every time, until the program ends; the rest of the file is never read.
* `C40_long_code_refuted`: a claim that fails: the text of a tag may have any length. A code of 40 bytes or more is taken from a buffer that was never written.
* `C40_two_values_refuted`: a claim that fails: how a document is divided into lines does not matter. Of two values on one line that should give two lines, only the last is put out.
* `C50_bare_number_refuted`: An angle at the end of the text without a compass sign or unit -- "44.5", or an altitude as in "n44, w70, 1700" -- makes the reader look behind the end of the text: strchr( ) finds the terminator among the compass signs.
* `C50_hours_refuted`: The comment in get_ra_from_string( ) says that "HH MM.mm" is taken as hours; any angle of two numbers is taken as degrees and minutes.
* `C50_beyond_pole_refuted`: Of a declination beyond 90 degrees one byte, the sign, still counts as read, so a caller that checks for zero takes it.
* `C50_decimals_refuted`: An angle with ten or more decimals overflows an int, for all functions.
* `C50_unchecked_refuted`: Two ways around the limits: without a place for the result get_lat_lon_info( ) accepts any latitude and longitude, and get_xxx_location_info( ) never checks them.
* `C50_xxx_codes_refuted`: get_xxx_location_info( ) computes a code that tells whether the latitude or the altitude is missing, but a caller only ever sees 0, -1 or -2.
* `C55_azimuth_refuted`: A claim that fails: full_alt_az_to_ra_dec undoes full_ra_dec_to_alt_az. One counts the azimuth from south through west, the other from north through east: without nutation, whatever the point was, the result is another one.
* `C55_nutation_refuted`: A claim that fails: with the azimuth turned by half a turn the point comes back. Nutation is used one way only: on the mean equator of date the result is off by the equation of the equinoxes, so it is another point unless that is a number of whole turns.
* `C55_poles_refuted`: A claim that fails: at the poles, too, the azimuth is that of the point. At the north pole it is mirrored, at the south pole it is half a turn off, whatever the point.
* `C55_galactic_refuted`: A claim that fails: the galactic longitude is between 0 and 360 degrees. It is the one within half a turn of the right ascension given, so it is beyond -180 degrees whenever the right ascension is beyond -360 degrees.
* `C37_zero_tolerance_refuted`: a claim that fails: with the tolerance as brent_min_init( ) leaves it, a suggestion can always be had. For x^2 at -1, 0 and 1 the parabola is lowest at the best point, and the last assertion of brent_min_next( ) fails.
* `C37_tie_refuted`: a claim that fails: three points of which the middle one is at least as low as the others are accepted. If an end has the same value and comes first in the list, it is taken for the best point, and an assertion fails.
* `C37_flat_refuted`: a claim that fails: with a positive tolerance every accepted start gives a suggestion. Three equal values give 0/0.
* `C37_convergence_refuted`: a claim that fails: the rounds can be repeated "until the bracket is narrowed to your satisfaction". There is a function with one trough, falling to -4 and then rising, and a start, for which after any number of rounds the bracket is still more than 0.8 wide and the best value 0.1 above the least: every golden step that succeeds halves the next.
* `C29_bad_escape_refuted`: A percent sign without two digits: the destination has no terminator, and if it is the value's, get_urlencoded_form_data( ) reports success (and has not consumed the value).
* `C29_lower_case_refuted`: Lower-case hexadecimal digits, as "%c3", are refused.
* `C29_size_zero_refuted`: With a size of 0 there is no limit: any plain text longer than the destination is written beyond its end.
* `C54_planar_refuted`: Finding: for an orbit lying exactly in the plane of reference, with its perihelion after the half turn from the x axis (in the sense of motion), the argument of the perihelion is wrong. The sign of the argument is taken from the z component of the direction of the perihelion, which is zero (classel.cpp:212): the angles describe a perihelion mirrored in the x axis.
* `C54_flatten_refuted`: Finding: the step of calc_classical_elements that is to remove what rounding left of the eccentricity vector outside the orbital plane (classel.cpp:141-143) divides by the length of the angular momentum where its square is needed. What is left outside the plane is multiplied by 1 - h instead of by 0, which makes it larger when h is above 2.
* `C52_tiny_refuted`: Finding (mpc_code.cpp:378-379): of a text of fewer than three bytes, bytes behind its terminator are read.
* `C52_zero_refuted`: Finding (mpc_code.cpp:345): a place of rovers.txt on the equator or on the meridian of Greenwich gets no parallax constants: they are left zero, the centre of the planet.
* `C52_name_refuted`: Finding (mpc_code.cpp:336): in a line of rovers.txt of 30 to 46 bytes, which is accepted, the name is a pointer beyond the end of the line.
* `C52_negative_planet_refuted`: Finding (mpc_code.cpp:97): a negative number behind the at sign is used as an index into the table of polar radii.
* `C52_no_such_planet_refuted`: Finding: with a planet number from 15 to 9000 the parallax constants are computed with axes of length zero: zero divided by zero.
* `C52_at_sign_refuted`: Finding (mpc_code.cpp:327-340): any at sign in the line, also in the name, is taken for a planet number. If a letter follows, the place is put on the Sun.
* `C69_tycho_end_refuted`: At the upper end, B-V = 1.8, which is accepted, there is no correction at all: B-V jumps by 0.032 and V by 0.015, off the tables.
* `C69_marker_refuted`: An index that cannot be converted gives 99 from the conversions back and from Tycho, but 100 from the four polynomials.
* `C68_longer_refuted`: So a buffer of the size of the text is not enough: for a text that ends in the year, the designation written is longer than the text.
* `C68_letters_refuted`: Of the letters of designations only P and C are known: for every other letter (D for lost comets, A, I, X) the designation is not found, although the comments in the file name D; neither is that of a fragment of a numbered comet.
* `C68_blank_refuted`: The code skips blanks between the slash and the year, but never gets there: with a blank the designation is not found.
* `C68_huge_refuted`: A number of ten digits or more in parentheses that is no int is undefined behaviour (atoi).
* `C38_negative_refuted`: a claim that fails: the same for other negative right ascensions. They are rounded towards zero, onto the wrong side of a boundary.
* `C38_far_negative_refuted`: a claim that fails: right ascensions below -3600 degrees.
* `C60_handed_refuted`: FINDING: the comment says that the matrix is right-handed for a prograde object and left-handed for a retrograde one. It is the other way round: the second direction is at longitude 90 west for prograde objects.
* `C60_last_refuted`: FINDING: the last object of a file is not found: its formulae are read, and then the values replaced by others; the result is -1.
* `C60_reload_refuted`: FINDING: after load_cospar_file( ) has loaded another file, the same question still gets the answer of the old one, whatever the new file says.
* `C60_missing_refuted`: FINDING: without the file (or if it cannot be opened), the matrix is computed from values that have not been set.
* `C60_first_radii_refuted`: FINDING: if the question for the radii is the first of a program, the file is loaded and success reported, but no radii are given: the array is left as it was. The second such question is answered.
* `C60_minus_refuted`: FINDING: a line is cut at the first byte above 127. In the file that comes with the program this happens in the line for the pole of Mars, which has a minus sign of Unicode: here, the right ascension of the pole is the same at all times, although the line says "317.269202 - 0.10927547T".
* `C62_no_names_refuted`: (finding): a row of observations before the line with the names of the columns fails an assertion, whatever it says.
* `C62_last_column_refuted`: (finding): a column is not found if it is the last one; an assertion fails, though the row and the names are all there.
* `C62_long_cell_refuted`: (finding): a cell of 90 bytes or more, here a time with many decimals, is written past the end of a buffer.
* `C62_high_numbers_refuted`: (finding): for numbers close to INT_MAX a sum overflows.
* `C46_picodays_refuted`: a claim that fails: days can be written with twelve or more decimals (the formats for picodays and femtodays). Every such call stores outside of an array of 15 bytes.
* `C46_month_13_refuted`: a claim that fails: dates of every calendar can be written with the names of their months. There are twelve names, and writing a date in a thirteenth month (of the Hebrew or the Revolutionary calendar) is undefined.
* `C46_jd_rounding_refuted`: a claim that fails: with rounding, Julian days are written as the nearest number with the decimals asked for. They are rounded twice: v and less than a half units of the last place are written as v + 1.
* `C46_five_digit_year_refuted`: a claim that fails: years are written in full. Of the years 10000 to 99999 the last digit is lost.
* `C46_no_zeroes_refuted`: a claim that fails: a text written without leading zeroes is read again as the instant it shows. Noon of 2010 January 5, written as "Jan 5 2010 12:00:00" or "2010 1 5 12:00:00" in two formats, is read in the same formats as an instant before the common era and as 2010 January 1.
* `C02_jalali_last_year_refuted`: fails in the last Jalali year: month 12 of 2327 has, according to days_in_month( ), 126 days, and its 30th day is reported back as an error.
* `C02_hebrew_refuted`: fails in Hebrew edge years: 1 Tishri 193152 converts to the day number that converts back to 28 Elul 193151.
* `C04_chinese_refuted`: fails on exactly those eight days: the search alternates between two years for ever.
* `C06_month_out_of_range_refuted`: Outside month 1..13 the table is read out of bounds: month 15, and month 0 with days_in_month( ).
* `C08_new_year_refuted`: fails when the molad is at exactly 18 h: tradition postpones (molad zaken), the code does not; 1 Tishri 75795 comes out two days early.
* `C08_edge_years_refuted`: fails in every edge year: it has 352 days, two fewer than its months.
* `C11_jalali_last_year_refuted`: fails in the last year of the documented range: year 2327 is accepted, but its twelfth month has 126 days.
* `C12_chinese_join_refuted`: fails in those eight years: the year ends one day before the next begins.
* `C13_chinese_year_refuted`: fails with 64-bit long: the year is narrowed to int before the range check, so the year 2^32 + 4637 is accepted.
* `C15_additive_refuted`: fails for day -999, which dmy_to_day( ) takes as a request for the number of days in the month.
* `C21_decode_overflow_refuted`: Six digits can overflow the int: get_mutant_hex_value( ) does not check.
* `C22_number_too_large_refuted`: Above 2^32 the number is reduced modulo 2^32 without notice: "(4294967297)" is packed as "(1)".
* `C23_extended_year_refuted`: Refuted for cycle counts from 620 in other years: the count is dropped, and success is reported.
* `C23_second_letter_I_refuted`: In the extended scheme the (unused) second letter I is packed as J.
* `C23_survey_refuted`: Refuted from 9000 on: the designation "9602 P-L" is not recognised.
* `C23_fragment_refuted`: Refuted for three letters of a fragment (the third is dropped) and for the fragment of a comet with an asteroid's designation (it replaces the second letter); success is reported.
* `C24_long_satellite_refuted`: Refuted for every longer name: packing reports success, and unpacking the result ends the program.
* `C24_provisional_satellite_refuted`: Refuted for 100 to 109: the digit 1 is lost, "S/2003 J 105" is unpacked as "S/2003 J 05".
* `C25_blank_name_refuted`: Refuted for blank names: the byte behind the terminator is read.
* `C25_long_number_refuted`: Refuted for long numbers: an int overflows.
* `C25_620_refuted`: Refuted for "2016 J620": only 11 characters are written.
* `C26_long_satellite_refuted`: Refuted for each field of a numbered satellite with a long name: the program ends.
* `C26_number_and_extended_refuted`: Refuted for fields with a number and an extended provisional designation: an invalid one makes it read uninitialised memory, and a valid one can end the program.
* `C26_no_destination_refuted`: With a NULL destination, allowed by the comment in unpack.cpp, a valid extended designation is written to NULL.
* `C26_invalid_cycle_refuted`: After a number an invalid cycle count is accepted, and printed with a number that was never packed.
* `C57_huge_refuted`: Later than that the result is not defined: the year is made an int before the test that is there for such dates (JD > 30000000) comes.
* `C57_jump_refuted`: TD - UT is not continuous: where the polynomials meet the table, at the start of 1620 (JD 2312750), it goes up by more than 28 s at once.
* `C57_string_refuted`: Strings that are not exactly so are not rejected. A blank (or a newline) at the end makes the last coefficient count once more, with the next power, or is read past; so is a missing colon, and a year after "o" that no comma follows.
* `C57_tdb_refuted`: tdb_minus_utc( ) is not (TDB - TD) + (TD - UTC): it divides the first, which is in seconds, by the seconds in a day. On 4 April 2000 its result is 1.6 ms too small, which is nearly all of TDB - TD.
* `C51_pole_height_refuted`: Finding (mpc_code.cpp:170): on the axis, the height is taken above a sphere of the equatorial radius. A place on the surface at a pole gets a height of the minor less the major axis, 21 km below ground for the Earth, and no place on the axis gets its height unless the planet is a sphere.
* `C51_sphere_refuted`: Finding: in the equatorial plane of a sphere -- the Moon, Venus, Pluto -- the computation divides zero by zero, and gives no latitude.
* `C58_info_refuted`: FINDING: the second date that load_earth_orientation_params( NULL, dates) gives, the last "fully usable" day, is the day after the last one of the file; from two days before it on, the pole and UT1 are not to be had: the request fails, with zeroes and the TD - UT of td_minus_ut( ).
* `C58_end_refuted`: FINDING: if the file ends with the last day that has values, the result of load_earth_orientation_params( ) is not that day, as documented, but the one before it.
* `C58_trailer_refuted`: FINDING: with some text behind the days, 188 bytes or more, load_earth_orientation_params( ) gives EOP_FILE_NOT_FOUND, yet the parameters are loaded.
* `C58_short_refuted`: FINDING: the files finals.daily (180 days) and finals.data (since 1992; so until 2036), which are documented as usable, are refused for having less than 16371 days, with EOP_FILE_WRONG_FORMAT.
* `C58_alloc_refuted`: FINDING: if there is no memory, the result is not EOP_ALLOC_FAILED, as documented, but EOP_FILE_WRONG_FORMAT.
* `C58_far_refuted`: FINDING: a request for a time 2^31 days or more after the first day (or before it) is undefined behaviour: the day does not fit in an int.
* `C58_null_refuted`: FINDING: get_earth_orientation_params( ) checks whether its second argument is NULL, and then writes to it all the same: undefined behaviour.
* `C64_wide_refuted`: Finding: no place between the two longitudes of a rectangle is found in it if it is more than 180 degrees wide.
* `C64_edge_refuted`: Finding: a place on the edge between two rectangles is found in neither.
* `C64_half_refuted`: Finding: with a rectangle 180 degrees wide, a place is found, and not found any more with a whole turn added to its longitude.
* `C64_blank_line_refuted`: Finding: an empty line is not passed over. With one behind the line of a rectangle, a place which is in no rectangle is said to be in that one: what is left of its line in the array is read again.
* `C63_overflow_refuted`: (finding): the comets are stored in the room got for the asteroids. If comets and asteroids are more than the least power of two above the number of asteroids, they are written past its end; if there is no asteroid, through a null pointer.
* `C63_short_comets_refuted`: (finding): if the file of comets has fewer than two lines, the asteroids are lost: only the header is written, whatever is in mpcorb.dat.
* `C30_five_digits_refuted`: From 10000 on make_var_desig( ) writes only the last four digits: the numbers n and n + 10000 get the same name (V10000 has been assigned).
* `C30_zero_refuted`: Number 0 is named "Q", which is decoded to 9217; and words that are no names are decoded to numbers: "VAB" to 0, "V7" is refused but "V07" is 7.
* `C30_undefined_refuted`: The empty text is read beyond its terminator; a V number that is too large for an int is undefined.
* `C31_long_name_refuted`: Every text of 80 or more significant characters is written beyond the end of an 80-byte buffer.
* `C31_small_dr_refuted`: A spelling that the source's comment promises, "Gaiadr1", is not recognised: only capital DR is dropped.
* `C49_october_1582_refuted`: dates of October 1582 after the change of calendar are read with the old calendar, ten days late: the 15th becomes what dmy_to_day( ) gives for the 25th.
* `C49_month_refuted`: a month that is not one, "2013 13 13.25", is not refused: the day of the month is returned as a Julian date.
* `C49_short_month_refuted`: days a month does not have are accepted: 2013 February 31 is read as March 3.
* `C49_not_a_digit_refuted`: where a leading zero may be left out, any character will do: "2013 02 /1.5" is day -9 and a half: -8.5 is returned, with the format of one decimal.
* `C49_decimals_refuted`: the decimals are divided by the wrong power of ten if something other than blanks follows them: "2013 02 13.14x" is read as the 13th plus 14/1000.
* `C49_no_minutes_refuted`: with hours only, "K130213:03", the blanks are taken for minutes: minus 176 of them.
* `C47_seven_digits_refuted`: format 307, seven digits and no blanks, is written but not read: every such angle is taken to be malformed (mpc_fmt.cpp:362 asks for more than seven digits).
* `C47_packed_overflow_refuted`: reading packed digits overflows an int whenever, as one number, they exceed 2147483647, as from format 310 on for most angles (quick_atof( ) is called before the format is known).
* `C47_whole_degrees_refuted`: format 200, whole degrees of right ascension, is written as whole hours in two digits (mpc_fmt2.cpp:54 has "<= 200"), and formats 100 and 200 are written without a point, so that what is read is format -1: whole minutes.
* `C48_empty_refuted`: with an empty oldstr it never ends, whatever the string.
* `C61_hyperbola_refuted`: A claim that fails: the eccentricity of an astorb line is the number in its columns. The digit before the point is not looked at: 1.09016696 is read as 0.09016696.
* `C61_month_refuted`: A claim that fails: no line makes the program read where it should not. A month letter after E in the packed date reads past the table of the lengths of the months.
* `C61_past_end_refuted`: A claim that fails, in the same way: numbers of an astorb line are read up to the next blank, and past the end of a line that has none.
* `C39_short_refuted`: a claim that fails: any argument is safe. One of fewer than six characters is read beyond its end.
* `C39_invalid_refuted`: a claim that fails: characters that are not base-62 digits are rejected. Such an ID is printed as a time in 1800, without a warning.
* `C66_after_refuted`: After that, the signed product or sum overflows where the clock gives microseconds; where it counts from 1601, the time is before 1970 for 292 years.
* `C66_failure_refuted`: Finding: a clock that cannot be read is not reported; the time is then 1970 January 1, 0h.
* `C59_stale_sigma_refuted`: FINDING: the uncertainty in declination is never cleared: an observation that gives only one in right ascension is put out with the uncertainty in declination of an observation before.
* `C59_carried_over_refuted`: FINDING: an uncertainty in magnitude without one in position is not put out with its observation, but with the next one that has an uncertainty in position.
* `C59_overflow_refuted`: FINDING: a right ascension of 26 characters or more with more than seven decimals, and a declination of 25 or more, overflow the arrays for them; a number of 38 digits for an object overflows another: undefined behaviour.
* `C59_no_name_refuted`: FINDING: the text of an element with 40 characters or more is not copied, and then read all the same: the reference system of a position gives undefined behaviour.
* `C59_station_refuted`: FINDING: a station code of fewer than three characters takes the separator along, and one of four is cut.
* `C59_mode_after_system_refuted`: FINDING: the program gives up at the position of a spacecraft if the mode of the observation comes after the reference system, and not if it comes before.
* `C59_coordinates_refuted`: FINDING: a coordinate in kilometres with fewer than five digits before the point and more than four after it leaves digits in the columns of the next coordinate: here 2.5 appears as "89 2.5".
* `C59_order_refuted`: FINDING: which name of a satellite is shown, and whether the note or the code of the program, depends on the order of the elements.
* `C59_no_newline_refuted`: FINDING: the comment line for passband, notes and program does not end with a newline, unlike the others.
* `C59_time_without_z_refuted`: FINDING: a time without a Z runs on into the digits of the fields that follow it.
* `C59_long_time_refuted`: FINDING: a time with more than three decimals of seconds overwrites the first columns of a right ascension that came before it.
* `C53_edge_on_refuted`: Finding (astfuncs.cpp:101-112): for an orbit exactly at right angles to the reference plane the direction of the perihelion is computed as zero over zero, whatever the argument of the perihelion. (In floating point the cosine of the inclination is then a number lost in the sum with the node, and the perihelion comes out in the reference plane.)
* `C34_via_2000_refuted`: a claim that fails: precessing from a to 2000 and from there to b is precessing from a to b. For example from 2100 to 2200.
* `C34_sentinel_refuted`: a claim that fails: the matrix is a rotation for all years. If the first call is for the two years the cache is initialised with, the matrix is zero.
* `C70_zenith_refuted`: At the zenith, where there is no refraction, the value is not zero but less than -0.75 second of arc: stars are moved away from the zenith.
* `C67_third_law_refuted`: Not so Perdita (725): its semi-major axis and mean motion disagree by at least 2.8 percent with those of every other moon of Uranus in the table, so one of them is wrong.
* `C33_rotate_vector_axis_refuted`: a claim that fails: the axis may be any int. An axis below -1 reads outside the vector.
* `C65_day_32_refuted`: Finding: the day shown may not exist. Less than 0.6 millionths of a day before a month ends, its epoch is shown as day 32 (or 31, 30, 29); with few decimals, so is a perihelion hours before.
* `C65_minus_overrun_refuted`: Finding: for every negative distance from 999999 km to 9999 au, an array of 24 bytes, which is enough for the text of the distance, is overrun: the size is not made smaller behind the minus sign.
* `C56_short_refuted`: A claim that fails: a line shorter than its header is an error that is reported. The bytes the header asks for are copied, wherever the line and the array that holds it end.
* `C56_date_refuted`: A claim that fails: a date that cannot be used is reported. A number that does not take exactly eight bytes, blanks before it included, counts as day 0.
* `C56_month_refuted`: A claim that fails: no text makes the program read where it should not. A month of 15 or more (a date with a digit missing after a blank has them) reads past the table of the lengths of the months.
* `C56_name_refuted`: A claim that fails: a column with a name of its own is left alone. Any column whose name begins with "o" is the argument of perihelion, the number of observations ("obs") too, if it comes last.
* `C36_cubic_short_refuted`: a claim that fails: no table of fewer than four entries can be used; whatever x is, an entry outside the table is read.
* `C36_cubic_end_nodes_refuted`: a claim that fails: the value at every node is the tabulated one.
* `C36_lagrange_many_refuted`: a claim that fails: with more points than the table has entries, every x that is not a node reads outside the table.
* `C20_easter_negative_refuted`: fails for negative years, for which the C remainders are negative: for the year -7 the function returns 30 February.
* `C42_overrun_refuted`: a claim that fails: the copy never leaves its buffer. A text shorter than 80 bytes whose copy has 78 bytes where a letter and a digit touch is terminated at buff[80].
* `C44_hang_refuted`: a claim that fails: every text is read in finite time. If the last sign of the text starts a number (not 0) that is followed by more text before the unit at the end, the function never returns: "2024-01-05 3h" is one such text.
* `C44_zero_offset_refuted`: a claim that fails: offsets always add up. After a zero offset, those before it are not looked at, and what is left is not understood: "12:00 +3h +0m" is read as 0h of the starting day.
* `C45_weekday_refuted`: a claim that fails: the same for earlier starting times. Starting from Saturday 25 December 1999, "sat" is read as Friday 24 December.
* `C45_fits_short_refuted`: a claim that fails: the same with the seconds left out. Such a text is read by the order of the format: by default as year, day, month.
* `C45_assert_refuted`: a claim that fails: every date is read or rejected. A date with a named month, a year of at most 32 and a day with a decimal point stops the program at an assert.
* `C45_month_number_refuted`: a claim that fails: a month number that does not exist is rejected. 2010-20-25, in the order year, month, day, reads a table of month lengths outside of its bounds.
* `C45_double_space_refuted`: claims that fail: spaces may be doubled ("5 Mar 2010" loses its month and its year), the era may stand in the middle ("45 BC Mar 15"), and every Julian day may be given with "JD" (the day 0 is not).
