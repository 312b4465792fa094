{"id": "C01", "title": "JD to date and back is lossless in every rule-based calendar", "statement": "For the Gregorian, Julian, Julian/Gregorian, Hebrew, Islamic, French Revolutionary, Persian (Jalali, inside its range) and modern Persian calendars: if day_to_dmy(jd) yields (day, month, year), then dmy_to_day(day, month, year) in the same calendar yields exactly jd.", "quantifier": "every Julian day number for which no C arithmetic overflows, every one of these calendars, 32- and 64-bit long", "why_tests_cant": "the domain is all of the integers; a slip at one leap year or century boundary, or only for negative years, escapes any sample", "anchors": ["date.cpp:day_to_dmy", "date.cpp:dmy_to_day", "date.cpp:get_calendar_data", "date.cpp:approx_year"]}
{"id": "C02", "title": "Every valid calendar date survives the trip through JD", "statement": "If (day, month, year) is a valid date of the calendar (month has at least `day` days, day >= 1) then day_to_dmy(dmy_to_day(day, month, year)) returns that same day, month and year.", "quantifier": "every valid date in each calendar, all years in the overflow-free range", "why_tests_cant": "unbounded number of years and irregular month patterns", "anchors": ["date.cpp:day_to_dmy", "date.cpp:dmy_to_day"]}
{"id": "C03", "title": "Dates returned are well formed", "statement": "Whenever day_to_dmy reports success, 1 <= month <= 13, 1 <= day <= days_in_month(month, year) in that calendar, so a caller never prints day 0, day 32 or month 0.", "quantifier": "every JD and every calendar", "why_tests_cant": "needs all JDs; the failing ones would be isolated days", "anchors": ["date.cpp:day_to_dmy", "date.cpp:days_in_month"]}
{"id": "C04", "title": "day_to_dmy always terminates", "statement": "The year-adjustment loop of day_to_dmy stops for every JD: the search never oscillates between two years.", "quantifier": "every JD and every calendar", "why_tests_cant": "a hang happens only at a gap or an overlap between two consecutive years, i.e. at isolated days in millions", "anchors": ["date.cpp:day_to_dmy", "date.cpp:approx_year", "chinese.h"]}
{"id": "C05", "title": "Gregorian and Julian day numbers agree with the calendars' definition", "statement": "dmy_to_day is the unique function that gives 2451545 for 1 January 2000 Gregorian (2451558 for the Julian calendar) and increases by one from each date to the next, where 'next date' is defined only by the usual month lengths and leap-year rules (divisible by 4; for Gregorian not by 100 unless by 400), for all positive, zero and negative years.", "quantifier": "every date of every year", "why_tests_cant": "truncating C division on negative years is exactly where sampled tests are thin", "anchors": ["date.cpp:get_jul_greg_year_data", "date.cpp:dmy_to_day"]}
{"id": "C06", "title": "No integer overflow in calendar conversion", "statement": "Within a stated range of years/JDs no signed arithmetic of the calendar code overflows, neither with 64-bit nor with 32-bit long, and no month table is indexed out of bounds.", "quantifier": "every input in the stated range, both widths of long", "why_tests_cant": "overflow is undefined behaviour; the intermediate products that overflow are invisible in results", "anchors": ["date.cpp:approx_year", "date.cpp:day_to_dmy", "date.cpp:jd_of_french_rev_year"]}
{"id": "C07", "title": "The 1582 switchover", "statement": "In the combined Julian/Gregorian calendar 4 October 1582 is followed directly by 15 October 1582; every JD has a date that converts back to it; days never asked for (5-14 October 1582) are the only dates of which two may map onto the same JD.", "quantifier": "every JD, every date", "why_tests_cant": "interaction of two different switch tests in the two directions of the conversion", "anchors": ["date.cpp:dmy_to_day", "date.cpp:day_to_dmy", "date.h:GREGORIAN_SWITCHOVER_JD"]}
{"id": "C08", "title": "Hebrew calendar follows the fixed arithmetic rules", "statement": "1 Tishri of every year is the day given by the traditional molad arithmetic with the four postponements; year lengths are only 353, 354, 355, 383, 384 or 385 days; 1 Tishri is never a Sunday, Wednesday or Friday; the month lengths add up to the year length.", "quantifier": "all years, negative ones included", "why_tests_cant": "98496-year cycle; the postponements interact on rare years only", "anchors": ["date.cpp:get_hebrew_year_data", "date.cpp:find_tishri_1", "date.cpp:lunations_to_days_and_halakim"]}
{"id": "C09", "title": "Islamic calendar follows the 30-year cycle", "statement": "Leap years are exactly years 2,5,7,10,13,15(or 16),18,21,24,26,29 of each 30-year cycle as coded, 30 years are always 10631 days, and years join without gaps, for all years including negative ones.", "quantifier": "all years", "why_tests_cant": "unbounded years, negative modulus", "anchors": ["date.cpp:get_islamic_year_data"]}
{"id": "C10", "title": "Revolutionary and modern Persian calendars join without gaps", "statement": "Every French Revolutionary and every modern Persian year has 365 or 366 days, years are contiguous across all the piecewise segments of the rule, and new year is strictly increasing.", "quantifier": "all years (in the overflow-free range)", "why_tests_cant": "segment boundaries and unbounded tails", "anchors": ["date.cpp:jd_of_french_rev_year", "date.cpp:persian_modern_jd0", "date.cpp:get_revolutionary_year_data"]}
{"id": "C11", "title": "Jalali calendar inside and outside its validity range", "statement": "For each year in the documented range the Jalali year has 365 or 366 days and its last month 29 or 30; outside the range an error is reported (dmy_to_day returns 0, day_to_dmy sets day = -1).", "quantifier": "all years", "why_tests_cant": "range ends are single values", "anchors": ["date.cpp:jalali_jd0", "date.cpp:get_jalali_year_data", "date.cpp:get_calendar_data"]}
{"id": "C12", "title": "Chinese calendar table is usable for every day it covers", "statement": "For each of the 10000 tabulated years, months have 29 or 30 days, the intercalary month index is at most 13, the year ends exactly where the next begins, and every day in the covered interval converts to a date and back.", "quantifier": "all days covered by the built-in table", "why_tests_cant": "3.65 million days; single-day gaps are isolated", "anchors": ["date.cpp:get_chinese_year_data", "chinese.h"]}
{"id": "C13", "title": "Out-of-range or unknown calendars are reported, not guessed", "statement": "An unknown calendar code, a Chinese year outside the table or a Jalali year outside its range makes dmy_to_day return 0 and day_to_dmy return day = -1; no other memory is read.", "quantifier": "all years and all calendar codes", "why_tests_cant": "unbounded inputs, including those that wrap when narrowed to int", "anchors": ["date.cpp:get_calendar_data", "date.cpp:get_chinese_year_data"]}
{"id": "C14", "title": "Dates are ordered like JDs", "statement": "Later valid dates (compared by year, then month, then day) have larger JDs, in each calendar.", "quantifier": "every pair of valid dates", "why_tests_cant": "quadratic, unbounded domain", "anchors": ["date.cpp:dmy_to_day"]}
{"id": "C15", "title": "days_in_month is consistent with date conversion", "statement": "days_in_month(m, y) equals the JD of the first of the following month minus the JD of the first of month m, and dmy_to_day is additive in the day argument for every day value.", "quantifier": "all months and years, all day arguments", "why_tests_cant": "a sentinel value is used in-band for one special day argument", "anchors": ["date.cpp:days_in_month", "date.cpp:dmy_to_day"]}
{"id": "C16", "title": "Two Gregorian algorithms agree", "statement": "The stand-alone conversion used by the jd program (greg_day_to_dmy) returns the same day, month and year as day_to_dmy in the Gregorian calendar.", "quantifier": "every JD", "why_tests_cant": "different arithmetic, agreement has to hold at every leap day of a 400-year cycle, repeated for ever", "anchors": ["jd.cpp:greg_day_to_dmy", "date.cpp:day_to_dmy"]}
{"id": "C17", "title": "MJD constants agree with the calendar", "statement": "The JAN_1(year) ... macros used for leap seconds and program dates give exactly the modified Julian day of that Gregorian date, for every year from -BASE_YEAR on.", "quantifier": "every year in range", "why_tests_cant": "macro arithmetic with an enormous base year", "anchors": ["mjd_defs.h:JAN_1", "utc_algo.cpp", "delta_t.cpp"]}
{"id": "C18", "title": "Half-year bracketing for leap seconds", "statement": "The year/half-year determination used for predicted leap seconds puts every MJD into the half-year that contains it.", "quantifier": "every MJD", "why_tests_cant": "off-by-one near each new year", "anchors": ["delta_t.cpp:td_minus_utc", "utc_algo.cpp"]}
{"id": "C19", "title": "Leap-second table is applied as published", "statement": "TD-UTC as an integer step function after 1972 increases by exactly one second at each tabulated date, never elsewhere before the end of the table.", "quantifier": "every date from 1972 to the end of the table", "why_tests_cant": "all days", "anchors": ["delta_t.cpp:td_minus_utc"]}
{"id": "C20", "title": "Easter", "statement": "easter_date returns a date between 22 March and 25 April that is a Sunday, for each year; and it repeats with the 5,700,000 year Gregorian period.", "quantifier": "every year >= 0", "why_tests_cant": "unbounded years", "anchors": ["easter.cpp:easter_date"]}
{"id": "C21", "title": "Base-62 digits", "statement": "mutant_hex_char_to_int and int_to_mutant_hex_char are inverse on 0..61 and [0-9A-Za-z]; encode_value_in_mutant_hex followed by get_mutant_hex_value of the same length returns the number, for each value that fits; each character outside the alphabet is rejected.", "quantifier": "every value below 62^n, every digit count n and every byte string", "why_tests_cant": "all lengths and values", "anchors": ["unpack.cpp:mutant_hex_char_to_int", "unpack.cpp:int_to_mutant_hex_char", "unpack.cpp:get_mutant_hex_value", "mpc_fmt.cpp:encode_value_in_mutant_hex"]}
{"id": "C22", "title": "Minor-planet numbers round-trip through the packed form", "statement": "Packing '(n)' and unpacking the result gives '(n)' again with type 'numbered asteroid', for each n from 1 to the maximum encodable, across the three packing schemes (digits, letter prefix, tilde).", "quantifier": "every n", "why_tests_cant": "15 million values across two scheme changes", "anchors": ["mpc_fmt.cpp:create_mpc_packed_desig", "unpack.cpp:unpack_mpc_desig"]}
{"id": "C23", "title": "Provisional designations round-trip", "statement": "Packing and unpacking '1995 XA', '2016 JQ123', ... gives the same designation: all half-month letters, second letters and cycle counts in the normal and the extended ('_') schemes, and the survey (P-L, T-1..T-3) forms.", "quantifier": "all years of the scheme, all letters, all cycle counts up to the limit", "why_tests_cant": "hundreds of millions of designations", "anchors": ["mpc_fmt.cpp:create_mpc_packed_desig", "unpack.cpp:unpack_mpc_desig", "unpack.cpp:unpack_provisional_packed_desig"]}
{"id": "C24", "title": "Natural-satellite designations round-trip", "statement": "Packing and unpacking permanent ('Jupiter XIII') and provisional ('S/2003 J 105') satellite designations gives the same designation.", "quantifier": "planets, numbers 1..619, all years of the scheme", "why_tests_cant": "combinations", "anchors": ["mpc_fmt.cpp:pack_permanent_natsat", "mpc_fmt.cpp:pack_provisional_natsat", "unpack.cpp:unpack_mpc_desig"]}
{"id": "C25", "title": "Packed designation is always a 12-character string", "statement": "create_mpc_packed_desig writes exactly 12 non-NUL characters and a terminator for every input name.", "quantifier": "every C string", "why_tests_cant": "the input is an arbitrary string", "anchors": ["mpc_fmt.cpp:create_mpc_packed_desig"]}
{"id": "C26", "title": "unpack_mpc_desig is total on 12-character fields", "statement": "For every 12 characters of a record unpack_mpc_desig returns a type code and a terminated string, without aborting and without reading uninitialised memory.", "quantifier": "all 12-byte inputs", "why_tests_cant": "2^96 inputs", "anchors": ["unpack.cpp:unpack_mpc_desig"]}
{"id": "C27", "title": "Bounded string copy and append", "statement": "strlcpy/strlcat never write outside the destination of the given size, always NUL-terminate when size > 0 (and the destination was terminated), return the length they tried to create, and copy the longest prefix that fits.", "quantifier": "all source strings, all destination contents and sizes", "why_tests_cant": "all lengths and sizes, memory safety", "anchors": ["snprintf.cpp:strlcpy", "snprintf.cpp:strlcat"]}
{"id": "C28", "title": "Error-checked string functions abort exactly on truncation", "statement": "strlcpy_err, strlcat_err and snprintf_append return normally if and only if the whole result fits; otherwise they do not return.", "quantifier": "all strings and sizes", "why_tests_cant": "boundary at each size", "anchors": ["snprintf.cpp:strlcpy_err", "snprintf.cpp:strlcat_err", "snprintf.cpp:snprintf_append"]}
{"id": "C29", "title": "CGI field decoding is memory safe and correct", "statement": "get_urlencoded_piece consumes exactly one field, writes fewer than the given number of bytes plus a terminator, and returns the percent-decoding of what the browser encoded.", "quantifier": "every input byte stream and every buffer size", "why_tests_cant": "attacker-controlled, unbounded input", "anchors": ["cgi_func.cpp:get_urlencoded_piece", "cgi_func.cpp:get_urlencoded_form_data"]}
{"id": "C30", "title": "Variable-star designations", "statement": "make_var_desig and decipher_var_desig are inverse: each sequence number gives a distinct standard name (R..Z, RR..ZZ, AA..QZ without J, V335...) which decodes to that number.", "quantifier": "every number 1.. and every name", "why_tests_cant": "334 lettered names plus unbounded V numbers", "anchors": ["miscell.cpp:make_var_desig", "miscell.cpp:decipher_var_desig"]}
{"id": "C31", "title": "Catalogue names and MPC net codes", "statement": "byte_code_to_net_name and net_name_to_byte_code are inverse on the known catalogues, and an unknown name/code is reported as such.", "quantifier": "every byte code and every name string", "why_tests_cant": "string domain", "anchors": ["mpc_fmt.cpp:byte_code_to_net_name", "mpc_fmt.cpp:net_name_to_byte_code"]}
{"id": "C32", "title": "Roman numerals of satellites", "statement": "extract_roman_numeral yields the value of every canonical Roman numeral.", "quantifier": "all numerals 1..", "why_tests_cant": "all numerals", "anchors": ["mpc_fmt.cpp:extract_roman_numeral"]}
{"id": "C33", "title": "Rotations preserve lengths and are undone by the opposite angle", "statement": "rotate_vector, spin_matrix and pre_spin_matrix preserve norms/orthonormality for every angle; applying angle a then -a restores the input; invert_orthonormal_matrix gives the inverse matrix.", "quantifier": "all vectors, matrices and angles (exact real arithmetic)", "why_tests_cant": "continuum of inputs", "anchors": ["miscell.cpp:rotate_vector", "miscell.cpp:spin_matrix", "miscell.cpp:pre_spin_matrix", "miscell.cpp:invert_orthonormal_matrix"]}
{"id": "C34", "title": "Precession and its inverse", "statement": "Precession matrices are orthonormal for each pair of years; precessing from A to B and then from B to A is the identity whatever calls happened before (cache); precessing A to J2000 to B equals precessing A to B.", "quantifier": "all pairs of years, all histories of calls", "why_tests_cant": "cache state depends on history; real inputs", "anchors": ["precess.cpp:setup_ecliptic_precession", "precess.cpp:setup_precession", "precess.cpp:precess_vector", "precess.cpp:deprecess_vector"]}
{"id": "C35", "title": "Distance and position angle", "statement": "calc_dist_and_posn_ang returns the great-circle distance, is symmetric in its two points, and reverse_dist_and_posn_ang returns the second point from the first, the distance and the angle.", "quantifier": "all pairs of points on the sphere", "why_tests_cant": "continuum; branches at |z| = 0.7", "anchors": ["dist_pa.cpp:calc_dist_and_posn_ang", "dist_pa.cpp:reverse_dist_and_posn_ang"]}
{"id": "C36", "title": "Interpolation hits its nodes and joins smoothly", "statement": "Spline interpolation returns the tabulated value at each node, is continuous where pieces meet, and never reads outside the table.", "quantifier": "all tables, all abscissae", "why_tests_cant": "all tables", "anchors": ["spline.cpp"]}
{"id": "C37", "title": "Bracketed minimisation keeps its bracket", "statement": "Starting from a valid bracket, after any sequence of suggested evaluations with any function values, the best point stays strictly inside the bracket, the bracket never grows, the best value never increases, and the suggested point lies in the bracket.", "quantifier": "all functions, all histories of calls", "why_tests_cant": "history of unbounded length, arbitrary function values", "anchors": ["brentmin.cpp:brent_min_init", "brentmin.cpp:brent_min_next", "brentmin.cpp:brent_min_add"]}
{"id": "C38", "title": "Constellation lookup", "statement": "constell_from_ra_dec returns an index 0..87 and the corresponding three letters for each position, never reads outside its table, gives the southern-side entry that is nearest north of the point, and is periodic in RA by 360 degrees.", "quantifier": "all right ascensions and declinations", "why_tests_cant": "table search over a continuum", "anchors": ["conbound.c:constell_from_ra_dec"]}
{"id": "C39", "title": "MPC observation ID time stamps", "statement": "Decoding the time stamp of an obsID gives back the year, month, day, second and millisecond it encodes.", "quantifier": "all dates 1800..2440 and times", "why_tests_cant": "1e13 values", "anchors": ["mpc_time.c:main", "unpack.cpp:get_mutant_hex_value"]}
{"id": "C40", "title": "ADES to 80-column conversion keeps its tag stack sane", "statement": "For any sequence of input lines the ADES reader's tag depth stays within its stack, and lines outside an ADES block are passed through unchanged.", "quantifier": "all line sequences", "why_tests_cant": "history dependent, arbitrary input", "anchors": ["ades2mpc.cpp:xlate_ades2mpc"]}
{"id": "C41", "title": "Mars time conversions are mutually inverse", "statement": "tt_to_mtc and mtc_to_tt are inverse functions.", "quantifier": "all dates (exact real arithmetic)", "why_tests_cant": "continuum", "anchors": ["marstime.cpp:tt_to_mtc", "marstime.cpp:mtc_to_tt"]}
{"id": "C42", "title": "Free-form time parsing is memory safe", "statement": "get_time_from_string copies its text into an 80-byte buffer and works on pieces of that copy: whatever the text, the copy and the pieces stay inside their buffers, texts of 80 bytes or more are rejected with *is_ut = -3, and leading spaces, capital letters and spaces between letters and digits do not change the reading.", "quantifier": "all strings (the one exception, texts whose copy has 78 bytes where a letter and a digit touch, is stated and proved to overrun)", "why_tests_cant": "input of any length and content; the overrun needs one particular alignment", "anchors": ["get_time.cpp:get_time_from_stringl"]}
{"id": "C43", "title": "Vector helpers compute what their names say and never leave a function's domain", "statement": "normalize_vect3 returns the length and leaves a unit vector in the same direction; vector_cross_product, dot_product and vector3_length give the mathematical values; polar3_to_cartesian gives a unit vector with the given longitude and latitude; acose and asine return a value for every argument, the usual one inside [-1,1] and the nearest end outside.", "quantifier": "all vectors and real arguments (exact real arithmetic)", "why_tests_cant": "continuum of inputs, including arguments just outside the domain of acos/asin", "anchors": ["miscell.cpp:normalize_vect3", "miscell.cpp:vector_cross_product", "miscell.cpp:dot_product", "miscell.cpp:vector3_length", "miscell.cpp:polar3_to_cartesian", "miscell.cpp:acose", "miscell.cpp:asine"]}
{"id": "C44", "title": "Time offsets add up", "statement": "Offsets at the end of a time text (+3h, -20.5m, several of them) add their value in days to the time of the text before them and change nothing else; a signed number alone is a number of days from the starting time; the text is always read in finite time.", "quantifier": "all texts, all lists of offsets, all units, all starting times and formats", "why_tests_cant": "unbounded combinations of texts and offsets; the hang depends on what stands between the last sign and the unit", "anchors": ["get_time.cpp:collect_time_offset", "get_time.cpp:get_time_from_stringl"]}
{"id": "C45", "title": "Dates and times in text are read as the instants they name", "statement": "get_time_from_string reads dates with named or numbered months in any allowed order and separator, compact dates, years, days of the month or year, days of the week, times of day, FITS times, JD/MJD/Unix/GPS/year keywords, 'now' and phases of the moon as the instants they name in the chosen calendar.", "quantifier": "all such texts, for every value of their fields, every calendar but the Chinese, every starting time and every format", "why_tests_cant": "every combination of order, separator, number of digits, decimals and format flags has to give the right one of year, month and day", "anchors": ["get_time.cpp:get_time_from_stringl", "get_time.cpp:get_time_from_string"]}
{"id": "C46", "title": "Times are written as the instants they are, and read back", "statement": "full_ctime writes, for every format, the date (in the chosen calendar), time of day, day of the year, day of the week, year, Julian day or modified Julian day of the given time, cut or rounded to the number of decimals asked for, inside the caller's 80 bytes; a text that names an instant in full is read back by get_time_from_string as that instant, to within the last place shown.", "quantifier": "all times, all 2^24 formats, all calendars, all numbers of decimals", "why_tests_cant": "the flags combine freely, rounding can carry into every field up to the year, and reading back depends on how the reader resolves every written text", "anchors": ["miscell.cpp:full_ctimel", "miscell.cpp:full_ctime", "miscell.cpp:show_remainder", "miscell.cpp:remove_char", "get_time.cpp:get_time_from_stringl"]}
{"id": "C47", "title": "Angles of 80-column reports are written and read back", "statement": "output_angle_to_buff and output_signed_angle_to_buff write an angle, in each of the documented formats (sexagesimal seconds or minutes, decimal, packed digits, degrees of right ascension), as the nearest multiple of the last place, in exactly the columns of the format; get_ra_dec_from_mpc_report reads such columns as that angle, format and precision, whatever else is in the line, and tells which of right ascension and declination is malformed.", "quantifier": "all angles, all formats with all numbers of decimals, both signs, all surrounding bytes and line contents", "why_tests_cant": "rounding can carry through every field for any angle and number of decimals, and columns of one format must not be taken for another for any digits", "anchors": ["mpc_fmt2.cpp:output_angle_to_buff", "mpc_fmt2.cpp:output_signed_angle_to_buff", "mpc_fmt.cpp:get_ra_dec_from_mpc_report", "mpc_code.cpp:quick_atof"]}
{"id": "C48", "title": "Search and replace", "statement": "text_search_and_replace replaces every occurrence of the old text, left to right without overlap, by the new one, and returns their number.", "quantifier": "all strings, old and new texts", "why_tests_cant": "overlapping and adjacent occurrences of unbounded texts", "anchors": ["mpc_fmt2.cpp:text_search_and_replace"]}
{"id": "C49", "title": "Dates of 80-column reports", "statement": "extract_date_from_mpc_report reads the date of an 80-column report, in each of the documented ways of writing it (year, month and day with decimals; packed century with decimals, with hours, minutes and seconds, or with hours and minutes; Julian date; Modified Julian date), as the Julian date it names, and tells which way and how many decimals; radar times are rounded to the nearest second; lines of the wrong length, without blank, '*' or '-' in column 13, or without observatory code are refused; no line leads to undefined behaviour.", "quantifier": "all dates, times and numbers of decimals in each layout, with and without leading zeroes, and all lines around them; all lines of any bytes", "why_tests_cant": "the layouts are told apart by which columns hold digits, for any digits and any other bytes in the line", "anchors": ["mpc_fmt.cpp:extract_date_from_mpc_report", "mpc_fmt.cpp:quick_atoi", "mpc_fmt.cpp:get_two_digits", "mpc_fmt.cpp:is_valid_mpc_code", "date.cpp:dmy_to_day"]}
{"id": "C50", "title": "Angles and places written by people", "statement": "get_ra_from_string, get_dec_from_string, get_lat_lon_info and get_xxx_location_info read angles of one to three numbers (with decimals in the last), compass signs before or after the angle, latitude and longitude in either order and an optional altitude in metres or feet as the position they name, and tell how much text was read; angles with more than 60 minutes or seconds, two latitudes or two longitudes, positions beyond the poles and text without digits are refused; text whose digit runs are short and that does not end in a bare number leads to no undefined behaviour.", "quantifier": "all numbers of up to nine digits and nine decimals, all numbers of blanks between them, both orders, both positions of the compass sign, any text behind; for totality and ranges all texts of any bytes", "why_tests_cant": "any text a person types, of any length; the reader decides by what follows each number", "anchors": ["mpc_code.cpp:_get_number_for_angle", "mpc_code.cpp:_get_angle", "mpc_code.cpp:extract_lat_lon", "mpc_code.cpp:get_lat_lon_info", "mpc_code.cpp:get_ra_from_string", "mpc_code.cpp:get_dec_from_string", "mpc_code.cpp:get_xxx_location_info", "mpc_code.cpp:quick_strtod"]}
{"id": "C51", "title": "Latitude and height on a flattened planet, and back", "statement": "lat_alt_to_parallax gives the place of a geodetic latitude and a height above an ellipse; point_to_ellipse gives, for every place off the axis, a latitude and a height of which it is the place; that height is the distance to the closest point of the ellipse and negative exactly inside; the two functions undo each other for every latitude between the poles and every height above the centres of curvature.", "quantifier": "all ellipses with 0 < minor <= major axis, all latitudes and heights, all points of the plane (real numbers)", "why_tests_cant": "a closed solution of a quartic with two branches and nested roots: for every point of the plane the right root must be taken and no root of a negative number or quotient by zero may occur", "anchors": ["mpc_code.cpp:lat_alt_to_parallax", "mpc_code.cpp:point_to_ellipse", "mpc_code.cpp:cbrt"]}
{"id": "C52", "title": "Lines of the lists of observatories mean what is in their columns", "statement": "get_mpc_code_info gives, for a line of the standard list, its code, name, longitude, parallax constants, number of decimals, and the latitude and altitude these constants mean; for a line of rovers.txt, in degrees or with degrees, minutes and seconds run together, on the Earth or the planet behind an at sign, the coordinates in it and the parallax constants of that place on that planet; dynamical points, spacecraft and lines that are too short are recognised; outside the rovers format no text of three or more bytes makes it go wrong.", "quantifier": "all lines of the standard format, all lines of the rovers format, all other texts", "why_tests_cant": "columns, decimals, planets and two conventions for angles combine freely, and any bytes may be in a line", "anchors": ["mpc_code.cpp:get_mpc_code_info", "mpc_code.cpp:convert_base_60_to_decimal", "mpc_code.cpp:_set_parallax_constants", "mpc_code.cpp:limited_atof", "mpc_code.cpp:planet_axis_ratio", "mpc_code.cpp:planet_radius_in_meters"]}
{"id": "C53", "title": "Two-body motion follows the orbit the elements describe", "statement": "After derive_quantities, comet_posn_and_vel gives at every time a place on the ellipse, parabola or hyperbola of the elements -- in their plane, with their perihelion -- where Kepler's (or Barker's) equation puts it at that time, its distance, and the velocity with which angular momentum and eccentricity vector are those of the orbit; kepler always ends, for eccentricities below 0.9, with a solution of Kepler's equation.", "quantifier": "all elements with positive perihelion distance and eccentricity 0 or more, all inclinations short of a right angle, all masses, all times", "why_tests_cant": "an iteration on real numbers over all eccentricities and times, with four kinds of orbit and three angles in space", "anchors": ["astfuncs.cpp:setup_orbit_vectors", "astfuncs.cpp:derive_quantities", "astfuncs.cpp:near_parabolic", "astfuncs.cpp:kepler", "astfuncs.cpp:comet_posn_part_ii", "astfuncs.cpp:comet_posn_and_vel", "miscell.cpp:vector_cross_product"]}
{"id": "C54", "title": "Elements found from a place and a velocity are those of the orbit through them", "statement": "calc_classical_elements always succeeds for a place and velocity that do not fall straight in or out, and its perihelion distance, eccentricity, axes, angles and time of perihelion are those of the one orbit that passes the given place with the given velocity at the given time; feeding the result to comet_posn_and_vel gives the state back and stays on the same orbit at other times.", "quantifier": "all masses, places and velocities with non-zero angular momentum, all times; eccentricities whose square is not within 1e-14 of 1 unless 1", "why_tests_cant": "a formula over six real coordinates with separate cases for circular, elliptic, parabolic, hyperbolic, retrograde and planar orbits, whose correctness is a relation with another function at all times", "anchors": ["classel.cpp:calc_classical_elements", "classel.cpp:remaining_terms", "miscell.cpp:asine", "miscell.cpp:dot_product", "miscell.cpp:vector3_length", "astfuncs.cpp:comet_posn_and_vel"]}
{"id": "C55", "title": "Altitude and azimuth, and galactic coordinates, describe the same direction as the right ascension and declination given", "statement": "full_ra_dec_to_alt_az gives the altitude and azimuth at which the point is seen from the place at the sidereal time of the moment; full_alt_az_to_ra_dec gives the point seen at an altitude and azimuth, and the two undo each other; precess_pt there and back gives the point again; the galactic and supergalactic functions rotate the direction and undo each other up to the digits of their matrices.", "quantifier": "all points of the sky, places on the ground, times, nutations and histories of earlier calls (the functions keep static variables)", "why_tests_cant": "spherical trigonometry with case splits on signs and quadrants: every direction, latitude and sidereal time must be covered, including those on the boundaries between the cases, after every history of calls", "anchors": ["alt_az.cpp:full_ra_dec_to_alt_az", "alt_az.cpp:full_alt_az_to_ra_dec", "alt_az.cpp:precess_pt", "alt_az.cpp:ra_dec_to_galactic", "alt_az.cpp:galactic_to_ra_dec", "alt_az.cpp:ra_dec_to_supergalactic", "alt_az.cpp:supergalactic_to_ra_dec", "miscell.cpp:green_sidereal_time"]}
{"id": "C56", "title": "Elements are read from the columns their header names, in any order, or the line is refused", "statement": "extract_sof_data and extract_sof_data_ex set each element from the column with its name, whatever the order and the other columns; they return 0 if the six columns an orbit needs are there and -1 otherwise, and -1 for headers with names too short or too long; dates YYYYMMDD.ddd are the days of the Gregorian calendar; nothing outside the line is read.", "quantifier": "all headers (lists of named columns of any length and order), all lines under them, with and without extra_info", "why_tests_cant": "the order, number and widths of the columns are free: each table is a different program for the reader, and a fault may need one particular name or width", "anchors": ["sof.cpp:extract_sof_data", "sof.cpp:extract_sof_data_ex", "sof.cpp:extract_yyyymmdd_to_jd"]}
{"id": "C57", "title": "TD - UT, TD - UTC and TDB - UTC are the observed values, the announced leap seconds and the user's own formulae", "statement": "td_minus_ut interpolates between the observed values from 1620 to 2024 and is given by fixed polynomials before and a parabola after; with a string of formulae set by reset_td_minus_dt_string it is the polynomial of the first formula that covers the year and is unchanged elsewhere; a null or empty string undoes that. td_minus_utc is 32.184 s plus the published TAI - UTC from 1961 on, within 0.9 s of TD - UT while leap seconds are tabulated, and a whole number of seconds near TD - UT in predictions; before 1961 it is td_minus_ut. tdb_minus_utc adds TDB - TD, below 2 ms.", "quantifier": "all Julian dates, all strings of formulae in the documented form, all ends of the predictions", "why_tests_cant": "the dates are a continuum cut at some 250 points (table entries, steps, leap seconds, ends of formulae), each of which may be off by one entry or one day; strings of formulae are unbounded", "anchors": ["delta_t.cpp:td_minus_ut", "delta_t.cpp:td_minus_utc", "delta_t.cpp:tdb_minus_utc", "delta_t.cpp:reset_td_minus_dt_string", "delta_t.cpp:default_td_minus_ut", "delta_t.cpp:evaluate_delta_t_string"]}
{"id": "C58", "title": "Earth orientation parameters are those of the IERS file, free of leap seconds, and zero where the file has none", "statement": "After load_earth_orientation_params with an IERS file of at least 16371 days, every request of get_earth_orientation_params is answered from the days of that file: on a day itself the numbers of its line, between days the cubic through both with centred slopes; TT - UT1 is free of leap seconds; where two days on both sides are not there the value is zero, its bit is set in the result, and TT - UT1 is td_minus_ut. The result of the load is the last day with values, the date given is the last observed one. After a failed or undone load nothing is loaded: every request gives -1. Requests never read outside the array after any sequence of calls with any files. The matrix of setup_precession_with_nutation_eops is a rotation: precession and corrected nutation, sidereal time of UT1, pole.", "quantifier": "all files, all sequences of loads, all times within 2^31 days, all masks, all contents of the uninitialised buffer", "why_tests_cant": "files have millions of bytes and any number of lines, with ends of the columns on any day; leap seconds must be removed on whichever day they occur; states depend on the history of calls", "anchors": ["eop_prec.cpp:load_earth_orientation_params", "eop_prec.cpp:get_earth_orientation_params", "eop_prec.cpp:setup_precession_with_nutation_eops", "spline.cpp:cubic_spline_interpolate_within_table"]}
{"id": "C59", "title": "An ADES observation becomes the 80-column line and the comment lines that say the same", "statement": "Whatever elements an ADES observation has (station, time, position, magnitude, band, catalogue, mode, notes, program, reference, number, designation, observer's name, uncertainties, identifiers) and in whatever order they come, each is shown in the columns of the 80-column format that belong to it, in the form the format has for it, and all other columns are blank; the number goes before the designation and that before the observer's name. What has no columns is put out in comment lines before it, and nothing of one observation gets into the next, apart from what is never cleared. The position of a spacecraft goes to a second line. A line of a PSV table gives these lines. The time and position of the columns, read again by the library's own readers, are exactly those of the observation. Positions with more decimals are rounded to eight and kept in full.", "quantifier": "all lists of elements without contradictions in every order, all their values within the stated ranges, all states left by observations before, all PSV tables", "why_tests_cant": "elements come in any order and combination, with any values, after any history of earlier observations", "anchors": ["ades2mpc.cpp:process_ades_tag", "ades2mpc.cpp:get_a_line", "ades2mpc.cpp:setup_observation", "ades2mpc.cpp:place_value", "ades2mpc.cpp:move_fits_time", "ades2mpc.cpp:pack_mpc_reference", "ades2mpc.cpp:process_psv_line"]}
{"id": "C60", "title": "Orientations, rotation rates and radii of planets and satellites are those of the formulae in cospar.txt", "statement": "Whatever file of orientation data is given (comments, blank lines, remapped numbers, tables of angles, objects with radii and with formulae of constants, powers of time and periodic terms), whatever object of it is asked for, for whatever rotation system and date: calc_planet_orientation( ) returns 0 and the matrix whose rows are the unit vectors to longitude 0, longitude 90 and the north pole for the values of the object's formulae at that date; the rows are orthonormal; planet_rotation_rate( ) gives the coefficient of d, and planet_radii( ) the radii. An object the file does not have gives -1. Earlier calls do not change the answers.", "quantifier": "all files of the format (any number of lines, remaps, tables, objects, terms), all objects, systems 0 to 9, all dates, all histories of calls", "why_tests_cant": "Files, dates and histories of calls are unbounded; a test sees a few objects of one file at a few dates, and cannot see which lines of the file go unread, or that cached answers agree with new ones for all histories.", "anchors": ["cospar.cpp: get_cospar_data_from_text_file", "cospar.cpp: load_cospar_file", "cospar.cpp: planet_rotation_rate", "cospar.cpp: planet_radii", "cospar.cpp: calc_planet_orientation", "cospar.txt"]}
{"id": "C61", "title": "Lines of mpcorb.dat and astorb.dat give the orbits in their columns", "statement": "For every line of mpcorb.dat or astorb.dat, whatever numbers are in its columns: extract_mpcorb_dat( ) and extract_astorb_dat( ) return the day of the epoch, and the elements hold the epoch, magnitude, slope parameter, angles, eccentricity and perihelion distance of the columns, with the perihelion nearest to the epoch from which the orbit gets to the mean anomaly given; two-body motion with these elements puts the object on its orbit at the mean anomaly given plus the daily motion for every day since the epoch. Other lines are refused and leave the elements alone; no line makes the functions read outside it.", "quantifier": "all lines of both formats (all dates, all numbers in the columns, any text elsewhere), all previous contents of the elements, all times", "why_tests_cant": "The columns hold any numbers and dates; tests read a few lines, and cannot show that the perihelion chosen is the nearest one, or that the object is where the line says, for every line and time.", "anchors": ["mpcorb.cpp: extract_mpcorb_dat", "mpcorb.cpp: extract_astorb_dat", "astfuncs.cpp: derive_quantities"]}
{"id": "C62", "title": "csv2ades prints every Gaia observation asked for, and no other", "statement": "For every set of tables of Gaia observations and every range of object numbers: csv2ades reads exactly the files objects in the range may be in, and prints the header with, in the marked place, one ADES record for every row of an object in the range, in order, and nothing for other rows; the record has the object's number, the place in km, the velocity in km/s, the time cut to a millisecond, the angles, errors, correlation and magnitude of the cells under the names of the columns, whatever the order of the columns.", "quantifier": "all tables (any columns in any order, any cells, any numbers, comments, several lines of names), all ranges of numbers, all headers", "why_tests_cant": "The order of columns, the cells and the ranges are unbounded; tests convert a few rows, and cannot show that no observation is left out for any range.", "anchors": ["csv2ades.c: get_csv", "csv2ades.c: csv_to_ades", "csv2ades.c: file_needed", "csv2ades.c: main"]}
{"id": "C63", "title": "mpc2sof writes every asteroid and every comet, in order, with the comet's name and elements unchanged", "statement": "For every mpcorb.dat and ELEMENTS.COMET (or without the latter): mpc2sof writes the header, one record for every line of mpcorb.dat that is an orbit, then one record of 144 bytes for every line of ELEMENTS.COMET that is one, in order; the record of a comet has its number (with its fragment, if any) or designation, the time of perihelion as it was written, the calendar date of its epoch and its elements rounded to the places shown; an asteroid is named by its number or its designation.", "quantifier": "all files (any number of lines of at most 398 bytes), all comets with a perihelion in the years 0 to 9999 and elements that fit in their columns", "why_tests_cant": "Files, names and elements are unbounded, and so is the number of records; whether there is room for the comets depends on the number of asteroids, and a test with a full mpcorb.dat never meets the bad case.", "anchors": ["mpc2sof.cpp: parse_elements_dot_comet", "mpc2sof.cpp: extract_name", "mpc2sof.cpp: output_sof", "mpc2sof.cpp: main"]}
{"id": "C64", "title": "A place is given the name of the first rectangle of the region file it is in", "statement": "For every file of rectangles (two opposite corners and a name per line) and comments, and for every latitude and longitude: the name returned is that of the first rectangle in the file whose two latitudes the place is strictly between and on whose shorter arc of longitudes it strictly lies, in whatever order the corners are and with whatever whole turns in the longitudes; if there is none, -2 and an empty text are returned. Whole turns added to the longitude of the place change nothing, nor does what the function's array held before.", "quantifier": "all files of any number of rectangles and comments, all latitudes and longitudes (exact numbers)", "why_tests_cant": "Files, corners and places are unbounded; crossing of the 180th meridian, multiples of 360 degrees and the order of the corners combine freely.", "anchors": ["mpc_code.cpp: extract_region_data_for_lat_lon"]}
{"id": "C65", "title": "The epoch, time of perihelion and distances shown with a set of elements are those of the orbit", "statement": "For every epoch: its calendar date with a fraction of a day and its Julian date, as shown, name one and the same instant, within a millionth of a day of the epoch, and the decimals left out of them are all zeroes. For every time of perihelion that is shown: the body is named and the date is rounded to the decimals asked for. For every distance up to 999999 au: it is shown in kilometres exactly if it is at most 999999 km, with four digits more than asked for, cut off, so that it is never less than what is shown and less than one unit of the last digit above it; a larger one is shown as <HUGE>.", "quantifier": "all epochs from JD 0 to 1e9, all times of perihelion between JD 2 and 3000000, all central bodies, all distances, all precisions from 0 to 15, all sizes of the text's array above a fixed one", "why_tests_cant": "The zeroes counted at the end of the Julian date are taken off the day as well, which is only right because the two differ by a multiple of half a day; whether that and the cut of the digits are right for every number is not a matter of examples.", "anchors": ["showelem.cpp: elements_in_mpc_format", "showelem.cpp: show_formatted_dist", "showelem.cpp: decimal_day_to_dmy"]}
{"id": "C66", "title": "The time now is the same number on every system, never goes back with the clock going forward, and lasts until 2262 April 11", "statement": "At every instant from 1677 to Friday, 2262 April 11, 23:47:16.854775807: the result is the number of nanoseconds since 1970 January 1, 0h, exact to the unit of the system's clock (100 ns, a microsecond or a millisecond), on all three kinds of systems; so they agree within the coarser unit, and a later instant never gives a smaller result. The Julian date made from it is the calendar's day number and the part of the day.", "quantifier": "all instants in that range, all readings of the three kinds of clocks", "why_tests_cant": "A test reads the clock of the one system it runs on, now; overflow and the change of origin from 1601 to 1970 concern instants it never sees.", "anchors": ["nanosecs.cpp: nanoseconds_since_1970", "nanosecs.cpp: current_jd"]}
{"id": "C67", "title": "A small moon is on its precessing ellipse at every time", "statement": "For each of the 36 moons and every date, the position is the point of an ellipse with fixed size, shape and inclination, whose apsis, node and mean longitude move uniformly from the epoch: the longitude is within 5 e^3 of that of motion by Kepler's laws, the position within 6 a e^3 and 8 km of it, the distance stays between a(1-e) and a(1+e), the moon stays in the plane of its orbit, and the orbit keeps its inclination to the plane of the table. For any other number the function returns -1 and leaves the vector alone.", "quantifier": "all moons of the table, all dates, all numbers, all previous contents of the vector", "why_tests_cant": "A test compares positions at some dates with an ephemeris; that the distance and the plane are kept holds for all dates, and the agreement of the table with itself concerns all pairs of its entries.", "anchors": ["rocks.cpp: evaluate_rock", "rocks.cpp: rocks"]}
{"id": "C68", "title": "The designation is found in the name of a comet, the permanent number first", "statement": "In any text: a permanent number in parentheses, as in (145P), is given wherever it is; otherwise the first designation such as C/1999 X1 or P/1846 D1-A, with exactly one blank behind the year; otherwise one in parentheses such as (2001 HT50). Without any of them the result is 0 and nothing is written. What is written is never more than one byte longer than the text.", "quantifier": "all texts", "why_tests_cant": "Names of comets are free text: what stands before, behind and between the parts of a designation cannot be enumerated.", "anchors": ["com_file.cpp: extract_periodic_name"]}
{"id": "C69", "title": "Color indices are converted by the published relations, and back by their inverses", "statement": "Within its range each conversion by a polynomial gives the published relation. The conversions back (B-V to V-I, V-R to V-I) end for every input, never divide by zero, and give 99 or an index within 0.000001 of one that the forward conversion takes exactly to the input. The corrections from Tycho to Johnson are on the broken lines of the tables, and an index out of range is marked as such.", "quantifier": "all real inputs", "why_tests_cant": "The conversions back search for a root with a rule that depends on the values found so far; a test sees the root found for its inputs only, and the ends of the ranges are single points.", "anchors": ["colors.cpp: v_minus_i_to_b_minus_v", "colors.cpp: b_minus_v_to_v_minus_i", "colors.cpp: v_minus_r_to_v_minus_i", "colors.cpp: johnson_b_minus_v_from_tycho_b_minus_v", "colors.cpp: johnson_v_from_tycho_b_minus_v"]}
{"id": "C70", "title": "Refraction follows the published formulae, and true altitudes are turned back into the apparent ones", "statement": "Refraction by altitude is that of Bennett's formula, and for a given pressure, temperature and humidity that of Saastamoinen's; from 4 degrees below the horizon to the zenith nothing is divided by zero. For every true altitude from the horizon to the zenith the search for the refraction ends with a value that is within 0.1 second of arc of the refraction at the apparent altitude found, and an apparent altitude turned into a true one and back changes by at most 0.16 second. At the zenith the formula of Saastamoinen gives no refraction, and the same on both sides of it with opposite signs.", "quantifier": "all altitudes in the given range, all pressures, positive temperatures and humidities", "why_tests_cant": "The search stops at a tolerance or after ten passes; that ten passes are enough, and that no denominator is zero, concerns every real altitude.", "anchors": ["refract.cpp: refraction", "refract.cpp: reverse_refraction", "refract.cpp: saasta_refraction"]}
