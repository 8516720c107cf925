{
 "claims": [
  {
   "property": "C01",
   "status": "proved",
   "theorems": [
    "C01_layout",
    "C01_clean",
    "C01_metar",
    "C01_taf"
   ],
   "note": "Every layout (one space, newline, tab, or any run of two or more whitespace characters; optional final =) of every list of groups; the raw code never contains newline, tab or =. C01_metar and C01_taf: reports of the same groups in any two layouts parse alike, failures included."
  },
  {
   "property": "C02",
   "status": "partial",
   "theorems": [
    "C02_idempotent_partial",
    "C02_idempotent_refuted",
    "C02_exact"
   ],
   "note": "Idempotent for every text whose = signs directly follow a group; an = after whitespace leaves trailing whitespace, and '=' alone normalises to the empty text, which then fails the assertion. C02_exact: normalising again changes nothing exactly when the text has something in it and no group consists of = signs only."
  },
  {
   "property": "C03",
   "status": "proved",
   "theorems": [
    "C03_dispatch",
    "C03_deterministic",
    "C03_increasing"
   ],
   "note": "For every handler list and section."
  },
  {
   "property": "C04",
   "status": "proved",
   "theorems": [
    "C04_capacity",
    "C04_add"
   ],
   "note": "For every history of add/next/index/loop operations."
  },
  {
   "property": "C05",
   "status": "partial",
   "theorems": [
    "C05_iteration_refuted",
    "C05_iteration_partial",
    "C05_from_cursor"
   ],
   "note": "False in general: a loop left early makes the next one start in the middle. Proved when all earlier loops are complete, and the exact behaviour from any cursor."
  },
  {
   "property": "C06",
   "status": "proved",
   "theorems": [
    "C06_indexing"
   ],
   "note": "For every list and index."
  },
  {
   "property": "C07",
   "status": "partial",
   "theorems": [
    "C07_should_be_cavok_partial",
    "C07_should_be_cavok_refuted",
    "C07_exact"
   ],
   "note": "True exactly when the documented conditions hold, for every cloud list decoded from documented groups whose broken/overcast layers have a height and whose vertical visibilities do not depend on the identity test. False otherwise: VV/// is accepted when `is` is identity (CPython), VV050 and above is rejected when the constants are shared. C07_exact: for every cloud list and any cursor, exactly when the answer is True."
  },
  {
   "property": "C08",
   "status": "partial",
   "theorems": [
    "C08_repeated_calls_partial",
    "C08_repeated_calls_refuted"
   ],
   "note": "Exact characterisation: two calls disagree (False then True) precisely when only the layer conditions matter and exactly one layer violates them."
  },
  {
   "property": "C09",
   "status": "partial",
   "theorems": [
    "C09_no_exception_partial",
    "C09_no_exception_refuted",
    "C09_exact"
   ],
   "note": "False for BKN/// and OVC/// (TypeError); never raises when broken and overcast layers have a height. C09_exact: it raises exactly when there is no weather and such a layer comes before any broken or overcast layer at or below 1500 feet."
  },
  {
   "property": "C10",
   "status": "proved",
   "theorems": [
    "C10_flight_rules",
    "C10_flight_rules_coded"
   ],
   "note": "For all finite binary64 values, and for decoded groups in terms of the written numbers."
  },
  {
   "property": "C11",
   "status": "proved",
   "theorems": [
    "C11_monotone"
   ],
   "note": "An unknown value counts as unlimited."
  },
  {
   "property": "C12",
   "status": "partial",
   "theorems": [
    "C12_no_category_partial",
    "C12_no_category_refuted"
   ],
   "note": "False: 15SM without ceiling has no category. Exact characterisation of the reports without category."
  },
  {
   "property": "C13",
   "status": "proved",
   "theorems": [
    "C13_cardinal",
    "C13_sectors_disjoint"
   ],
   "note": "For zero and every normal binary64 number between 0 and 360."
  },
  {
   "property": "C14",
   "status": "proved",
   "theorems": [
    "C14_points",
    "C14_degrees",
    "C14_others"
   ],
   "note": "Every string."
  },
  {
   "property": "C15",
   "status": "proved",
   "theorems": [
    "C15_wind_knots"
   ],
   "note": "Every well-formed wind group in knots."
  },
  {
   "property": "C16",
   "status": "proved",
   "theorems": [
    "C16_wind_mps"
   ],
   "note": "Every well-formed wind group in metres per second."
  },
  {
   "property": "C17",
   "status": "proved",
   "theorems": [
    "C17_C18_prevailing",
    "C17_minimum"
   ],
   "note": "Prevailing and minimum visibility."
  },
  {
   "property": "C18",
   "status": "proved",
   "theorems": [
    "C17_C18_prevailing"
   ],
   "note": "The single token n_n/dSM; that two groups become that token is C41."
  },
  {
   "property": "C19",
   "status": "partial",
   "theorems": [
    "C19_prevailing_partial",
    "C19_minimum_partial",
    "C19_refuted",
    "C19_prevailing_exact",
    "C19_minimum_exact"
   ],
   "note": "False as stated: 4000EW raises ValueError, 1/0SM ZeroDivisionError, 1/2KM TypeError. Proved for every accepted text that holds none of these three forms. C19_prevailing_exact and C19_minimum_exact say for every accepted text which exception is raised and when: ValueError for the directions EE EW WE WW, ZeroDivisionError for a fraction over zero of miles, TypeError for a fraction of kilometres without a whole number."
  },
  {
   "property": "C20",
   "status": "proved",
   "theorems": [
    "C20_temperatures"
   ],
   "note": "Both sides, exact value and the three conversions."
  },
  {
   "property": "C21",
   "status": "proved",
   "theorems": [
    "C21_hectopascals",
    "C21_inches"
   ],
   "note": ""
  },
  {
   "property": "C22",
   "status": "partial",
   "theorems": [
    "C22_unitless_partial",
    "C22_unitless_refuted",
    "C22_above"
   ],
   "note": "Proved up to 2500; false above, e.g. 2992 decodes to about 101320 hPa. C22_above: above 2500 the value is always that of whole inches, a hundred times the A group."
  },
  {
   "property": "C23",
   "status": "proved",
   "theorems": [
    "C23_clouds"
   ],
   "note": ""
  },
  {
   "property": "C24",
   "status": "partial",
   "theorems": [
    "C24_partial",
    "C24_refuted",
    "C24_exact"
   ],
   "note": "False as stated: 0VC is accepted and has no meaning. Proved for every accepted cloud group without 0VC. C24_exact: the description is missing exactly when the group begins with 0VC."
  },
  {
   "property": "C25",
   "status": "proved",
   "theorems": [
    "C25_runway_range"
   ],
   "note": ""
  },
  {
   "property": "C26",
   "status": "proved",
   "theorems": [
    "C26_weather"
   ],
   "note": ""
  },
  {
   "property": "C27",
   "status": "proved",
   "theorems": [
    "C27_recent"
   ],
   "note": ""
  },
  {
   "property": "C28",
   "status": "proved",
   "theorems": [
    "C28_windshear_group",
    "C28_windshear_list",
    "C28_C41_body_partial",
    "C28_C41_groups_partial",
    "C47_round_trip_partial",
    "C28_exact_text",
    "C28_exact_groups"
   ],
   "note": "Decoding of each group, the list, joining the written words into one group, and (C47) every windshear list of a whole well-formed report. C28_exact_*: for every METAR body of words without blanks, exactly which groups the handlers see."
  },
  {
   "property": "C29",
   "status": "proved",
   "theorems": [
    "C29_sea_state",
    "C29_runway_state"
   ],
   "note": ""
  },
  {
   "property": "C30",
   "status": "proved",
   "theorems": [
    "C30_report_time"
   ],
   "note": "Every year 1000..9999, month, day 01..31, hour 00..24 and minute, written with ASCII digits (the pattern's \\d also accepts other Unicode decimal digits)."
  },
  {
   "property": "C31",
   "status": "partial",
   "theorems": [
    "C31_metar",
    "C31_taf_partial",
    "C31_refuted",
    "C31_taf_default",
    "C31_taf_exact"
   ],
   "note": "METAR: proved for every code and every pair of clocks (years 1000-9999). TAF: the result is the same when the report has a time and a validity group; false otherwise (C31_refuted: the default time and validity come from the clock). C31_taf_default gives the dates shown instead, and C31_taf_exact: read in two different months of the clock, an accepted forecast is the same exactly when it has both groups."
  },
  {
   "property": "C32",
   "status": "partial",
   "theorems": [
    "C32_trend_period_partial",
    "C32_trend_window",
    "C32_trend_period_refuted",
    "C32_exact"
   ],
   "note": "Holds for every report time and every group in the window except 2400 in the trend of a report of 23:xx, which gives 01:00 instead of midnight (refuted with a witness). Window inside years 1..9999. C32_exact gives the time for every coded hour: any hour other than those of the report and of the next hour is read as the second hour after the report."
  },
  {
   "property": "C33",
   "status": "partial",
   "theorems": [
    "C33_validity_partial",
    "C33_validity_refuted",
    "C33_exact",
    "C33_when_right"
   ],
   "note": "Holds when both coded days are the issue day or the day after; a day two days after issue is put on the day after (refuted with a witness). C33_exact gives the dates for every coded day, and C33_when_right shows they are right exactly when the first such day is the issue day or the day after."
  },
  {
   "property": "C34",
   "status": "proved",
   "theorems": [
    "C34_fm_start",
    "C34_terminates"
   ],
   "note": "Every validity start in years 1..9999, every FM group, any text after the minutes; OverflowError exactly when the date would lie after year 9999."
  },
  {
   "property": "C35",
   "status": "partial",
   "theorems": [
    "C35_changes_partial",
    "C35_changes_refuted",
    "C35_exact"
   ],
   "note": "Holds for every list of changes whose indicators were all recognised; after a change with a malformed FM group the next FM or BECMG change raises AttributeError (refuted with a witness). C35_exact says for every list what adding a change comes to: AttributeError exactly when it is FM or BECMG and the last change before it that is not TEMPO or PROB has no recognised indicator, RangeError exactly when the list is full otherwise, and the chained list in every other case."
  },
  {
   "property": "C36",
   "status": "partial",
   "theorems": [
    "C36_sections",
    "C36_nothing_lost",
    "C36_in_order_partial",
    "C36_in_order_refuted",
    "C36_in_order_exact"
   ],
   "note": "Unique cut into pieces and the exact sections for every raw code without |; nothing lost with at most one remark. In order only when no trend follows the remark: such a trend moves before it (witness). C36_in_order_exact: the non-empty sections written one after another are the raw code exactly when no piece but the last begins with RMK."
  },
  {
   "property": "C37",
   "status": "proved",
   "theorems": [
    "C37_nothing_lost",
    "C37_sections",
    "C37_glued_refuted",
    "C38_header_partial"
   ],
   "note": "Every raw code without | loses nothing (up to spaces written as underscores inside joined groups); group by group the cut is exact for words without _ and | when the last group of the body and the groups of the changes do not end in TAF (otherwise the next change stays glued to it: C37_glued_refuted); the group after TAF always stays in the body, and whatever follows a header TAF CCCC ddhhmmZ the station is read (C38_header_partial)."
  },
  {
   "property": "C38",
   "status": "partial",
   "theorems": [
    "C38_header_partial",
    "C38_refuted"
   ],
   "note": "For every station, any words after the time and any layout, a returned report has that station code and that time code; the one exception, after AMD or COR, are stations beginning with FM or equal to PROB, which are always lost (C38_refuted, for all of them)."
  },
  {
   "property": "C39",
   "status": "partial",
   "theorems": [
    "C39_refuted"
   ],
   "note": "False: every well-formed METAR with COR written after its first word loses its station and its time (C39_refuted is universal over well-formed reports). Nothing to prove positively except that COR after the time is read, which is part of C47."
  },
  {
   "property": "C40",
   "status": "proved",
   "theorems": [
    "C40_metar",
    "C40_metar_same",
    "C40_taf",
    "C40_taf_same"
   ],
   "note": "For every clock, code, year and month, for METAR and TAF; any other exception is the same with and without truncation."
  },
  {
   "property": "C41",
   "status": "partial",
   "theorems": [
    "C28_C41_body_partial",
    "C28_C41_groups_partial",
    "C41_section_partial",
    "C41_refuted",
    "C41_exact_text",
    "C41_exact_groups"
   ],
   "note": "Up to three mixed visibilities anywhere but at the end of a section; at the end an empty group is added and read as a weather (refuted). C41_exact_*: for every section of words without blanks, exactly which groups the handlers see (the first three pairs joined, what is glued to the fraction split off, the empty group at the end)."
  },
  {
   "property": "C42",
   "status": "proved",
   "theorems": [
    "C42_joined",
    "C42_changes",
    "C42_exact_text",
    "C42_exact_groups"
   ],
   "note": "Every text with up to five pairs: joined, cut, and for every report that parses each pair starts one change with indicator code PROBnn TEMPO [validity]. C42_exact_*: for every list of words without blanks, exactly how probabilities are joined and which groups the handlers of a change see."
  },
  {
   "property": "C43",
   "status": "proved",
   "theorems": [
    "C43_body"
   ],
   "note": "For every raw code, clock, year and month."
  },
  {
   "property": "C44",
   "status": "proved",
   "theorems": [
    "C44_failures"
   ],
   "note": "Every exception is given a cause written over the text of the report without its equal signs; TypeError needs a fraction of kilometres or a trend period, RangeError at least three trend words. Hypotheses: clock and report year from 1000 to 9999, month from 1 to 12."
  },
  {
   "property": "C45",
   "status": "partial",
   "theorems": [
    "C45_partial",
    "C45_refuted",
    "C45_exact",
    "C45_refused",
    "C45_absorbed"
   ],
   "note": "False as stated: TEMPO, TEMPO and BECMG raise RangeError. Proved: reports with at most two trend words never do. C45_exact gives the trends of every accepted report, whatever its words: at most one inner TEMPO and one inner BECMG open a trend. C45_refused: with both, no report is accepted. C45_absorbed: without BECMG every later TEMPO is a word of the second trend."
  },
  {
   "property": "C46",
   "status": "partial",
   "theorems": [
    "C46_failures",
    "C46_partial",
    "C46_counts_partial",
    "C46_refuted",
    "C46_changes",
    "C46_refused"
   ],
   "note": "False as stated: nine changes or three temperatures of a kind raise RangeError, a PROB other than 30 and 40 raises AttributeError. Proved: every exception has a cause written over the text of the report without its equal signs, its month and the clock, and a report without any cause is read. Hypotheses: clock and report year from 1000 to 9999, month from 1 to 12. C46_changes gives the changes of every accepted forecast; C46_refused: more than eight are always refused."
  },
  {
   "property": "C47",
   "status": "partial",
   "theorems": [
    "C47_round_trip_partial",
    "C47_refuted"
   ],
   "note": "Every report built in the documented order from well-formed groups, in any layout and with any remark: no unparsed groups, every field is exactly its group, absent groups are empty. Excluded because false (refuted): a mixed number of miles at the end of the body, a pressure without prefix and unit, a station beginning with RMK. The clock must show a year of four digits."
  },
  {
   "property": "C48",
   "status": "partial",
   "theorems": [
    "C48_round_trip_partial",
    "C48_refuted"
   ],
   "note": "Every well-formed TAF (type, AMD/COR, station, time, NIL, validity, CNL, wind, visibility, weathers, clouds, TX/TN, FM/BECMG/TEMPO/PROB/PROB TEMPO changes), laid out with any whitespace and an optional final =, parses, every field and every change carries its group with its decoded value, the FM periods are chained, nothing is left unparsed and the sections are the body and the changes. Excluded, with witnesses in C48_refuted and C33_validity_refuted: weather the visibility slot takes when there is no visibility, a mixed visibility as last group, a station that opens a change after AMD/COR, days two or more after the reference; also more groups than the lists hold."
  },
  {
   "property": "C49",
   "status": "proved",
   "theorems": [
    "C49_unique",
    "C49_lookup",
    "C49_metar",
    "C49_taf",
    "C49_countries",
    "C49_refuted"
   ],
   "note": "For every METAR and TAF that is returned, over the tables of the library: the fields of the station are those of the one row with its ICAO code, or all None when there is none. Every ICAO code stands in one row. The class called directly with the text None finds a row (C49_refuted), but no report has that station. Four country codes of the table (CS, DN, TP, AN) have no name."
  },
  {
   "property": "C50",
   "status": "proved",
   "theorems": [
    "C50_labels"
   ],
   "note": "Exact: labels for at most ten items, IndexError beyond."
  },
  {
   "property": "C51",
   "status": "partial",
   "theorems": [
    "C51_groups_partial",
    "C51_changes_partial",
    "C51_metar_partial",
    "C51_taf_partial",
    "C51_refuted"
   ],
   "note": "Proved for every group class and for every entry of the report dictionaries except MetarPressure (no entry) and TafTemperature (always None), for which C51_refuted shows the code is never there."
  },
  {
   "property": "C52",
   "status": "partial",
   "theorems": [
    "C52_classes_partial",
    "C52_metar_partial",
    "C52_taf_partial",
    "C52_refuted"
   ],
   "note": "Every class built without a match, and every group without code of every parsed METAR and TAF, has only empty accessors. Missing: the text of Station and Cloud, and the default dates of Time, Valid and change periods (C52_refuted)."
  },
  {
   "property": "C53",
   "status": "partial",
   "theorems": [
    "C53_partial",
    "C53_refuted",
    "C53_exact",
    "C53_accepted",
    "C53_any_text",
    "C53_lines"
   ],
   "note": "False: a trend with FM/TL/AT prints. Proved: a METAR that is read and prints contains a text such as FM1200. The TAF code contains no print. Exactly: an accepted METAR prints the lines of its trends in order, one for each time group of a trend, and nothing exactly when no trend has a time. Printing.v follows the lines up to an exception: for every text, accepted or refused, something is printed only if the text holds a time of a trend, there are at most six lines, and each is a time or None."
  },
  {
   "property": "C54",
   "status": "proved",
   "theorems": [
    "C54_wind_variation"
   ],
   "note": ""
  },
  {
   "property": "C55",
   "status": "partial",
   "theorems": [
    "C55_taf_temperature_partial",
    "C55_taf_temperature_refuted",
    "C55_exact",
    "C55_when_right"
   ],
   "note": "Value and kind exact for every group; the date holds when the coded day is the issue day or the day after, refuted for two days after. C55_exact gives the date for every coded day, C55_when_right says exactly when it is right."
  },
  {
   "property": "C56",
   "status": "partial",
   "theorems": [
    "C56_round_trip_partial",
    "C56_refuted"
   ],
   "note": "Every well-formed report with at most two trends (NOSIG only first), any layout, any remark: nothing unparsed, the body as in C47, each trend holds its indicator, times and groups; one line is printed per time group. Excluded because false (refuted): a mixed number of miles at the end of a trend, three trends, 2400 in the trend of a report of 23 hours; and what C47 excludes."
  },
  {
   "property": "C57",
   "status": "proved",
   "theorems": [
    "C57_distance",
    "C57_pressure",
    "C57_speed",
    "C57_direction",
    "C57_temperature"
   ],
   "note": "Factors of the statement are the units' definitions (pi to twenty decimals). Numbers outside 2^-300..2^300 are excluded: there underflow and overflow set in."
  },
  {
   "property": "C58",
   "status": "proved",
   "theorems": [
    "C58_metar",
    "C58_taf"
   ],
   "note": "For every accepted text, no hypothesis beyond acceptance. C58_case reaches the bounds to within one unit. The high bound of the pressure is the behaviour recorded in C21/C22: a unitless number above 2500 is taken as inches undivided."
  },
  {
   "property": "C59",
   "status": "proved",
   "theorems": [
    "C59_metar",
    "C59_taf",
    "C59_characters",
    "C59_metar_groups",
    "C59_taf_groups",
    "C59_metar_lists",
    "C59_taf_lists"
   ],
   "note": "The reader of the specification is an executable RFC 8259 reader, tried in C59_reader on texts it must take and refuse. The bounds of C58 keep every float out of NaN, infinity and scientific notation. C59_characters: reading strings as UTF-16 units loses no character. C59_*_groups and C59_*_lists say it of the to_json of every group, number, trend, change, indicator and list of an accepted report."
  },
  {
   "property": "C60",
   "status": "proved",
   "theorems": [
    "C60_metar",
    "C60_taf"
   ],
   "note": "The relation between the raw code and the sections is C36 and C37."
  },
  {
   "property": "C61",
   "status": "partial",
   "theorems": [
    "C61_metar_partial",
    "C61_taf_partial",
    "C61_refuted",
    "C61_replaced",
    "C61_ended"
   ],
   "note": "For every accepted METAR and TAF the text is exactly the lines of the fields, in order (also every trend). Exceptions are in the statements and shown by C61_refuted: a trend whose indicator is not translated (TEMPOX) gets its AT time twice, the groups of a TAF change other than its indicator are not in the text, and an FM change ended by a later one is shown with its first end. The line of a pressure that was replaced by a second one stays. C61_replaced: that line is the value in hectopascals of the word that was replaced, and there is none without a second pressure. C61_ended: the line of an FM change ends with the forecast or with the validity group behind FM, whatever comes later; every other change has its own text."
  },
  {
   "property": "C62",
   "status": "partial",
   "theorems": [
    "C62_number",
    "C62_clock",
    "C62_metar_partial",
    "C62_taf_partial",
    "C62_refuted",
    "C62_station_metar",
    "C62_station_taf"
   ],
   "note": "Numbers, times and all groups of every accepted METAR and TAF. Refuted for values that are zero: they lose their unit, a cloud at height zero is said to be at undefined height, a sea temperature or wave height of zero is said to be absent. Runway states and windshears are C28 and C29; that the times of a report are real moments, so that C62_clock applies, is C63. C62_station_*: the text of the station is that of its row in the table."
  },
  {
   "property": "C63",
   "status": "proved",
   "theorems": [
    "C63_metar",
    "C63_taf",
    "C63_metar_month",
    "C63_taf_month",
    "C63_refuted",
    "C63_duration"
   ],
   "note": "C63_refuted is a finding, not part of the statement: the validity of a TAF without a validity group (a NIL TAF, say) has nothing to do with its time, because it is made before the time is read and never again; likewise a TAF without a time ignores the year and month asked for. With C62_clock every time of an accepted report is written as year-month-day hour:minute:00. The bounds of the trend times are reached (Example); of the 61 days 60 are. C63_duration: the duration of every validity is the number of minutes from its beginning to its end."
  },
  {
   "property": "C64",
   "status": "proved",
   "theorems": [
    "C64_metar",
    "C64_taf",
    "C64_metar_indicators",
    "C64_taf_indicators",
    "C64_metar_settled",
    "C64_taf_settled",
    "C64_refuted"
   ],
   "note": "SpecDict lists the rows (path and value) of every group from its attributes and lays a dictionary out as rows; C64_metar and C64_taf say that the rows of the dictionary are a permutation of the listed ones. C64_*_settled: equal dictionaries come from equal groups. C64_refuted shows what the dictionary lacks: the code of the pressure, the codes of TAF temperatures, the times of a change. C64_*_indicators say the same of the dictionaries of the indicators of trends and changes, which the report's dictionary leaves out."
  },
  {
   "property": "C65",
   "status": "partial",
   "theorems": [
    "C65_metar_partial",
    "C65_taf_partial",
    "C65_metar_steady",
    "C65_taf_steady",
    "C65_metar_entries",
    "C65_taf_entries",
    "C65_metar_refuted",
    "C65_taf_refuted"
   ],
   "note": "Queries.v models each question as an answer together with the report afterwards. Proved for every accepted report and every sequence of questions in which no call of should_be_cavok answered False: all answers are those of a fresh report, and a METAR is left exactly as it was. Whatever was asked: text, flight rules, indexing, codes, loops over anything but clouds, and every dictionary entry but that of the trends or changes keep their answers. The full statement is false: should_be_cavok of a trend leaves its loop over the clouds early, and the next as_dict of the trend or of the whole report loses the first layers (C65_metar_refuted, C65_taf_refuted). Loops left early by the caller are C05; callers that alter the lists handed out are not modelled."
  },
  {
   "property": "C66",
   "status": "proved",
   "theorems": [
    "C66_metar_layout",
    "C66_taf_layout",
    "C66_metar_body",
    "C66_taf_body",
    "C66_metar_appended",
    "C66_taf_appended",
    "C66_metar_trend",
    "C66_taf_change",
    "C66_metar_unread",
    "C66_metar_remark",
    "C66_metar_remark_refuted"
   ],
   "note": "C66_metar_remark is stated for remarks without a group that begins like a trend; C66_metar_remark_refuted shows that the restriction is needed."
  },
  {
   "property": "C67",
   "status": "proved",
   "theorems": [
    "C67_metar",
    "C67_taf",
    "C67_accepted_refuted",
    "C67_accepted_metar",
    "C67_accepted_taf"
   ],
   "note": "Proved for all texts by relating the two runs group by group. undated and undated_taf list every attribute except years, months, dates of trends and changes, and the texts written from them. The third theorem refutes that acceptance is independent of the month. C67_accepted_metar: a METAR accepted for one month is accepted for another before 9999 exactly when that month has the day of its time. C67_accepted_taf says the same for forecasts: accepted for another month iff it has no time or that month has its day."
  },
  {
   "property": "C68",
   "status": "proved",
   "theorems": [
    "C68_metar",
    "C68_metar_only",
    "C68_taf",
    "C68_taf_only"
   ],
   "note": "Messages.v models the text of the exception. The specification reads the list back by cutting at blanks and dropping commas; unambiguous because unparsed groups contain no blank (from C60)."
  },
  {
   "property": "C69",
   "status": "proved",
   "theorems": [
    "C69_speci",
    "C69_omitted",
    "C69_omitted_refuted"
   ],
   "note": "C69_omitted assumes a station word that begins with no RMK and ends in no WS; C69_omitted_refuted shows the latter is needed."
  },
  {
   "property": "C70",
   "status": "proved",
   "theorems": [
    "C70_metar",
    "C70_taf",
    "C70_section",
    "C70_odd",
    "C70_at_end_refuted"
   ],
   "note": "C70_at_end_refuted shows that the condition on numbers of miles is needed."
  },
  {
   "property": "C71",
   "status": "proved",
   "theorems": [
    "C71_metar",
    "C71_trends",
    "C71_taf"
   ],
   "note": "End to end from the raw text. The exclusions of the documented form are those of C47, C48 and C56 (metar_wf, trends_wf, taf_wf)."
  },
  {
   "property": "C72",
   "status": "proved",
   "theorems": [
    "C72_metar",
    "C72_trends",
    "C72_truncated",
    "C72_taf",
    "C72_changes",
    "C72_words",
    "C72_taf_refuted",
    "C72_misspelt_refuted"
   ],
   "note": "The visibility and the temperatures of a TAF body are excepted in the statement: C72_taf_refuted shows that they accept any ending, and C72_misspelt_refuted that a misspelt wind is read as a visibility. The indicator of a trend or change is excepted too."
  },
  {
   "property": "C73",
   "status": "proved",
   "theorems": [
    "C73_metar",
    "C73_taf",
    "C73_bare_refuted"
   ],
   "note": "An equivalence; C73_bare_refuted shows that with a lone = sign the weathers and the unparsed groups can differ too."
  },
  {
   "property": "C74",
   "status": "proved",
   "theorems": [
    "C74_accepts_metar",
    "C74_accepts_taf",
    "C74_rejects",
    "C74_metar",
    "C74_taf"
   ],
   "note": "Values given to the setter range over None, bool, str, float, list and dict (the model's pyval; an int, which Python also rejects, is not among them). The example shows CAVOK set beside a visibility of 2000 m and flight rules LIFR: the setter looks at nothing else."
  },
  {
   "property": "C75",
   "status": "proved",
   "theorems": [
    "C75_engine",
    "C75_cursor",
    "C75_match_metar",
    "C75_match_trend",
    "C75_match_taf",
    "C75_match_change",
    "C75_metar",
    "C75_taf"
   ],
   "note": "Steps are those of the engine of SpecWork.v: one for every part of the pattern entered and every character repeated over. CPython's own engine has shortcuts, so its count is of the same order but not the same. The totals count at least what is done: an exception ends the loops earlier. Not counted: strptime and the blank-collapsing substitution of __str__ inside the handlers."
  },
  {
   "property": "C76",
   "status": "proved",
   "theorems": [
    "C76_metar",
    "C76_head",
    "C76_taf",
    "C76_both"
   ],
   "note": "C76_metar and C76_taf compare two reports of a kind, C76_both a METAR with a TAF; alike (SpecByCode) covers winds, visibilities, phenomena and layers of bodies, trends and changes. C76_period (an Example) shows that the period of a trend is rightly left out: it depends on the time of the report as well."
  },
  {
   "property": "C77",
   "status": "proved",
   "theorems": [
    "C77_wind",
    "C77_visibility",
    "C77_runway",
    "C77_weather",
    "C77_cloud",
    "C77_temperature",
    "C77_pressure",
    "C77_windshear",
    "C77_header",
    "C77_change"
   ],
   "note": "The documented forms are those of SpecGroups, which the decoding claims use; the forms beyond them are in SpecGrammar. Words outside ASCII (where \\d takes further digits) and words with a line break (where $ stops before a last one) are left out; no word of a report holds a line break."
  },
  {
   "property": "C78",
   "status": "proved",
   "theorems": [
    "C78_metar",
    "C78_metar_head",
    "C78_taf",
    "C78_taf_head"
   ],
   "note": "The converse direction of C15-C30: from the stored group to the documented form. Pressures without a prefix keep the finding of C22 (above 2500 they are divided by 0.02953). For the time the year has four digits and the month is a real one."
  },
  {
   "property": "C79",
   "status": "proved",
   "theorems": [
    "C79_trend",
    "C79_change",
    "C79_metar",
    "C79_metar_kinds",
    "C79_taf",
    "C79_taf_kinds"
   ],
   "note": "Disjointness by a computed check over sets of characters that is proved sound; the shared words are characterised exactly. C79_taken shows the effect: a second wind of a TAF, or MIFG in place of a visibility, is read as a visibility."
  },
  {
   "property": "C80",
   "status": "proved",
   "theorems": [
    "C80_metar",
    "C80_windshear",
    "C80_trend",
    "C80_taf",
    "C80_change"
   ],
   "note": "Codes that contain blanks in the place of underscores typed by the user are covered as in C78. The degenerate texts are exact: WS RWY says nothing, one WS ALL Rnn says 'all runways', a missing runway or extent prints 'None', an unknown first word of a change prints 'None from ...'."
  },
  {
   "property": "C81",
   "status": "proved",
   "theorems": [
    "C81_metar",
    "C81_taf",
    "C81_metar_parts",
    "C81_taf_parts"
   ],
   "note": "Extends C71 from reports in the documented form to all accepted texts, and C07, C09, C10, C12 from lists of decoded groups to the parts of accepted reports. The values of the exceptional codes are decided by C76."
  },
  {
   "property": "C82",
   "status": "proved",
   "theorems": [
    "C82_metar",
    "C82_taf_time",
    "C82_taf_validity",
    "C82_taf_extremes",
    "C82_taf_changes",
    "C82_taf_ends"
   ],
   "note": "The codes are of printable ASCII characters (typed); nothing is asked of the rest of the report. The theorem on the time of a TAF asks for a year of four digits. A validity group after FM is described by any text the pattern accepts, since the report does not keep its code."
  },
  {
   "property": "C83",
   "status": "proved",
   "theorems": [
    "C83_metar",
    "C83_accepted"
   ],
   "note": "An equivalence, where C44 only says what must be true for each exception. The words of the body and the trends are those of the model's sectioning and sanitizing functions (specified by C01, C28, C36, C41 and C45); acceptance by a pattern is the model's matcher on the translated regular expressions. Years have four digits and the clock is one Python can have."
  },
  {
   "property": "C84",
   "status": "proved",
   "theorems": [
    "C84_taf",
    "C84_accepted",
    "C84_sight"
   ],
   "note": "An equivalence, where C46 only says what must be true for each exception. December 9999 is left out because the dates of validities, temperatures and indicators can then run past the last year of the calendar (OverflowError, see C46). The words of the body and the changes are those of the model's splitting and sanitizing functions (specified by C01, C37, C41 and C42); acceptance by a pattern is the model's matcher on the translated regular expressions."
  },
  {
   "property": "C85",
   "status": "proved",
   "theorems": [
    "C85_metar",
    "C85_taf",
    "C85_one"
   ],
   "note": "The specification (SpecGiven, with the relation takes of SpecRefused) uses the regular expressions as data but neither the dispatcher nor the handlers. C83 and C84 say which reports are accepted; C76, C78, C81 and C82 derive the values from the codes."
  },
  {
   "property": "C86",
   "status": "proved",
   "theorems": [
    "C86_metar_code",
    "C86_taf_code",
    "C86_metar_back",
    "C86_taf_back",
    "C86_metar_same",
    "C86_taf_same",
    "C86_metar_months",
    "C86_taf_months",
    "C86_metar_settled",
    "C86_taf_settled",
    "C86_surrogates_refuted"
   ],
   "note": "stored reads the text with the RFC 8259 reader of C59 and joins surrogate pairs as json.loads does. C86_*_back are equivalences. C86_*_settled ask that the strings of both dictionaries (which include the station data) have no surrogates. C86_*_months: the month is had back too, for a TAF if its time was read; C86_timeless shows that otherwise it is not in the JSON."
  },
  {
   "property": "C87",
   "status": "proved",
   "theorems": [
    "C87_metar",
    "C87_metar_text",
    "C87_taf",
    "C87_taf_text",
    "C87_index",
    "C87_index_text",
    "C87_cardinal",
    "C87_cardinal_error",
    "C87_cavok",
    "C87_cavok_type"
   ],
   "note": "The lists of runway ranges, weathers, clouds and windshears never overflow while a report is read (C43_body), so only three texts of add are reachable. The list filled in the body of a TAF when RangeError is raised there is taken by the model to be one of temperatures; C87_taf_text shows that three words of one kind were given whenever that text is. The word of a code is compared with the text only if it consists of capital letters, since otherwise ', ' would count as quoted."
  },
  {
   "property": "C88",
   "status": "proved",
   "theorems": [
    "C88_rows",
    "C88_longitude_refuted",
    "C88_metar",
    "C88_taf",
    "C88_codes",
    "C88_change_words",
    "C88_metar_known",
    "C88_taf_known",
    "C88_lost_refuted"
   ],
   "note": "The table is Stations.v, a transcription of stations.py and countries.py. The exceptions (the longitude of CYYW, the lost FM stations) are part of the statement; C88_case also shows that such a TAF with a validity group raises."
  }
 ]
}
