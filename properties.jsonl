{"id": "C01", "title": "Raw code normalisation is layout independent", "statement": "For a report given as a list of groups, `raw_code` is the groups joined by single spaces, whatever whitespace separates them (a single space, newline or tab, or any run of two or more whitespace characters), whatever whitespace surrounds the text, and with or without a `=` terminator glued to the last group. `raw_code` never contains a newline, a tab or a `=`.", "quantifier": "every list of groups (strings without whitespace or `=`), every choice of separators and padding; for the second sentence every input string", "why_tests_cant": "Tests feed a handful of indentations; the claim ranges over all layouts of all reports.", "anchors": ["aeromet_py/reports/models/base/report.py: Report.__init__, Report.raw_code"]}
{"id": "C02", "title": "Raw code normalisation is idempotent", "statement": "Parsing the `raw_code` of a report again gives the same `raw_code`.", "quantifier": "every non-empty input string", "why_tests_cant": "One input is one sample; the failing inputs (text where `=` stands between whitespace) are not in the test corpus.", "anchors": ["aeromet_py/reports/models/base/report.py: Report.__init__, Report.raw_code"]}
{"id": "C03", "title": "Group dispatch is ordered, greedy and loses nothing", "statement": "When a section is parsed, every space separated group is either given to exactly one handler - the first one, in the listed order and after the last handler used, whose pattern accepts the group - or it is reported in `unparsed_groups`; unparsed groups appear in their original order with their multiplicity; handlers fire in strictly increasing list order.", "quantifier": "every list of handlers, every section string", "why_tests_cant": "Depends on the interplay of an index, a counter and list.remove over arbitrary group sequences, including repeated groups.", "anchors": ["aeromet_py/reports/models/base/__init__.py: parse_section", "aeromet_py/reports/metar.py: Metar._parse_body", "aeromet_py/reports/taf.py: Taf._parse_body"]}
{"id": "C04", "title": "Bounded group lists never exceed their capacity", "statement": "A group list created for n items holds at most n items after any history of operations; its items are exactly the first n added, in order; adding to a full list raises RangeError and changes nothing.", "quantifier": "every capacity, every finite sequence of add / iterate / index operations", "why_tests_cant": "Quantifies over unbounded histories.", "anchors": ["aeromet_py/reports/models/base/group.py: GroupList.__init__, add, __len__, items, codes"]}
{"id": "C05", "title": "Iterating a group list visits every item once", "statement": "A `for` loop over a group list yields each of its items exactly once in order, each time it is run.", "quantifier": "every group list, every history of previous complete or abandoned loops", "why_tests_cant": "The failure needs a previously abandoned loop on the same object; tests always iterate fresh lists to the end.", "anchors": ["aeromet_py/reports/models/base/group.py: GroupList.__iter__, __next__"]}
{"id": "C06", "title": "Indexing a group list", "statement": "`list[i]` returns the i-th item for 0 <= i < len (and counts from the end for negative i >= -len), raises RangeError when i is at least the capacity, and IndexError for every other index.", "quantifier": "every group list, every integer index", "why_tests_cant": "All integers, all lengths.", "anchors": ["aeromet_py/reports/models/base/group.py: GroupList.__getitem__"]}
{"id": "C07", "title": "should_be_cavok follows its documented rule", "statement": "On a report whose cloud list has not been partially iterated, should_be_cavok() returns True exactly when no weather is reported, prevailing visibility is known and at least 10 km, there is at least one cloud group, no broken/overcast layer lies at or below 1500 ft, no layer is CB or TCU, no layer (vertical visibility included) lies below 5000 ft, and no layer is an undefined vertical visibility.", "quantifier": "every report (any weather list, visibility, cloud list)", "why_tests_cant": "A decision table over unbounded lists and all heights, including float rounding at the 1500 ft and 5000 ft limits.", "anchors": ["aeromet_py/reports/models/metar/should_be_cavok.py: ShouldBeCavokMixin.should_be_cavok", "aeromet_py/reports/models/base/cloud.py: CloudList.ceiling"]}
{"id": "C08", "title": "should_be_cavok is repeatable", "statement": "Calling should_be_cavok() twice in a row on the same report gives the same answer.", "quantifier": "every report", "why_tests_cant": "Needs a second call on the same object; tests call it once per report.", "anchors": ["aeromet_py/reports/models/metar/should_be_cavok.py: ShouldBeCavokMixin.should_be_cavok", "aeromet_py/reports/models/base/group.py: GroupList.__next__"]}
{"id": "C09", "title": "should_be_cavok never raises", "statement": "should_be_cavok() returns a boolean for every report that was parsed successfully.", "quantifier": "every parsed report", "why_tests_cant": "The failing inputs (BKN or OVC without a height) are not in the test corpus.", "anchors": ["aeromet_py/reports/models/base/cloud.py: CloudList.ceiling"]}
{"id": "C10", "title": "Flight rules classification", "statement": "flight_rules is determined by prevailing visibility and by the height of the first broken, overcast or vertical visibility layer (the ceiling): the first of VLIFR (below 60 m / 800 m), LIFR (150 / 1600), IFR (300 / 5000), MVFR (900 / 8000), VFR for which the ceiling or the visibility is below its limit; None when both are unknown.", "quantifier": "every report, every visibility and every cloud list", "why_tests_cant": "A threshold table over all visibilities and all cloud heights, at every boundary.", "anchors": ["aeromet_py/reports/models/base/flight_rules.py: FlightRulesMixin.flight_rules"]}
{"id": "C11", "title": "Flight rules are monotone", "statement": "Lowering the visibility or the ceiling never yields a less restrictive flight category.", "quantifier": "every pair of reports ordered by visibility and ceiling", "why_tests_cant": "A relational claim over pairs of inputs.", "anchors": ["aeromet_py/reports/models/base/flight_rules.py: FlightRulesMixin.flight_rules"]}
{"id": "C12", "title": "Flight rules are defined whenever there is data", "statement": "flight_rules is None only if both prevailing visibility and ceiling are unknown.", "quantifier": "every report", "why_tests_cant": "The failing inputs (visibility of 20 km or more without ceiling, e.g. 15SM) are not in the test corpus.", "anchors": ["aeromet_py/reports/models/base/flight_rules.py: FLIGHT_RULES, FlightRulesMixin.flight_rules"]}
{"id": "C13", "title": "Cardinal directions", "statement": "cardinal_direction is the one of the 16 compass points whose 22.5 degree sector (lower edge included, upper edge excluded) contains the direction; it is defined for every direction between 0 and 360 degrees and None only when there is no numeric direction.", "quantifier": "every direction value in [0, 360] a direction code can denote", "why_tests_cant": "All directions including sector edges and the wrap around north.", "anchors": ["aeromet_py/reports/models/base/wind.py: Direction.cardinal, COMPASS_DIRS"]}
{"id": "C14", "title": "Cardinal code round trip", "statement": "Direction.from_cardinal(c).cardinal == c for each of the 16 compass points, and from_cardinal raises ValueError for every other string.", "quantifier": "every string", "why_tests_cant": "All strings.", "anchors": ["aeromet_py/reports/models/base/wind.py: Direction.from_cardinal"]}
{"id": "C15", "title": "Wind group decoding", "statement": "A wind group dddff[f][Gff[f]]KT is decoded into exactly its direction in degrees, speed and gust in knots; VRB sets variable and no direction; slashes give None; the group code is preserved.", "quantifier": "every direction 000..360 in tens, VRB, ///; every speed and gust of two or three digits", "why_tests_cant": "Millions of groups.", "anchors": ["aeromet_py/utils/metar_regexp.py: MetarRegExp.WIND", "aeromet_py/reports/models/metar/wind.py: MetarWind", "aeromet_py/reports/models/base/wind.py: Direction, Speed, Wind"]}
{"id": "C16", "title": "Wind in metres per second", "statement": "A wind group in MPS is reported in knots equal to the coded value divided by 0.51444444 (relative error at most 1e-15), and converting back to m/s gives the coded value within 1e-9.", "quantifier": "every speed and gust 000..999", "why_tests_cant": "All speeds, through a float -> repr -> float detour.", "anchors": ["aeromet_py/reports/models/base/wind.py: Wind._mps2kt, Speed", "aeromet_py/utils/conversions.py"]}
{"id": "C17", "title": "Visibility in metres and CAVOK", "statement": "A four digit visibility is decoded to that many metres, except 9999 which means 10000; CAVOK sets the cavok flag and 10000 m; a direction suffix gives that compass direction; //// gives None.", "quantifier": "every four digit value, every direction suffix among the 8 points", "why_tests_cant": "80000 groups.", "anchors": ["aeromet_py/reports/models/metar/visibility.py: MetarPrevailingVisibility, MetarMinimumVisibility", "aeromet_py/reports/models/base/distance.py: Distance"]}
{"id": "C18", "title": "Visibility in statute miles and kilometres", "statement": "nSM, n/dSM and n n/dSM (two groups) decode to (n + n/d) * 1852 metres within 1e-6 m; nKM decodes to n*1000 m; a leading M or P does not change the value.", "quantifier": "every one or two digit integer part, every single digit fraction with non-zero denominator", "why_tests_cant": "All combinations, through float division, repr and reparse.", "anchors": ["aeromet_py/reports/models/metar/visibility.py: MetarPrevailingVisibility._from_sea_miles", "aeromet_py/utils/parser.py: sanitize_visibility"]}
{"id": "C19", "title": "Every visibility group accepted by the pattern decodes without raising", "statement": "Building a visibility from any string its pattern accepts succeeds.", "quantifier": "every string accepted by MetarRegExp.VISIBILITY / MINIMUM_VISIBILITY", "why_tests_cant": "Failing inputs (4000EW, 1/0SM, 1/2KM) are not in the test corpus.", "anchors": ["aeromet_py/reports/models/metar/visibility.py", "aeromet_py/utils/metar_regexp.py: VISIBILITY, MINIMUM_VISIBILITY"]}
{"id": "C20", "title": "Temperatures decoding and conversion", "statement": "A temperatures group decodes to exactly the signed whole degrees coded (M or - means negative), // XX or MM give None, each side independently; kelvin, fahrenheit and rankine readings are the exact conversion within 1e-9.", "quantifier": "every temperature and dewpoint in -99..99 and the missing forms", "why_tests_cant": "40000 groups and float conversions.", "anchors": ["aeromet_py/reports/models/metar/temperatures.py: MetarTemperatures", "aeromet_py/reports/models/base/temperature.py: Temperature", "aeromet_py/utils/conversions.py"]}
{"id": "C21", "title": "Pressure decoding with units", "statement": "Qdddd / QNHdddd decode to exactly dddd hPa; Adddd and ...INS decode to (dddd/100)/0.02953 hPa within 1e-9; slashes give None.", "quantifier": "every four digit value", "why_tests_cant": "All values, through multiplication, fixed point formatting and reparse.", "anchors": ["aeromet_py/reports/models/metar/pressure.py: MetarPressure", "aeromet_py/reports/models/base/pressure.py: Pressure"]}
{"id": "C22", "title": "Pressure without units is plausible", "statement": "A pressure group without unit letters decodes to the same pressure as the corresponding Q group (up to 2500) or A group (above 2500).", "quantifier": "every four digit value", "why_tests_cant": "The unitless inHg branch is never exercised by the tests.", "anchors": ["aeromet_py/reports/models/metar/pressure.py: MetarPressure"]}
{"id": "C23", "title": "Cloud group decoding", "statement": "A cloud group decodes to its documented cover text, oktas, cloud type and height: hhh gives hhh*30.48 m within 1e-9 and hhh*100 ft within 1e-9; a missing or /// height gives None.", "quantifier": "every cover, every height 000..999 and the missing forms, every type", "why_tests_cant": "All combinations.", "anchors": ["aeromet_py/reports/models/base/cloud.py: Cloud.from_metar, SKY_COVER, CLOUD_TYPE, _set_oktas", "aeromet_py/utils/metar_regexp.py: CLOUD"]}
{"id": "C24", "title": "Every accepted cloud cover has a meaning", "statement": "Every cloud group accepted by the pattern has a cover description.", "quantifier": "every string accepted by MetarRegExp.CLOUD", "why_tests_cant": "The pattern accepts 0VC (zero), which no test uses.", "anchors": ["aeromet_py/reports/models/base/cloud.py: SKY_COVER", "aeromet_py/utils/metar_regexp.py: CLOUD"]}
{"id": "C25", "title": "Runway visual range decoding", "statement": "A runway range group decodes to its runway name (side spelled out), low and optional high range in metres (feet converted with 0.3048 within 1e-9), M/P limits and trend.", "quantifier": "every runway, every 2 to 4 digit range, every limit, unit and trend", "why_tests_cant": "Millions of groups.", "anchors": ["aeromet_py/reports/models/metar/runway_range.py: MetarRunwayRange, set_runway_name"]}
{"id": "C26", "title": "Weather decoding", "statement": "A weather group decodes to the documented texts of its intensity, descriptor and phenomenon, and its printed form is those texts in order separated by single spaces.", "quantifier": "every combination accepted by the weather pattern", "why_tests_cant": "1350 combinations.", "anchors": ["aeromet_py/reports/models/metar/weather.py: MetarWeather", "aeromet_py/utils/metar_regexp.py: WEATHER"]}
{"id": "C27", "title": "Recent weather decoding", "statement": "A recent weather group decodes to the documented texts of its parts.", "quantifier": "every combination accepted by the recent weather pattern", "why_tests_cant": "4320 combinations.", "anchors": ["aeromet_py/reports/models/metar/recent_weather.py: MetarRecentWeather", "aeromet_py/utils/metar_regexp.py: RECENT_WEATHER"]}
{"id": "C28", "title": "Windshear groups", "statement": "`WS Rdd[LCR]`, `WS RWYdd[LCR]` and `WS ALL RWY` are each recognised as one group; names lists the runways in order; all_runways is True exactly when the only group is WS ALL RWY.", "quantifier": "every runway designator, every list of up to three windshear groups", "why_tests_cant": "All lists of groups.", "anchors": ["aeromet_py/reports/models/metar/windshear.py", "aeromet_py/utils/parser.py: sanitize_windshear"]}
{"id": "C29", "title": "Sea state and runway state decoding", "statement": "Sea state groups decode to temperature, documented state text or wave height (decimetres / 10); runway state groups decode to documented deposit, contamination, depth (mm for 01..90) and friction (0.nn for 00..90) texts, SNOCLO and CLRD.", "quantifier": "every group accepted by the two patterns", "why_tests_cant": "All combinations.", "anchors": ["aeromet_py/reports/models/metar/sea_state.py: MetarSeaState", "aeromet_py/reports/models/metar/runway_state.py: MetarRunwayState"]}
{"id": "C30", "title": "Report time", "statement": "With a four digit year and a month 1..12 given, a time group ddhhmmZ gives exactly that date and time, and the constructor raises ValueError exactly when no such date-time exists (day beyond the month, hour 24).", "quantifier": "every year 1000..9999, month, and time group the pattern accepts", "why_tests_cant": "All calendar dates, leap years.", "anchors": ["aeromet_py/reports/models/base/time.py: Time.from_metar, Time.__init__"]}
{"id": "C31", "title": "Results do not depend on the wall clock when year and month are given", "statement": "Metar(code, year, month) and Taf(code, year, month) give the same result whenever they are run.", "quantifier": "every code, year, month and every pair of clock readings", "why_tests_cant": "Tests run at one clock reading.", "anchors": ["aeromet_py/reports/models/base/time.py: Time.__init__", "aeromet_py/reports/models/taf/valid.py: TafValidMixin.__init__", "aeromet_py/reports/metar.py", "aeromet_py/reports/taf.py"]}
{"id": "C32", "title": "METAR trend periods", "statement": "A trend time group FMhhmm / TLhhmm / AThhmm sets the corresponding period to a time with that hour and minute inside the two hour window starting at the report time.", "quantifier": "every report time, every trend time group whose time lies in the two hour window", "why_tests_cant": "All 1440 report times and all groups, day and month changes, 2400.", "anchors": ["aeromet_py/reports/models/metar/trend_indicator.py: MetarTrendIndicator.add_period"]}
{"id": "C33", "title": "TAF validity dates", "statement": "The valid period of a TAF starts and ends on the days and hours coded in its ddhh/ddhh group (hour 24 meaning midnight at the end of that day), at the first such days not before the issue day.", "quantifier": "every issue time, every valid group", "why_tests_cant": "All dates; 30 hour forecasts issued just before midnight end two calendar days later.", "anchors": ["aeromet_py/reports/models/taf/valid.py: Valid.from_taf"]}
{"id": "C34", "title": "FM change start", "statement": "An FMddhhmm change starts at the first date not before the first day of the TAF validity whose day of month is dd, at hh:mm; finding it always terminates.", "quantifier": "every validity start, every FM group accepted by the pattern", "why_tests_cant": "A loop over calendar days, all months and leap years.", "anchors": ["aeromet_py/reports/models/taf/change_indicator.py: TafChangeIndicator.__init__"]}
{"id": "C35", "title": "TAF change list keeps order and chains FM periods", "statement": "Adding a change keeps all earlier changes in order and only touches the end of the last FM change that is followed only by TEMPO/PROB changes: when the new change is FM or BECMG its end becomes one hour before the start of the new change.", "quantifier": "every sequence of changes", "why_tests_cant": "A pop/re-add loop over arbitrary lists.", "anchors": ["aeromet_py/reports/models/taf/change_forecast.py: TafChangesForecasted.add", "aeromet_py/reports/models/taf/change_indicator.py: TafChangeIndicator.reset_until_period"]}
{"id": "C36", "title": "METAR sections", "statement": "For a report without `|`, the sections returned contain, in order, exactly the text of the raw code: body, then trend pieces starting at NOSIG/TEMPO/BECMG, and the last RMK piece; nothing but the separating spaces is lost when there is at most one remark.", "quantifier": "every raw code without `|`", "why_tests_cant": "All strings and keyword placements.", "anchors": ["aeromet_py/reports/metar.py: Metar._handle_sections", "aeromet_py/utils/split.py: split_sentence"]}
{"id": "C37", "title": "TAF sections", "statement": "For a TAF, body followed by the change sections is the (sanitised) raw code; a station starting with FM directly after `TAF` stays in the body.", "quantifier": "every raw code without `|`", "why_tests_cant": "All strings and keyword placements.", "anchors": ["aeromet_py/reports/taf.py: Taf._handle_sections", "aeromet_py/utils/split.py: split_sentence"]}
{"id": "C38", "title": "Station survives for every well-formed TAF header", "statement": "`TAF [AMD|COR] CCCC ddhhmmZ ...` yields station code CCCC for every ICAO code.", "quantifier": "every station code, every modifier", "why_tests_cant": "The failing inputs (AMD/COR with stations FMxx) are not in the test corpus.", "anchors": ["aeromet_py/reports/taf.py: Taf._handle_sections"]}
{"id": "C39", "title": "Correction flag order in METAR", "statement": "`METAR COR CCCC ddhhmmZ` (the ICAO order) yields the station and the time.", "quantifier": "every station and time", "why_tests_cant": "No test uses COR before the station.", "anchors": ["aeromet_py/reports/metar.py: Metar._parse_body"]}
{"id": "C40", "title": "Truncation", "statement": "With truncate=True the constructor raises ParserError exactly when truncate=False would return a report with unparsed groups, and otherwise returns the same report.", "quantifier": "every code, year, month", "why_tests_cant": "A relational claim over pairs of runs and all inputs.", "anchors": ["aeromet_py/reports/metar.py: Metar._parse_weather_trend", "aeromet_py/reports/taf.py: Taf._parse_changes_forecasted"]}
{"id": "C41", "title": "Mixed statute mile visibility keeps the other groups", "statement": "Writing a mixed visibility as two groups (`2 1/2SM`) anywhere in a section yields the same groups as the single token, and no extra group.", "quantifier": "every section containing mixed visibility groups", "why_tests_cant": "The failing layout (mixed visibility as the last groups) creates a phantom empty weather; tests never end a section with it.", "anchors": ["aeromet_py/utils/parser.py: sanitize_visibility", "aeromet_py/reports/models/base/__init__.py: parse_section"]}
{"id": "C42", "title": "PROB TEMPO joining", "statement": "In a TAF with at most five `PROBnn TEMPO` pairs, each pair starts one single change whose indicator code is `PROBnn TEMPO ...`.", "quantifier": "every TAF text with up to five such pairs", "why_tests_cant": "All placements.", "anchors": ["aeromet_py/utils/parser.py: sanitize_change_indicator", "aeromet_py/reports/taf.py: Taf._handle_sections"]}
{"id": "C43", "title": "METAR body parsing never overflows its lists", "statement": "Parsing any METAR body never raises RangeError: at most 3 weathers, 4 cloud layers, 3 runway ranges and 3 windshears are stored.", "quantifier": "every body string", "why_tests_cant": "All inputs.", "anchors": ["aeromet_py/reports/metar.py: Metar._parse_body"]}
{"id": "C44", "title": "METAR constructor failure modes", "statement": "Metar(code, year, month) with valid year and month either returns a report or raises one of: AssertionError (only for the empty string), ValueError (only for an impossible date or direction suffix), ZeroDivisionError (only for a n/0SM visibility), TypeError, RangeError (only for more than two trends), ParserError (only when truncate), OverflowError (only at the end of year 9999).", "quantifier": "every code string", "why_tests_cant": "All inputs.", "anchors": ["aeromet_py/reports/metar.py: Metar"]}
{"id": "C45", "title": "METAR accepts any number of trends", "statement": "A METAR with three trend groups is parsed.", "quantifier": "every METAR with well formed trends", "why_tests_cant": "The failing inputs are not in the test corpus.", "anchors": ["aeromet_py/reports/metar.py: Metar._parse_weather_trend", "aeromet_py/reports/models/metar/weather_trend.py: MetarWeatherTrends"]}
{"id": "C46", "title": "TAF constructor failure modes", "statement": "Taf(code, year, month) with a valid time and valid groups returns a report for any number of changes and temperatures.", "quantifier": "every TAF", "why_tests_cant": "More than eight changes, more than two maxima and unknown PROB values are not in the test corpus.", "anchors": ["aeromet_py/reports/taf.py: Taf", "aeromet_py/reports/models/taf/change_forecast.py", "aeromet_py/reports/models/taf/temperature.py"]}
{"id": "C47", "title": "Well-formed METAR round trip", "statement": "A METAR assembled in the documented group order from any well-formed type, station, time, modifier, wind, variation, visibilities, runway ranges, weathers, clouds, temperatures, pressure, recent weather, windshears, sea state and runway state is parsed with no unparsed groups and every field carrying exactly its group.", "quantifier": "every combination of present groups and their values", "why_tests_cant": "An exponential space of reports.", "anchors": ["aeromet_py/reports/metar.py: Metar"]}
{"id": "C48", "title": "Well-formed TAF round trip", "statement": "A TAF assembled in the documented group order is parsed with no unparsed groups in the body and every field carrying exactly its group.", "quantifier": "every combination of present groups and their values", "why_tests_cant": "An exponential space of reports.", "anchors": ["aeromet_py/reports/taf.py: Taf"]}
{"id": "C49", "title": "Station lookup", "statement": "The station of a report is the database row with that ICAO code, which is unique; unknown codes give None for every field.", "quantifier": "every station code; every database row", "why_tests_cant": "All 9390 rows and all codes.", "anchors": ["aeromet_py/reports/models/base/station.py: Station", "aeromet_py/database/stations.py", "aeromet_py/database/countries.py"]}
{"id": "C50", "title": "Dictionary form of lists", "statement": "as_dict of a group list labels the items first, second, ... in order without raising, for every list a report can hold.", "quantifier": "every list of at most 10 items", "why_tests_cant": "All lengths.", "anchors": ["aeromet_py/reports/models/base/group.py: GroupList.as_dict"]}
{"id": "C51", "title": "Dictionary forms carry the group code", "statement": "as_dict of a group contains its code under the key `code`.", "quantifier": "every group of every report", "why_tests_cant": "TafTemperature and MetarPressure override or drop the key.", "anchors": ["aeromet_py/reports/models/taf/temperature.py: TafTemperature.as_dict", "aeromet_py/reports/models/metar/pressure.py: MetarPressure"]}
{"id": "C52", "title": "Absent groups are empty", "statement": "For a group not present in the report every accessor is None (or False / empty), its code is None, its length 0 and its text empty.", "quantifier": "every group class", "why_tests_cant": "All classes and accessors.", "anchors": ["aeromet_py/reports/models/metar/*.py", "aeromet_py/reports/models/taf/*.py", "aeromet_py/reports/models/base/*.py"]}
{"id": "C53", "title": "Parsing is silent", "statement": "Parsing a report writes nothing to standard output.", "quantifier": "every report", "why_tests_cant": "Tests do not look at stdout.", "anchors": ["aeromet_py/reports/models/metar/weather_trend.py: ChangePeriod._handle_time_period"]}
{"id": "C54", "title": "Wind variation groups decode exactly", "statement": "A wind variation group dddVddd decodes to exactly its two directions in degrees, neither of them variable, and the group code is preserved.", "quantifier": "every pair of directions 000..360 in steps of ten degrees", "why_tests_cant": "37 x 37 pairs and their float directions; tests check one or two of them", "anchors": ["aeromet_py/utils/metar_regexp.py: MetarRegExp.WIND_VARIATION", "aeromet_py/reports/models/metar/wind_variation.py: MetarWindVariation"]}
{"id": "C55", "title": "TAF temperatures", "statement": "A forecast temperature group TXtt/ddhhZ or TNtt/ddhhZ (M before the digits for negative values) decodes to exactly that temperature, goes to the maximum or the minimum list accordingly, and its time is the coded hour on the first date not before the issue day whose day of month is dd.", "quantifier": "every issue time and every temperature group the pattern accepts", "why_tests_cant": "Calendar arithmetic over all issue dates and days; tests check a handful of groups.", "anchors": ["aeromet_py/reports/models/taf/temperature.py: TafTemperature.__init__", "aeromet_py/utils/taf_regexp.py: TafRegExp.TEMPERATURE"]}
{"id": "C56", "title": "Well-formed METAR trends round trip", "statement": "For every well-formed METAR followed by trends (NOSIG, or TEMPO and BECMG with FM, TL and AT times, wind, visibility, weathers and clouds in the documented order) and an optional remark, in any layout, parsing leaves nothing unparsed, the body is read as without the trends, and every trend in order holds exactly its indicator, its times inside the two hours from the report on, and its groups.", "quantifier": "every well-formed report, every list of trends, every layout", "why_tests_cant": "Unbounded family of texts; depends on cutting the sections, on cutting the trends with a count of one, on slot order and on calendar arithmetic at once.", "anchors": ["aeromet_py/reports/metar.py: _handle_sections, _parse_weather_trend", "aeromet_py/reports/models/metar/weather_trend.py: ChangePeriod", "aeromet_py/reports/models/metar/trend_indicator.py: MetarTrendIndicator", "aeromet_py/utils/split.py: split_sentence"]}
{"id": "C57", "title": "Unit conversions are accurate", "statement": "Every conversion of a distance, pressure, speed, direction or temperature to another unit is the value multiplied by (for temperatures, also shifted by) the constants of the unit's definition, up to rounding; the three factors given in the code to a few digits (inches of mercury, miles per hour, metres per second) and the gradian are right to 1e-6, 1e-6, 1e-8 and 2e-9. An absent value stays absent.", "quantifier": "every binary64 number that is zero or of magnitude 2^-300 to 2^300, both signs", "why_tests_cant": "2^63 values; rounding and cancellation in temperature formulas.", "anchors": ["aeromet_py/utils/conversions.py: Conversions", "aeromet_py/reports/models/base/distance.py", "aeromet_py/reports/models/base/pressure.py", "aeromet_py/reports/models/base/temperature.py", "aeromet_py/reports/models/base/wind.py"]}
{"id": "C58", "title": "Every number of an accepted report is finite and within its physical bounds", "statement": "For every text accepted by Metar or Taf, each number of the resulting object (in the body and in every trend or change) is either absent or a finite number within fixed bounds: directions 0 to 360 degrees, wind and gust 0 to 1942 knots, prevailing visibility 0 to 200017 m, minimum visibility and runway visual ranges 0 to 10000 m, cloud heights 0 to 30450 m, temperatures between -99 and 99 degrees, wave heights 0 to 100 m, pressure 0 to 338605 hPa. None is an infinity or not a number.", "quantifier": "every text accepted by the constructors, every year, month and clock", "why_tests_cant": "The accepted texts are infinite, and the bounds follow from the digits every regular expression can capture combined with the rounding of every arithmetic operation.", "anchors": ["aeromet_py/reports/models/base/numeric.py", "aeromet_py/reports/models/metar/wind.py", "aeromet_py/reports/models/metar/visibility.py", "aeromet_py/reports/models/metar/pressure.py", "aeromet_py/reports/models/taf/temperature.py"]}
{"id": "C59", "title": "to_json of an accepted report is JSON that says exactly what as_dict says", "statement": "For every text accepted by Metar or Taf, as_dict and to_json succeed; the text returned by to_json consists of printable ASCII characters, is a JSON text by RFC 8259, repeats no member name, and reading it gives back the dictionary: the same structure, the same strings (as UTF-16 units, from which the characters are recovered), the same booleans and nulls, and numbers that read back as exactly the floats of the dictionary.", "quantifier": "every text accepted by the constructors, every year, month and clock", "why_tests_cant": "Arbitrary Unicode text reaches the JSON through the code, the sections and the unparsed groups, every float a report can hold must survive its decimal form, and NaN or Infinity anywhere would make the text invalid.", "anchors": ["aeromet_py/reports/models/base/report.py: Report.to_json", "aeromet_py/reports/models/base/group.py: Group.to_json, GroupList.to_json", "aeromet_py/reports/models/base/numeric.py: Numeric.to_json", "aeromet_py/reports/models/base/wind.py: Wind.to_json"]}
{"id": "C60", "title": "Every word of a report is accounted for", "statement": "For every text accepted by Metar or Taf: apart from joining a number with a fraction of miles, the words of a windshear group and PROBnn with TEMPO, every blank separated word of the body is either in the unparsed groups or is the code of a field, and the codes, read in the order of the fields, are those words in the order of the text; only a METAR pressure can be replaced by a second one. The texts of the trends and changes are the parts of their section in order, and the same holds inside each of them, where the indicator with its times is one code (after FMddhhmm a validity period is dropped from the code). The unparsed groups of the report are those of the body followed by those of the trends or changes.", "quantifier": "every text accepted by the constructors, every year, month and clock", "why_tests_cant": "A word can be lost in the sanitisers, in the dispatcher, in one of the handlers that stores a wrong or no code, in the list of changes that is taken apart and put together again, or in the collection of the unparsed groups, for any combination of groups of any text.", "anchors": ["aeromet_py/reports/models/base/report.py", "aeromet_py/reports/models/base/__init__.py: parse_section, parse_section, sanitize_visibility, sanitize_windshear, sanitize_change_indicator", "aeromet_py/reports/metar.py: Metar._parse_body, Metar._parse_weather_trend", "aeromet_py/reports/taf.py: Taf._parse_body, Taf._parse_changes_forecasted", "aeromet_py/reports/models/taf/change_forecast.py: TafChangesForecasted.add"]}
{"id": "C61", "title": "The text of a report is the texts of its groups, in order", "statement": "str(report) of every accepted METAR and TAF is, one per line and without blanks around it, the texts of the groups the report has (and of nothing else), in the order of the groups: for a METAR type, station, time, modifier, wind, wind variation, visibility, minimum visibility, runway ranges, weather, clouds, temperatures, pressure, recent weather, windshear, sea state, runway state and the texts of the trends; the text of a trend is the line of its indicator with its times followed by the lines of its wind, visibility, weather and clouds; for a TAF the type, modifier, station, time, missing mark, validity, cancellation, wind, visibility, weather, clouds, temperatures and the changes with all their groups.", "quantifier": "every text that Metar or Taf accepts, every clock, year, month and truncate flag", "why_tests_cant": "The text is written piece by piece while the groups are read, by some twenty handlers, and a later period rewrites an earlier line; tests compare a handful of whole texts. Only a proof over all accepted texts shows that no field is ever without its line or with a line of another value.", "anchors": ["aeromet_py/reports/models/base/string_attribute.py: StringAttributeMixin", "aeromet_py/reports/metar.py: the _handle_* methods, Metar._parse_weather_trend", "aeromet_py/reports/models/metar/weather_trend.py: Forecast, ChangePeriod", "aeromet_py/reports/taf.py: the _handle_* methods, Taf._parse_changes_forecasted", "aeromet_py/reports/models/taf/change_forecast.py: ChangeForecasted.__str__"]}
{"id": "C62", "title": "The text of every group says the values of the group", "statement": "The text of every group of an accepted report says the values of the group: every number is the one-decimal number nearest to the value (ties to even, with its sign), followed by the unit it is in (knots, degrees with the right point of the compass, kilometres converted from metres, metres, feet converted from metres, degrees Celsius, hectopascals); absent parts leave no trace and no doubled blanks; the weather is the terms of the group in order with single blanks between them; times are written year-month-day hour:minute:00.", "quantifier": "every text that Metar or Taf accepts (groups, trends and changes), every clock, year, month and truncate flag; the number format for every finite binary64 number; the time format for every real moment", "why_tests_cant": "Tests compare a few literal texts. Rounding to one decimal after a unit conversion, ties, signs, the sector boundaries of the compass and the removal of absent parts by textual replacement can only be shown right for all values by proof.", "anchors": ["aeromet_py/reports/models/base/numeric.py: Numeric.__str__", "aeromet_py/reports/models/base/wind.py: Direction.__str__, Speed.__str__, Wind.__str__", "aeromet_py/reports/models/base/cloud.py: Cloud.__str__", "aeromet_py/reports/models/metar/weather.py: MetarWeather.__str__", "aeromet_py/reports/models/metar/sea_state.py: MetarSeaState.__str__", "aeromet_py/reports/models/metar/temperatures.py: MetarTemperatures.__str__"]}
{"id": "C63", "title": "Every moment of an accepted report is a real moment, near the report", "statement": "Every date and time in an accepted report is a real moment of the calendar. In a METAR every trend begins at the time of the report and ends two hours later, and FM, TL and AT times lie in the three hours that begin with the hour of the report. In a TAF a validity group begins at a whole hour today or tomorrow and ends at a whole hour at most two days later, temperatures are at a whole hour today or tomorrow, a change begins at most 61 days after the validity, and a change with a validity group of its own begins today or tomorrow. The year and month of the report are those asked for, or those of the clock; a TAF without a time or without a validity group takes the first day of the month of the clock.", "quantifier": "every text that Metar or Taf accepts, every clock, year, month and truncate flag; the year and month for years 1000 to 9999", "why_tests_cant": "Month ends, leap days, year ends, hour 24 and days that do not exist in the next month are combined with any issue time by repeated additions and replacements; tests try a handful of dates.", "anchors": ["aeromet_py/reports/models/base/time.py: Time.__init__, Time.from_metar", "aeromet_py/reports/models/metar/trend_indicator.py: MetarTrendIndicator.add_period", "aeromet_py/reports/models/taf/valid.py: Valid.from_taf", "aeromet_py/reports/models/taf/temperature.py: TafTemperature.__init__", "aeromet_py/reports/models/taf/change_indicator.py: TafChangeIndicator"]}
{"id": "C64", "title": "The dictionary of a report says its attributes", "statement": "For every METAR and TAF that is accepted, as_dict returns a dictionary whose leaves, each with the path of keys and list positions leading to it, are exactly the attributes of the report in the stated units: every group with its values, units and code, every list of groups numbered first, second, ..., trends and changes with their own wind, visibility, weathers, clouds and flight rules, moments as texts. Two accepted reports with the same dictionary agree in all of this. Left out are the code of the pressure, the codes of the temperatures of a TAF and the times of trends and changes.", "quantifier": "every accepted METAR and TAF, whatever its groups, clock, year and month; every pair of such reports", "why_tests_cant": "tests compare the dictionaries of some reports; that no attribute is lost, swapped or overwritten by an update, for any combination of groups, needs all reports", "anchors": ["aeromet_py/reports/metar.py", "aeromet_py/reports/taf.py", "aeromet_py/reports/models/base/group.py", "aeromet_py/reports/models/metar/weather_trend.py", "aeromet_py/reports/models/taf/temperature.py"]}
{"id": "C65", "title": "Asking a report does not change what it says", "statement": "A METAR or TAF that has been read answers every question the same way no matter what it was asked before: its text, dictionary, JSON, flight rules, should_be_cavok, the items of its lists (by index or by a complete loop), and the same questions put to each of its trends or changes.", "quantifier": "for all accepted reports, all years and months, and all finite sequences of such questions", "why_tests_cant": "A test asks a few questions once; the lists of the code are their own iterators and share a cursor, so whether an answer changes depends on the sequence of questions asked before.", "anchors": ["aeromet_py/reports/models/base/group.py:51-125", "aeromet_py/reports/models/metar/weather_trend.py:24-66", "aeromet_py/reports/models/metar/should_be_cavok.py:26-54", "aeromet_py/reports/models/base/flight_rules.py:40-65", "aeromet_py/reports/models/taf/change_forecast.py:32-36", "aeromet_py/reports/metar.py:287-310", "aeromet_py/reports/taf.py:212-229"]}
{"id": "C66", "title": "The parts of a report do not interfere", "statement": "Two accepted METARs with the same body section have the same body attributes whatever trends, remark and truncation flag stand beside them; two accepted TAFs with the same body likewise. A trend is determined by its own text and the time of its report, a change by its own text and the validity of its report, whatever other trends or changes there are, except that the end of an FM change depends on what follows it. The remark is never read: reports with equal body and trend sections have the same outcome and the same attributes except raw code and sections; so appending RMK and groups none of which begins like a trend changes nothing else. The same groups written in any layout of blanks and with or without the final = are the same report. That appending any remark changes nothing is false: a trend word inside the remark opens a trend.", "quantifier": "for all report texts, clocks, years, months and truncation flags", "why_tests_cant": "It relates pairs of reports with unbounded texts; a test compares only the pairs written down.", "anchors": ["aeromet_py/reports/models/base/report.py", "aeromet_py/reports/metar.py", "aeromet_py/reports/taf.py", "aeromet_py/utils/parser.py", "aeromet_py/utils/split.py"]}
{"id": "C67", "title": "The year and month given only date the report", "statement": "A METAR accepted for two different months has the same raw code, sections, unparsed groups and groups, the same day, hour and minute, and the same trends with the same hours and minutes; a TAF accepted for two different months has the same groups, day, hour and minute, and the same temperatures, validity and changes with the same hours and minutes. Only dates and the texts written from them differ. That acceptance does not depend on the month is false: a day that the month lacks is a ValueError.", "quantifier": "for all report texts, clocks, truncation flags and pairs of years 1000 to 9999 and months 1 to 12", "why_tests_cant": "It compares every report in every pair of months; a test compares the few pairs written down.", "anchors": ["aeromet_py/reports/metar.py", "aeromet_py/reports/taf.py", "aeromet_py/reports/models/base/time.py", "aeromet_py/reports/models/taf/valid.py", "aeromet_py/reports/models/metar/trend_indicator.py", "aeromet_py/reports/models/taf/change_forecast.py"]}
{"id": "C68", "title": "A ParserError names the groups that failed", "statement": "When a METAR or TAF read with truncation raises ParserError, the text of the exception says 'failed while processing', then exactly the unparsed groups of the report in order, separated by a comma and a blank, then 'from:' and the raw code; the list can be read back from the text without ambiguity. No other outcome has such a text.", "quantifier": "for all report texts, clocks, years and months", "why_tests_cant": "The tests compare the message of single reports; that the groups can be read back needs every list of unparsed groups.", "anchors": ["aeromet_py/reports/metar.py", "aeromet_py/reports/taf.py", "aeromet_py/reports/models/base/errors.py"]}
{"id": "C69", "title": "METAR or SPECI: the first word decides nothing but the type", "statement": "A report whose groups follow METAR and one with the same groups after SPECI, in any layout, are refused with the same exception or read alike: only the type, the first line of the readable text and the first word of the raw code and of the body section differ. Leaving METAR out in front of a station word gives the same report without that first line, unless the station ends in WS and is joined with a runway after it.", "quantifier": "all environments, years, months and truncate flags, all lists of groups without = and |, all layouts of them", "why_tests_cant": "The test suite reads a handful of SPECI reports and never compares them with the METAR of the same groups; the claim is about every list of groups, including those that fail.", "anchors": ["aeromet_py/reports/metar.py", "aeromet_py/reports/models/base/type.py", "aeromet_py/reports/models/base/report.py", "aeromet_py/utils/parser.py"]}
{"id": "C70", "title": "A word that is no group changes nothing but the unparsed groups", "statement": "A word that no pattern accepts, put between two groups of the body of a METAR or TAF (neither inside nor at the edge of a number of miles written in two words), leaves every other group, the readable text, the trends and the changes as they were, and a report that was refused is refused with the same exception; the word appears once more among the unparsed groups. With truncation the report is refused. In every section, trends and changes included, the same holds of the groups it is split into. Every word that begins with a small letter, a bracket or one of $ # * % & ! ? . , : ; @ ~ is such a word.", "quantifier": "all environments, years, months, all lists of groups that are kept apart as meant, all places, all such words, all layouts", "why_tests_cant": "The test suite has one report with unknown groups; the claim is about every report, every place and every unknown word.", "anchors": ["aeromet_py/reports/models/base/__init__.py: parse_section", "aeromet_py/reports/metar.py", "aeromet_py/reports/taf.py"]}
{"id": "C71", "title": "Flight rules and CAVOK follow from the text of a report", "statement": "For every METAR, trend, TAF and change of a TAF written in the documented form (as in C47, C48 and C56), in any layout, the parsed object's flight rules are the category of the written ceiling and visibility, and should_be_cavok answers True exactly when there is no written weather, the written visibility is 10 km or more, some layer is written, every broken or overcast layer lies above 1500 feet, and no layer is CB, TCU or below 5000 feet (nor a vertical visibility where `is` compares as equality). Each trend and each change is judged by its own groups only.", "quantifier": "all reports in the documented form, all layouts, all clocks with a year of four digits", "why_tests_cant": "The verdicts combine the regexes, float conversions, list order and iterator cursor over an unbounded set of texts; tests sample a few reports.", "anchors": ["aeromet_py/reports/models/base/flight_rules.py", "aeromet_py/reports/models/metar/should_be_cavok.py", "aeromet_py/reports/metar.py", "aeromet_py/reports/taf.py"]}
{"id": "C72", "title": "The fields show only characters of the code", "statement": "Whatever text is given, every code shown by the fields of an accepted METAR body, of the weather groups of its trends and of a TAF's changes consists of at most 19 characters, each an upper-case letter A-Z, a decimal digit, + - / _ or a blank; the same holds for a TAF body except its visibility and temperatures, whose patterns have no end mark and show whatever follows. No closed pattern accepts a word with another character or of more than 19 characters, and a METAR accepted with truncate=True has no other characters than these and blanks in its body.", "quantifier": "all texts, all years, months, clocks and station tables, truncation on or off", "why_tests_cant": "Quantifies over every character of Unicode and every length of word; tests try a handful of misspellings.", "anchors": ["aeromet_py/utils/metar_regexp.py", "aeromet_py/utils/taf_regexp.py", "aeromet_py/reports/models/base/__init__.py", "aeromet_py/reports/metar.py", "aeromet_py/reports/taf.py"]}
{"id": "C73", "title": "Reading the raw code again gives the same report", "statement": "Parsing the raw_code of an accepted METAR or TAF again with the same year, month, truncation and clock gives a report equal in every attribute, exactly when the original text had something besides blanks and = signs and no whitespace-separated group of it consisted of = signs only.", "quantifier": "all texts, years, months, clocks, station tables, truncation on or off", "why_tests_cant": "Equality of whole reports over every text, with the exact set of exceptions.", "anchors": ["aeromet_py/reports/models/base/report.py: Report.__init__, Report.raw_code", "aeromet_py/reports/metar.py", "aeromet_py/reports/taf.py"]}
{"id": "C74", "title": "Setting CAVOK by hand changes one entry", "statement": "prevailing_visibility.cavok of a METAR or TAF can be set to True and False and to nothing else (any other value raises TypeError). Setting it changes the cavok entry of the prevailing visibility in the dictionary and no other entry, and no answer to any other question: text, flight rules, should_be_cavok, weathers, clouds, trends or changes.", "quantifier": "all values given, all METARs and TAFs (parsed or not), all questions, all clocks and station tables", "why_tests_cant": "Says that nothing else changes, over every report and every question.", "anchors": ["aeromet_py/reports/models/metar/visibility.py: MetarPrevailingVisibility.cavok, MetarPrevailingMixin", "aeromet_py/reports/metar.py: Metar.as_dict", "aeromet_py/reports/taf.py: Taf.as_dict"]}
{"id": "C75", "title": "Reading a report takes work in proportion to its length (no catastrophic backtracking)", "statement": "Counted on a backtracking engine that enters the parts of a pattern from left to right, tries alternatives in order and repeats greedily, matching any handler pattern of a METAR, a trend, a TAF or a change period against any text takes at most a fixed number of steps (2251, 789, 744, 744) whatever the length of the text; and all the matches, searches and substitutions done while a METAR or a TAF is read (normalisation, sectioning, the three sanitising passes, and every group against every pattern) together take at most 30000 (METAR) or 23000 (TAF) steps per character, counting four characters more than the text has. The counted engine finds exactly what re.match finds, and the counted loop uses up the patterns as parse_section does.", "quantifier": "for all texts of any length over any characters, all patterns of the four pattern tables, all positions, all clocks, years and months", "why_tests_cant": "Catastrophic backtracking shows on special texts only, and on long ones; tests time a few ordinary reports, while this bounds every text of every length.", "anchors": ["aeromet_py/utils/metar_regexp.py", "aeromet_py/utils/taf_regexp.py", "aeromet_py/utils/parser.py:6-75", "aeromet_py/utils/split.py", "aeromet_py/reports/models/base/__init__.py: parse_section", "aeromet_py/reports/models/base/report.py"]}
{"id": "C76", "title": "The code of a group decides its values", "statement": "In any two accepted reports (two METARs, two TAFs, a METAR and a TAF, or one report and itself) two winds, two visibilities, two weather phenomena or two cloud layers with the same code have exactly the same values, in bodies, trends and change periods alike and whatever the clock, year and month. The same holds for the modifier, wind variation, minimum visibility, runway ranges, temperatures, pressure, recent weather, windshears, sea state and runway state of two METARs, for the station given one table of stations, and for the time of two METARs given one clock, year and month.", "quantifier": "all pairs of report texts accepted by Metar or Taf, all clocks, years, months and truncate flags", "why_tests_cant": "it relates every pair of reports; the four patterns for winds and visibilities of METAR and TAF differ and their agreement has to be shown for every text both of them match", "anchors": ["aeromet_py/utils/metar_regexp.py: WIND", "aeromet_py/utils/metar_regexp.py: VISIBILITY", "aeromet_py/utils/taf_regexp.py: WIND", "aeromet_py/utils/taf_regexp.py: VISIBILITY", "aeromet_py/reports/models/base/__init__.py: parse_section"]}
{"id": "C77", "title": "The patterns accept exactly the documented groups, and beyond them only a listed few", "statement": "For every word of ASCII characters without a line break: WIND_VARIATION, RUNWAY_RANGE, RUNWAY_STATE, WEATHER, RECENT_WEATHER, PRESSURE, SEA_STATE, TYPE, STATION, TIME, MODIFIER, AMD_COR, NIL, CANCELLED, VALID, TREND_TIME_PERIOD and the TAF's WIND match it exactly when it is a group of the documented form. WIND matches one more form (P before a missing speed), MINIMUM_VISIBILITY and VISIBILITY the four directions EE, EW, WE, WW, VISIBILITY odd forms with units (units M and U, no number, a fraction over zero, a fraction of kilometres, a misplaced underscore), CLOUD the spelling 0VC, TEMPERATURES missing values with a sign, WINDSHEAR an unnamed runway and all of a named one. The TAF's VISIBILITY and TEMPERATURE and the words TEMPO, BECMG and FMddhhmm match with anything behind them; CAVOK, NOSIG and PROB30/40 do not.", "quantifier": "all words over ASCII without a line break, of any length, and the 27 patterns of the handlers", "why_tests_cant": "an equivalence over infinitely many words: that nothing else is accepted cannot be sampled", "anchors": ["aeromet_py/utils/metar_regexp.py", "aeromet_py/utils/taf_regexp.py"]}
{"id": "C78", "title": "Every group of an accepted report is a documented one with the documented values, or one of a listed few", "statement": "In every accepted METAR each stored group with a code (of ASCII characters without a line break) - winds, visibilities, weather and clouds of the body and of the trends, wind variation, minimum visibility, runway ranges, temperatures, pressure, recent weather, windshears, sea state, runway state, station, modifier and time - is written in the documented form and has the values of that form, except for: a wind with P before a missing speed, a visibility with units in an odd form (but never a fraction over zero miles, a bare fraction of kilometres or a direction such as EW, which raise), an overcast spelled 0VC, a missing temperature with a sign, and the windshears WS RWY and WS ALL Rnn. The same holds for winds, visibilities, weather, clouds, station and modifier of every accepted TAF, where winds are always whole and the visibility of the body may have something behind it.", "quantifier": "all report texts accepted by Metar or Taf, all clocks, years, months and truncate flags, all stored groups", "why_tests_cant": "it starts from any accepted text rather than from chosen groups: nothing stored in any report has a meaning outside the list", "anchors": ["aeromet_py/utils/metar_regexp.py", "aeromet_py/utils/taf_regexp.py", "aeromet_py/reports/models/base/__init__.py: parse_section", "aeromet_py/reports/models/metar"]}
{"id": "C79", "title": "Words that fit two kinds of groups", "statement": "In a trend of a METAR and in a change of a TAF no ASCII word without a line break is accepted by two different patterns. In the body of a METAR it is exactly the words that look like a station (CORR, AUTO, TEST, FINO, VVCB, four letters of weather, RE and two letters of recent weather, a limit with digits and a unit) and the visibilities in metres that are; the two kinds are stated for each. In the body of a TAF it is exactly stations that begin with a unit of visibility, four letters of weather, VVCB, METAR, every time, every validity, every wind that begins with four digits, UP and shallow weather, because the visibility of a TAF has no end anchor.", "quantifier": "all words of ASCII characters without a line break; all pairs of patterns of a handler table", "why_tests_cant": "That two patterns have no word in common is a statement about all words.", "anchors": ["aeromet_py/utils/metar_regexp.py: all patterns", "aeromet_py/utils/taf_regexp.py: all patterns", "aeromet_py/reports/models/taf/change_forecast.py: GroupHandler"]}
{"id": "C80", "title": "The texts of type, modifier, windshear, runway state, validity and change indicators are the phrases of their codes", "statement": "When parsing succeeds, str() of the type, modifier, runway state, windshear groups and windshear list, trend indicators, NIL and CNL words, validity and TAF change indicators is the English phrase a separate table assigns to the code of the group: e.g. Rnn/tedhff gives runway name, deposit with its depth, contamination and friction or braking action; a change indicator gives the meaning of its first words followed by its moment or its period written as YYYY-MM-DD HH:MM:SS, also after a later change has cut an FM period short. Codes without the information print an empty text or 'None', exactly as listed.", "quantifier": "all report texts accepted by Metar.parse or Taf.parse, all clocks, years and months", "why_tests_cant": "The texts combine tables of depths, deposits, extents and frictions with dates; tests show a handful of combinations and none of the degenerate ones (WS RWY, R/CLRD, 0 extent).", "anchors": ["aeromet_py/reports/models/base/type.py: __str__", "aeromet_py/reports/models/base/modifier.py: __str__", "aeromet_py/reports/models/metar/windshear.py: __str__", "aeromet_py/reports/models/metar/runway_state.py: __str__", "aeromet_py/reports/models/metar/trend_indicator.py: __str__", "aeromet_py/reports/models/taf/valid.py: __str__", "aeromet_py/reports/models/taf/change_indicator.py: __str__", "aeromet_py/reports/models/taf/cancelled.py: __str__"]}
{"id": "C81", "title": "Flight rules and CAVOK of every accepted report follow from its codes", "statement": "For the body and every trend of an accepted METAR, and the body and every change of an accepted TAF, whose visibility, weather and cloud codes are those of documented groups - whatever else the report contains, unknown groups included - flight_rules is the category of the ceiling and visibility written in the codes, it is None exactly when there is no ceiling and the visibility is unknown or at least 20 km, should_be_cavok() is True exactly when the written groups meet its conditions, and it raises exactly when there is no weather and a broken or overcast layer without a height comes before any such layer at or below 1500 ft. The parts with ASCII codes that are not covered are those with one of the listed undocumented visibilities or with a layer 0VC.", "quantifier": "all report texts accepted by Metar.parse or Taf.parse, all clocks, years and months, all parts", "why_tests_cant": "The tests check a few tidy reports; here any accepted text counts, with groups repeated, unknown, or out of order.", "anchors": ["aeromet_py/reports/models/base/flight_rules.py: FlightRulesMixin", "aeromet_py/reports/models/metar/should_be_cavok.py: ShouldBeCavokMixin"]}
{"id": "C82", "title": "Every moment of an accepted report is the one its code names", "statement": "When parsing succeeds, whatever else the report contains: an FM, TL or AT time of a trend is in the hour of the report, the next or the one after, at the coded minute; the time of a TAF is the coded day, hour and minute of the given month; a validity ddhh/ddhh begins and ends at the coded hours on the day of the report if that is the coded day and on the next day otherwise, 24 being the beginning of the day after; TX and TN groups have the coded value and a moment found the same way; an FMddhhmm change begins at the coded time on the first date from the beginning of the forecast that has the coded day, unless a validity group follows it; other changes have the moments of their own validity group, or those of the forecast; an FM change followed by TEMPO and PROB changes only and then by an FM or BECMG change ends one hour before that one begins, and one that no FM or BECMG change follows ends with the forecast or its own validity group.", "quantifier": "all report texts accepted by Metar.parse or Taf.parse, all clocks, years and months", "why_tests_cant": "The dates depend on the day of the report, the ends of months and years and on all later changes; tests check tidy forecasts only.", "anchors": ["aeromet_py/reports/models/metar/trend_indicator.py: add_period", "aeromet_py/reports/models/taf/valid.py: from_taf", "aeromet_py/reports/models/taf/temperature.py: TafTemperature", "aeromet_py/reports/models/taf/change_indicator.py: TafChangeIndicator", "aeromet_py/reports/models/taf/change_forecast.py: TafChangesForecasted"]}
{"id": "C83", "title": "A METAR is refused exactly for the listed words", "statement": "Metar.parse raises an exception if and only if: the text is empty (AssertionError); or, offering the words of the body to the patterns in order, the first taken word that cannot be read is a time the month does not have or of hour 24 (ValueError), a visibility over zero (ZeroDivisionError), a bare fraction of a kilometre (TypeError) or a visibility with a direction that is no compass point (ValueError); or the body is read and the first trend that cannot be read is one of a report of the last two hours of the year 9999 (OverflowError), has a period before any indicator (TypeError) or such a visibility; or a third trend is read (RangeError); or everything is read, words are left in the body or the trends, and truncation was asked for (ParserError). In all other cases the report is read.", "quantifier": "all texts, all clocks and months with years of four digits, both values of truncate", "why_tests_cant": "Which exception is raised depends on the first bad word among all words of the report, on what earlier words used up and on the date; tests show single failures.", "anchors": ["aeromet_py/reports/metar.py: Metar.__init__", "aeromet_py/reports/models/base/__init__.py: parse_section", "aeromet_py/reports/models/metar/weather_trend.py: ChangePeriod"]}
{"id": "C84", "title": "A TAF is refused exactly for the listed words", "statement": "Away from December 9999, Taf.parse raises an exception if and only if: the text is empty (AssertionError); or, offering the words of the body to the patterns in order, the first taken word that cannot be read is a time the month does not have or of hour 24 (ValueError), a word beginning with a visibility over zero (ZeroDivisionError), with a bare fraction of a kilometre (TypeError) or with a visibility whose direction is no compass point (ValueError), or is the third maximum or the third minimum temperature (RangeError); or the body is read and the first change that stops the reading has a validity before any indicator (AttributeError), has such a visibility, begins with FM or BECMG while the nearest earlier change that is neither PROB nor TEMPO has no indicator (AttributeError), or is the ninth (RangeError); or everything is read, words are left in the body or the changes, and truncation was asked for (ParserError). In all other cases the report is read.", "quantifier": "all texts, all clocks and months with years of four digits other than December 9999, both values of truncate", "why_tests_cant": "Which exception is raised depends on the first bad word among all words of the report and on the indicators of all earlier changes; tests show single failures.", "anchors": ["aeromet_py/reports/taf.py: Taf.__init__", "aeromet_py/reports/models/base/__init__.py: parse_section", "aeromet_py/reports/models/taf/change_forecast.py: TafChangesForecasted.add"]}
{"id": "C85", "title": "Which field of a report gets which word", "statement": "For every accepted METAR and TAF: the words of the body are offered to the patterns in their fixed order, each word being taken by the first pattern, from the one after the last that took a word on, that accepts it (there is one way of doing this). The codes of the fields are exactly the words taken by their patterns, in order, with underscores shown as blanks: METAR type 0 (METAR if none), station 1, time 2, modifier 3, wind 4, wind variation 5, visibility 6, minimum visibility 7, runway ranges 8-10, weathers 11-13, clouds 14-17, temperatures 18, pressure 19-20 (the last one), recent weather 21, windshears 22-24, sea state 25, runway state 26; likewise for the TAF body, whose temperatures go to the maxima when they begin with TX and to the minima when they begin with TN. There is one trend or change for every non-empty part of the second section, its fields get the words of that part in the same way, the indicator and its periods are one code, but FMddhhmm drops a validity that follows. The words no pattern takes are the unparsed groups, first those of the body, then those of the trends or changes.", "quantifier": "all texts, environments, years, months and truncation flags for which parsing does not raise", "why_tests_cant": "Which pattern takes a word depends on all the words before it; tests see only a few orders of a few words, while this determines every field of every accepted report.", "anchors": ["aeromet_py/reports/models/base/__init__.py: parse_section", "aeromet_py/reports/metar.py: _parse_body", "aeromet_py/reports/taf.py: _parse_body", "aeromet_py/reports/models/metar/weather_trend.py: ChangePeriod", "aeromet_py/reports/models/taf/change_forecast.py: ChangeForecasted"]}
{"id": "C86", "title": "A report can be had back from its JSON", "statement": "For every METAR and TAF accepted from a text without surrogates, reading the text of to_json as JSON and taking its member code gives the raw code of the report; parsing that with the same year, month, truncation flag and clock gives the same report in every attribute, exactly when the original text had something besides blanks and no group of it consisted of = signs only. Two such reports with the same JSON are therefore equal. If the report has a time, the JSON also settles the year and month it was read for. Any two reports with the same JSON have the same groups. Without the condition on surrogates two different texts can have the same JSON.", "quantifier": "all accepted texts, years, months, clocks, station tables and truncation flags; all pairs of accepted texts", "why_tests_cant": "A test writes and reads back the JSON of a few reports; that no two of infinitely many reports share a JSON text needs the injectivity of the encoder over all strings and numbers.", "anchors": ["aeromet_py/reports/models/base/report.py:88-101", "aeromet_py/reports/models/base/report.py:17-23"]}
{"id": "C87", "title": "The text of an error tells its cause", "statement": "A METAR raises RangeError exactly when there is a text for it, and that text always names the class of the trends and their limit of two, of which the report has more. For a TAF it names the temperatures and two when at least three words of the body begin with TX or three with TN, or the changes and eight when there are at least nine. Reading a list beyond its size raises RangeError with the size and the class. The cardinal codes listed in the text of from_cardinal's ValueError are exactly those it takes, and it raises nothing else. The TypeError of the cavok setter comes exactly when the value is refused and tells its type.", "quantifier": "all texts, years, months, clocks with a four-digit year, truncation flags; all lists and indices; all words of capital letters; all values", "why_tests_cant": "A test can look at the text of a few failures; that no report can fail with the text of another list, and that no unlisted code is taken, are statements about all inputs.", "anchors": ["aeromet_py/reports/models/base/group.py:75-92", "aeromet_py/reports/models/base/wind.py:64-88", "aeromet_py/reports/models/metar/visibility.py:189-200", "aeromet_py/reports/metar.py:184-186", "aeromet_py/reports/taf.py:139-143"]}
{"id": "C88", "title": "The table of stations gives every known station a place", "statement": "Every row of the table of stations but one has a printable name, an ICAO code that fits the pattern of a station (or None), an IATA code of three capitals or digits (or None), a SYNOP number of five digits (or None), a latitude below 90 and a longitude below 180 degrees with minutes below 60, an elevation from -35 to 4057 m and a country code of two capitals; the longitude of CYYW is .88.54W. The station of every accepted METAR and TAF, where its name is known, has such a place. No code of the table is taken for a remark, so every documented METAR of a station of the table shows its row, and every documented TAF too, except that an amended or corrected TAF of one of the 29 stations whose codes begin with FM never has its station.", "quantifier": "all 9390 rows; all accepted texts, years, months, clocks and truncation flags; all documented reports", "why_tests_cant": "The tests look up two or three stations; the claim is about every row of the table together with every report text.", "anchors": ["aeromet_py/database/stations.py:16-9407", "aeromet_py/database/countries.py:17-267", "aeromet_py/reports/models/base/station.py:22-36"]}
