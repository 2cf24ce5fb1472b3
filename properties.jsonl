{"id": "C01", "title": "Parse returns a usable date exactly when it returns no error", "statement": "For every call Parse(cfg, str, formats...): if the returned error is nil then the returned Date is not IsZero (its Period is set and its Time is not the zero time); if the error is non-nil then the returned Date is the zero Date.", "quantifier": "every parser state, configuration, input string, format list and clock value", "why_tests_cant": "The contract must hold for every string and every path through five sub-parsers and all locales; tests sample a few hundred strings.", "anchors": ["parser.go: Parser.Parse, tryRelativeTime, tryCustomFormat, tryAbsoluteTime, tryNoSpacesTime", "date/date.go: Date.IsZero"]}
{"id": "C02", "title": "The reported Locale is one the caller allowed", "statement": "When Parse succeeds, Date.Locale is either \"\" (only if one of the caller's formats matched the raw string) or the name of a locale that is (a) selected by cfg.Locales / cfg.Languages+Region / the language detector, (b) selected by cfg.DefaultLanguages, or (c) a locale remembered by this Parser, and (c) only if cfg.TryPreviousLocales.", "quantifier": "every parser state, configuration, string and format list", "why_tests_cant": "Quantifies over all configurations and all parser histories.", "anchors": ["parser.go: Parser.Parse, getApplicableLocales", "internal/language/loader.go: GetLocales"]}
{"id": "C03", "title": "Without TryPreviousLocales a Parser has no memory", "statement": "If cfg.TryPreviousLocales is false, then the result of Parse(cfg, str, formats) on a Parser that has executed any sequence of earlier Parse calls equals the result on a Parser freshly created with the same ParserTypes and detector, and the call leaves the remembered locales unchanged.", "quantifier": "every finite history of earlier Parse calls with arbitrary configurations and strings", "why_tests_cant": "History independence is a statement about all call sequences; a test can only run some.", "anchors": ["parser.go: Parser.Parse, getApplicableLocales, saveUsedLocale"]}
{"id": "C04", "title": "Remembered locales are a duplicate-free, append-only list", "statement": "After any sequence of Parse calls the list of remembered locales has no two entries with the same name, every earlier list is a prefix of every later one, and an entry is added only by a call that succeeded with TryPreviousLocales set, in which case it is the locale reported by that call.", "quantifier": "every finite history of Parse calls", "why_tests_cant": "Invariant over unbounded histories.", "anchors": ["parser.go: saveUsedLocale, checkPreviousLocales"]}
{"id": "C05", "title": "cfg.Locales restricts parsing to exactly those locales", "statement": "Documentation of Configuration.Locales: 'The parser uses only these locales to translate date string.' So whenever cfg.Locales is non-empty and cfg.DefaultLanguages is empty, a successful locale-based Parse reports a locale listed in cfg.Locales.", "quantifier": "every parser history, configuration and string", "why_tests_cant": "Needs all histories: with TryPreviousLocales a locale remembered from an earlier, differently configured call may be used.", "anchors": ["config.go: Configuration.Locales", "parser.go: getApplicableLocales, checkPreviousLocales"]}
{"id": "C06", "title": "ParserTypes selects the sub-parsers and their priority", "statement": "Only sub-parsers listed in ParserTypes can produce a locale-based result; for a given locale the result is that of the first listed sub-parser that yields a date; a type number above NoSpacesTime makes every call fail with the zero Date; an empty list means Timestamp, NegativeTimestamp, RelativeTime, CustomFormat, AbsoluteTime, NoSpacesTime, and is replaced by it once and for all.", "quantifier": "every ParserTypes list, parser state, configuration and string", "why_tests_cant": "All permutations/sublists of parser types with all inputs.", "anchors": ["parser.go: ParserType, Parser.Parse"]}
{"id": "C07", "title": "StrictParsing only accepts complete dates", "statement": "With cfg.StrictParsing, a date is returned only if day, month and year were all given in the string.", "quantifier": "every string, format list and configuration with StrictParsing", "why_tests_cant": "Universal over strings and formats; tests cover a handful and none with formats.", "anchors": ["config.go: Configuration.StrictParsing", "internal/parser/common/strict-check.go: CheckStrictParsing", "internal/parser/absolute/parser.go: Parser.Parse", "internal/parser/nospace/parser.go: Parse", "internal/parser/formatted/parser.go: Parse"]}
{"id": "C08", "title": "RequiredParts accepts day/month/year and enforces them", "statement": "Documentation: RequiredParts 'can accept \"day\", \"month\" and \"year\"'. Configurations listing exactly those parts are accepted, other names are rejected, and a listed part that is missing from the string makes the absolute and no-space parsers reject it.", "quantifier": "every RequiredParts list (any letter case) and every string", "why_tests_cant": "Universal over lists of arbitrary strings.", "anchors": ["config.go: validate", "internal/parser/common/strict-check.go: CheckStrictParsing"]}
{"id": "C09", "title": "Numeric dates round-trip in every date order", "statement": "For every valid calendar date with a four digit year 1000..9999 and each of the six date orders, parsing the three numbers written in that order (with or without zero padding, joined by '-', '/', '.' or ' ') with that DateOrder returns exactly that day at 00:00 with Period Day, independently of the current time and of the preferences.", "quantifier": "all dates of years 1000..9999 (3.3 million), six orders, separators, paddings, clocks, preferences", "why_tests_cant": "The product of dates, orders, separators and clocks is far beyond test size.", "anchors": ["internal/parser/absolute/parser.go: Init, parseDigitToken, Parse", "internal/parser/absolute/root.go"]}
{"id": "C10", "title": "DateOrder strings are validated as permutations of D, M, Y", "statement": "A DateOrder function result is used iff it is, ignoring case, one of the six permutations of D, M, Y; otherwise the locale's own order is used and the call behaves exactly as if the function had not been given.", "quantifier": "every byte string returned by the DateOrder function", "why_tests_cant": "All strings.", "anchors": ["parser.go: validateDateOrder, Parser.Parse"]}
{"id": "C11", "title": "A weekday-only string denotes the documented occurrence of that weekday", "statement": "If the string contributes a weekday but no day, month or year, the resulting date falls on the named weekday and lies 1..7 days after the current date with Future, 1..7 days before it with Past and 0..6 days before it with CurrentPeriod; it is the unique such date.", "quantifier": "every current time (any year), every weekday name, every DateSource", "why_tests_cant": "All current dates; the step loop must also terminate for all of them.", "anchors": ["internal/parser/absolute/parser.go: correctForTimeFrame"]}
{"id": "C12", "title": "Dates without a year respect Past/Future", "statement": "If day and month are given but no year, then with Past the result is not after the current time, with Future it is after the current time, the day and month are the given ones, and no other occurrence of that day and month lies strictly between the result and the current time.", "quantifier": "every current time, month, day, DateSource", "why_tests_cant": "All clock values incl. leap days; boundary behaviour at the exact current instant.", "anchors": ["internal/parser/absolute/parser.go: correctForTimeFrame, getCorrectLeapYear", "config.go: PreferredDateSource"]}
{"id": "C13", "title": "A time-only string resolves to the nearest past/future occurrence", "statement": "If only a time of day is given, the result has exactly that time of day; with Past it is not after the current time, with Future not before it, and it is within one day of the current time.", "quantifier": "every current time, time of day, DateSource and month preference", "why_tests_cant": "The failure needs the current date to be the first/last day of a month, which tests with fixed clocks never hit.", "anchors": ["internal/parser/absolute/parser.go: correctForTimeFrame, correctForMonth"]}
{"id": "C14", "title": "PreferredDayOfMonth fills a missing day as documented", "statement": "When month and year are given without a day: First gives day 1, Last gives the last day of that month, Current gives min(current day, last day of that month); month, year and time of day are as given.", "quantifier": "every year, month, current time and preference", "why_tests_cant": "All months of all years and all clocks.", "anchors": ["internal/parser/common/apply-day.go: ApplyDayFromConfig", "internal/parser/absolute/parser.go: correctForDay"]}
{"id": "C15", "title": "PreferredMonthOfYear fills a missing month as documented", "statement": "When only a year is given: FirstMonth gives January, LastMonth December, CurrentMonth the current month of that year; the result stays in the given year and month.", "quantifier": "every year, current time and preference", "why_tests_cant": "All years and clocks, e.g. the current day 31 with a 30-day target month.", "anchors": ["internal/parser/common/apply-month.go: ApplyMonthFromConfig", "internal/parser/absolute/parser.go: correctForMonth"]}
{"id": "C16", "title": "Impossible days are clamped, never rolled into the next month", "statement": "For every day 1..31, month and year in the string, the result is in the given month; if the month is shorter, its day is the last day of that month, except 29 February of a non-leap year, which moves to the nearest leap year (next with Future, previous with Past).", "quantifier": "every year, month, day and DateSource", "why_tests_cant": "All years; leap-year search must terminate and find the nearest leap year for every year.", "anchors": ["internal/parser/absolute/root.go: createDateTime", "internal/dateutil/dateutil.go"]}
{"id": "C17", "title": "An explicitly written four-digit year is honoured", "statement": "If the string contains a four-digit number accepted as the year, the resulting date is in that year (except for the documented 29 February adjustment).", "quantifier": "every string, date order, clock and preference", "why_tests_cant": "Universal over token sequences; the failing ones need out-of-range leftovers.", "anchors": ["internal/parser/absolute/parser.go: Init (unset-token fallback), parseDigitToken", "internal/parser/absolute/root.go: getDateTimeParams"]}
{"id": "C18", "title": "Two-digit years respect Past/Future and keep day and month", "statement": "A two-digit year yy denotes a year congruent to yy modulo 100; with Past the result is not after the current time, with Future it is after it; day and month are those written.", "quantifier": "every two-digit year, month, day, current time and DateSource", "why_tests_cant": "All clocks and centuries (29 February of century years).", "anchors": ["internal/parser/absolute/parser.go: correctForTimeFrame"]}
{"id": "C19", "title": "Period reports the finest component that was given", "statement": "For the absolute parser, Period is Day if a day was given (or nothing but weekday/time), Month if the finest is a month, Year if only a year; with ReturnTimeAsPeriod and a time in the string it is the resolution of that time (Second, Minute, Hour); without ReturnTimeAsPeriod no Parse result other than from a custom format ever has a time period.", "quantifier": "every component set and time token", "why_tests_cant": "All component sets and configurations.", "anchors": ["internal/parser/absolute/parser.go: getPeriod, Parse", "internal/parser/relative/parser.go: Parse", "internal/parser/timestamp/parser.go: Parse"]}
{"id": "C20", "title": "Relative offsets are exact calendar arithmetic", "statement": "For integer amounts, 'N decades/years/months/weeks/days/hours/minutes/seconds ago' (any combination of distinct units) returns the current time minus 10N years, N years, N months, 7N days, N days and the exact duration, in that order (calendar part by AddDate normalisation, or its end-of-month preserving variant, then duration); with 'in' instead of 'ago' the same forwards. The period is the smallest unit named. It holds for amounts up to 2562047 hours, 153722867 minutes, 9223372036 seconds and 10^9 of each other unit, the largest whose duration fits into 64 bits of nanoseconds; the text is the translated one (singular unit names).", "quantifier": "every combination of distinct units in any order, with or without commas, all amounts up to the bounds, every current time and zone", "why_tests_cant": "All amounts/combinations; includes the claim that binary64 arithmetic does not lose anything on integers.", "anchors": ["internal/parser/relative/parser.go: parseDate, getRelativeDurations, addDate"]}
{"id": "C21", "title": "Direction of relative strings", "statement": "A relative string containing the word 'ago' (whole word, any case) never denotes a time after the current time; one containing 'in' and not 'ago' never a time before it; without either word the direction is forwards iff PreferredDateSource is Future. If the string also gives a time of day this holds for the day. It holds in zones with a fixed offset (not in the hour that is repeated when summer time ends, see C50), for all amounts, decimal fractions included, whose integer part is below 2559000 hours, 153 million minutes, 9 billion seconds and 1 billion of any other unit; a bound is needed, since 2562048 hours overflow the 64-bit duration and go the wrong way.", "quantifier": "every relative string, every combination of units, every amount below the bounds, every current time in a fixed zone", "why_tests_cant": "All amounts, including the rounding of decimal fractions in binary64 and their distribution over smaller units.", "anchors": ["internal/parser/relative/parser.go: parseDate, getRelativeDurations, addDate"]}
{"id": "C22", "title": "PreserveEndOfMonth never leaves the target month", "statement": "With PreserveEndOfMonth, adding years and months lands in the month obtained by month arithmetic, on day min(current day, last day of that month); without it the result is Go's AddDate (which rolls over).", "quantifier": "every current date, year and month offset", "why_tests_cant": "All dates and offsets.", "anchors": ["internal/parser/relative/parser.go: addDate"]}
{"id": "C23", "title": "Unix timestamps are exact", "statement": "A string of 10 digits (optionally 13 or 16 digits: milliseconds, microseconds), at the start of the string and followed by '.', whitespace or the end, denotes exactly that instant; a leading '-' (NegativeTimestamp) denotes the mirrored instant before the epoch.", "quantifier": "all 10/13/16 digit strings (10^16 values), both signs, every remainder of the string", "why_tests_cant": "10^16 inputs.", "anchors": ["internal/parser/timestamp/parser.go: Parse"]}
{"id": "C24", "title": "Attaching a timezone keeps the wall clock", "statement": "When the string carries a timezone, the absolute and no-space results have exactly the wall clock that would be returned without it and the UTC offset of that timezone; with only cfg.DefaultTimezone they have the same wall clock and the offset that zone has at that wall clock time.", "quantifier": "every wall clock, offset and zone transition table", "why_tests_cant": "All zones and all instants near DST transitions.", "anchors": ["parser.go: applyTimezone"]}
{"id": "C25", "title": "Timezone extraction is deterministic and local", "statement": "PopTzOffset is a function of its input (repeated calls and program runs agree); it removes exactly one contiguous piece and returns a known timezone name with its tabulated offset; if no timezone is found the string is unchanged.", "quantifier": "every string and every map iteration order used at package initialisation", "why_tests_cant": "Go randomises map iteration per run; a test observes one order.", "anchors": ["internal/timezone/tz-offsets.go", "internal/timezone/parser.go: PopTzOffset", "root.go: PopTzOffset"]}
{"id": "C26", "title": "Tokenising is lossless", "statement": "The tokens of a string, concatenated, give back the string; each token is non-empty and homogeneous (digits/colon, ASCII letters, other) and neighbouring tokens have different types.", "quantifier": "every string (valid UTF-8)", "why_tests_cant": "All strings.", "anchors": ["internal/parser/tokenizer/tokenizer.go: Tokenize"]}
{"id": "C27", "title": "Digit normalisation", "statement": "NormalizeString maps every decimal digit of every script to the ASCII digit of the same value and leaves every other character unchanged; it preserves the number of characters and is idempotent.", "quantifier": "every string, every Unicode decimal digit", "why_tests_cant": "All sequences of digits of mixed scripts: the function is stateful (last used range).", "anchors": ["internal/digit/digit.go: NormalizeString"]}
{"id": "C28", "title": "No-space dates: every digit is used, the date is real, and it is the first reading in a fixed list", "statement": "If the no-space parser returns a date, some maximal run of digits of the text splits completely into year/month/day (and time) fields with valid values, a date of the calendar, that are exactly the fields of the returned time. For every text, configuration and date order the result (or its absence) is the first run, field sequence and cut, in a documented order of preference, that denotes a time; and Parse with the no-space parser first returns that time.", "quantifier": "every text, date order and configuration", "why_tests_cant": "All digit strings and the field-length permutations they induce.", "anchors": ["internal/parser/nospace/parser.go: Parse", "internal/parser/nospace/constants.go: createParseCandidates, candidateIsValid"]}
{"id": "C29", "title": "With CurrentTime set the result does not depend on the wall clock", "statement": "If cfg.CurrentTime is set, Parse, Search, SearchWithLanguage, ParseHijri and ParseJalali give the same result whenever they are executed in the years 2001 to 2999; without the no-space parser Parse gives the same result at every time whatsoever.", "quantifier": "every pair of wall clock readings, configuration and string", "why_tests_cant": "Needs two executions in different years, e.g. across a century.", "anchors": ["config.go: CurrentTime", "internal/parser/nospace/constants.go: candidateIsValid"]}
{"id": "C30", "title": "Locale selection", "statement": "GetLocales returns only known locales, each once, exactly those requested (or constructible from languages and region); any unknown locale/language gives an error; two regions of one language conflict; without UseGivenOrder the order is the published frequency order, independent of the order in which they were given.", "quantifier": "every list of locales/languages/region", "why_tests_cant": "All lists.", "anchors": ["internal/language/loader.go: GetLocales", "internal/data/01-language-order.go", "internal/data/04-locale-order.go"]}
{"id": "C31", "title": "All combinations of ambiguous translations are tried", "statement": "For a tokenised string, translation produces exactly the cartesian product of the alternatives of its tokens, each once, in lexicographic order.", "quantifier": "every list of non-empty alternative lists", "why_tests_cant": "All shapes of products.", "anchors": ["internal/language/utils.go: createPermutation", "internal/language/translate.go: Translate"]}
{"id": "C32", "title": "Search results are well-formed", "statement": "Every result of Search has a non-zero Date whose Locale is the returned language, and a matching number of texts; results are listed in the order the texts occur in the translation.", "quantifier": "every text, configuration and parser state", "why_tests_cant": "All texts.", "anchors": ["search.go: SearchWithLanguage, parseFoundObjects"]}
{"id": "C33", "title": "Search never panics", "statement": "Search and SearchWithLanguage return (possibly an error) for every text and every known language.", "quantifier": "every text and every known language", "why_tests_cant": "Universal absence of out-of-range accesses; specific punctuation/word combinations needed.", "anchors": ["internal/language/split.go: SplitSentence", "internal/language/translate-search.go: TranslateSearch", "search.go: splitBy"]}
{"id": "C34", "title": "A Parser may be shared by goroutines", "statement": "Goroutines may call Parse on one Parser at the same time (and use nothing else of the library meanwhile): every concurrent execution has the results and the final state of some sequential order of whole calls that respects the order of calls that do not overlap; no call is blocked for ever; there is no data race on the Parser or on the text normaliser that the library shares; and without TryPreviousLocales each call returns what it would return if executed alone.", "quantifier": "every interleaving of any number of goroutines", "why_tests_cant": "All schedules.", "anchors": ["parser.go: Parser.Parse", "internal/strutil/strutil.go: NormalizeUnicode, unicodeTransformer"]}
{"id": "C35", "title": "Custom formats fill missing parts as documented", "statement": "If a format matches: parts present in the format are exactly those parsed; a missing year is the current year, a missing month/day follow the preferences; the Period is Day, Month or Year according to the coarsest missing part; no part that was parsed is changed.", "quantifier": "every format, string, clock and preference", "why_tests_cant": "All formats and clocks (29 February, day 31 in a 30 day month).", "anchors": ["internal/parser/formatted/parser.go: Parse"]}
{"id": "C36", "title": "Two-digit Hijri and Jalali years and component ranges", "statement": "In Hijri dates yy>=90 means 13yy, otherwise 14yy; in Jalali dates yy>60 means 13yy, otherwise 14yy; every day number that is valid in the calendar (Hijri 1..30, Jalali 1..31), month 1..12 and four-digit year is accepted for its component.", "quantifier": "every token", "why_tests_cant": "All tokens and component positions.", "anchors": ["internal/parser/hijri/parser.go", "internal/parser/jalali/parser.go"]}
{"id": "C37", "title": "Whitespace sanitising treats non-breaking spaces as spaces", "statement": "SanitizeSpaces (documented: 'replaces non-breaking spaces into a normal one, then remove any excess whitespaces') returns the words of the string separated by single spaces, where words are separated by any white space including U+00A0; it is idempotent.", "quantifier": "every string", "why_tests_cant": "All strings.", "anchors": ["internal/strutil/strutil.go: SanitizeSpaces"]}
{"id": "C38", "title": "Times of day are parsed exactly", "statement": "The texts understood as a time of day are exactly h:m, h:m:s and h:m:s.f with 0<=h<24, the same with am/pm after blanks (any case; with seconds only h<=12) and h am/pm (h<=12), with one or two digits per field; each denotes exactly one time of day, returned with the resolution written; a field out of range (hour 24, minute or second 60) is rejected whatever follows.", "quantifier": "all times of day, paddings, fractions up to 9 digits", "why_tests_cant": "86400 x formats x fractions.", "anchors": ["internal/parser/common/time.go: ParseTime"]}
{"id": "C39", "title": "Results do not depend on map iteration order", "statement": "Apart from timezone extraction, no result depends on the iteration order of any Go map (alphabetic directives, format mapping, language order, unique charsets, token sets, merged translations).", "quantifier": "every permutation a map iteration may take", "why_tests_cant": "Each process run sees one order per map.", "anchors": ["internal/parser/absolute/parser.go: alphaDirectives", "internal/parser/nospace/parser.go: formatMapping", "internal/language/loader.go", "internal/language/languages.go: GetUniqueCharsets", "internal/language/applicable-check.go: CountApplicability"]}
{"id": "C40", "title": "Parsing never modifies the caller's configuration", "statement": "Parse works on a clone: the configuration passed by the caller is unchanged, and the effective configuration equals the caller's except that an unset CurrentTime becomes the clock and empty SkipTokens become [\"t\"].", "quantifier": "every configuration", "why_tests_cant": "All field values.", "anchors": ["config.go: Clone, initiate, toInternalConfig"]}
{"id": "C41", "title": "Regional locales understand what their language understands", "statement": "A regional locale (e.g. en-GB) splits and translates every word known to its language (e.g. en): a month or weekday name recognised for the language is recognised for the region.", "quantifier": "every regional locale and known word", "why_tests_cant": "Hundreds of locales times all words and neighbourhoods.", "anchors": ["internal/data/00-locale-data.go: merge", "internal/language/split.go: Split"]}
{"id": "C42", "title": "Unsplittable entries are split consistently", "statement": "When Search splits an entry and its original text, both are split into the same number of parts for every splitter and grouping, the parts re-joined give the whole, and the chosen split minimises (unparsed ratio, number of parts, digit-less ratio), the first such on ties.", "quantifier": "every pair of entry and original text", "why_tests_cant": "All strings with equal splitter counts.", "anchors": ["search.go: splitIfNotParsed, splitBy, chooseBestSplit"]}
{"id": "C43", "title": "Parse always returns", "statement": "Parse returns a Date and an error value, and never panics, for every text, list of formats, configuration, language detector and history of the Parser, provided the locale tables have no word with an empty list of translations.", "quantifier": "every text, formats, configuration, clock, detector and parser history", "why_tests_cant": "Absence of out-of-range accesses and nil dereferences on all inputs.", "anchors": ["parser.go: Parser.Parse", "internal/language/translate.go: Translate", "internal/language/split.go: Split", "internal/parser/absolute/parser.go: Parse"]}
{"id": "C44", "title": "Search has no memory", "statement": "What Search returns (language, dates, texts, error) does not depend on the earlier calls of Parse and Search on the same Parser, provided the languages it considers are all different.", "quantifier": "every history of the Parser, configuration and text", "why_tests_cant": "All histories; the Parser caches the unique characters of the languages of the last Search.", "anchors": ["search.go: Search, initUniqueCharsets", "internal/language/languages.go: GetUniqueCharsets"]}
{"id": "C45", "title": "The language reported by Search", "statement": "Search reports the first of the considered languages if the text has only characters common to all languages; otherwise the first language with a character in its alphabet that no other considered language has; otherwise the only language that shares a character with the text; otherwise the one with most known words, then most numbers, the first one on ties; otherwise the first default language. In particular it is one of the considered languages or the first default language.", "quantifier": "every text, set of languages, configuration and history", "why_tests_cant": "All texts and subsets of hundreds of languages.", "anchors": ["internal/language/detector.go: DetectFullTextLanguage, getLanguageCandidates", "search.go: Search"]}
{"id": "C46", "title": "Concurrent Search calls do not influence each other", "statement": "Search and SearchWithLanguage may be called from several goroutines on one Parser: each call returns what it would return if executed alone, and there is no data race.", "quantifier": "every interleaving of any number of goroutines", "why_tests_cant": "All schedules.", "anchors": ["search.go: Search, SearchWithLanguage, initUniqueCharsets", "internal/strutil/strutil.go: NormalizeUnicode, unicodeTransformer"]}
{"id": "C47", "title": "Repeating a language makes no difference", "statement": "Repeating a language in Configuration.Languages changes neither the result of Parse nor that of Search.", "quantifier": "every configuration, text and history", "why_tests_cant": "All configurations and histories.", "anchors": ["internal/language/loader.go: GetLocales", "search.go: initUniqueCharsets"]}
{"id": "C48", "title": "A complete date of eight digits in the asked order denotes that date", "statement": "With the no-space parser first, Parse understands two digits for the day, two for the month and four for the year, written without separators in the configured date order, as that date; also with hour and minute appended, and also with strict parsing.", "quantifier": "every date of the years 1000 to 9999, date order and configuration", "why_tests_cant": "All dates and orders; the preferred formats and the strictness check interact with only some of them.", "anchors": ["internal/parser/nospace/parser.go: Parse", "internal/parser/nospace/constants.go: dateTimeFormats, preferredFormats, formatMapping"]}
{"id": "C49", "title": "The time zone of relative dates", "statement": "A relative date is in the time zone written in the text; without one, in DefaultTimezone; without that, in the zone of CurrentTime (UTC if that is not set). The instant it is counted from is the current time in every case.", "quantifier": "every text, configuration, zone (with any transitions) and clock reading", "why_tests_cant": "All zones and texts.", "anchors": ["internal/parser/relative/parser.go: Parse"]}
{"id": "C50", "title": "Hours, minutes and seconds are elapsed time, in every zone", "statement": "A relative text of whole hours, minutes and seconds denotes the instant that many seconds from the current time, whatever the time zone.", "quantifier": "every current time, zone and amounts", "why_tests_cant": "All zones and transitions; the zone is only consulted through calendar arithmetic.", "anchors": ["internal/parser/relative/parser.go: parseDate, addDate"]}
{"id": "C51", "title": "Dates found in a text are relative to the last date found before them", "statement": "Without CurrentTime, each phrase Search finds is parsed relative to the last earlier date of the text that is not itself relative (does not mention ago, in, from now, tomorrow, today or yesterday), and to the clock as long as there is none; with CurrentTime always relative to that. Where a phrase had to be cut, the same holds piece by piece within each way of cutting, and the time used last stays the reference until a date replaces it.", "quantifier": "every text, language, configuration and history of the Parser", "why_tests_cant": "All sequences of phrases and ways to cut them.", "anchors": ["search.go: parseFoundObjects, parseEntry, getRelativeBase"]}
{"id": "C52", "title": "Words for a relative day denote that day in every language", "statement": "Every word or phrase a supported language has for a relative date (tomorrow, last year, ...) is turned into an amount of one unit before or after now, and the relative parser reads that as the current time plus or minus that amount.", "quantifier": "every supported locale and every such word in its tables, current time and zone", "why_tests_cant": "The tables of 504 locales hold thousands of such phrases, and the result depends on the current time.", "anchors": ["internal/data: LocaleData.RelativeType", "internal/language/translate.go: translate", "internal/parser/relative/parser.go: Parse"]}
{"id": "C53", "title": "The words of a language mean dates, and every language has them", "statement": "Whatever word a supported locale translates, the result is a month, weekday, unit, half of the day, direction, zone or separator the date parsers know; each locale can express all months, weekdays, units (except the decade) and halves of the day; and texts are split by exactly the words that can be translated.", "quantifier": "every supported locale and every word", "why_tests_cant": "All locales and words.", "anchors": ["internal/data: LocaleData", "internal/language/translate.go", "internal/language/split.go"]}
{"id": "C54", "title": "Every supported locale can be selected", "statement": "Each of the supported locales is used when asked for by its code, or by its language and its region in any case; with nothing asked for, each supported language is used exactly once and without region.", "quantifier": "every supported locale code, language, region in any case, order flag", "why_tests_cant": "All codes and ways to ask.", "anchors": ["internal/language/loader.go: GetLocales", "internal/data: GetLocaleData, LanguageOrder, LocaleOrder"]}
{"id": "C55", "title": "An English date in words denotes that date", "statement": "An English text of a day, a month name (full or abbreviated, in any case) and a four digit year, in one of the arrangements listed in EnglishForms.v (12 March 2015; March 12th, 2015; 2015 March 12; Thursday, March 12, 2015; 12 March 2015 7:08 pm; ...), is read by Parse, when English is the first locale tried, as exactly that date and time of day, in whatever date order, with whatever current time, preferences, default zone and history.", "quantifier": "every valid date from year 2, time of day, month and weekday spelling in any case, configuration, history", "why_tests_cant": "All dates, spellings, orders and configurations.", "anchors": ["parser.go: Parse", "internal/language/translate.go", "internal/parser/absolute/parser.go: Parse"]}
{"id": "C56", "title": "Upper and lower case make no difference", "statement": "Two ASCII texts that differ only in the case of letters get the same answer from Parse (called without formats): the same date, period, locale and error, and the same is remembered for later calls.", "quantifier": "every ASCII text, every choice of case, locale data, configuration, history, language detector", "why_tests_cant": "2^n ways to write a text with n letters, for all texts and configurations.", "anchors": ["parser.go: Parse", "internal/strutil/strutil.go: SanitizeDate, NormalizeString"]}
{"id": "C57", "title": "The amount and the kind of white space make no difference", "statement": "Two ASCII texts with the same words (the pieces between white space) get the same answer from Parse (called without formats), and the same is remembered for later calls. (Proved for texts with at most two full stops; false with three.)", "quantifier": "every pair of ASCII texts with the same words, locale data, configuration, history, language detector", "why_tests_cant": "Unboundedly many ways to space a text, for all texts and configurations.", "anchors": ["parser.go: Parse", "internal/strutil/strutil.go: SanitizeDate, SanitizeSpaces"]}
{"id": "C58", "title": "The texts reported by Search come from the input", "statement": "For a language whose words are separated by spaces, every text that Search or SearchWithLanguage reports with a date is a part of the input: it occurs, letter for letter, in a piece of the input in which each run of white space is replaced by one space.", "quantifier": "every input text, language with spaces, locale data, configuration, history, language detector", "why_tests_cant": "All texts: the reported text is rebuilt from aligned token lists, joined and collapsed by regular expressions.", "anchors": ["search.go: Search, SearchWithLanguage", "internal/language/translate-search.go: TranslateSearch, simplifySplitAlign, joinChunk", "internal/language/split.go: SplitSentence"]}
{"id": "C59", "title": "Dates with the month's name, in 119 languages", "statement": "In each of 119 languages (all languages of the library whose dictionary has names of months in ASCII letters and whose patterns name no particular digits, except Tagalog, which has no date order), a text made of a day of one or two digits, a name of a month in any case, and a year of four digits, with spaces between, is read as that date, in that language; the names are all ASCII words that the language's dictionary translates to a month and nothing else, except \"now\" in bm, dsb and hsb and \"sept\" in fr.", "quantifier": "every listed language, every month word of its dictionary in any case, every day and year, environment, configuration, date order, history, language database", "why_tests_cant": "Thousands of month words times all days, years, cases and configurations.", "anchors": ["parser.go: Parse", "internal/language/translate.go: Translate", "internal/language/split.go: Split", "internal/data/*.go", "internal/parser/absolute/parser.go: Parse"]}
{"id": "C60", "title": "Goroutines that share no Parser do not influence each other", "statement": "Goroutines that share no Parser - each calls Parse or SearchWithLanguage on a Parser of its own, ParseHijri or ParseJalali - do not influence each other: every call returns what it would return if executed alone.", "quantifier": "every interleaving of any number of goroutines, every state of the shared normaliser", "why_tests_cant": "All schedules; the library keeps one global normaliser with internal buffers.", "anchors": ["internal/strutil/strutil.go: unicodeTransformer, NormalizeUnicode", "parser.go: Parser.Parse", "hijri-parser.go: ParseHijri", "jalali-parser.go: ParseJalali", "internal/language/translate-search.go: TranslateSearch"]}
{"id": "C61", "title": "Several locales: the answer is that of the first one that can", "statement": "Parse with several locales (given by Locales, by Languages and Region, by detection, or all of them) returns what the first successful one of the corresponding single-locale calls returns, in the order of selection (the listed order with UseGivenOrder), and fails iff they all fail. DefaultLanguages matter only if the call without them finds nothing; then their locales are tried one after the other, whether or not their words occur. TryPreviousLocales changes the answer only to that of a remembered locale alone.", "quantifier": "every text, formats, configuration, list of locales, history of the Parser", "why_tests_cant": "Relates a call to many other calls, for all texts and all lists of locales.", "anchors": ["parser.go: Parser.Parse, getApplicableLocales, checkPreviousLocales", "internal/language/loader.go: GetLocales"]}
{"id": "C62", "title": "Numeric dates with a time of day round-trip in every date order", "statement": "For every valid date of the years 1000..9999, each of the six date orders and every time of day written in digits and colons (H:MM, HH:MM:SS with or without padding), the text made of the three numbers in that order (padded or not, with separators '-', '/', '.', ' ', both '.' or neither), a blank and the time of day is read as that date at that time, whatever the current time, the preferences, the locales and the history; the Period is day, or the resolution of the time of day with ReturnTimeAsPeriod. (The years 1000, 1100, 1200 must not follow a '-': see C09.)", "quantifier": "all dates of years 1000..9999, all times of day, six orders, separators, paddings, clocks, preferences, locales, histories", "why_tests_cant": "The product of dates, times of day, orders, separators, locales and clocks is far beyond test size.", "anchors": ["parser.go: Parse", "internal/parser/absolute/parser.go: Init, Parse", "internal/parser/common/time.go: ParseTime", "internal/language/translate.go: Translate", "internal/language/applicable-check.go: IsApplicable"]}
{"id": "C63", "title": "The formats are alternatives", "statement": "Parse with several formats returns what it returns without formats or with one of them alone, and finds a date iff one of these calls does (provided no format reads the text or a translation of it as the zero time, 1 January of the year 1, 00:00 UTC, which Parse takes for a failure). If the text itself matches, the first matching format decides, whatever the locales, the history and the ParserTypes. Without CustomFormat among the ParserTypes, formats that do not match the text itself have no effect. Giving a format twice changes nothing.", "quantifier": "every text, list of formats, configuration, history, locale data", "why_tests_cant": "Relates calls with different lists of formats, for all texts and formats.", "anchors": ["parser.go: Parser.Parse, tryCustomFormat", "internal/parser/formatted/parser.go: Parse"]}
{"id": "C64", "title": "Search reports the dates in the order of the input", "statement": "For a language whose words are separated by spaces and whose dictionary gives each word one meaning, the texts of the dates found by Search stand in the input one after the other, in the order of the results, and none overlaps the next (in a piece of the input each run of white space counts as one space): no part of the input is reported twice.", "quantifier": "every text, configuration, detector, parser history, and every such language", "why_tests_cant": "Ranges over all texts and over the relation between all results of one call.", "anchors": ["search.go: Search, SearchWithLanguage, parseFoundObjects", "internal/language/translate-search.go: TranslateSearch", "internal/language/split.go: SplitSentence"]}
{"id": "C65", "title": "ISO 8601 dates with a time are read as written", "statement": "A text \"Y-M-DTh:m[:s]\" (year in four digits, month and day in one or two, T or t, hour, minute and second in digits and colons) denotes that day at that time of day, for every valid date of the years 1000-9999 and every time of day, in every locale whose order of day, month and year has the month before the day; in particular in English and with the default configuration. With T the numbers may also be in the order and with the separators of the locale.", "quantifier": "every date, time of day, digit count, case of T, locale table of this shape, clock, settings and detector", "why_tests_cant": "Ranges over all dates times all times of day times all ways to write them, and over all configurations.", "anchors": ["parser.go: Parser.Parse, getApplicableLocales", "internal/language/split.go: Split, splitByKnownWords", "internal/language/translate.go: Translate", "internal/language/utils.go: join, mapSkippedTokens", "internal/parser/absolute/parser.go: Parse"]}
{"id": "C66", "title": "Dates with an offset from UTC denote that instant (RFC 3339)", "statement": "A text \"Y-M-DTh:m[:s]±hh:mm\" (T, t or a blank between date and time) denotes that day at that time of day and the result carries exactly the offset written, for every valid date of the years 1000-9999, every time of day and each of the 42 offsets of the library's list of time zones (-12:00 to +14:00, in use in the world), whatever Timezone is set in the configuration; in particular in English and with the default configuration. An offset that is not in the list is not read as an offset.", "quantifier": "every date, time of day, digit count, known offset, locale table of this shape, clock, settings (Timezone too) and order of the library's time zone table", "why_tests_cant": "Ranges over all dates times all times of day times all offsets, and over all configurations; the table of time zones is built in a random order at start-up.", "anchors": ["internal/timezone/parser.go: PopTzOffset", "internal/timezone/tz-offsets.go, timezones.go: tables of zones", "parser.go: Parser.Parse, applyTimezone, stripBracesAndTimezones", "internal/language/split.go: Split", "internal/parser/absolute/parser.go: Parse"]}
{"id": "C67", "title": "Jalali and Hijri dates may be written in the digits of any script", "statement": "ParseJalali and ParseHijri give the same answer (date, period, error) for a text and for the text in which every decimal digit of a script (Persian, Arabic, Devanagari, ...) is replaced by the ASCII digit of the same value; so the dates of C36 are read in any script. (Digits that composition turns into other characters, such as fullwidth ones, and the two scripts that C27 names are left out.)", "quantifier": "every text of Unicode characters, every configuration, calendar library and set of Unicode tables with the usual laws for digits", "why_tests_cant": "Ranges over all texts and all scripts, and over all mixtures of scripts within a text.", "anchors": ["jalali-parser.go: ParseJalali", "hijri-parser.go: ParseHijri", "internal/digit/digit.go: NormalizeString", "internal/strutil/strutil.go: NormalizeUnicode", "internal/parser/jalali, internal/parser/hijri"]}
{"id": "C68", "title": "Numeric dates may be written in the digits of any script", "statement": "Parse reads a date of three numbers in the order the configuration gives, and such a date followed by a time of day in digits and colons, written in the decimal digits of any script other than the Latin one (Persian, Arabic, Devanagari, ..., also mixed), joined by '-', '/' or a blank, as the date that the same text denotes in ASCII digits (see C09 and C62).", "quantifier": "all dates of years 1000..9999, all times of day, six orders, all scripts and mixtures of scripts, clocks, preferences, locales, histories", "why_tests_cant": "The product of dates, scripts per digit, orders and configurations is far beyond test size.", "anchors": ["internal/digit/digit.go: NormalizeString", "internal/strutil/strutil.go: SanitizeDate, NormalizeString", "parser.go: Parse, getApplicableLocales", "internal/language/translate.go: Translate"]}
{"id": "C69", "title": "Dates in the form of ISO 8601 may be written in the digits of any script", "statement": "Parse reads year, month, day, the letter T (or t) and a time of day in digits and colons, written in the decimal digits of any script other than the Latin one (also mixed), as the date and time that the same text denotes in ASCII digits (see C65); with the library's own tables and no DateOrder the answer is in English.", "quantifier": "all dates of years 1000..9999, all times of day, all scripts and mixtures of scripts, clocks, preferences, locales, histories", "why_tests_cant": "The product of dates, times, scripts per digit and configurations is far beyond test size.", "anchors": ["internal/digit/digit.go: NormalizeString", "internal/strutil/strutil.go: SanitizeDate, NormalizeString", "parser.go: Parse, getApplicableLocales", "internal/language/translate.go: Translate", "internal/timezone/parser.go: PopTzOffset"]}
{"id": "C70", "title": "The thirtieth of the twelfth month of a year without it is taken in a year that has it", "statement": "When ParseJalali or ParseHijri is given day 30 of the twelfth month of a year in which that month has 29 days, the answer is day 30 of the twelfth month of another year: of the next year that has this day if future dates are preferred, of the previous one if past dates are preferred, and otherwise of the nearer of both (the earlier one if both are equally near). Where the Jalali calendar ends before such a year is found, the year stays and the day becomes the last of the month.", "quantifier": "all years without that day, all calendars (as functions), all preferences, orders, separators and clocks", "why_tests_cant": "Ranges over all years of two calendars and all positions of their leap years.", "anchors": ["internal/parser/hijri/parser.go: createDateTime, getCorrectHijriLeapYear, getHijriLeapYear", "internal/parser/jalali/parser.go: createDateTime, getCorrectLeapYear, getLeapYear"]}
{"id": "C71", "title": "ParseJalali understands months and days of the week in Persian words", "statement": "ParseJalali of a text made of a day from 1 to 30 (one or two digits), the Persian name of a month (in each of its spellings) and a year of four digits, separated by blanks, or of the same with day and year exchanged, perhaps after the Persian name of a day of the week (which is not compared with the date), returns midnight of the Gregorian day that the Jalali calendar gives for that day, month and year, with period Day; the numbers may be in the digits of any script. Where the day comes first, an order of date components that starts with the year, or with the month and then the year, is only claimed for days of one digit.", "quantifier": "all twelve months and their spellings, all days of the week, all days 1 to 30 that the month has, all years, all six orders, all calendars (as functions), all clocks", "why_tests_cant": "Ranges over all dates, spellings, orders, scripts and calendars.", "anchors": ["internal/parser/jalali/translate.go: replaceMonths, replaceWeekdays, removeWeekdayTranslations", "internal/parser/jalali/parser.go: Parse", "internal/parser/absolute/parser.go: parseLetterToken, parseDigitToken"]}
