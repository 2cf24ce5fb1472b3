#!/usr/bin/env python3
# Writes /verif/properties.jsonl.  One place to edit the English statements.
import json
P=[]
def p(id,title,statement,quantifier,why,anchors):
    P.append(dict(id=id,title=title,statement=statement,quantifier=quantifier,why_tests_cant=why,anchors=anchors))

p("C01","Parse returns a usable date exactly when it returns no error",
 "For every call Parse(cfg, str, formats...): if the returned error is nil then the returned Date is not IsZero (its Period is set and its Time is not the zero time); if the error is non-nil then the returned Date is the zero Date.",
 "every parser state, configuration, input string, format list and clock value",
 "The contract must hold for every string and every path through five sub-parsers and all locales; tests sample a few hundred strings.",
 ["parser.go: Parser.Parse, tryRelativeTime, tryCustomFormat, tryAbsoluteTime, tryNoSpacesTime","date/date.go: Date.IsZero"])
p("C02","The reported Locale is one the caller allowed",
 "When Parse succeeds, Date.Locale is either \"\" (only if one of the caller's formats matched the raw string) or the name of a locale that is (a) selected by cfg.Locales / cfg.Languages+Region / the language detector, (b) selected by cfg.DefaultLanguages, or (c) a locale remembered by this Parser, and (c) only if cfg.TryPreviousLocales.",
 "every parser state, configuration, string and format list",
 "Quantifies over all configurations and all parser histories.",
 ["parser.go: Parser.Parse, getApplicableLocales","internal/language/loader.go: GetLocales"])
p("C03","Without TryPreviousLocales a Parser has no memory",
 "If cfg.TryPreviousLocales is false, then the result of Parse(cfg, str, formats) on a Parser that has executed any sequence of earlier Parse calls equals the result on a Parser freshly created with the same ParserTypes and detector, and the call leaves the remembered locales unchanged.",
 "every finite history of earlier Parse calls with arbitrary configurations and strings",
 "History independence is a statement about all call sequences; a test can only run some.",
 ["parser.go: Parser.Parse, getApplicableLocales, saveUsedLocale"])
p("C04","Remembered locales are a duplicate-free, append-only list",
 "After any sequence of Parse calls the list of remembered locales has no two entries with the same name, every earlier list is a prefix of every later one, and an entry is added only by a call that succeeded with TryPreviousLocales set, in which case it is the locale reported by that call.",
 "every finite history of Parse calls",
 "Invariant over unbounded histories.",
 ["parser.go: saveUsedLocale, checkPreviousLocales"])
p("C05","cfg.Locales restricts parsing to exactly those locales",
 "Documentation of Configuration.Locales: 'The parser uses only these locales to translate date string.' So whenever cfg.Locales is non-empty and cfg.DefaultLanguages is empty, a successful locale-based Parse reports a locale listed in cfg.Locales.",
 "every parser history, configuration and string",
 "Needs all histories: with TryPreviousLocales a locale remembered from an earlier, differently configured call may be used.",
 ["config.go: Configuration.Locales","parser.go: getApplicableLocales, checkPreviousLocales"])
p("C06","ParserTypes selects the sub-parsers and their priority",
 "Only sub-parsers listed in ParserTypes can produce a locale-based result; for a given locale the result is that of the first listed sub-parser that yields a date; a type number above NoSpacesTime makes every call fail with the zero Date; an empty list means Timestamp, NegativeTimestamp, RelativeTime, CustomFormat, AbsoluteTime, NoSpacesTime, and is replaced by it once and for all.",
 "every ParserTypes list, parser state, configuration and string",
 "All permutations/sublists of parser types with all inputs.",
 ["parser.go: ParserType, Parser.Parse"])
p("C07","StrictParsing only accepts complete dates",
 "With cfg.StrictParsing, a date is returned only if day, month and year were all given in the string.",
 "every string, format list and configuration with StrictParsing",
 "Universal over strings and formats; tests cover a handful and none with formats.",
 ["config.go: Configuration.StrictParsing","internal/parser/common/strict-check.go: CheckStrictParsing","internal/parser/absolute/parser.go: Parser.Parse","internal/parser/nospace/parser.go: Parse","internal/parser/formatted/parser.go: Parse"])
p("C08","RequiredParts accepts day/month/year and enforces them",
 "Documentation: RequiredParts 'can accept \"day\", \"month\" and \"year\"'. Configurations listing exactly those parts are accepted, other names are rejected, and a listed part that is missing from the string makes the absolute and no-space parsers reject it.",
 "every RequiredParts list (any letter case) and every string",
 "Universal over lists of arbitrary strings.",
 ["config.go: validate","internal/parser/common/strict-check.go: CheckStrictParsing"])
p("C09","Numeric dates round-trip in every date order",
 "For every valid calendar date with a four digit year 1000..9999 and each of the six date orders, parsing the three numbers written in that order (with or without zero padding, joined by '-', '/', '.' or ' ') with that DateOrder returns exactly that day at 00:00 with Period Day, independently of the current time and of the preferences.",
 "all dates of years 1000..9999 (3.3 million), six orders, separators, paddings, clocks, preferences",
 "The product of dates, orders, separators and clocks is far beyond test size.",
 ["internal/parser/absolute/parser.go: Init, parseDigitToken, Parse","internal/parser/absolute/root.go"])
p("C10","DateOrder strings are validated as permutations of D, M, Y",
 "A DateOrder function result is used iff it is, ignoring case, one of the six permutations of D, M, Y; otherwise the locale's own order is used and the call behaves exactly as if the function had not been given.",
 "every byte string returned by the DateOrder function",
 "All strings.",
 ["parser.go: validateDateOrder, Parser.Parse"])
p("C11","A weekday-only string denotes the documented occurrence of that weekday",
 "If the string contributes a weekday but no day, month or year, the resulting date falls on the named weekday and lies 1..7 days after the current date with Future, 1..7 days before it with Past and 0..6 days before it with CurrentPeriod; it is the unique such date.",
 "every current time (any year), every weekday name, every DateSource",
 "All current dates; the step loop must also terminate for all of them.",
 ["internal/parser/absolute/parser.go: correctForTimeFrame"])
p("C12","Dates without a year respect Past/Future",
 "If day and month are given but no year, then with Past the result is not after the current time, with Future it is after the current time, the day and month are the given ones, and no other occurrence of that day and month lies strictly between the result and the current time.",
 "every current time, month, day, DateSource",
 "All clock values incl. leap days; boundary behaviour at the exact current instant.",
 ["internal/parser/absolute/parser.go: correctForTimeFrame, getCorrectLeapYear","config.go: PreferredDateSource"])
p("C13","A time-only string resolves to the nearest past/future occurrence",
 "If only a time of day is given, the result has exactly that time of day; with Past it is not after the current time, with Future not before it, and it is within one day of the current time.",
 "every current time, time of day, DateSource and month preference",
 "The failure needs the current date to be the first/last day of a month, which tests with fixed clocks never hit.",
 ["internal/parser/absolute/parser.go: correctForTimeFrame, correctForMonth"])
p("C14","PreferredDayOfMonth fills a missing day as documented",
 "When month and year are given without a day: First gives day 1, Last gives the last day of that month, Current gives min(current day, last day of that month); month, year and time of day are as given.",
 "every year, month, current time and preference",
 "All months of all years and all clocks.",
 ["internal/parser/common/apply-day.go: ApplyDayFromConfig","internal/parser/absolute/parser.go: correctForDay"])
p("C15","PreferredMonthOfYear fills a missing month as documented",
 "When only a year is given: FirstMonth gives January, LastMonth December, CurrentMonth the current month of that year; the result stays in the given year and month.",
 "every year, current time and preference",
 "All years and clocks, e.g. the current day 31 with a 30-day target month.",
 ["internal/parser/common/apply-month.go: ApplyMonthFromConfig","internal/parser/absolute/parser.go: correctForMonth"])
p("C16","Impossible days are clamped, never rolled into the next month",
 "For every day 1..31, month and year in the string, the result is in the given month; if the month is shorter, its day is the last day of that month, except 29 February of a non-leap year, which moves to the nearest leap year (next with Future, previous with Past).",
 "every year, month, day and DateSource",
 "All years; leap-year search must terminate and find the nearest leap year for every year.",
 ["internal/parser/absolute/root.go: createDateTime","internal/dateutil/dateutil.go"])
p("C17","An explicitly written four-digit year is honoured",
 "If the string contains a four-digit number accepted as the year, the resulting date is in that year (except for the documented 29 February adjustment).",
 "every string, date order, clock and preference",
 "Universal over token sequences; the failing ones need out-of-range leftovers.",
 ["internal/parser/absolute/parser.go: Init (unset-token fallback), parseDigitToken","internal/parser/absolute/root.go: getDateTimeParams"])
p("C18","Two-digit years respect Past/Future and keep day and month",
 "A two-digit year yy denotes a year congruent to yy modulo 100; with Past the result is not after the current time, with Future it is after it; day and month are those written.",
 "every two-digit year, month, day, current time and DateSource",
 "All clocks and centuries (29 February of century years).",
 ["internal/parser/absolute/parser.go: correctForTimeFrame"])
p("C19","Period reports the finest component that was given",
 "For the absolute parser, Period is Day if a day was given (or nothing but weekday/time), Month if the finest is a month, Year if only a year; with ReturnTimeAsPeriod and a time in the string it is the resolution of that time (Second, Minute, Hour); without ReturnTimeAsPeriod no Parse result other than from a custom format ever has a time period.",
 "every component set and time token",
 "All component sets and configurations.",
 ["internal/parser/absolute/parser.go: getPeriod, Parse","internal/parser/relative/parser.go: Parse","internal/parser/timestamp/parser.go: Parse"])
p("C20","Relative offsets are exact calendar arithmetic",
 "For integer amounts, 'N decades/years/months/weeks/days/hours/minutes/seconds ago' (any combination of distinct units) returns the current time minus 10N years, N years, N months, 7N days, N days and the exact duration, in that order (calendar part by AddDate normalisation, or its end-of-month preserving variant, then duration); with 'in' instead of 'ago' the same forwards. The period is the smallest unit named. It holds for amounts up to 2562047 hours, 153722867 minutes, 9223372036 seconds and 10^9 of each other unit, the largest whose duration fits into 64 bits of nanoseconds; the text is the translated one (singular unit names).",
 "every combination of distinct units in any order, with or without commas, all amounts up to the bounds, every current time and zone",
 "All amounts/combinations; includes the claim that binary64 arithmetic does not lose anything on integers.",
 ["internal/parser/relative/parser.go: parseDate, getRelativeDurations, addDate"])
p("C21","Direction of relative strings",
 "A relative string containing the word 'ago' (whole word, any case) never denotes a time after the current time; one containing 'in' and not 'ago' never a time before it; without either word the direction is forwards iff PreferredDateSource is Future. If the string also gives a time of day this holds for the day. It holds in zones with a fixed offset (not in the hour that is repeated when summer time ends, see C50), for all amounts, decimal fractions included, whose integer part is below 2559000 hours, 153 million minutes, 9 billion seconds and 1 billion of any other unit; a bound is needed, since 2562048 hours overflow the 64-bit duration and go the wrong way.",
 "every relative string, every combination of units, every amount below the bounds, every current time in a fixed zone",
 "All amounts, including the rounding of decimal fractions in binary64 and their distribution over smaller units.",
 ["internal/parser/relative/parser.go: parseDate, getRelativeDurations, addDate"])
p("C22","PreserveEndOfMonth never leaves the target month",
 "With PreserveEndOfMonth, adding years and months lands in the month obtained by month arithmetic, on day min(current day, last day of that month); without it the result is Go's AddDate (which rolls over).",
 "every current date, year and month offset",
 "All dates and offsets.",
 ["internal/parser/relative/parser.go: addDate"])
p("C23","Unix timestamps are exact",
 "A string of 10 digits (optionally 13 or 16 digits: milliseconds, microseconds), at the start of the string and followed by '.', whitespace or the end, denotes exactly that instant; a leading '-' (NegativeTimestamp) denotes the mirrored instant before the epoch.",
 "all 10/13/16 digit strings (10^16 values), both signs, every remainder of the string",
 "10^16 inputs.",
 ["internal/parser/timestamp/parser.go: Parse"])
p("C24","Attaching a timezone keeps the wall clock",
 "When the string carries a timezone, the absolute and no-space results have exactly the wall clock that would be returned without it and the UTC offset of that timezone; with only cfg.DefaultTimezone they have the same wall clock and the offset that zone has at that wall clock time.",
 "every wall clock, offset and zone transition table",
 "All zones and all instants near DST transitions.",
 ["parser.go: applyTimezone"])
p("C25","Timezone extraction is deterministic and local",
 "PopTzOffset is a function of its input (repeated calls and program runs agree); it removes exactly one contiguous piece and returns a known timezone name with its tabulated offset; if no timezone is found the string is unchanged.",
 "every string and every map iteration order used at package initialisation",
 "Go randomises map iteration per run; a test observes one order.",
 ["internal/timezone/tz-offsets.go","internal/timezone/parser.go: PopTzOffset","root.go: PopTzOffset"])
p("C26","Tokenising is lossless",
 "The tokens of a string, concatenated, give back the string; each token is non-empty and homogeneous (digits/colon, ASCII letters, other) and neighbouring tokens have different types.",
 "every string (valid UTF-8)",
 "All strings.",
 ["internal/parser/tokenizer/tokenizer.go: Tokenize"])
p("C27","Digit normalisation",
 "NormalizeString maps every decimal digit of every script to the ASCII digit of the same value and leaves every other character unchanged; it preserves the number of characters and is idempotent.",
 "every string, every Unicode decimal digit",
 "All sequences of digits of mixed scripts: the function is stateful (last used range).",
 ["internal/digit/digit.go: NormalizeString"])
p("C28","No-space dates: every digit is used, the date is real, and it is the first reading in a fixed list",
 "If the no-space parser returns a date, some maximal run of digits of the text splits completely into year/month/day (and time) fields with valid values, a date of the calendar, that are exactly the fields of the returned time. For every text, configuration and date order the result (or its absence) is the first run, field sequence and cut, in a documented order of preference, that denotes a time; and Parse with the no-space parser first returns that time.",
 "every text, date order and configuration",
 "All digit strings and the field-length permutations they induce.",
 ["internal/parser/nospace/parser.go: Parse","internal/parser/nospace/constants.go: createParseCandidates, candidateIsValid"])
p("C29","With CurrentTime set the result does not depend on the wall clock",
 "If cfg.CurrentTime is set, Parse, Search, SearchWithLanguage, ParseHijri and ParseJalali give the same result whenever they are executed in the years 2001 to 2999; without the no-space parser Parse gives the same result at every time whatsoever.",
 "every pair of wall clock readings, configuration and string",
 "Needs two executions in different years, e.g. across a century.",
 ["config.go: CurrentTime","internal/parser/nospace/constants.go: candidateIsValid"])
p("C30","Locale selection",
 "GetLocales returns only known locales, each once, exactly those requested (or constructible from languages and region); any unknown locale/language gives an error; two regions of one language conflict; without UseGivenOrder the order is the published frequency order, independent of the order in which they were given.",
 "every list of locales/languages/region",
 "All lists.",
 ["internal/language/loader.go: GetLocales","internal/data/01-language-order.go","internal/data/04-locale-order.go"])
p("C31","All combinations of ambiguous translations are tried",
 "For a tokenised string, translation produces exactly the cartesian product of the alternatives of its tokens, each once, in lexicographic order.",
 "every list of non-empty alternative lists",
 "All shapes of products.",
 ["internal/language/utils.go: createPermutation","internal/language/translate.go: Translate"])
p("C32","Search results are well-formed",
 "Every result of Search has a non-zero Date whose Locale is the returned language, and a matching number of texts; results are listed in the order the texts occur in the translation.",
 "every text, configuration and parser state",
 "All texts.",
 ["search.go: SearchWithLanguage, parseFoundObjects"])
p("C33","Search never panics",
 "Search and SearchWithLanguage return (possibly an error) for every text and every known language.",
 "every text and every known language",
 "Universal absence of out-of-range accesses; specific punctuation/word combinations needed.",
 ["internal/language/split.go: SplitSentence","internal/language/translate-search.go: TranslateSearch","search.go: splitBy"])
p("C34","A Parser may be shared by goroutines",
 "Goroutines may call Parse on one Parser at the same time (and use nothing else of the library meanwhile): every concurrent execution has the results and the final state of some sequential order of whole calls that respects the order of calls that do not overlap; no call is blocked for ever; there is no data race on the Parser or on the text normaliser that the library shares; and without TryPreviousLocales each call returns what it would return if executed alone.",
 "every interleaving of any number of goroutines",
 "All schedules.",
 ["parser.go: Parser.Parse","internal/strutil/strutil.go: NormalizeUnicode, unicodeTransformer"])
p("C35","Custom formats fill missing parts as documented",
 "If a format matches: parts present in the format are exactly those parsed; a missing year is the current year, a missing month/day follow the preferences; the Period is Day, Month or Year according to the coarsest missing part; no part that was parsed is changed.",
 "every format, string, clock and preference",
 "All formats and clocks (29 February, day 31 in a 30 day month).",
 ["internal/parser/formatted/parser.go: Parse"])
p("C36","Two-digit Hijri and Jalali years and component ranges",
 "In Hijri dates yy>=90 means 13yy, otherwise 14yy; in Jalali dates yy>60 means 13yy, otherwise 14yy; every day number that is valid in the calendar (Hijri 1..30, Jalali 1..31), month 1..12 and four-digit year is accepted for its component.",
 "every token",
 "All tokens and component positions.",
 ["internal/parser/hijri/parser.go","internal/parser/jalali/parser.go"])
p("C37","Whitespace sanitising treats non-breaking spaces as spaces",
 "SanitizeSpaces (documented: 'replaces non-breaking spaces into a normal one, then remove any excess whitespaces') returns the words of the string separated by single spaces, where words are separated by any white space including U+00A0; it is idempotent.",
 "every string",
 "All strings.",
 ["internal/strutil/strutil.go: SanitizeSpaces"])
p("C38","Times of day are parsed exactly",
 "The texts understood as a time of day are exactly h:m, h:m:s and h:m:s.f with 0<=h<24, the same with am/pm after blanks (any case; with seconds only h<=12) and h am/pm (h<=12), with one or two digits per field; each denotes exactly one time of day, returned with the resolution written; a field out of range (hour 24, minute or second 60) is rejected whatever follows.",
 "all times of day, paddings, fractions up to 9 digits",
 "86400 x formats x fractions.",
 ["internal/parser/common/time.go: ParseTime"])
p("C39","Results do not depend on map iteration order",
 "Apart from timezone extraction, no result depends on the iteration order of any Go map (alphabetic directives, format mapping, language order, unique charsets, token sets, merged translations).",
 "every permutation a map iteration may take",
 "Each process run sees one order per map.",
 ["internal/parser/absolute/parser.go: alphaDirectives","internal/parser/nospace/parser.go: formatMapping","internal/language/loader.go","internal/language/languages.go: GetUniqueCharsets","internal/language/applicable-check.go: CountApplicability"])
p("C40","Parsing never modifies the caller's configuration",
 "Parse works on a clone: the configuration passed by the caller is unchanged, and the effective configuration equals the caller's except that an unset CurrentTime becomes the clock and empty SkipTokens become [\"t\"].",
 "every configuration",
 "All field values.",
 ["config.go: Clone, initiate, toInternalConfig"])
p("C41","Regional locales understand what their language understands",
 "A regional locale (e.g. en-GB) splits and translates every word known to its language (e.g. en): a month or weekday name recognised for the language is recognised for the region.",
 "every regional locale and known word",
 "Hundreds of locales times all words and neighbourhoods.",
 ["internal/data/00-locale-data.go: merge","internal/language/split.go: Split"])
p("C42","Unsplittable entries are split consistently",
 "When Search splits an entry and its original text, both are split into the same number of parts for every splitter and grouping, the parts re-joined give the whole, and the chosen split minimises (unparsed ratio, number of parts, digit-less ratio), the first such on ties.",
 "every pair of entry and original text",
 "All strings with equal splitter counts.",
 ["search.go: splitIfNotParsed, splitBy, chooseBestSplit"])
p("C43","Parse always returns",
 "Parse returns a Date and an error value, and never panics, for every text, list of formats, configuration, language detector and history of the Parser, provided the locale tables have no word with an empty list of translations.",
 "every text, formats, configuration, clock, detector and parser history",
 "Absence of out-of-range accesses and nil dereferences on all inputs.",
 ["parser.go: Parser.Parse","internal/language/translate.go: Translate","internal/language/split.go: Split","internal/parser/absolute/parser.go: Parse"])
p("C44","Search has no memory",
 "What Search returns (language, dates, texts, error) does not depend on the earlier calls of Parse and Search on the same Parser, provided the languages it considers are all different.",
 "every history of the Parser, configuration and text",
 "All histories; the Parser caches the unique characters of the languages of the last Search.",
 ["search.go: Search, initUniqueCharsets","internal/language/languages.go: GetUniqueCharsets"])
p("C45","The language reported by Search",
 "Search reports the first of the considered languages if the text has only characters common to all languages; otherwise the first language with a character in its alphabet that no other considered language has; otherwise the only language that shares a character with the text; otherwise the one with most known words, then most numbers, the first one on ties; otherwise the first default language. In particular it is one of the considered languages or the first default language.",
 "every text, set of languages, configuration and history",
 "All texts and subsets of hundreds of languages.",
 ["internal/language/detector.go: DetectFullTextLanguage, getLanguageCandidates","search.go: Search"])
p("C46","Concurrent Search calls do not influence each other",
 "Search and SearchWithLanguage may be called from several goroutines on one Parser: each call returns what it would return if executed alone, and there is no data race.",
 "every interleaving of any number of goroutines",
 "All schedules.",
 ["search.go: Search, SearchWithLanguage, initUniqueCharsets","internal/strutil/strutil.go: NormalizeUnicode, unicodeTransformer"])
p("C47","Repeating a language makes no difference",
 "Repeating a language in Configuration.Languages changes neither the result of Parse nor that of Search.",
 "every configuration, text and history",
 "All configurations and histories.",
 ["internal/language/loader.go: GetLocales","search.go: initUniqueCharsets"])
p("C48","A complete date of eight digits in the asked order denotes that date",
 "With the no-space parser first, Parse understands two digits for the day, two for the month and four for the year, written without separators in the configured date order, as that date; also with hour and minute appended, and also with strict parsing.",
 "every date of the years 1000 to 9999, date order and configuration",
 "All dates and orders; the preferred formats and the strictness check interact with only some of them.",
 ["internal/parser/nospace/parser.go: Parse","internal/parser/nospace/constants.go: dateTimeFormats, preferredFormats, formatMapping"])
p("C49","The time zone of relative dates",
 "A relative date is in the time zone written in the text; without one, in DefaultTimezone; without that, in the zone of CurrentTime (UTC if that is not set). The instant it is counted from is the current time in every case.",
 "every text, configuration, zone (with any transitions) and clock reading",
 "All zones and texts.",
 ["internal/parser/relative/parser.go: Parse"])
p("C50","Hours, minutes and seconds are elapsed time, in every zone",
 "A relative text of whole hours, minutes and seconds denotes the instant that many seconds from the current time, whatever the time zone.",
 "every current time, zone and amounts",
 "All zones and transitions; the zone is only consulted through calendar arithmetic.",
 ["internal/parser/relative/parser.go: parseDate, addDate"])
p("C51","Dates found in a text are relative to the last date found before them",
 "Without CurrentTime, each phrase Search finds is parsed relative to the last earlier date of the text that is not itself relative (does not mention ago, in, from now, tomorrow, today or yesterday), and to the clock as long as there is none; with CurrentTime always relative to that. Where a phrase had to be cut, the same holds piece by piece within each way of cutting, and the time used last stays the reference until a date replaces it.",
 "every text, language, configuration and history of the Parser",
 "All sequences of phrases and ways to cut them.",
 ["search.go: parseFoundObjects, parseEntry, getRelativeBase"])
p("C52","Words for a relative day denote that day in every language",
 "Every word or phrase a supported language has for a relative date (tomorrow, last year, ...) is turned into an amount of one unit before or after now, and the relative parser reads that as the current time plus or minus that amount.",
 "every supported locale and every such word in its tables, current time and zone",
 "The tables of 504 locales hold thousands of such phrases, and the result depends on the current time.",
 ["internal/data: LocaleData.RelativeType","internal/language/translate.go: translate","internal/parser/relative/parser.go: Parse"])
p("C53","The words of a language mean dates, and every language has them",
 "Whatever word a supported locale translates, the result is a month, weekday, unit, half of the day, direction, zone or separator the date parsers know; each locale can express all months, weekdays, units (except the decade) and halves of the day; and texts are split by exactly the words that can be translated.",
 "every supported locale and every word",
 "All locales and words.",
 ["internal/data: LocaleData","internal/language/translate.go","internal/language/split.go"])
p("C54","Every supported locale can be selected",
 "Each of the supported locales is used when asked for by its code, or by its language and its region in any case; with nothing asked for, each supported language is used exactly once and without region.",
 "every supported locale code, language, region in any case, order flag",
 "All codes and ways to ask.",
 ["internal/language/loader.go: GetLocales","internal/data: GetLocaleData, LanguageOrder, LocaleOrder"])
p("C55","An English date in words denotes that date",
 "An English text of a day, a month name (full or abbreviated, in any case) and a four digit year, in one of the arrangements listed in EnglishForms.v (12 March 2015; March 12th, 2015; 2015 March 12; Thursday, March 12, 2015; 12 March 2015 7:08 pm; ...), is read by Parse, when English is the first locale tried, as exactly that date and time of day, in whatever date order, with whatever current time, preferences, default zone and history.",
 "every valid date from year 2, time of day, month and weekday spelling in any case, configuration, history",
 "All dates, spellings, orders and configurations.",
 ["parser.go: Parse","internal/language/translate.go","internal/parser/absolute/parser.go: Parse"])
p("C56","Upper and lower case make no difference",
 "Two ASCII texts that differ only in the case of letters get the same answer from Parse (called without formats): the same date, period, locale and error, and the same is remembered for later calls.",
 "every ASCII text, every choice of case, locale data, configuration, history, language detector",
 "2^n ways to write a text with n letters, for all texts and configurations.",
 ["parser.go: Parse","internal/strutil/strutil.go: SanitizeDate, NormalizeString"])
p("C57","The amount and the kind of white space make no difference",
 "Two ASCII texts with the same words (the pieces between white space) get the same answer from Parse (called without formats), and the same is remembered for later calls. (Proved for texts with at most two full stops; false with three.)",
 "every pair of ASCII texts with the same words, locale data, configuration, history, language detector",
 "Unboundedly many ways to space a text, for all texts and configurations.",
 ["parser.go: Parse","internal/strutil/strutil.go: SanitizeDate, SanitizeSpaces"])
p("C58","The texts reported by Search come from the input",
 "For a language whose words are separated by spaces, every text that Search or SearchWithLanguage reports with a date is a part of the input: it occurs, letter for letter, in a piece of the input in which each run of white space is replaced by one space.",
 "every input text, language with spaces, locale data, configuration, history, language detector",
 "All texts: the reported text is rebuilt from aligned token lists, joined and collapsed by regular expressions.",
 ["search.go: Search, SearchWithLanguage","internal/language/translate-search.go: TranslateSearch, simplifySplitAlign, joinChunk","internal/language/split.go: SplitSentence"])
p("C59","Dates with the month's name, in 119 languages",
 "In each of 119 languages (all languages of the library whose dictionary has names of months in ASCII letters and whose patterns name no particular digits, except Tagalog, which has no date order), a text made of a day of one or two digits, a name of a month in any case, and a year of four digits, with spaces between, is read as that date, in that language; the names are all ASCII words that the language's dictionary translates to a month and nothing else, except \"now\" in bm, dsb and hsb and \"sept\" in fr.",
 "every listed language, every month word of its dictionary in any case, every day and year, environment, configuration, date order, history, language database",
 "Thousands of month words times all days, years, cases and configurations.",
 ["parser.go: Parse","internal/language/translate.go: Translate","internal/language/split.go: Split","internal/data/*.go","internal/parser/absolute/parser.go: Parse"])
p("C60","Goroutines that share no Parser do not influence each other",
 "Goroutines that share no Parser - each calls Parse or SearchWithLanguage on a Parser of its own, ParseHijri or ParseJalali - do not influence each other: every call returns what it would return if executed alone.",
 "every interleaving of any number of goroutines, every state of the shared normaliser",
 "All schedules; the library keeps one global normaliser with internal buffers.",
 ["internal/strutil/strutil.go: unicodeTransformer, NormalizeUnicode","parser.go: Parser.Parse","hijri-parser.go: ParseHijri","jalali-parser.go: ParseJalali","internal/language/translate-search.go: TranslateSearch"])
p("C61","Several locales: the answer is that of the first one that can",
 "Parse with several locales (given by Locales, by Languages and Region, by detection, or all of them) returns what the first successful one of the corresponding single-locale calls returns, in the order of selection (the listed order with UseGivenOrder), and fails iff they all fail. DefaultLanguages matter only if the call without them finds nothing; then their locales are tried one after the other, whether or not their words occur. TryPreviousLocales changes the answer only to that of a remembered locale alone.",
 "every text, formats, configuration, list of locales, history of the Parser",
 "Relates a call to many other calls, for all texts and all lists of locales.",
 ["parser.go: Parser.Parse, getApplicableLocales, checkPreviousLocales","internal/language/loader.go: GetLocales"])
p("C62","Numeric dates with a time of day round-trip in every date order",
 "For every valid date of the years 1000..9999, each of the six date orders and every time of day written in digits and colons (H:MM, HH:MM:SS with or without padding), the text made of the three numbers in that order (padded or not, with separators '-', '/', '.', ' ', both '.' or neither), a blank and the time of day is read as that date at that time, whatever the current time, the preferences, the locales and the history; the Period is day, or the resolution of the time of day with ReturnTimeAsPeriod. (The years 1000, 1100, 1200 must not follow a '-': see C09.)",
 "all dates of years 1000..9999, all times of day, six orders, separators, paddings, clocks, preferences, locales, histories",
 "The product of dates, times of day, orders, separators, locales and clocks is far beyond test size.",
 ["parser.go: Parse","internal/parser/absolute/parser.go: Init, Parse","internal/parser/common/time.go: ParseTime","internal/language/translate.go: Translate","internal/language/applicable-check.go: IsApplicable"])
p("C63","The formats are alternatives",
 "Parse with several formats returns what it returns without formats or with one of them alone, and finds a date iff one of these calls does (provided no format reads the text or a translation of it as the zero time, 1 January of the year 1, 00:00 UTC, which Parse takes for a failure). If the text itself matches, the first matching format decides, whatever the locales, the history and the ParserTypes. Without CustomFormat among the ParserTypes, formats that do not match the text itself have no effect. Giving a format twice changes nothing.",
 "every text, list of formats, configuration, history, locale data",
 "Relates calls with different lists of formats, for all texts and formats.",
 ["parser.go: Parser.Parse, tryCustomFormat","internal/parser/formatted/parser.go: Parse"])
p("C64","Search reports the dates in the order of the input",
 "For a language whose words are separated by spaces and whose dictionary gives each word one meaning, the texts of the dates found by Search stand in the input one after the other, in the order of the results, and none overlaps the next (in a piece of the input each run of white space counts as one space): no part of the input is reported twice.",
 "every text, configuration, detector, parser history, and every such language",
 "Ranges over all texts and over the relation between all results of one call.",
 ["search.go: Search, SearchWithLanguage, parseFoundObjects","internal/language/translate-search.go: TranslateSearch","internal/language/split.go: SplitSentence"])
p("C65","ISO 8601 dates with a time are read as written",
 "A text \"Y-M-DTh:m[:s]\" (year in four digits, month and day in one or two, T or t, hour, minute and second in digits and colons) denotes that day at that time of day, for every valid date of the years 1000-9999 and every time of day, in every locale whose order of day, month and year has the month before the day; in particular in English and with the default configuration. With T the numbers may also be in the order and with the separators of the locale.",
 "every date, time of day, digit count, case of T, locale table of this shape, clock, settings and detector",
 "Ranges over all dates times all times of day times all ways to write them, and over all configurations.",
 ["parser.go: Parser.Parse, getApplicableLocales","internal/language/split.go: Split, splitByKnownWords","internal/language/translate.go: Translate","internal/language/utils.go: join, mapSkippedTokens","internal/parser/absolute/parser.go: Parse"])
p("C66","Dates with an offset from UTC denote that instant (RFC 3339)",
 "A text \"Y-M-DTh:m[:s]±hh:mm\" (T, t or a blank between date and time) denotes that day at that time of day and the result carries exactly the offset written, for every valid date of the years 1000-9999, every time of day and each of the 42 offsets of the library's list of time zones (-12:00 to +14:00, in use in the world), whatever Timezone is set in the configuration; in particular in English and with the default configuration. An offset that is not in the list is not read as an offset.",
 "every date, time of day, digit count, known offset, locale table of this shape, clock, settings (Timezone too) and order of the library's time zone table",
 "Ranges over all dates times all times of day times all offsets, and over all configurations; the table of time zones is built in a random order at start-up.",
 ["internal/timezone/parser.go: PopTzOffset","internal/timezone/tz-offsets.go, timezones.go: tables of zones","parser.go: Parser.Parse, applyTimezone, stripBracesAndTimezones","internal/language/split.go: Split","internal/parser/absolute/parser.go: Parse"])
p("C67","Jalali and Hijri dates may be written in the digits of any script",
 "ParseJalali and ParseHijri give the same answer (date, period, error) for a text and for the text in which every decimal digit of a script (Persian, Arabic, Devanagari, ...) is replaced by the ASCII digit of the same value; so the dates of C36 are read in any script. (Digits that composition turns into other characters, such as fullwidth ones, and the two scripts that C27 names are left out.)",
 "every text of Unicode characters, every configuration, calendar library and set of Unicode tables with the usual laws for digits",
 "Ranges over all texts and all scripts, and over all mixtures of scripts within a text.",
 ["jalali-parser.go: ParseJalali","hijri-parser.go: ParseHijri","internal/digit/digit.go: NormalizeString","internal/strutil/strutil.go: NormalizeUnicode","internal/parser/jalali, internal/parser/hijri"])
p("C68","Numeric dates may be written in the digits of any script",
 "Parse reads a date of three numbers in the order the configuration gives, and such a date followed by a time of day in digits and colons, written in the decimal digits of any script other than the Latin one (Persian, Arabic, Devanagari, ..., also mixed), joined by '-', '/' or a blank, as the date that the same text denotes in ASCII digits (see C09 and C62).",
 "all dates of years 1000..9999, all times of day, six orders, all scripts and mixtures of scripts, clocks, preferences, locales, histories",
 "The product of dates, scripts per digit, orders and configurations is far beyond test size.",
 ["internal/digit/digit.go: NormalizeString","internal/strutil/strutil.go: SanitizeDate, NormalizeString","parser.go: Parse, getApplicableLocales","internal/language/translate.go: Translate"])
p("C69","Dates in the form of ISO 8601 may be written in the digits of any script",
 "Parse reads year, month, day, the letter T (or t) and a time of day in digits and colons, written in the decimal digits of any script other than the Latin one (also mixed), as the date and time that the same text denotes in ASCII digits (see C65); with the library's own tables and no DateOrder the answer is in English.",
 "all dates of years 1000..9999, all times of day, all scripts and mixtures of scripts, clocks, preferences, locales, histories",
 "The product of dates, times, scripts per digit and configurations is far beyond test size.",
 ["internal/digit/digit.go: NormalizeString","internal/strutil/strutil.go: SanitizeDate, NormalizeString","parser.go: Parse, getApplicableLocales","internal/language/translate.go: Translate","internal/timezone/parser.go: PopTzOffset"])
p("C70","The thirtieth of the twelfth month of a year without it is taken in a year that has it",
 "When ParseJalali or ParseHijri is given day 30 of the twelfth month of a year in which that month has 29 days, the answer is day 30 of the twelfth month of another year: of the next year that has this day if future dates are preferred, of the previous one if past dates are preferred, and otherwise of the nearer of both (the earlier one if both are equally near). Where the Jalali calendar ends before such a year is found, the year stays and the day becomes the last of the month.",
 "all years without that day, all calendars (as functions), all preferences, orders, separators and clocks",
 "Ranges over all years of two calendars and all positions of their leap years.",
 ["internal/parser/hijri/parser.go: createDateTime, getCorrectHijriLeapYear, getHijriLeapYear","internal/parser/jalali/parser.go: createDateTime, getCorrectLeapYear, getLeapYear"])
p("C71","ParseJalali understands months and days of the week in Persian words",
 "ParseJalali of a text made of a day from 1 to 30 (one or two digits), the Persian name of a month (in each of its spellings) and a year of four digits, separated by blanks, or of the same with day and year exchanged, perhaps after the Persian name of a day of the week (which is not compared with the date), returns midnight of the Gregorian day that the Jalali calendar gives for that day, month and year, with period Day; the numbers may be in the digits of any script. Where the day comes first, an order of date components that starts with the year, or with the month and then the year, is only claimed for days of one digit.",
 "all twelve months and their spellings, all days of the week, all days 1 to 30 that the month has, all years, all six orders, all calendars (as functions), all clocks",
 "Ranges over all dates, spellings, orders, scripts and calendars.",
 ["internal/parser/jalali/translate.go: replaceMonths, replaceWeekdays, removeWeekdayTranslations","internal/parser/jalali/parser.go: Parse","internal/parser/absolute/parser.go: parseLetterToken, parseDigitToken"])
with open("/verif/properties.jsonl","w") as f:
    for x in P: f.write(json.dumps(x,ensure_ascii=False)+"\n")
print(len(P))
