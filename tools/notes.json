{
 "C05": {
  "note": "Proved without TryPreviousLocales. Refuted with it: a locale remembered from an earlier call with other Locales is tried first."
 },
 "C07": {
  "note": "Proved for the absolute parser. Refuted: with StrictParsing, relative texts and custom formats without day/month/year are still accepted."
 },
 "C08": {
  "note": "Refuted: RequiredParts with day, month or year makes the configuration invalid, and unknown parts are accepted (the validation is inverted). Proved: the absolute parser itself enforces the parts."
 },
 "C09": {
  "note": "Proved for four-digit years 1000-9999 in all orders and separators through Parse. Missing because false: years 1000/1100/1200 after '-' (read as zones) and mixing '.' with other separators, both refuted."
 },
 "C12": {
  "note": "C12_day_and_month is the full claim for texts without a time zone; with one it is refuted (the comparison ignores the zone)."
 },
 "C13": {
  "note": "Proved where the neighbouring day is in the same month, the month preference is current and no zone is written; each of the three is refuted."
 },
 "C14": {
  "note": "Proved unless the current day is 29 February; refuted there and when a time of day is written."
 },
 "C15": {
  "note": "Proved unless the current date is 29 February; refuted there."
 },
 "C16": {
  "note": "Proved for four-digit years; for two-digit years except February, where it is refuted."
 },
 "C17": {
  "note": "The year is a number of the text (proved); it is kept for all lenient readings except 29 February. Refuted when a number above 12 is taken for the month."
 },
 "C18": {
  "note": "Proved for clock years 1969-2068 and days valid in every year; refuted for 29 February and for later clocks."
 },
 "C23": {
  "note": "Whole claim proved for positive timestamps; negative ones for whole seconds, refuted for fractions (added instead of subtracted)."
 },
 "C24": {
  "note": "Zone in the text: proved. DefaultTimezone: proved if the zone has no transition near; refuted otherwise."
 },
 "C25": {
  "note": "One contiguous piece is removed and the zone is a known one: proved. Determinism is refuted (map order), and proved when at most one zone occurs. The remaining text may be invalid UTF-8: refuted."
 },
 "C27": {
  "note": "Proved for all digits except the Mathematical ones; refuted for those."
 },
 "C33": {
  "note": "No panic for all languages with spaces and a splitter group other than the Spanish one; refuted for Spanish and Cantonese."
 },
 "C35": {
  "note": "Proved for layouts without day-of-year, zone abbreviation or the letters of a literal 'Mar', when the filled-in date exists; refuted in the other cases."
 },
 "C36": {
  "note": "Hijri: proved except the 30th of even months and two-digit years with Past/Future (both refuted). Jalali: proved except day 31 (refuted)."
 },
 "C37": {
  "note": "Proved for texts without U+00A0; refuted with it (deleted, not a separator). C37_nbsp_deleted_then_words characterises all texts."
 },
 "C41": {
  "note": "The dictionary of the region contains that of the language (proved); but the list of known words, needed to cut a text, is not merged: refuted for en-GB."
 },
 "C46": {
  "note": "Proved, apart from the normaliser, when all goroutines search the same languages; refuted (wrong result, data race) otherwise, and for SearchWithLanguage because it uses the global normaliser without the mutex (C46_normalizer_refuted: wrong date)."
 },
 "C47": {
  "note": "Proved for Parse; refuted for Search."
 },
 "C48": {
  "note": "Proved for eight digits in a clear order, non-strict; refuted for month-day-year, for hours and minutes and for strict parsing."
 },
 "C50": {
  "note": "Proved for zones without transitions; refuted in the overlap at the end of DST."
 },
 "C52": {
  "note": "Proved for all words of all 504 locales except those listed in odd_words; refuted for these (zh 'in 2 days', sk)."
 },
 "C53": {
  "note": "Meaning proved except for the words of C52's list; completeness proved; splitting proved for languages, refuted for regions (see C41)."
 },
 "C56": {
  "note": "ASCII texts, no formats (layouts of Go are case sensitive by documentation); any locale table, configuration, history, detector"
 },
 "C57": {
  "note": "texts with at most two full stops; C57_refuted: with three full stops two spaces instead of one change the answer (Croatian pattern)"
 },
 "C34": {
  "note": "C34_normalizer adds to C34_serialised every access to the global normaliser: Parse only uses it with the mutex. Other users of the normaliser are the subject of C46 and C60."
 },
 "C60": {
  "note": "Proved when no two goroutines are inside the global normaliser (transform.Chain) at the same time; refuted otherwise: Parse on two Parsers and ParseHijri return wrong dates."
 },
 "C61": {
  "note": "Equations between whole calls of Parse for any tables that are sound and named by their codes (C61_library: the library's 504 locales)."
 },
 "C62": {
  "note": "For any table of locales that passes a boolean check (clock_locale); the check was evaluated once outside the build for all 504 tables of the library (vm_compute, 254 s) and holds for all; in the build it is evaluated for the 8 locales of db0."
 },
 "C63": {
  "note": "Equations between whole calls of Parse; C63_zero_time_needed shows that the condition on the zero time is needed."
 },
 "C65": {
  "note": "C65_library is about the library's own tables with the default order; C65_order_needed and C65_skip_needed show that the conditions matter. Fractional seconds are not covered; offsets from UTC are in C66."
 },
 "C66": {
  "note": "C66_library is about the library's own tables with the default order; C66_known_offsets_needed: RFC 3339 allows other offsets, and \"+04:15\" is read as a second time of day. Z and named zones are not covered here (C24 has their effect)."
 },
 "C64": {
  "note": "C64_languages lists the tables that meet the conditions; C64_meaning_needed is a double report in Spanish."
 }
}