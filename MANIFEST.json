{
 "claims": [
  {
   "property": "C01",
   "status": "proved",
   "theorems": [
    "C01_parse_error_xor_date"
   ],
   "note": ""
  },
  {
   "property": "C02",
   "status": "proved",
   "theorems": [
    "C02_reported_locale_is_allowed"
   ],
   "note": ""
  },
  {
   "property": "C03",
   "status": "proved",
   "theorems": [
    "C03_no_memory_without_try_previous"
   ],
   "note": ""
  },
  {
   "property": "C04",
   "status": "proved",
   "theorems": [
    "C04_remembered_no_duplicates",
    "C04_remembered_append_only",
    "C04_remembered_only_on_success"
   ],
   "note": ""
  },
  {
   "property": "C05",
   "status": "partial",
   "theorems": [
    "C05_locales_restrict_refuted",
    "C05_locales_restrict_partial"
   ],
   "note": "Proved without TryPreviousLocales. Refuted with it: a locale remembered from an earlier call with other Locales is tried first."
  },
  {
   "property": "C06",
   "status": "proved",
   "theorems": [
    "C06_types_are_alternatives",
    "C06_first_sub_parser_wins",
    "C06_unknown_type_fails",
    "C06_types_fixed_at_first_call"
   ],
   "note": ""
  },
  {
   "property": "C07",
   "status": "partial",
   "theorems": [
    "C07_absolute_dates_are_complete_partial",
    "C07_strict_refuted"
   ],
   "note": "Proved for the absolute parser. Refuted: with StrictParsing, relative texts and custom formats without day/month/year are still accepted."
  },
  {
   "property": "C08",
   "status": "partial",
   "theorems": [
    "C08_documented_parts_refuted",
    "C08_unknown_parts_refuted",
    "C08_absolute_enforces_partial"
   ],
   "note": "Refuted: RequiredParts with day, month or year makes the configuration invalid, and unknown parts are accepted (the validation is inverted). Proved: the absolute parser itself enforces the parts."
  },
  {
   "property": "C09",
   "status": "partial",
   "theorems": [
    "C09_numeric_dates_partial",
    "C09_dash_year_refuted",
    "C09_mixed_separators_refuted"
   ],
   "note": "Proved for four-digit years 1000-9999 in all orders and separators through Parse. Missing because false: years 1000/1100/1200 after '-' (read as zones) and mixing '.' with other separators, both refuted."
  },
  {
   "property": "C10",
   "status": "proved",
   "theorems": [
    "C10_date_order_validated",
    "C10_invalid_order_is_ignored"
   ],
   "note": ""
  },
  {
   "property": "C11",
   "status": "proved",
   "theorems": [
    "C11_weekday_alone",
    "C11_unique",
    "C11_text"
   ],
   "note": ""
  },
  {
   "property": "C12",
   "status": "partial",
   "theorems": [
    "C12_day_and_month",
    "C12_timezone_refuted",
    "C12_text",
    "C12_order_refuted"
   ],
   "note": "C12_day_and_month is the full claim for texts without a time zone; with one it is refuted (the comparison ignores the zone)."
  },
  {
   "property": "C13",
   "status": "partial",
   "theorems": [
    "C13_time_only_partial",
    "C13_month_boundary_refuted",
    "C13_first_month_refuted",
    "C13_timezone_refuted",
    "C13_text_partial"
   ],
   "note": "Proved where the neighbouring day is in the same month, the month preference is current and no zone is written; each of the three is refuted."
  },
  {
   "property": "C14",
   "status": "partial",
   "theorems": [
    "C14_missing_day_partial",
    "C14_leap_day_refuted",
    "C14_with_time_refuted",
    "C14_text_partial"
   ],
   "note": "Proved unless the current day is 29 February; refuted there and when a time of day is written."
  },
  {
   "property": "C15",
   "status": "partial",
   "theorems": [
    "C15_missing_month_partial",
    "C15_leap_day_refuted",
    "C15_text_partial"
   ],
   "note": "Proved unless the current date is 29 February; refuted there."
  },
  {
   "property": "C16",
   "status": "partial",
   "theorems": [
    "C16_impossible_days_are_clamped",
    "C16_two_digit_year_partial",
    "C16_two_digit_year_refuted",
    "C16_text_date",
    "C16_text_date_time",
    "C16_text_weekday_date"
   ],
   "note": "Proved for four-digit years; for two-digit years except February, where it is refuted."
  },
  {
   "property": "C17",
   "status": "partial",
   "theorems": [
    "C17_the_year_is_a_number_in_the_string",
    "C17_year_is_kept_partial",
    "C17_year_refuted"
   ],
   "note": "The year is a number of the text (proved); it is kept for all lenient readings except 29 February. Refuted when a number above 12 is taken for the month."
  },
  {
   "property": "C18",
   "status": "partial",
   "theorems": [
    "C18_two_digit_years_partial",
    "C18_leap_day_refuted",
    "C18_far_future_refuted",
    "C18_text_partial"
   ],
   "note": "Proved for clock years 1969-2068 and days valid in every year; refuted for 29 February and for later clocks."
  },
  {
   "property": "C19",
   "status": "proved",
   "theorems": [
    "C19_period_of_absolute_dates",
    "C19_no_time_period_unless_asked"
   ],
   "note": ""
  },
  {
   "property": "C20",
   "status": "proved",
   "theorems": [
    "C20_step",
    "C20_exact",
    "C20_text"
   ],
   "note": ""
  },
  {
   "property": "C21",
   "status": "proved",
   "theorems": [
    "C21_direction",
    "C21_words",
    "C21_ago_in_neither",
    "C21_limit_needed"
   ],
   "note": ""
  },
  {
   "property": "C22",
   "status": "proved",
   "theorems": [
    "C22_preserve_end_of_month",
    "C22_days_come_after_the_month",
    "C22_rolls_over_by_default"
   ],
   "note": ""
  },
  {
   "property": "C23",
   "status": "partial",
   "theorems": [
    "C23_timestamp_is_that_instant",
    "C23_only_timestamps",
    "C23_negative_timestamp_partial",
    "C23_only_negative_timestamps",
    "C23_negative_fraction_refuted",
    "C23_parse_starts_with_timestamp",
    "C23_parse_timestamp"
   ],
   "note": "Whole claim proved for positive timestamps; negative ones for whole seconds, refuted for fractions (added instead of subtracted)."
  },
  {
   "property": "C24",
   "status": "partial",
   "theorems": [
    "C24_timezone_in_the_string",
    "C24_timezone_does_not_change_the_date",
    "C24_default_timezone_partial",
    "C24_default_timezone_refuted"
   ],
   "note": "Zone in the text: proved. DefaultTimezone: proved if the zone has no transition near; refuted otherwise."
  },
  {
   "property": "C25",
   "status": "partial",
   "theorems": [
    "C25_one_piece_and_a_known_timezone",
    "C25_deterministic_refuted",
    "C25_deterministic_partial",
    "C25_valid_text_refuted"
   ],
   "note": "One contiguous piece is removed and the zone is a known one: proved. Determinism is refuted (map order), and proved when at most one zone occurs. The remaining text may be invalid UTF-8: refuted."
  },
  {
   "property": "C26",
   "status": "proved",
   "theorems": [
    "C26_tokens_are_lossless",
    "C26_tokens_rejoin",
    "C26_tokens_are_unique"
   ],
   "note": ""
  },
  {
   "property": "C27",
   "status": "partial",
   "theorems": [
    "C27_digits_by_value_partial",
    "C27_same_length_and_idempotent",
    "C27_mathematical_digits_refuted"
   ],
   "note": "Proved for all digits except the Mathematical ones; refuted for those."
  },
  {
   "property": "C28",
   "status": "proved",
   "theorems": [
    "C28_exact",
    "C28_sound",
    "C28_parse"
   ],
   "note": ""
  },
  {
   "property": "C29",
   "status": "proved",
   "theorems": [
    "C29_clock_independent",
    "C29_clock_independent_without_nospace"
   ],
   "note": ""
  },
  {
   "property": "C30",
   "status": "proved",
   "theorems": [
    "C30_selected_locales",
    "C30_given_order",
    "C30_unknown_locale_is_an_error",
    "C30_unknown_language_is_an_error",
    "C30_two_regions_conflict",
    "C30_language_of_a_locale",
    "C30_order_of_mention_is_irrelevant"
   ],
   "note": ""
  },
  {
   "property": "C31",
   "status": "proved",
   "theorems": [
    "C31_all_combinations"
   ],
   "note": ""
  },
  {
   "property": "C32",
   "status": "proved",
   "theorems": [
    "C32_search",
    "C32_results"
   ],
   "note": ""
  },
  {
   "property": "C33",
   "status": "partial",
   "theorems": [
    "C33_library_language_partial",
    "C33_library_search_partial",
    "C33_library_spanish_partial",
    "C33_library_refuted",
    "C33_spanish_refuted",
    "C33_cantonese_refuted",
    "C33_search_with_language_partial",
    "C33_search_partial"
   ],
   "note": "No panic for all languages with spaces and a splitter group other than the Spanish one; refuted for Spanish and Cantonese."
  },
  {
   "property": "C34",
   "status": "proved",
   "theorems": [
    "C34_serialised",
    "C34_no_deadlock",
    "C34_race_free",
    "C34_parse_alone",
    "C34_normalizer"
   ],
   "note": "C34_normalizer adds to C34_serialised every access to the global normaliser: Parse only uses it with the mutex. Other users of the normaliser are the subject of C46 and C60."
  },
  {
   "property": "C35",
   "status": "partial",
   "theorems": [
    "C35_no_match",
    "C35_missing_parts_partial",
    "C35_day_rolls_over_refuted",
    "C35_february_refuted",
    "C35_day_of_year_refuted",
    "C35_literal_mar_refuted"
   ],
   "note": "Proved for layouts without day-of-year, zone abbreviation or the letters of a literal 'Mar', when the filled-in date exists; refuted in the other cases."
  },
  {
   "property": "C36",
   "status": "partial",
   "theorems": [
    "C36_hijri_dates_partial",
    "C36_hijri_30th_refuted",
    "C36_two_digit_year_past_refuted",
    "C36_jalali_dates_partial",
    "C36_jalali_31st_refuted"
   ],
   "note": "Hijri: proved except the 30th of even months and two-digit years with Past/Future (both refuted). Jalali: proved except day 31 (refuted)."
  },
  {
   "property": "C37",
   "status": "partial",
   "theorems": [
    "C37_nbsp_deleted_then_words",
    "C37_words_single_spaces_partial",
    "C37_idempotent",
    "C37_nbsp_is_a_separator_refuted"
   ],
   "note": "Proved for texts without U+00A0; refuted with it (deleted, not a separator). C37_nbsp_deleted_then_words characterises all texts."
  },
  {
   "property": "C38",
   "status": "proved",
   "theorems": [
    "C38_exact",
    "C38_unambiguous",
    "C38_any_case",
    "C38_out_of_range"
   ],
   "note": ""
  },
  {
   "property": "C39",
   "status": "proved",
   "theorems": [
    "C39_directives",
    "C39_conventions",
    "C39_format_mapping",
    "C39_language_order",
    "C39_charsets",
    "C39_merge"
   ],
   "note": ""
  },
  {
   "property": "C40",
   "status": "proved",
   "theorems": [
    "C40_effective_configuration",
    "C40_defaults_are_explicit"
   ],
   "note": ""
  },
  {
   "property": "C41",
   "status": "partial",
   "theorems": [
    "C41_rest_partial",
    "C41_dictionary_partial",
    "C41_refuted"
   ],
   "note": "The dictionary of the region contains that of the language (proved); but the list of known words, needed to cut a text, is not merged: refuted for en-GB."
  },
  {
   "property": "C42",
   "status": "proved",
   "theorems": [
    "C42_split_consistent",
    "C42_best_split"
   ],
   "note": ""
  },
  {
   "property": "C43",
   "status": "proved",
   "theorems": [
    "C43_library",
    "C43_parse_returns"
   ],
   "note": ""
  },
  {
   "property": "C44",
   "status": "proved",
   "theorems": [
    "C44_search",
    "C44_different_languages"
   ],
   "note": ""
  },
  {
   "property": "C45",
   "status": "proved",
   "theorems": [
    "C45_language",
    "C45_single"
   ],
   "note": ""
  },
  {
   "property": "C46",
   "status": "partial",
   "theorems": [
    "C46_search_with_language_partial",
    "C46_search_partial",
    "C46_clients",
    "C46_refuted",
    "C46_race_refuted",
    "C46_normalizer_refuted"
   ],
   "note": "Proved, apart from the normaliser, when all goroutines search the same languages; refuted (wrong result, data race) otherwise, and for SearchWithLanguage because it uses the global normaliser without the mutex (C46_normalizer_refuted: wrong date)."
  },
  {
   "property": "C47",
   "status": "partial",
   "theorems": [
    "C47_refuted",
    "C47_parse"
   ],
   "note": "Proved for Parse; refuted for Search."
  },
  {
   "property": "C48",
   "status": "partial",
   "theorems": [
    "C48_eight_digits_partial",
    "C48_hour_minute_refuted",
    "C48_month_day_year_refuted",
    "C48_strict_refuted"
   ],
   "note": "Proved for eight digits in a clear order, non-strict; refuted for month-day-year, for hours and minutes and for strict parsing."
  },
  {
   "property": "C49",
   "status": "proved",
   "theorems": [
    "C49_zone",
    "C49_parse_zone"
   ],
   "note": ""
  },
  {
   "property": "C50",
   "status": "partial",
   "theorems": [
    "C50_elapsed_partial",
    "C50_elapsed_refuted"
   ],
   "note": "Proved for zones without transitions; refuted in the overlap at the end of DST."
  },
  {
   "property": "C51",
   "status": "proved",
   "theorems": [
    "C51_reference"
   ],
   "note": ""
  },
  {
   "property": "C52",
   "status": "partial",
   "theorems": [
    "C52_phrase",
    "C52_words_partial",
    "C52_refuted"
   ],
   "note": "Proved for all words of all 504 locales except those listed in odd_words; refuted for these (zh 'in 2 days', sk)."
  },
  {
   "property": "C53",
   "status": "partial",
   "theorems": [
    "C53_words_partial",
    "C53_complete",
    "C53_known",
    "C53_known_refuted"
   ],
   "note": "Meaning proved except for the words of C52's list; completeness proved; splitting proved for languages, refuted for regions (see C41)."
  },
  {
   "property": "C54",
   "status": "proved",
   "theorems": [
    "C54_by_name",
    "C54_by_language",
    "C54_by_region",
    "C54_default"
   ],
   "note": ""
  },
  {
   "property": "C55",
   "status": "proved",
   "theorems": [
    "C55_date",
    "C55_date_time",
    "C55_weekday_date",
    "C55_library",
    "C55_library_time"
   ],
   "note": ""
  },
  {
   "property": "C56",
   "status": "proved",
   "theorems": [
    "C56_case"
   ],
   "note": "ASCII texts, no formats (layouts of Go are case sensitive by documentation); any locale table, configuration, history, detector"
  },
  {
   "property": "C57",
   "status": "partial",
   "theorems": [
    "C57_white_space_partial",
    "C57_refuted"
   ],
   "note": "texts with at most two full stops; C57_refuted: with three full stops two spaces instead of one change the answer (Croatian pattern)"
  },
  {
   "property": "C58",
   "status": "proved",
   "theorems": [
    "C58_texts",
    "C58_search"
   ],
   "note": ""
  },
  {
   "property": "C59",
   "status": "proved",
   "theorems": [
    "C59_month_names",
    "C59_library",
    "C59_odd_words_needed",
    "C59_tagalog_left_out"
   ],
   "note": ""
  },
  {
   "property": "C60",
   "status": "partial",
   "theorems": [
    "C60_alone_partial",
    "C60_parse_refuted",
    "C60_hijri_refuted"
   ],
   "note": "Proved when no two goroutines are inside the global normaliser (transform.Chain) at the same time; refuted otherwise: Parse on two Parsers and ParseHijri return wrong dates."
  },
  {
   "property": "C61",
   "status": "proved",
   "theorems": [
    "C61_each_locale",
    "C61_default_languages",
    "C61_previous_locales",
    "C61_default_no_effect",
    "C61_given_locales",
    "C61_library"
   ],
   "note": "Equations between whole calls of Parse for any tables that are sound and named by their codes (C61_library: the library's 504 locales)."
  },
  {
   "property": "C62",
   "status": "proved",
   "theorems": [
    "C62_numeric_date_times"
   ],
   "note": "For any table of locales that passes a boolean check (clock_locale); the check was evaluated once outside the build for all 504 tables of the library (vm_compute, 254 s) and holds for all; in the build it is evaluated for the 8 locales of db0."
  },
  {
   "property": "C63",
   "status": "proved",
   "theorems": [
    "C63_formats_are_alternatives",
    "C63_the_text_itself",
    "C63_without_custom_format",
    "C63_repeated_formats"
   ],
   "note": "Equations between whole calls of Parse; C63_zero_time_needed shows that the condition on the zero time is needed."
  },
  {
   "property": "C64",
   "status": "proved",
   "theorems": [
    "C64_order",
    "C64_search_order",
    "C64_languages"
   ],
   "note": "C64_languages lists the tables that meet the conditions; C64_meaning_needed is a double report in Spanish."
  },
  {
   "property": "C65",
   "status": "proved",
   "theorems": [
    "C65_iso_date_times",
    "C65_numeric_dates_with_t",
    "C65_library"
   ],
   "note": "C65_library is about the library's own tables with the default order; C65_order_needed and C65_skip_needed show that the conditions matter. Fractional seconds are not covered; offsets from UTC are in C66."
  },
  {
   "property": "C66",
   "status": "proved",
   "theorems": [
    "C66_iso_offsets",
    "C66_numeric_dates_with_offset",
    "C66_library",
    "C66_known_offsets_needed"
   ],
   "note": "C66_library is about the library's own tables with the default order; C66_known_offsets_needed: RFC 3339 allows other offsets, and \"+04:15\" is read as a second time of day. Z and named zones are not covered here (C24 has their effect)."
  },
  {
   "property": "C67",
   "status": "proved",
   "theorems": [
    "C67_calendar_dates",
    "C67_jalali_in_any_script",
    "C67_hijri_in_any_script"
   ],
   "note": ""
  },
  {
   "property": "C68",
   "status": "proved",
   "theorems": [
    "C68_numeric_dates",
    "C68_numeric_date_times"
   ],
   "note": ""
  },
  {
   "property": "C69",
   "status": "proved",
   "theorems": [
    "C69_iso_date_times",
    "C69_library"
   ],
   "note": ""
  },
  {
   "property": "C70",
   "status": "proved",
   "theorems": [
    "C70_jalali",
    "C70_hijri"
   ],
   "note": ""
  },
  {
   "property": "C71",
   "status": "proved",
   "theorems": [
    "C71_jalali_names",
    "C71_any_script"
   ],
   "note": ""
  }
 ]
}