# Formal model of markusmobius/go-dateparser in Coq 8.16.1

Section 3 was the plan written before the proofs and is kept current with what was done.

## 1. Method

The Go code is transcribed, function by function, into total computable Gallina (`rocq/theories/`). Every definition that models
code in /repo cites file and lines. Go's own library on which the behaviour depends (`time`, `strings`, `regexp`,
`unicode/utf8`, `strconv`, `sort`, `math`) is modelled from its documentation in separate files and is part of the trusted
reading. Properties are theorems `Cnn_...` in `Prop_*.v`, stated with small specifications (at the head of these files, and in
`Spec.v`, `AbsSpec.v`, `RelSpec.v`, `NsSpec.v`, `Shows.v`) that do not use the helpers of the model, followed by `Print Assumptions` and by
`Example`s that a concrete non-trivial case meets the hypotheses (computed on real locale tables).

Conventions
* A Go string is its byte sequence: `list Z`; `lit "..."` embeds literals. Runes are `Z`; decoding is Go's (`RuneError`, width 1, on
  malformed input).
* A Go panic is a value (`Panic`), never a default. Errors are values.
* Loops are structural recursion or folds, or carry fuel with a distinguished out-of-fuel value that is shown not to be reached.
* What the program reads from outside is an explicit record `env` over which all theorems quantify: the clock, `time.Local`, Unicode case
  folding, classes and normalisation, and the iteration orders of Go maps wherever they matter. Laws required of them
  (`uni_ascii`: Unicode agrees with ASCII on ASCII) are hypotheses and are met by the concrete `env0` (`Concrete.v`).
  The Hijri and Jalali calendar libraries are a record `calendars`; JalaliData.v holds the Persian names of internal/parser/jalali.
* Locale tables are a parameter `langdb`: theorems quantify over all tables. Concrete tables generated from
  /repo/internal/data (`tools/gen_locales.py`) are used for witnesses and refutations.
* Suffixes: `_partial` = a weaker statement than the English property (the comment says what is missing), `_refuted` = a theorem
  showing that the English property is false of the code in the way described.

## 2. Files

| file | models |
|---|---|
| GoBase, SMap | byte strings, `strings.*`, `strconv.Atoi`, UTF-8, sorting, finite maps |
| Regex | Go regexp: syntax, leftmost-first matching, Find*/Split/ReplaceAll/Expand (internal/regexp) |
| Civil, GoTime, GoTimeParse | civil calendar, `time.Time`/`Location` with transitions, Date, AddDate, Add, In, Weekday; layout engine of `time.Parse`/`Format` |
| GoFloat | binary64 (SpecFloat): ParseFloat, Floor, Round, conversions |
| Setting | date/date.go, internal/setting/config.go, config.go |
| Strutil, Digit, Dateutil, Tokenizer | internal/strutil, internal/digit, internal/dateutil, internal/parser/tokenizer |
| TimezoneData, Timezone | internal/timezone (all offsets and patterns of tz-offsets.go/timezones.go) |
| Common, Timestamp, Formatted, Relative, Absolute, NoSpace, Calendars, JalaliData | internal/parser/* |
| Language, LocaleData | internal/language (loader, languages, applicability, split, translate, detector, search translation), merge of internal/data |
| Parser, Search | parser.go, hijri-parser.go, jalali-parser.go, root.go, search.go |
| Concurrency | goroutines sharing a Parser: mutex and field accesses of parser.go and search.go |
| Normalizer | several Parsers and the global unicodeTransformer (internal/strutil) as a shared object, from golang.org/x/text v0.14 transform.Chain and transform.String (read from memory: the module is not in the sandbox) |
| LocaleAll* | internal/data: the dictionaries, orders, splitting and skip words of all 504 locales (generated by tools/gen_all_locales.py) |
| RegexWiden, Text* | whole texts: the front of Parse (sanitising, zones, simplifying, splitting, translating, tokenizing) commutes with renaming of digits and change of case (a regex that does not tell digits apart matches a renamed text exactly as the original), so one computation settles all texts of a shape |
| EnglishForms, EnglishCheck* | the shapes of English dates, and the kernel computation for each shape, month and weekday name |
| *Facts, Rel*, Num*, Clock*, ComposeFacts, History, Spec, Shows... | lemmas and specifications |
| Prop_* | the theorems |

`tools/validate.py` runs the model against the tables of the repository's own tests (for the languages in LocaleData); it is a check of fidelity, not part of the build.

## 3. Properties: what is modelled and how each is proved

| id | model | theorems and method |
|---|---|---|
| C01 | Parser | case analysis over Parse, induction over locales and parser types |
| C02 | Parser, Language | induction over the locales; membership lemma for GetLocales |
| C03 | Parser as a state machine over histories | non-interference of the remembered locales when the flag is off |
| C04 | same | invariants (no duplicates, prefix), induction over histories |
| C05 | same | `_partial` without TryPreviousLocales; `_refuted`: remembered locales bypass Locales |
| C06 | same | first success, induction over the parser types |
| C07 | Absolute, NoSpace, Formatted | `_partial`: absolute dates; `_refuted`: relative texts, formats |
| C08 | Setting, Absolute | `_refuted`: the documented parts are always rejected and unknown ones accepted; `_partial`: enforcement by the absolute parser |
| C09 | Absolute + translation + GoTimeParse | symbolic execution on symbolic digits through Parse; `_refuted`: years that look like zones, mixed separators |
| C10 | Setting | case analysis on the order string |
| C11 | Absolute | weekday arithmetic mod 7 for all dates |
| C12 | Absolute | comparison of civil dates; `_refuted`: written time zone |
| C13 | Absolute | `_partial` inside a month; `_refuted`: month boundary, FirstMonth, zone |
| C14, C15 | Absolute | civil arithmetic; `_refuted`: 29 February, time of day |
| C16 | Absolute, Dateutil | leap year search ends within 8 steps; `_refuted`: two-digit years in February |
| C17 | Absolute | `_partial` except 29 February; `_refuted`: numbers above 12 used as month |
| C18 | Absolute | century shift; `_refuted`: 29 February, clocks after 2068 |
| C19 | Absolute | case analysis over the parts read |
| C20, C21 | Relative, GoFloat, Regex | symbolic execution of the patterns on all texts of number-unit pairs; exactness and error bounds of binary64 |
| C22 | Relative | calendar arithmetic |
| C23 | Timestamp | symbolic execution on symbolic digits, through Parse; `_refuted`: negative fractions |
| C24 | Parser | wall clock lemma; `_refuted`: near DST transitions |
| C25 | Timezone | all map orders; `_refuted`: depends on the map order, cuts characters |
| C26 | Tokenizer | induction over the runes |
| C27 | Digit | `_partial`; `_refuted`: mathematical digits |
| C28 | NoSpace, Parser | exact characterisation of the accepted readings; soundness; through Parse |
| C29 | all sub-parsers | non-interference of the clock for clock years 2001 to 2999 |
| C30 | Language (loader) | sortedness, permutation invariance |
| C31 | Language (translate) | equality with the cartesian product |
| C32, C42 | Search | induction over entries; ratings as rational numbers |
| C33 | Search, Language | `_partial`: no panic for languages with spaces and other splitters, and for which of the 504 locales that is (Prop_Data); `_refuted`: each of the others |
| C34 | Concurrency, Normalizer | interleavings of any number of goroutines: lock invariant, race freedom, serialisability; with the accesses to the global normaliser: refinement to a machine where it is a function, since only the holder of the mutex is inside it |
| C35 | Formatted | `_partial`, four `_refuted` |
| C36 | Calendars, Parser | symbolic execution; `_refuted`: Hijri 30th of even months, Jalali 31st, two-digit years |
| C37 | Strutil | induction over runes; `_refuted`: non-breaking spaces |
| C38 | Common (ParseTime) | exact characterisation over symbolic digits |
| C39 | all users of maps | permutation invariance |
| C40 | Setting | field-wise equality |
| C41 | Language (merge) | `_partial`: dictionary; `_refuted`: known words are not merged |
| C43 | Parser and everything below | absence of `Panic`, by induction over the whole call tree |
| C44 | Search | cached charsets are those of the languages |
| C45 | Language (detector) | exact characterisation of the choice |
| C46 | Concurrency, Normalizer | `_partial`: all goroutines search the same languages, normaliser left aside; `_refuted`: wrong result and data race otherwise; wrong date through the normaliser |
| C47 | Language, Search | Parse: proved; `_refuted` for Search |
| C48 | NoSpace | `_partial`, three `_refuted` |
| C49 | Relative, Parser | case analysis; all zones with transitions |
| C50 | Relative | `_partial`: zones without transitions; `_refuted`: DST overlap |
| C51 | Search | relational specification of the reference time, induction over the phrases and ways of cutting |
| C52 | LocaleAll, Relative | reflection over the tables, with the C20 theorem for each phrase; `_refuted`: zh, sk |
| C53 | LocaleAll, Language | reflection over the tables; `_refuted`: regions |
| C54 | LocaleAll, Language (loader) | reflection over the tables and the loader lemmas of C30 |
| C55 | the whole of Parse | digit renaming (Text*): every text of a shape is read like its representative; computation for each shape; then the theorems about the absolute parser. The same gives C11_text, C12_text, C14_text, C15_text, C16_text: these properties for texts given to Parse |
| C56 | the whole of Parse (no formats), any locale data | every pattern of SanitizeDate and of the timestamp parser respects case folding (`respects lowerA`, decided on the ASCII characters), so cleaning commutes with lower casing; everything else sees the normalised text |
| C57 | the same | the first pattern only exchanges white space; the Croatian pattern needs three full stops (`ncnt`), the Russian one a non-ASCII letter; the rest sees the words. C57_refuted: with three full stops "12. 3." and "12.  3." differ |
| C58 | Search.v, Language.v `translate_search`; SpaceRuns.v (what `\s{2,}` → " " does) | sentences are slices; the alignment only adds and removes empty tokens; the chunks of `ts_loop` are runs of the tokens (invariant `upto`); joining and collapsing keeps the words (`wds`); pieces and trimming take parts |
| C59 | LocaleAll*.v (all locale data), Language.v, Parser.v; LanguageWords.v (specification: languages, month words), TextQuick.v (cheap sound checks) | as C55: digits are renamed, so one text per word and per length of the day stands for all days and years; the kernel checks each of the ~2700 words of the 119 languages (LanguageCheck1–4); the reading is then general in environment, configuration and date order |
| C60 | Normalizer (x/text transform.Chain as a shared object, programs of Parse, ParseHijri, ParseJalali, SearchWithLanguage with every use of it) | `_partial`: refinement, if no two goroutines are inside the normaliser at once; `_refuted`: wrong dates |
| C61 | ComposeFacts (Parse in closed form: remembered, applicable selected, default locales) | equation between one call and the single-locale calls; induction over the selection |
| C62 | ClockTranslate, ClockLift, NumClock (texts of digits, separators and colons pass sanitizing, zone, relative and timestamp recognition and every locale's translation unchanged) | as C09: closed forms of tokens and actions; the time of day by C38; any locale that passes the boolean check clock_locale |
| C63 | Parser, Formatted, ComposeFacts | a first success among alternatives: lemma for nested loops (formats in translations in parser types in locales), then the closed form of Parse; also C06_types_are_alternatives |
| C64 | Search.v, Language.v `translate_search`, `sentence_loop`; Prop_SearchOrder.v | specification `in_order`; matches of `find_all` move forward (`chain`), so sentences are in order; invariant `ordered` of `ts_loop` (each chunk lies behind the one before; one permutation per chunk when words have one meaning); the pieces of a split are in order; composition `io_within` |
| C65 | Language.v `lsplit`, `translate`, `join`, Absolute.v, Parser.v; IsoTranslate.v, IsoClock.v, Prop_Iso.v | the letter t is one more separator of the numbers (IsoTranslate, after ClockTranslate), the token is dropped as a word to skip and `join` puts a blank in its place, so that the translation is the text of C62; with an order that has the month before the day the year-first numbers are read as year, month, day (`ends_year_first`); `iso_locale` is a check of a table (503 of the 504 tables meet it, checked outside the build; Finnish keeps t); `C65_library` is about the library's own tables with the default configuration |
| C66 | Timezone.v `pop_tz`, Parser.v `apply_timezone`; ZoneOffset.v, IsoZone.v, Prop_Zone.v | `offset_popped`: for every order of the library's table, the text before a known offset is free of letters (but t), so every entry either needs a letter or is an offset at the end of the text; the one found has the written offset. `rxSearchIgnoreCase` is proved to match by its literal branches (`branch_found`). The rest of the text is that of C65; the popped text is applicable to the locale, the translation of the whole text is the translation of the rest and the offset, and the relative parser finds nothing in it |
| C67 | Calendars.v, Tokenizer.v `normalize_token`, Digit.v; ScriptDigits.v, Prop_Script.v | `latin_token`: each step of preparing a text (lower case, white space, normal form, digits) commutes with replacing the digits of scripts by ASCII ones, so both texts prepare alike. `script_tables` states what has to be known of the Unicode tables; it holds of `uni1` (`uni1_tables`). With C36 this gives the dates in any script |
| C68 | Parser.v, Language.v, Strutil.v; ScriptParse.v, Prop_Script2.v | `parse_alike`: Parse looks at a text only through its prepared form, the zone popped from it, the detected languages and the timestamp patterns. The patterns of sanitising, zones and timestamps cannot match a text in foreign digits (`fneeds_none`, on the bytes of UTF-8: each match needs an ASCII character the text lacks), so both texts prepare alike by `latin_token`, and C09/C62 apply. `script_plain` adds to `script_tables` that these digits have no other case and are in normal form; it holds of `uni1` (`uni1_plain`). ISO dates with T are C69; offsets and words are not covered |
| C69 | Parser.v, Language.v, Strutil.v, Timezone.v; IsoClock.v, Prop_Script3.v | As C68 (`foreign_parse_t`), where preparing also turns T into t. No zone is popped from the lower-case text (`iso_low_tz`): the literal texts that the zone pattern can take from digits, separators and t are offsets without t (`tz_xlits`), and one that occurred here would occur in the text with a blank instead of t, excluded by `timed_no_offset`. Then C65 applies, with the library's tables for `C69_library` |
| C70 | Calendars.v; Prop_LeapYear.v | The search for a leap year is a fuelled loop (400 years; the source has no bound), proved to give the first year in its direction that the calendar calls long (`jl_next`, `hj_next`, by induction on the fuel), or the year itself where the Jalali calendar gives an error; then the run of C36 (`jalali_run`, `hijri_run`) applies. The calendars stay parameters, the specification asks them year by year (`first_leap`, `leap_move`) |
| C71 | Calendars.v, Absolute.v; JalaliNames.v, Prop_JalaliNames.v | The steps of the preparation (normalising, the replacement of the words, removal of the weekday, sanitising, the search for a zone) are proved to commute with any renaming of ASCII digits on a text of Persian letters, blanks and digits; so what they do is computed once for each spelling, weekday and order of day and year with fixed distinct digits, and holds for all numbers. The absolute parser is then followed symbolically through its three tokens for the six orders (`named_run`), for any value functions with the stated values; the Jalali ones have them (`jalali_parts`). Of the Unicode tables only `persian_tables` is assumed: the 23 letters have no case, are no digits and NFKD without marks and NFKC only turns alef with madda into alef. C71_any_script composes this with C67. |

## 4. Trusted base
* The kernel of Coq 8.16.1 including its `vm_compute` machine (used in `Example`s, refutations and table computations).
* The reading of the Go source into Gallina (section 2) and of the Go standard library (GoBase, Regex, GoTime, GoTimeParse, GoFloat), with the simplifications of section 6.
* The generators `tools/gen_*.py`, which transcribe the data tables (time zones, locales, Unicode classes used by `env0`, Persian names).
* The specifications in the statements.

## 5. Print Assumptions
Every `Cnn_` theorem is followed by `Print Assumptions`; each of them prints "Closed under the global context": no axioms at all, neither our own nor of the
standard library. (`vcheck` lists seven constants of `Coq.ssr.ssrunder` as library axioms; that file is loaded by standard library modules
such as `Lia`, and no theorem here uses it.)

## 6. Not modelled, and simplifications
* Not modelled: `scripts/` (code generation), benchmarks and tests, logging; the RE2-cgo variant of internal/regexp (the pure Go one is modelled);
  the concrete Unicode tables and normalisation (abstract, with the law `uni_ascii`; `env0` has concrete ones for the characters it needs); the
  Umm al-Qura and Jalali calendar libraries (abstract functions); loading of zone files (a location is an arbitrary finite list of transitions, and Go's
  rule for the time after the last one is not modelled).
* `int` is unbounded except where overflow is reachable and matters (`time.Duration`, float to int conversion, Atoi range errors), where the 64-bit wrap is explicit.
  `time.Time` has unbounded seconds.
* `(?i)` on `\pL`, `\pM`, `\pN` does not add Go's fold-category extras; bounded repetition is expanded.
* One clock reading per call of Parse or Search (Go reads it several times).
* Memory: slices and maps are values; where Go shares a mutable slice or map between calls (remembered locales, cached charsets, the Parser's fields) the state is
  explicit in `pstate`, and accesses from several goroutines are explicit in Concurrency.v (sequentially consistent; data races are shown absent or exhibited). The global
  `transform.Chain` objects of internal/strutil, which carry internal buffers, are pure functions everywhere but in Normalizer.v, where unicodeTransformer is a shared object (with unbounded
  buffers) for Parse, ParseHijri, ParseJalali and SearchWithLanguage. Search and nfkcTransformer are not covered there.
* `sort.Slice` (unstable) is only used on total orders here, `sort.SliceStable` elsewhere: both are a stable insertion sort in the model.

## 7. Wrong programs
`seeded/LOG.jsonl` records each edit made to the model in a scratch copy, the theorems that failed and those that were tightened because none failed.
