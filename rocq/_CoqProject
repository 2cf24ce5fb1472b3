-Q theories Verif
theories/GoBase.v
theories/SMap.v
theories/Regex.v
theories/Civil.v
theories/GoTime.v
theories/GoTimeFacts.v
theories/GoTimeParse.v
theories/GoFloat.v
theories/Setting.v
theories/Strutil.v
theories/Digit.v
theories/Dateutil.v
theories/Tokenizer.v
theories/TimezoneData.v
theories/Timezone.v
theories/Env.v
theories/Common.v
theories/Timestamp.v
theories/Formatted.v
theories/Relative.v
theories/Absolute.v
theories/NoSpace.v
theories/JalaliData.v
theories/Calendars.v
theories/Language.v
theories/LocaleData.v
theories/Parser.v
theories/Search.v
theories/Concrete.v
theories/Utf8Facts.v
theories/History.v
theories/ParserFacts.v
theories/LocaleFacts.v
theories/SelectFacts.v
theories/Spec.v
theories/Shows.v
theories/Prop_Parser.v
theories/Prop_Locale.v
theories/DateutilFacts.v
theories/Prop_Clock.v
theories/SpaceFacts.v
theories/Prop_Text.v
theories/Prop_Translate.v
theories/AbsFacts.v
theories/AbsFacts2.v
theories/AbsSpec.v
theories/AbsFacts3.v
theories/AbsFacts4.v
theories/Prop_Absolute.v
theories/Prop_Absolute2.v
theories/Prop_Absolute3.v
theories/Prop_Strict.v
theories/RegexFacts.v
theories/Prop_Relative.v
theories/RegexFacts2.v
theories/Prop_Timezone.v
theories/LayoutFacts.v
theories/LayoutFacts2.v
theories/Prop_Formatted.v
theories/RegexFacts3.v
theories/NumericFacts.v
theories/RegexFacts4.v
theories/NumTranslate.v
theories/NumParse.v
theories/NumLift.v
theories/Prop_Numeric.v
theories/StampFacts.v
theories/Prop_Timestamp.v
theories/NumericFacts2.v
theories/Prop_Calendar.v
theories/SplitFacts.v
theories/Prop_Search.v
theories/RegexFacts5.v
theories/Prop_Total.v
theories/Prop_Total2.v
theories/Prop_Order.v
theories/Prop_Regional.v
theories/Concurrency.v
theories/ConcurrencyFacts.v
theories/Prop_Concurrency.v
theories/Prop_Detect.v
theories/Prop_Repeat.v
theories/Prop_Clocktime.v
theories/FloatFacts.v
theories/FloatBound.v
theories/RelFacts.v
theories/RegexFacts6.v
theories/Prop_RelDir.v
theories/RegexFacts7.v
theories/RelText.v
theories/RelText2.v
theories/Prop_RelExact.v
theories/NsSpec.v
theories/NsFacts.v
theories/NsFacts2.v
theories/NsFacts3.v
theories/NsFacts4.v
theories/Prop_NoSpace.v
theories/Prop_NoSpace2.v
theories/RelSpec.v
theories/Prop_RelZone.v
theories/Prop_SearchBase.v
theories/LocaleAll01.v
theories/LocaleAll02.v
theories/LocaleAll03.v
theories/LocaleAll04.v
theories/LocaleAll05.v
theories/LocaleAll06.v
theories/LocaleAll07.v
theories/LocaleAll08.v
theories/LocaleAll09.v
theories/LocaleAll10.v
theories/LocaleAll11.v
theories/LocaleAll12.v
theories/LocaleAll13.v
theories/LocaleAll.v
theories/Prop_Data.v
theories/ZoneWords.v
theories/Prop_RelWhole.v
theories/Prop_Vocabulary.v
theories/RegexWiden.v
theories/TextRename.v
theories/TextFront.v
theories/TextActs.v
theories/TextParse.v
theories/TextRead.v
theories/TextForms.v
theories/TextValues.v
theories/TextFast.v
theories/EnglishForms.v
theories/EnglishCheck.v
theories/EnglishCheck1.v
theories/EnglishCheck2.v
theories/EnglishCheck3.v
theories/EnglishCheck4.v
theories/TextResult.v
theories/Prop_Words.v
theories/Prop_Words2.v
theories/Prop_Case.v
theories/Prop_White.v
theories/SpaceRuns.v
theories/Prop_SearchText.v
theories/TextQuick.v
theories/LanguageWords.v
theories/LanguageCheck1.v
theories/LanguageCheck2.v
theories/LanguageCheck3.v
theories/LanguageCheck4.v
theories/Prop_Languages.v
theories/Normalizer.v
theories/NormalizerFacts.v
theories/Prop_Normalizer.v
theories/ComposeFacts.v
theories/Prop_Compose.v
theories/ClockTranslate.v
theories/ClockLift.v
theories/NumClock.v
theories/Prop_Timed.v
theories/Prop_Formats.v
theories/Prop_SearchOrder.v
theories/IsoTranslate.v
theories/IsoClock.v
theories/Prop_Iso.v
theories/ZoneOffset.v
theories/IsoZone.v
theories/Prop_Zone.v
theories/ScriptDigits.v
theories/Prop_Script.v
theories/ScriptParse.v
theories/Prop_Script2.v
theories/Prop_Script3.v
theories/Prop_LeapYear.v
theories/JalaliNames.v
theories/Prop_JalaliNames.v
