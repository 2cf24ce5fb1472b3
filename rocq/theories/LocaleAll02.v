(** Generated by tools/gen_all_locales.py from /repo/internal/data. Do not edit. *)
From Verif Require Import GoBase SMap Regex Language LocaleData.

(** bn.go:13-132 *)
Definition loc_bn : locale := Eval vm_compute in
  {| ld_name := lit "bn"; ld_order := lit "DMY"; ld_nospacing := false; ld_splitter := 3;
    ld_charset := runes (lit "cgtuzংঅআইএকখগঘঙচছজটডণতদধনপফবভমযরলশষসহ়ািীুৃেো্ৎ");
    ld_abbr := [];
    ld_simpl := [(rx "(?i)(\A|[^\pL\pM\d_])মধযাহন(\z|[^\pL\pM\d_])", lit "${1}12:00${2}");
    (rx "(?i)(\A|[^\pL\pM\d_])মধযরাত(\z|[^\pL\pM\d_])", lit "${1}00:00${2}")];
    ld_trans := [(lit "বহষপতিবার", [lit "thursday"]);
    (lit "বহসপতিবার", [lit "thursday"]);
    (lit "ফেবরযারি", [lit "february"]);
    (lit "ফেবরযারী", [lit "february"]);
    (lit "সেপটেমবর", [lit "september"]);
    (lit "জানযারি", [lit "january"]);
    (lit "জানযারী", [lit "january"]);
    (lit "ডিসেমবর", [lit "december"]);
    (lit "মঙগলবার", [lit "tuesday"]);
    (lit "অকটোবর", [lit "october"]);
    (lit "নভেমবর", [lit "november"]);
    (lit "বহসপতি", [lit "thursday"]);
    (lit "রবিবার", [lit "sunday"]);
    (lit "শকরবার", [lit "friday"]);
    (lit "শনিবার", [lit "saturday"]);
    (lit "সেকেনড", [lit "second"]);
    (lit "সোমবার", [lit "monday"]);
    (lit "এপরিল", [lit "april"]);
    (lit "বধবার", [lit "wednesday"]);
    (lit "মিনিট", [lit "minute"]);
    (lit "সপতাহ", [lit "week"]);
    (lit "আগসট", [lit "august"]);
    (lit "ঘনটা", [lit "hour"]);
    (lit "জলাই", [lit "july"]);
    (lit "পরায", [lit ""]);
    (lit "বৎসর", [lit "year"]);
    (lit "মঙগল", [lit "tuesday"]);
    (lit "মধযে", [lit "in"]);
    (lit "মারচ", [lit "march"]);
    (lit "gmt", [lit "gmt"]);
    (lit "utc", [lit "utc"]);
    (lit "আগে", [lit "ago"]);
    (lit "এবং", [lit ""]);
    (lit "জান", [lit "january"]);
    (lit "দিন", [lit "day"]);
    (lit "ফেব", [lit "february"]);
    (lit "বছর", [lit "year"]);
    (lit "মাস", [lit "month"]);
    (lit "রবি", [lit "sunday"]);
    (lit "শকর", [lit "friday"]);
    (lit "শনি", [lit "saturday"]);
    (lit "সাল", [lit "year"]);
    (lit "সোম", [lit "monday"]);
    (lit "am", [lit "am"]);
    (lit "pm", [lit "pm"]);
    (lit "জন", [lit "june"]);
    (lit "টা", [lit ""]);
    (lit "বধ", [lit "wednesday"]);
    (lit "মে", [lit "may"]);
    (lit "লা", [lit ""]);
    (lit "শে", [lit ""]);
    (lit " ", [lit " "]);
    (lit "'", [lit ""]);
    (lit "+", [lit "+"]);
    (lit ",", [lit ""]);
    (lit "-", [lit "-"]);
    (lit ".", [lit "."]);
    (lit "/", [lit "/"]);
    (lit ":", [lit ":"]);
    (lit ";", [lit ""]);
    (lit "@", [lit ""]);
    (lit "[", [lit ""]);
    (lit "]", [lit ""]);
    (lit "z", [lit "z"]);
    (lit "|", [lit ""]);
    (lit "ই", [lit ""])];
    ld_reltype := [(lit "আগামী সপতাহ", lit "in 1 week");
    (lit "পরের সপতাহ", lit "in 1 week");
    (lit "আগামী বছর", lit "in 1 year");
    (lit "আগামী মাস", lit "in 1 month");
    (lit "আগামীকাল", lit "in 1 day");
    (lit "এই ঘণটায", lit "0 hour ago");
    (lit "এই মিনিট", lit "0 minute ago");
    (lit "এই সপতাহ", lit "0 week ago");
    (lit "গত সপতাহ", lit "1 week ago");
    (lit "পরের বছর", lit "in 1 year");
    (lit "পরের মাস", lit "in 1 month");
    (lit "এই বছর", lit "0 year ago");
    (lit "এই মাস", lit "0 month ago");
    (lit "গত পরশ", lit "2 day ago");
    (lit "গত বছর", lit "1 year ago");
    (lit "গত মাস", lit "1 month ago");
    (lit "গতকাল", lit "1 day ago");
    (lit "এখন", lit "0 second ago");
    (lit "আজ", lit "0 day ago")];
    ld_relrx := [(rx "(?i)(\d+[.,]?\d*) সেকেনড পরবে", lit "$1 second ago");
    (rx "(?i)(\d+[.,]?\d*) দিনের মধযে", lit "in $1 day");
    (rx "(?i)(\d+[.,]?\d*) মিনিট পরবে", lit "$1 minute ago");
    (rx "(?i)(\d+[.,]?\d*) সেকেনড আগে", lit "$1 second ago");
    (rx "(?i)(\d+[.,]?\d*) মিনিট আগে", lit "$1 minute ago");
    (rx "(?i)(\d+[.,]?\d*) সপতাহ আগে", lit "$1 week ago");
    (rx "(?i)(\d+[.,]?\d*) ঘনটা আগে", lit "$1 hour ago");
    (rx "(?i)(\d+[.,]?\d*) বছর পরবে", lit "$1 year ago");
    (rx "(?i)(\d+[.,]?\d*) দিন আগে", lit "$1 day ago");
    (rx "(?i)(\d+[.,]?\d*) মাস আগে", lit "$1 month ago");
    (rx "(?i)(\d+[.,]?\d*) সেকেনডে", lit "in $1 second");
    (rx "(?i)(\d+[.,]?\d*) মিনিটে", lit "in $1 minute");
    (rx "(?i)(\d+[.,]?\d*) সপতাহে", lit "in $1 week");
    (rx "(?i)(\d+[.,]?\d*) ঘনটায", lit "in $1 hour");
    (rx "(?i)(\d+[.,]?\d*) বছরে", lit "in $1 year");
    (rx "(?i)(\d+[.,]?\d*) মাসে", lit "in $1 month")];
    ld_rx := Some (rx "(?i)(\A|[^\pL\pM\d]|_)(\d+[.,]?\d* সেকেনড পরবে|\d+[.,]?\d* দিনের মধযে|\d+[.,]?\d* মিনিট পরবে|\d+[.,]?\d* সেকেনড আগে|\d+[.,]?\d* মিনিট আগে|\d+[.,]?\d* সপতাহ আগে|\d+[.,]?\d* ঘনটা আগে|\d+[.,]?\d* বছর পরবে|\d+[.,]?\d* দিন আগে|\d+[.,]?\d* মাস আগে|\d+[.,]?\d* সেকেনডে|\d+[.,]?\d* মিনিটে|\d+[.,]?\d* সপতাহে|\d+[.,]?\d* ঘনটায|\d+[.,]?\d* বছরে|\d+[.,]?\d* মাসে)(\z|[^\pL\pM\d]|_)");
    ld_rx_exact := Some (rx "(?i)^(\d+[.,]?\d* সেকেনড পরবে|\d+[.,]?\d* দিনের মধযে|\d+[.,]?\d* মিনিট পরবে|\d+[.,]?\d* সেকেনড আগে|\d+[.,]?\d* মিনিট আগে|\d+[.,]?\d* সপতাহ আগে|\d+[.,]?\d* ঘনটা আগে|\d+[.,]?\d* বছর পরবে|\d+[.,]?\d* দিন আগে|\d+[.,]?\d* মাস আগে|\d+[.,]?\d* সেকেনডে|\d+[.,]?\d* মিনিটে|\d+[.,]?\d* সপতাহে|\d+[.,]?\d* ঘনটায|\d+[.,]?\d* বছরে|\d+[.,]?\d* মাসে)$");
    ld_known := [lit "আগামী সপতাহ";
    lit "পরের সপতাহ";
    lit "আগামী বছর";
    lit "আগামী মাস";
    lit "বহষপতিবার";
    lit "বহসপতিবার";
    lit "আগামীকাল";
    lit "এই ঘণটায";
    lit "এই মিনিট";
    lit "এই সপতাহ";
    lit "গত সপতাহ";
    lit "পরের বছর";
    lit "পরের মাস";
    lit "ফেবরযারি";
    lit "ফেবরযারী";
    lit "সেপটেমবর";
    lit "জানযারি";
    lit "জানযারী";
    lit "ডিসেমবর";
    lit "মঙগলবার";
    lit "অকটোবর";
    lit "এই বছর";
    lit "এই মাস";
    lit "গত পরশ";
    lit "গত বছর";
    lit "গত মাস";
    lit "নভেমবর";
    lit "বহসপতি";
    lit "রবিবার";
    lit "শকরবার";
    lit "শনিবার";
    lit "সেকেনড";
    lit "সোমবার";
    lit "এপরিল";
    lit "গতকাল";
    lit "বধবার";
    lit "মিনিট";
    lit "সপতাহ";
    lit "আগসট";
    lit "ঘনটা";
    lit "জলাই";
    lit "পরায";
    lit "বৎসর";
    lit "মঙগল";
    lit "মধযে";
    lit "মারচ";
    lit "gmt";
    lit "utc";
    lit "আগে";
    lit "এখন";
    lit "এবং";
    lit "জান";
    lit "দিন";
    lit "ফেব";
    lit "বছর";
    lit "মাস";
    lit "রবি";
    lit "শকর";
    lit "শনি";
    lit "সাল";
    lit "সোম";
    lit "am";
    lit "pm";
    lit "আজ";
    lit "জন";
    lit "টা";
    lit "বধ";
    lit "মে";
    lit "লা";
    lit "শে";
    lit " ";
    lit "'";
    lit "+";
    lit ",";
    lit "-";
    lit ".";
    lit "/";
    lit ":";
    lit ";";
    lit "@";
    lit "[";
    lit "]";
    lit "z";
    lit "|";
    lit "ই"] |}.

(** bn.go:134-137 *)
Definition own_bn_IN : locale := Eval vm_compute in
  {| ld_name := lit "bn-IN"; ld_order := lit "DMY"; ld_nospacing := false; ld_splitter := 0;
    ld_charset := runes (lit "");
    ld_abbr := [];
    ld_simpl := [];
    ld_trans := [];
    ld_reltype := [];
    ld_relrx := [];
    ld_rx := None;
    ld_rx_exact := None;
    ld_known := [] |}.
Definition loc_bn_IN : locale := merge loc_bn own_bn_IN.

(** bo.go:11-109 *)
Definition loc_bo : locale := Eval vm_compute in
  {| ld_name := lit "bo"; ld_order := lit "YMD"; ld_nospacing := false; ld_splitter := 0;
    ld_charset := runes (lit "ceghiklnorstuwxyz་།༠༡༢༣༤༥༦༧༨༩ཁགངཅཆཉདནཔཕབམཚཞཟའརལསིེོུྐྒྔྤྱྲླྷ");
    ld_abbr := [];
    ld_simpl := [];
    ld_trans := [(lit "ཟ་བ་བཅ་གཅག་པ་", [lit "november"]);
    (lit "ཟ་བ་བཅ་གཉས་པ་", [lit "december"]);
    (lit "ཟ་བ་བཅ་གཅག་པ", [lit "november"]);
    (lit "ཟ་བ་བཅ་གཉས་པ", [lit "december"]);
    (lit "གཟའ་མག་དམར་", [lit "tuesday"]);
    (lit "གཟའ་པ་སངས་", [lit "friday"]);
    (lit "ཟ་བ་གཉས་པ་", [lit "february"]);
    (lit "ཟ་བ་གསམ་པ་", [lit "march"]);
    (lit "ཟ་བ་བདན་པ་", [lit "july"]);
    (lit "ཟ་བ་བརད་པ་", [lit "august"]);
    (lit "གཟའ་ཕར་བ་", [lit "thursday"]);
    (lit "གཟའ་ལག་པ་", [lit "wednesday"]);
    (lit "གཟའ་སན་པ་", [lit "saturday"]);
    (lit "ཟ་བ་གཉས་པ", [lit "february"]);
    (lit "ཟ་བ་གསམ་པ", [lit "march"]);
    (lit "ཟ་བ་དག་པ་", [lit "june"; lit "september"]);
    (lit "ཟ་བ་དང་པ་", [lit "january"]);
    (lit "ཟ་བ་བཅ་པ་", [lit "october"]);
    (lit "ཟ་བ་བདན་པ", [lit "july"]);
    (lit "ཟ་བ་བཞ་པ་", [lit "april"]);
    (lit "ཟ་བ་བརད་པ", [lit "august"]);
    (lit "གཟའ་ཉ་མ་", [lit "sunday"]);
    (lit "གཟའ་ཟ་བ་", [lit "monday"]);
    (lit "ཟ་བ་དག་པ", [lit "june"; lit "september"]);
    (lit "ཟ་བ་དང་པ", [lit "january"]);
    (lit "ཟ་བ་བཅ་པ", [lit "october"]);
    (lit "ཟ་བ་བཞ་པ", [lit "april"]);
    (lit "ཟ་བ་ལ་པ་", [lit "may"]);
    (lit "མག་དམར་", [lit "tuesday"]);
    (lit "ཟ་བ་ལ་པ", [lit "may"]);
    (lit "པ་སངས་", [lit "friday"]);
    (lit "ཆ་ཚད་", [lit "hour"]);
    (lit "ཕར་བ་", [lit "thursday"]);
    (lit "ལག་པ་", [lit "wednesday"]);
    (lit "སན་པ་", [lit "saturday"]);
    (lit "སར་ཆ།", [lit "second"]);
    (lit "སར་མ།", [lit "minute"]);
    (lit "week", [lit "week"]);
    (lit "ཉ་མ་", [lit "sunday"]);
    (lit "ཕ་ད་", [lit "pm"]);
    (lit "ཟ་༡༠", [lit "october"]);
    (lit "ཟ་༡༡", [lit "november"]);
    (lit "ཟ་༡༢", [lit "december"]);
    (lit "ཟ་བ་", [lit "month"; lit "monday"]);
    (lit "ས་ད་", [lit "am"]);
    (lit "gmt", [lit "gmt"]);
    (lit "utc", [lit "utc"]);
    (lit "ཉན།", [lit "day"]);
    (lit "ཟ་༡", [lit "january"]);
    (lit "ཟ་༢", [lit "february"]);
    (lit "ཟ་༣", [lit "march"]);
    (lit "ཟ་༤", [lit "april"]);
    (lit "ཟ་༥", [lit "may"]);
    (lit "ཟ་༦", [lit "june"]);
    (lit "ཟ་༧", [lit "july"]);
    (lit "ཟ་༨", [lit "august"]);
    (lit "ཟ་༩", [lit "september"]);
    (lit "am", [lit "am"]);
    (lit "pm", [lit "pm"]);
    (lit "ལ།", [lit "year"]);
    (lit " ", [lit " "]);
    (lit "'", [lit ""]);
    (lit "+", [lit "+"]);
    (lit ",", [lit ""]);
    (lit "-", [lit "-"]);
    (lit ".", [lit "."]);
    (lit "/", [lit "/"]);
    (lit ":", [lit ":"]);
    (lit ";", [lit ""]);
    (lit "@", [lit ""]);
    (lit "[", [lit ""]);
    (lit "]", [lit ""]);
    (lit "z", [lit "z"]);
    (lit "|", [lit ""])];
    ld_reltype := [(lit "this minute", lit "0 minute ago");
    (lit "last month", lit "1 month ago");
    (lit "next month", lit "in 1 month");
    (lit "this month", lit "0 month ago");
    (lit "last week", lit "1 week ago");
    (lit "last year", lit "1 year ago");
    (lit "next week", lit "in 1 week");
    (lit "next year", lit "in 1 year");
    (lit "this hour", lit "0 hour ago");
    (lit "this week", lit "0 week ago");
    (lit "this year", lit "0 year ago");
    (lit "སང་ཉན་", lit "in 1 day");
    (lit "ཁས་ས་", lit "1 day ago");
    (lit "ད་རང་", lit "0 day ago");
    (lit "now", lit "0 second ago")];
    ld_relrx := [];
    ld_rx := None;
    ld_rx_exact := None;
    ld_known := [lit "ཟ་བ་བཅ་གཅག་པ་";
    lit "ཟ་བ་བཅ་གཉས་པ་";
    lit "ཟ་བ་བཅ་གཅག་པ";
    lit "ཟ་བ་བཅ་གཉས་པ";
    lit "this minute";
    lit "གཟའ་མག་དམར་";
    lit "last month";
    lit "next month";
    lit "this month";
    lit "གཟའ་པ་སངས་";
    lit "ཟ་བ་གཉས་པ་";
    lit "ཟ་བ་གསམ་པ་";
    lit "ཟ་བ་བདན་པ་";
    lit "ཟ་བ་བརད་པ་";
    lit "last week";
    lit "last year";
    lit "next week";
    lit "next year";
    lit "this hour";
    lit "this week";
    lit "this year";
    lit "གཟའ་ཕར་བ་";
    lit "གཟའ་ལག་པ་";
    lit "གཟའ་སན་པ་";
    lit "ཟ་བ་གཉས་པ";
    lit "ཟ་བ་གསམ་པ";
    lit "ཟ་བ་དག་པ་";
    lit "ཟ་བ་དང་པ་";
    lit "ཟ་བ་བཅ་པ་";
    lit "ཟ་བ་བདན་པ";
    lit "ཟ་བ་བཞ་པ་";
    lit "ཟ་བ་བརད་པ";
    lit "གཟའ་ཉ་མ་";
    lit "གཟའ་ཟ་བ་";
    lit "ཟ་བ་དག་པ";
    lit "ཟ་བ་དང་པ";
    lit "ཟ་བ་བཅ་པ";
    lit "ཟ་བ་བཞ་པ";
    lit "ཟ་བ་ལ་པ་";
    lit "མག་དམར་";
    lit "ཟ་བ་ལ་པ";
    lit "པ་སངས་";
    lit "སང་ཉན་";
    lit "ཁས་ས་";
    lit "ཆ་ཚད་";
    lit "ད་རང་";
    lit "ཕར་བ་";
    lit "ལག་པ་";
    lit "སན་པ་";
    lit "སར་ཆ།";
    lit "སར་མ།";
    lit "week";
    lit "ཉ་མ་";
    lit "ཕ་ད་";
    lit "ཟ་༡༠";
    lit "ཟ་༡༡";
    lit "ཟ་༡༢";
    lit "ཟ་བ་";
    lit "ས་ད་";
    lit "gmt";
    lit "now";
    lit "utc";
    lit "ཉན།";
    lit "ཟ་༡";
    lit "ཟ་༢";
    lit "ཟ་༣";
    lit "ཟ་༤";
    lit "ཟ་༥";
    lit "ཟ་༦";
    lit "ཟ་༧";
    lit "ཟ་༨";
    lit "ཟ་༩";
    lit "am";
    lit "pm";
    lit "ལ།";
    lit " ";
    lit "'";
    lit "+";
    lit ",";
    lit "-";
    lit ".";
    lit "/";
    lit ":";
    lit ";";
    lit "@";
    lit "[";
    lit "]";
    lit "z";
    lit "|"] |}.

(** bo.go:111-114 *)
Definition own_bo_IN : locale := Eval vm_compute in
  {| ld_name := lit "bo-IN"; ld_order := lit "YMD"; ld_nospacing := false; ld_splitter := 0;
    ld_charset := runes (lit "");
    ld_abbr := [];
    ld_simpl := [];
    ld_trans := [];
    ld_reltype := [];
    ld_relrx := [];
    ld_rx := None;
    ld_rx_exact := None;
    ld_known := [] |}.
Definition loc_bo_IN : locale := merge loc_bo own_bo_IN.

(** br.go:12-130 *)
Definition loc_br : locale := Eval vm_compute in
  {| ld_name := lit "br"; ld_order := lit "YMD"; ld_nospacing := false; ld_splitter := 0;
    ld_charset := runes (lit "-bcdeghiklnorstuvwyzñ");
    ld_abbr := [];
    ld_simpl := [];
    ld_trans := [(lit "c'hwevrer", [lit "february"]);
    (lit "gwengolo", [lit "september"]);
    (lit "merc'her", [lit "wednesday"]);
    (lit "mezheven", [lit "june"]);
    (lit "eilenn", [lit "second"]);
    (lit "genver", [lit "january"]);
    (lit "gouere", [lit "july"]);
    (lit "gwener", [lit "friday"]);
    (lit "meurzh", [lit "march"; lit "tuesday"]);
    (lit "sadorn", [lit "saturday"]);
    (lit "sizhun", [lit "week"]);
    (lit "bloaz", [lit "year"]);
    (lit "c'hwe", [lit "february"]);
    (lit "ebrel", [lit "april"]);
    (lit "kerzu", [lit "december"]);
    (lit "munut", [lit "minute"]);
    (lit "deiz", [lit "day"]);
    (lit "eost", [lit "august"]);
    (lit "goue", [lit "july"]);
    (lit "gwen", [lit "september"]);
    (lit "here", [lit "october"]);
    (lit "meur", [lit "march"]);
    (lit "mezh", [lit "june"]);
    (lit "yaou", [lit "thursday"]);
    (lit "ebr", [lit "april"]);
    (lit "eur", [lit "hour"]);
    (lit "gen", [lit "january"]);
    (lit "gmt", [lit "gmt"]);
    (lit "gwe", [lit "friday"]);
    (lit "ker", [lit "december"]);
    (lit "kzu", [lit "december"]);
    (lit "lun", [lit "monday"]);
    (lit "mae", [lit "may"]);
    (lit "mer", [lit "wednesday"]);
    (lit "meu", [lit "tuesday"]);
    (lit "min", [lit "minute"]);
    (lit "miz", [lit "month"]);
    (lit "sad", [lit "saturday"]);
    (lit "sul", [lit "sunday"]);
    (lit "utc", [lit "utc"]);
    (lit "am", [lit "am"]);
    (lit "bl", [lit "year"]);
    (lit "du", [lit "november"]);
    (lit "gm", [lit "pm"]);
    (lit "pm", [lit "pm"]);
    (lit " ", [lit " "]);
    (lit "'", [lit ""]);
    (lit "+", [lit "+"]);
    (lit ",", [lit ""]);
    (lit "-", [lit "-"]);
    (lit ".", [lit "."]);
    (lit "/", [lit "/"]);
    (lit ":", [lit ":"]);
    (lit ";", [lit ""]);
    (lit "@", [lit ""]);
    (lit "[", [lit ""]);
    (lit "]", [lit ""]);
    (lit "d", [lit "day"]);
    (lit "e", [lit "hour"]);
    (lit "s", [lit "second"]);
    (lit "z", [lit "z"]);
    (lit "|", [lit ""])];
    ld_reltype := [(lit "ar sizhun diaraok", lit "1 week ago");
    (lit "ar sizhun a zeu", lit "in 1 week");
    (lit "ar bloaz a zeu", lit "in 1 year");
    (lit "ar miz diaraok", lit "1 month ago");
    (lit "ar sizhun-man", lit "0 week ago");
    (lit "ar miz a zeu", lit "in 1 month");
    (lit "ar bl a zeu", lit "in 1 year");
    (lit "this minute", lit "0 minute ago");
    (lit "ar miz-man", lit "0 month ago");
    (lit "warc'hoazh", lit "in 1 day");
    (lit "this hour", lit "0 hour ago");
    (lit "hevlene", lit "0 year ago");
    (lit "warlene", lit "1 year ago");
    (lit "breman", lit "0 second ago");
    (lit "dec'h", lit "1 day ago");
    (lit "hiziv", lit "0 day ago");
    (lit "brem", lit "0 second ago")];
    ld_relrx := [(rx "(?i)a-benn (\d+[.,]?\d*) eilenn", lit "in $1 second");
    (rx "(?i)a-benn (\d+[.,]?\d*) sizhun", lit "in $1 week");
    (rx "(?i)a-benn (\d+[.,]?\d*) bloaz", lit "in $1 year");
    (rx "(?i)a-benn (\d+[.,]?\d*) munut", lit "in $1 minute");
    (rx "(?i)a-benn (\d+[.,]?\d*) vloaz", lit "in $1 year");
    (rx "(?i)a-benn (\d+[.,]?\d*) deiz", lit "in $1 day");
    (rx "(?i)a-benn (\d+[.,]?\d*) eur", lit "in $1 hour");
    (rx "(?i)a-benn (\d+[.,]?\d*) min", lit "in $1 minute");
    (rx "(?i)a-benn (\d+[.,]?\d*) miz", lit "in $1 month");
    (rx "(?i)(\d+[.,]?\d*) eilenn zo", lit "$1 second ago");
    (rx "(?i)(\d+[.,]?\d*) sizhun zo", lit "$1 week ago");
    (rx "(?i)a-benn (\d+[.,]?\d*) bl", lit "in $1 year");
    (rx "(?i)(\d+[.,]?\d*) bloaz zo", lit "$1 year ago");
    (rx "(?i)(\d+[.,]?\d*) munut zo", lit "$1 minute ago");
    (rx "(?i)(\d+[.,]?\d*) vloaz zo", lit "$1 year ago");
    (rx "(?i)a-benn (\d+[.,]?\d*) d", lit "in $1 day");
    (rx "(?i)a-benn (\d+[.,]?\d*) e", lit "in $1 hour");
    (rx "(?i)a-benn (\d+[.,]?\d*) s", lit "in $1 second");
    (rx "(?i)(\d+[.,]?\d*) deiz zo", lit "$1 day ago");
    (rx "(?i)(\d+[.,]?\d*) eur zo", lit "$1 hour ago");
    (rx "(?i)(\d+[.,]?\d*) min zo", lit "$1 minute ago");
    (rx "(?i)(\d+[.,]?\d*) miz zo", lit "$1 month ago");
    (rx "(?i)(\d+[.,]?\d*) bl zo", lit "$1 year ago");
    (rx "(?i)(\d+[.,]?\d*) d zo", lit "$1 day ago");
    (rx "(?i)(\d+[.,]?\d*) e zo", lit "$1 hour ago");
    (rx "(?i)(\d+[.,]?\d*) s zo", lit "$1 second ago")];
    ld_rx := Some (rx "(?i)(\A|[^\pL\pM\d]|_)(a-benn \d+[.,]?\d* eilenn|a-benn \d+[.,]?\d* sizhun|a-benn \d+[.,]?\d* bloaz|a-benn \d+[.,]?\d* munut|a-benn \d+[.,]?\d* vloaz|a-benn \d+[.,]?\d* deiz|a-benn \d+[.,]?\d* eur|a-benn \d+[.,]?\d* min|a-benn \d+[.,]?\d* miz|\d+[.,]?\d* eilenn zo|\d+[.,]?\d* sizhun zo|a-benn \d+[.,]?\d* bl|\d+[.,]?\d* bloaz zo|\d+[.,]?\d* munut zo|\d+[.,]?\d* vloaz zo|a-benn \d+[.,]?\d* d|a-benn \d+[.,]?\d* e|a-benn \d+[.,]?\d* s|\d+[.,]?\d* deiz zo|\d+[.,]?\d* eur zo|\d+[.,]?\d* min zo|\d+[.,]?\d* miz zo|\d+[.,]?\d* bl zo|\d+[.,]?\d* d zo|\d+[.,]?\d* e zo|\d+[.,]?\d* s zo)(\z|[^\pL\pM\d]|_)");
    ld_rx_exact := Some (rx "(?i)^(a-benn \d+[.,]?\d* eilenn|a-benn \d+[.,]?\d* sizhun|a-benn \d+[.,]?\d* bloaz|a-benn \d+[.,]?\d* munut|a-benn \d+[.,]?\d* vloaz|a-benn \d+[.,]?\d* deiz|a-benn \d+[.,]?\d* eur|a-benn \d+[.,]?\d* min|a-benn \d+[.,]?\d* miz|\d+[.,]?\d* eilenn zo|\d+[.,]?\d* sizhun zo|a-benn \d+[.,]?\d* bl|\d+[.,]?\d* bloaz zo|\d+[.,]?\d* munut zo|\d+[.,]?\d* vloaz zo|a-benn \d+[.,]?\d* d|a-benn \d+[.,]?\d* e|a-benn \d+[.,]?\d* s|\d+[.,]?\d* deiz zo|\d+[.,]?\d* eur zo|\d+[.,]?\d* min zo|\d+[.,]?\d* miz zo|\d+[.,]?\d* bl zo|\d+[.,]?\d* d zo|\d+[.,]?\d* e zo|\d+[.,]?\d* s zo)$");
    ld_known := [lit "ar sizhun diaraok";
    lit "ar sizhun a zeu";
    lit "ar bloaz a zeu";
    lit "ar miz diaraok";
    lit "ar sizhun-man";
    lit "ar miz a zeu";
    lit "ar bl a zeu";
    lit "this minute";
    lit "ar miz-man";
    lit "warc'hoazh";
    lit "c'hwevrer";
    lit "this hour";
    lit "gwengolo";
    lit "merc'her";
    lit "mezheven";
    lit "hevlene";
    lit "warlene";
    lit "breman";
    lit "eilenn";
    lit "genver";
    lit "gouere";
    lit "gwener";
    lit "meurzh";
    lit "sadorn";
    lit "sizhun";
    lit "bloaz";
    lit "c'hwe";
    lit "dec'h";
    lit "ebrel";
    lit "hiziv";
    lit "kerzu";
    lit "munut";
    lit "brem";
    lit "deiz";
    lit "eost";
    lit "goue";
    lit "gwen";
    lit "here";
    lit "meur";
    lit "mezh";
    lit "yaou";
    lit "ebr";
    lit "eur";
    lit "gen";
    lit "gmt";
    lit "gwe";
    lit "ker";
    lit "kzu";
    lit "lun";
    lit "mae";
    lit "mer";
    lit "meu";
    lit "min";
    lit "miz";
    lit "sad";
    lit "sul";
    lit "utc";
    lit "am";
    lit "bl";
    lit "du";
    lit "gm";
    lit "pm";
    lit " ";
    lit "'";
    lit "+";
    lit ",";
    lit "-";
    lit ".";
    lit "/";
    lit ":";
    lit ";";
    lit "@";
    lit "[";
    lit "]";
    lit "d";
    lit "e";
    lit "s";
    lit "z";
    lit "|"] |}.

(** brx.go:10-87 *)
Definition loc_brx : locale := Eval vm_compute in
  {| ld_name := lit "brx"; ld_order := lit "MDY"; ld_nospacing := false; ld_splitter := 0;
    ld_charset := runes (lit "/ceghiklnorstuwxyzंअआइएखगजथदनफबमयरलवसह़ािीुेैो्");
    ld_abbr := [];
    ld_simpl := [];
    ld_trans := [(lit "सबथा/हबथा", [lit "week"]);
    (lit "बिसथिबार", [lit "thursday"]);
    (lit "जानवारी", [lit "january"]);
    (lit "फबरवारी", [lit "february"]);
    (lit "दिसजबर", [lit "december"]);
    (lit "मगलबार", [lit "tuesday"]);
    (lit "रबिबार", [lit "sunday"]);
    (lit "सखरबार", [lit "friday"]);
    (lit "सनिबार", [lit "saturday"]);
    (lit "सबथजबर", [lit "september"]);
    (lit "अखथबर", [lit "october"]);
    (lit "एफरिल", [lit "april"]);
    (lit "नबजबर", [lit "november"]);
    (lit "बदबार", [lit "wednesday"]);
    (lit "बिसथि", [lit "thursday"]);
    (lit "बोसोर", [lit "year"]);
    (lit "मिनिथ", [lit "minute"]);
    (lit "समबार", [lit "monday"]);
    (lit "आगसथ", [lit "august"]);
    (lit "जलाइ", [lit "july"]);
    (lit "बलास", [lit "pm"]);
    (lit "मारस", [lit "march"]);
    (lit "रिगा", [lit "hour"]);
    (lit "सखनद", [lit "second"]);
    (lit "gmt", [lit "gmt"]);
    (lit "utc", [lit "utc"]);
    (lit "दान", [lit "month"]);
    (lit "मगल", [lit "tuesday"]);
    (lit "रबि", [lit "sunday"]);
    (lit "सखर", [lit "friday"]);
    (lit "सनि", [lit "saturday"]);
    (lit "सान", [lit "day"]);
    (lit "am", [lit "am"]);
    (lit "pm", [lit "pm"]);
    (lit "जन", [lit "june"]);
    (lit "बद", [lit "wednesday"]);
    (lit "सम", [lit "monday"]);
    (lit " ", [lit " "]);
    (lit "'", [lit ""]);
    (lit "+", [lit "+"]);
    (lit ",", [lit ""]);
    (lit "-", [lit "-"]);
    (lit ".", [lit "."]);
    (lit "/", [lit "/"]);
    (lit ":", [lit ":"]);
    (lit ";", [lit ""]);
    (lit "@", [lit ""]);
    (lit "[", [lit ""]);
    (lit "]", [lit ""]);
    (lit "z", [lit "z"]);
    (lit "|", [lit ""]);
    (lit "फ", [lit "am"]);
    (lit "म", [lit "may"])];
    ld_reltype := [(lit "this minute", lit "0 minute ago");
    (lit "last month", lit "1 month ago");
    (lit "next month", lit "in 1 month");
    (lit "this month", lit "0 month ago");
    (lit "last week", lit "1 week ago");
    (lit "last year", lit "1 year ago");
    (lit "next week", lit "in 1 week");
    (lit "next year", lit "in 1 year");
    (lit "this hour", lit "0 hour ago");
    (lit "this week", lit "0 week ago");
    (lit "this year", lit "0 year ago");
    (lit "गाबोन", lit "in 1 day");
    (lit "now", lit "0 second ago");
    (lit "दिन", lit "0 day ago");
    (lit "मया", lit "1 day ago")];
    ld_relrx := [];
    ld_rx := None;
    ld_rx_exact := None;
    ld_known := [lit "this minute";
    lit "last month";
    lit "next month";
    lit "this month";
    lit "last week";
    lit "last year";
    lit "next week";
    lit "next year";
    lit "this hour";
    lit "this week";
    lit "this year";
    lit "सबथा/हबथा";
    lit "बिसथिबार";
    lit "जानवारी";
    lit "फबरवारी";
    lit "दिसजबर";
    lit "मगलबार";
    lit "रबिबार";
    lit "सखरबार";
    lit "सनिबार";
    lit "सबथजबर";
    lit "अखथबर";
    lit "एफरिल";
    lit "गाबोन";
    lit "नबजबर";
    lit "बदबार";
    lit "बिसथि";
    lit "बोसोर";
    lit "मिनिथ";
    lit "समबार";
    lit "आगसथ";
    lit "जलाइ";
    lit "बलास";
    lit "मारस";
    lit "रिगा";
    lit "सखनद";
    lit "gmt";
    lit "now";
    lit "utc";
    lit "दान";
    lit "दिन";
    lit "मगल";
    lit "मया";
    lit "रबि";
    lit "सखर";
    lit "सनि";
    lit "सान";
    lit "am";
    lit "pm";
    lit "जन";
    lit "बद";
    lit "सम";
    lit " ";
    lit "'";
    lit "+";
    lit ",";
    lit "-";
    lit ".";
    lit "/";
    lit ":";
    lit ";";
    lit "@";
    lit "[";
    lit "]";
    lit "z";
    lit "|";
    lit "फ";
    lit "म"] |}.

(** bs-cyrl.go:12-131 *)
Definition loc_bs_Cyrl : locale := Eval vm_compute in
  {| ld_name := lit "bs-Cyrl"; ld_order := lit "DMY."; ld_nospacing := false; ld_splitter := 0;
    ld_charset := runes (lit "ceghinorstuwzабвгдеиклмнопрстуфцчшјљћ");
    ld_abbr := [];
    ld_simpl := [];
    ld_trans := [(lit "понедељак", [lit "monday"]);
    (lit "пре подне", [lit "am"]);
    (lit "септембар", [lit "september"]);
    (lit "децембар", [lit "december"]);
    (lit "новембар", [lit "november"]);
    (lit "четвртак", [lit "thursday"]);
    (lit "октобар", [lit "october"]);
    (lit "поподне", [lit "pm"]);
    (lit "сриједа", [lit "wednesday"]);
    (lit "фебруар", [lit "february"]);
    (lit "август", [lit "august"]);
    (lit "година", [lit "year"]);
    (lit "недеља", [lit "week"; lit "sunday"]);
    (lit "секунд", [lit "second"]);
    (lit "субота", [lit "saturday"]);
    (lit "уторак", [lit "tuesday"]);
    (lit "јануар", [lit "january"]);
    (lit "април", [lit "april"]);
    (lit "месец", [lit "month"]);
    (lit "минут", [lit "minute"]);
    (lit "петак", [lit "friday"]);
    (lit "март", [lit "march"]);
    (lit "јули", [lit "july"]);
    (lit "јуни", [lit "june"]);
    (lit "gmt", [lit "gmt"]);
    (lit "utc", [lit "utc"]);
    (lit "авг", [lit "august"]);
    (lit "апр", [lit "april"]);
    (lit "дан", [lit "day"]);
    (lit "дец", [lit "december"]);
    (lit "мар", [lit "march"]);
    (lit "мај", [lit "may"]);
    (lit "нед", [lit "sunday"]);
    (lit "нов", [lit "november"]);
    (lit "окт", [lit "october"]);
    (lit "пет", [lit "friday"]);
    (lit "пон", [lit "monday"]);
    (lit "сеп", [lit "september"]);
    (lit "сри", [lit "wednesday"]);
    (lit "суб", [lit "saturday"]);
    (lit "уто", [lit "tuesday"]);
    (lit "феб", [lit "february"]);
    (lit "час", [lit "hour"]);
    (lit "чет", [lit "thursday"]);
    (lit "јан", [lit "january"]);
    (lit "јул", [lit "july"]);
    (lit "јун", [lit "june"]);
    (lit "am", [lit "am"]);
    (lit "pm", [lit "pm"]);
    (lit " ", [lit " "]);
    (lit "'", [lit ""]);
    (lit "+", [lit "+"]);
    (lit ",", [lit ""]);
    (lit "-", [lit "-"]);
    (lit ".", [lit "."]);
    (lit "/", [lit "/"]);
    (lit ":", [lit ":"]);
    (lit ";", [lit ""]);
    (lit "@", [lit ""]);
    (lit "[", [lit ""]);
    (lit "]", [lit ""]);
    (lit "z", [lit "z"]);
    (lit "|", [lit ""])];
    ld_reltype := [(lit "следећег месеца", lit "in 1 month");
    (lit "прошлог месеца", lit "1 month ago");
    (lit "следеће године", lit "in 1 year");
    (lit "следеће недеље", lit "in 1 week");
    (lit "прошле године", lit "1 year ago");
    (lit "прошле недеље", lit "1 week ago");
    (lit "this minute", lit "0 minute ago");
    (lit "овог месеца", lit "0 month ago");
    (lit "ове године", lit "0 year ago");
    (lit "ове недеље", lit "0 week ago");
    (lit "this hour", lit "0 hour ago");
    (lit "данас", lit "0 day ago");
    (lit "сутра", lit "in 1 day");
    (lit "јуче", lit "1 day ago");
    (lit "now", lit "0 second ago")];
    ld_relrx := [(rx "(?i)пре (\d+[.,]?\d*) секунди", lit "$1 second ago");
    (rx "(?i)за (\d+[.,]?\d*) секунди", lit "in $1 second");
    (rx "(?i)пре (\d+[.,]?\d*) година", lit "$1 year ago");
    (rx "(?i)пре (\d+[.,]?\d*) годину", lit "$1 year ago");
    (rx "(?i)пре (\d+[.,]?\d*) месеци", lit "$1 month ago");
    (rx "(?i)пре (\d+[.,]?\d*) минута", lit "$1 minute ago");
    (rx "(?i)пре (\d+[.,]?\d*) недеља", lit "$1 week ago");
    (rx "(?i)пре (\d+[.,]?\d*) недељу", lit "$1 week ago");
    (rx "(?i)пре (\d+[.,]?\d*) секунд", lit "$1 second ago");
    (rx "(?i)за (\d+[.,]?\d*) година", lit "in $1 year");
    (rx "(?i)за (\d+[.,]?\d*) годину", lit "in $1 year");
    (rx "(?i)за (\d+[.,]?\d*) месеци", lit "in $1 month");
    (rx "(?i)за (\d+[.,]?\d*) минута", lit "in $1 minute");
    (rx "(?i)за (\d+[.,]?\d*) недеља", lit "in $1 week");
    (rx "(?i)за (\d+[.,]?\d*) недељу", lit "in $1 week");
    (rx "(?i)за (\d+[.,]?\d*) секунд", lit "in $1 second");
    (rx "(?i)пре (\d+[.,]?\d*) месец", lit "$1 month ago");
    (rx "(?i)пре (\d+[.,]?\d*) минут", lit "$1 minute ago");
    (rx "(?i)за (\d+[.,]?\d*) месец", lit "in $1 month");
    (rx "(?i)за (\d+[.,]?\d*) минут", lit "in $1 minute");
    (rx "(?i)пре (\d+[.,]?\d*) дана", lit "$1 day ago");
    (rx "(?i)пре (\d+[.,]?\d*) сати", lit "$1 hour ago");
    (rx "(?i)за (\d+[.,]?\d*) дана", lit "in $1 day");
    (rx "(?i)за (\d+[.,]?\d*) сати", lit "in $1 hour");
    (rx "(?i)пре (\d+[.,]?\d*) дан", lit "$1 day ago");
    (rx "(?i)пре (\d+[.,]?\d*) сат", lit "$1 hour ago");
    (rx "(?i)за (\d+[.,]?\d*) дан", lit "in $1 day");
    (rx "(?i)за (\d+[.,]?\d*) сат", lit "in $1 hour")];
    ld_rx := Some (rx "(?i)(\A|[^\pL\pM\d]|_)(пре \d+[.,]?\d* секунди|за \d+[.,]?\d* секунди|пре \d+[.,]?\d* година|пре \d+[.,]?\d* годину|пре \d+[.,]?\d* месеци|пре \d+[.,]?\d* минута|пре \d+[.,]?\d* недеља|пре \d+[.,]?\d* недељу|пре \d+[.,]?\d* секунд|за \d+[.,]?\d* година|за \d+[.,]?\d* годину|за \d+[.,]?\d* месеци|за \d+[.,]?\d* минута|за \d+[.,]?\d* недеља|за \d+[.,]?\d* недељу|за \d+[.,]?\d* секунд|пре \d+[.,]?\d* месец|пре \d+[.,]?\d* минут|за \d+[.,]?\d* месец|за \d+[.,]?\d* минут|пре \d+[.,]?\d* дана|пре \d+[.,]?\d* сати|за \d+[.,]?\d* дана|за \d+[.,]?\d* сати|пре \d+[.,]?\d* дан|пре \d+[.,]?\d* сат|за \d+[.,]?\d* дан|за \d+[.,]?\d* сат)(\z|[^\pL\pM\d]|_)");
    ld_rx_exact := Some (rx "(?i)^(пре \d+[.,]?\d* секунди|за \d+[.,]?\d* секунди|пре \d+[.,]?\d* година|пре \d+[.,]?\d* годину|пре \d+[.,]?\d* месеци|пре \d+[.,]?\d* минута|пре \d+[.,]?\d* недеља|пре \d+[.,]?\d* недељу|пре \d+[.,]?\d* секунд|за \d+[.,]?\d* година|за \d+[.,]?\d* годину|за \d+[.,]?\d* месеци|за \d+[.,]?\d* минута|за \d+[.,]?\d* недеља|за \d+[.,]?\d* недељу|за \d+[.,]?\d* секунд|пре \d+[.,]?\d* месец|пре \d+[.,]?\d* минут|за \d+[.,]?\d* месец|за \d+[.,]?\d* минут|пре \d+[.,]?\d* дана|пре \d+[.,]?\d* сати|за \d+[.,]?\d* дана|за \d+[.,]?\d* сати|пре \d+[.,]?\d* дан|пре \d+[.,]?\d* сат|за \d+[.,]?\d* дан|за \d+[.,]?\d* сат)$");
    ld_known := [lit "следећег месеца";
    lit "прошлог месеца";
    lit "следеће године";
    lit "следеће недеље";
    lit "прошле године";
    lit "прошле недеље";
    lit "this minute";
    lit "овог месеца";
    lit "ове године";
    lit "ове недеље";
    lit "this hour";
    lit "понедељак";
    lit "пре подне";
    lit "септембар";
    lit "децембар";
    lit "новембар";
    lit "четвртак";
    lit "октобар";
    lit "поподне";
    lit "сриједа";
    lit "фебруар";
    lit "август";
    lit "година";
    lit "недеља";
    lit "секунд";
    lit "субота";
    lit "уторак";
    lit "јануар";
    lit "април";
    lit "данас";
    lit "месец";
    lit "минут";
    lit "петак";
    lit "сутра";
    lit "март";
    lit "јули";
    lit "јуни";
    lit "јуче";
    lit "gmt";
    lit "now";
    lit "utc";
    lit "авг";
    lit "апр";
    lit "дан";
    lit "дец";
    lit "мар";
    lit "мај";
    lit "нед";
    lit "нов";
    lit "окт";
    lit "пет";
    lit "пон";
    lit "сеп";
    lit "сри";
    lit "суб";
    lit "уто";
    lit "феб";
    lit "час";
    lit "чет";
    lit "јан";
    lit "јул";
    lit "јун";
    lit "am";
    lit "pm";
    lit " ";
    lit "'";
    lit "+";
    lit ",";
    lit "-";
    lit ".";
    lit "/";
    lit ":";
    lit ";";
    lit "@";
    lit "[";
    lit "]";
    lit "z";
    lit "|"] |}.

(** bs-latn.go:12-154 *)
Definition loc_bs_Latn : locale := Eval vm_compute in
  {| ld_name := lit "bs-Latn"; ld_order := lit "DMY."; ld_nospacing := false; ld_splitter := 0;
    ld_charset := runes (lit "bcdefghijklnorstuvzćčš");
    ld_abbr := [];
    ld_simpl := [];
    ld_trans := [(lit "ponedjeljak", [lit "monday"]);
    (lit "prijepodne", [lit "am"]);
    (lit "septembar", [lit "september"]);
    (lit "cetvrtak", [lit "thursday"]);
    (lit "decembar", [lit "december"]);
    (lit "nedjelja", [lit "sunday"]);
    (lit "novembar", [lit "november"]);
    (lit "februar", [lit "february"]);
    (lit "oktobar", [lit "october"]);
    (lit "popodne", [lit "pm"]);
    (lit "sedmica", [lit "week"]);
    (lit "sekunda", [lit "second"]);
    (lit "srijeda", [lit "wednesday"]);
    (lit "avgust", [lit "august"]);
    (lit "godina", [lit "year"]);
    (lit "januar", [lit "january"]);
    (lit "minuta", [lit "minute"]);
    (lit "mjesec", [lit "month"]);
    (lit "subota", [lit "saturday"]);
    (lit "utorak", [lit "tuesday"]);
    (lit "april", [lit "april"]);
    (lit "petak", [lit "friday"]);
    (lit "juli", [lit "july"]);
    (lit "juni", [lit "june"]);
    (lit "mart", [lit "march"]);
    (lit "apr", [lit "april"]);
    (lit "avg", [lit "august"]);
    (lit "cet", [lit "thursday"]);
    (lit "dan", [lit "day"]);
    (lit "dec", [lit "december"]);
    (lit "feb", [lit "february"]);
    (lit "gmt", [lit "gmt"]);
    (lit "god", [lit "year"]);
    (lit "jan", [lit "january"]);
    (lit "jul", [lit "july"]);
    (lit "jun", [lit "june"]);
    (lit "maj", [lit "may"]);
    (lit "mar", [lit "march"]);
    (lit "min", [lit "minute"]);
    (lit "ned", [lit "sunday"]);
    (lit "nov", [lit "november"]);
    (lit "okt", [lit "october"]);
    (lit "pet", [lit "friday"]);
    (lit "pon", [lit "monday"]);
    (lit "sat", [lit "hour"]);
    (lit "sed", [lit "week"]);
    (lit "sek", [lit "second"]);
    (lit "sep", [lit "september"]);
    (lit "sri", [lit "wednesday"]);
    (lit "sub", [lit "saturday"]);
    (lit "utc", [lit "utc"]);
    (lit "uto", [lit "tuesday"]);
    (lit "am", [lit "am"]);
    (lit "mj", [lit "month"]);
    (lit "pm", [lit "pm"]);
    (lit " ", [lit " "]);
    (lit "'", [lit ""]);
    (lit "+", [lit "+"]);
    (lit ",", [lit ""]);
    (lit "-", [lit "-"]);
    (lit ".", [lit "."]);
    (lit "/", [lit "/"]);
    (lit ":", [lit ":"]);
    (lit ";", [lit ""]);
    (lit "@", [lit ""]);
    (lit "[", [lit ""]);
    (lit "]", [lit ""]);
    (lit "g", [lit "year"]);
    (lit "h", [lit "hour"]);
    (lit "s", [lit "second"]);
    (lit "z", [lit "z"]);
    (lit "|", [lit ""])];
    ld_reltype := [(lit "sljedece sedmice", lit "in 1 week");
    (lit "sljedece godine", lit "in 1 year");
    (lit "sljedeci mjesec", lit "in 1 month");
    (lit "prosle sedmice", lit "1 week ago");
    (lit "prosle godine", lit "1 year ago");
    (lit "prosli mjesec", lit "1 month ago");
    (lit "ovaj mjesec", lit "0 month ago");
    (lit "ove sedmice", lit "0 week ago");
    (lit "ova minuta", lit "0 minute ago");
    (lit "ove godine", lit "0 year ago");
    (lit "ovaj sat", lit "0 hour ago");
    (lit "danas", lit "0 day ago");
    (lit "jucer", lit "1 day ago");
    (lit "sutra", lit "in 1 day");
    (lit "sada", lit "0 second ago")];
    ld_relrx := [(rx "(?i)prije (\d+[.,]?\d*) mjeseci", lit "$1 month ago");
    (rx "(?i)prije (\d+[.,]?\d*) sedmica", lit "$1 week ago");
    (rx "(?i)prije (\d+[.,]?\d*) sedmicu", lit "$1 week ago");
    (rx "(?i)prije (\d+[.,]?\d*) sekundi", lit "$1 second ago");
    (rx "(?i)prije (\d+[.,]?\d*) sekundu", lit "$1 second ago");
    (rx "(?i)prije (\d+[.,]?\d*) godina", lit "$1 year ago");
    (rx "(?i)prije (\d+[.,]?\d*) godinu", lit "$1 year ago");
    (rx "(?i)prije (\d+[.,]?\d*) minuta", lit "$1 minute ago");
    (rx "(?i)prije (\d+[.,]?\d*) minutu", lit "$1 minute ago");
    (rx "(?i)prije (\d+[.,]?\d*) mjesec", lit "$1 month ago");
    (rx "(?i)prije (\d+[.,]?\d*) dana", lit "$1 day ago");
    (rx "(?i)prije (\d+[.,]?\d*) sati", lit "$1 hour ago");
    (rx "(?i)za (\d+[.,]?\d*) mjeseci", lit "in $1 month");
    (rx "(?i)za (\d+[.,]?\d*) sedmica", lit "in $1 week");
    (rx "(?i)za (\d+[.,]?\d*) sedmicu", lit "in $1 week");
    (rx "(?i)za (\d+[.,]?\d*) sekundi", lit "in $1 second");
    (rx "(?i)za (\d+[.,]?\d*) sekundu", lit "in $1 second");
    (rx "(?i)prije (\d+[.,]?\d*) dan", lit "$1 day ago");
    (rx "(?i)prije (\d+[.,]?\d*) god", lit "$1 year ago");
    (rx "(?i)prije (\d+[.,]?\d*) min", lit "$1 minute ago");
    (rx "(?i)prije (\d+[.,]?\d*) sat", lit "$1 hour ago");
    (rx "(?i)prije (\d+[.,]?\d*) sed", lit "$1 week ago");
    (rx "(?i)prije (\d+[.,]?\d*) sek", lit "$1 second ago");
    (rx "(?i)za (\d+[.,]?\d*) godina", lit "in $1 year");
    (rx "(?i)za (\d+[.,]?\d*) godinu", lit "in $1 year");
    (rx "(?i)za (\d+[.,]?\d*) minuta", lit "in $1 minute");
    (rx "(?i)za (\d+[.,]?\d*) minutu", lit "in $1 minute");
    (rx "(?i)za (\d+[.,]?\d*) mjesec", lit "in $1 month");
    (rx "(?i)prije (\d+[.,]?\d*) mj", lit "$1 month ago");
    (rx "(?i)prije (\d+[.,]?\d*) d", lit "$1 day ago");
    (rx "(?i)prije (\d+[.,]?\d*) g", lit "$1 year ago");
    (rx "(?i)za (\d+[.,]?\d*) dana", lit "in $1 day");
    (rx "(?i)za (\d+[.,]?\d*) sati", lit "in $1 hour");
    (rx "(?i)za (\d+[.,]?\d*) dan", lit "in $1 day");
    (rx "(?i)za (\d+[.,]?\d*) god", lit "in $1 year");
    (rx "(?i)za (\d+[.,]?\d*) min", lit "in $1 minute");
    (rx "(?i)za (\d+[.,]?\d*) sat", lit "in $1 hour");
    (rx "(?i)za (\d+[.,]?\d*) sed", lit "in $1 week");
    (rx "(?i)za (\d+[.,]?\d*) sek", lit "in $1 second");
    (rx "(?i)za (\d+[.,]?\d*) mj", lit "in $1 month");
    (rx "(?i)za (\d+[.,]?\d*) d", lit "in $1 day");
    (rx "(?i)za (\d+[.,]?\d*) g", lit "in $1 year")];
    ld_rx := Some (rx "(?i)(\A|[^\pL\pM\d]|_)(prije \d+[.,]?\d* mjeseci|prije \d+[.,]?\d* sedmica|prije \d+[.,]?\d* sedmicu|prije \d+[.,]?\d* sekundi|prije \d+[.,]?\d* sekundu|prije \d+[.,]?\d* godina|prije \d+[.,]?\d* godinu|prije \d+[.,]?\d* minuta|prije \d+[.,]?\d* minutu|prije \d+[.,]?\d* mjesec|prije \d+[.,]?\d* dana|prije \d+[.,]?\d* sati|za \d+[.,]?\d* mjeseci|za \d+[.,]?\d* sedmica|za \d+[.,]?\d* sedmicu|za \d+[.,]?\d* sekundi|za \d+[.,]?\d* sekundu|prije \d+[.,]?\d* dan|prije \d+[.,]?\d* god|prije \d+[.,]?\d* min|prije \d+[.,]?\d* sat|prije \d+[.,]?\d* sed|prije \d+[.,]?\d* sek|za \d+[.,]?\d* godina|za \d+[.,]?\d* godinu|za \d+[.,]?\d* minuta|za \d+[.,]?\d* minutu|za \d+[.,]?\d* mjesec|prije \d+[.,]?\d* mj|prije \d+[.,]?\d* d|prije \d+[.,]?\d* g|za \d+[.,]?\d* dana|za \d+[.,]?\d* sati|za \d+[.,]?\d* dan|za \d+[.,]?\d* god|za \d+[.,]?\d* min|za \d+[.,]?\d* sat|za \d+[.,]?\d* sed|za \d+[.,]?\d* sek|za \d+[.,]?\d* mj|za \d+[.,]?\d* d|za \d+[.,]?\d* g)(\z|[^\pL\pM\d]|_)");
    ld_rx_exact := Some (rx "(?i)^(prije \d+[.,]?\d* mjeseci|prije \d+[.,]?\d* sedmica|prije \d+[.,]?\d* sedmicu|prije \d+[.,]?\d* sekundi|prije \d+[.,]?\d* sekundu|prije \d+[.,]?\d* godina|prije \d+[.,]?\d* godinu|prije \d+[.,]?\d* minuta|prije \d+[.,]?\d* minutu|prije \d+[.,]?\d* mjesec|prije \d+[.,]?\d* dana|prije \d+[.,]?\d* sati|za \d+[.,]?\d* mjeseci|za \d+[.,]?\d* sedmica|za \d+[.,]?\d* sedmicu|za \d+[.,]?\d* sekundi|za \d+[.,]?\d* sekundu|prije \d+[.,]?\d* dan|prije \d+[.,]?\d* god|prije \d+[.,]?\d* min|prije \d+[.,]?\d* sat|prije \d+[.,]?\d* sed|prije \d+[.,]?\d* sek|za \d+[.,]?\d* godina|za \d+[.,]?\d* godinu|za \d+[.,]?\d* minuta|za \d+[.,]?\d* minutu|za \d+[.,]?\d* mjesec|prije \d+[.,]?\d* mj|prije \d+[.,]?\d* d|prije \d+[.,]?\d* g|za \d+[.,]?\d* dana|za \d+[.,]?\d* sati|za \d+[.,]?\d* dan|za \d+[.,]?\d* god|za \d+[.,]?\d* min|za \d+[.,]?\d* sat|za \d+[.,]?\d* sed|za \d+[.,]?\d* sek|za \d+[.,]?\d* mj|za \d+[.,]?\d* d|za \d+[.,]?\d* g)$");
    ld_known := [lit "sljedece sedmice";
    lit "sljedece godine";
    lit "sljedeci mjesec";
    lit "prosle sedmice";
    lit "prosle godine";
    lit "prosli mjesec";
    lit "ovaj mjesec";
    lit "ove sedmice";
    lit "ponedjeljak";
    lit "ova minuta";
    lit "ove godine";
    lit "prijepodne";
    lit "septembar";
    lit "cetvrtak";
    lit "decembar";
    lit "nedjelja";
    lit "novembar";
    lit "ovaj sat";
    lit "februar";
    lit "oktobar";
    lit "popodne";
    lit "sedmica";
    lit "sekunda";
    lit "srijeda";
    lit "avgust";
    lit "godina";
    lit "januar";
    lit "minuta";
    lit "mjesec";
    lit "subota";
    lit "utorak";
    lit "april";
    lit "danas";
    lit "jucer";
    lit "petak";
    lit "sutra";
    lit "juli";
    lit "juni";
    lit "mart";
    lit "sada";
    lit "apr";
    lit "avg";
    lit "cet";
    lit "dan";
    lit "dec";
    lit "feb";
    lit "gmt";
    lit "god";
    lit "jan";
    lit "jul";
    lit "jun";
    lit "maj";
    lit "mar";
    lit "min";
    lit "ned";
    lit "nov";
    lit "okt";
    lit "pet";
    lit "pon";
    lit "sat";
    lit "sed";
    lit "sek";
    lit "sep";
    lit "sri";
    lit "sub";
    lit "utc";
    lit "uto";
    lit "am";
    lit "mj";
    lit "pm";
    lit " ";
    lit "'";
    lit "+";
    lit ",";
    lit "-";
    lit ".";
    lit "/";
    lit ":";
    lit ";";
    lit "@";
    lit "[";
    lit "]";
    lit "g";
    lit "h";
    lit "s";
    lit "z";
    lit "|"] |}.

(** bs.go:12-154 *)
Definition loc_bs : locale := Eval vm_compute in
  {| ld_name := lit "bs"; ld_order := lit "DMY."; ld_nospacing := false; ld_splitter := 0;
    ld_charset := runes (lit "bcdefghijklnorstuvzćčš");
    ld_abbr := [];
    ld_simpl := [];
    ld_trans := [(lit "ponedjeljak", [lit "monday"]);
    (lit "prijepodne", [lit "am"]);
    (lit "septembar", [lit "september"]);
    (lit "cetvrtak", [lit "thursday"]);
    (lit "decembar", [lit "december"]);
    (lit "nedjelja", [lit "sunday"]);
    (lit "novembar", [lit "november"]);
    (lit "februar", [lit "february"]);
    (lit "oktobar", [lit "october"]);
    (lit "popodne", [lit "pm"]);
    (lit "sedmica", [lit "week"]);
    (lit "sekunda", [lit "second"]);
    (lit "srijeda", [lit "wednesday"]);
    (lit "avgust", [lit "august"]);
    (lit "godina", [lit "year"]);
    (lit "januar", [lit "january"]);
    (lit "minuta", [lit "minute"]);
    (lit "mjesec", [lit "month"]);
    (lit "subota", [lit "saturday"]);
    (lit "utorak", [lit "tuesday"]);
    (lit "april", [lit "april"]);
    (lit "petak", [lit "friday"]);
    (lit "juli", [lit "july"]);
    (lit "juni", [lit "june"]);
    (lit "mart", [lit "march"]);
    (lit "apr", [lit "april"]);
    (lit "avg", [lit "august"]);
    (lit "cet", [lit "thursday"]);
    (lit "dan", [lit "day"]);
    (lit "dec", [lit "december"]);
    (lit "feb", [lit "february"]);
    (lit "gmt", [lit "gmt"]);
    (lit "god", [lit "year"]);
    (lit "jan", [lit "january"]);
    (lit "jul", [lit "july"]);
    (lit "jun", [lit "june"]);
    (lit "maj", [lit "may"]);
    (lit "mar", [lit "march"]);
    (lit "min", [lit "minute"]);
    (lit "ned", [lit "sunday"]);
    (lit "nov", [lit "november"]);
    (lit "okt", [lit "october"]);
    (lit "pet", [lit "friday"]);
    (lit "pon", [lit "monday"]);
    (lit "sat", [lit "hour"]);
    (lit "sed", [lit "week"]);
    (lit "sek", [lit "second"]);
    (lit "sep", [lit "september"]);
    (lit "sri", [lit "wednesday"]);
    (lit "sub", [lit "saturday"]);
    (lit "utc", [lit "utc"]);
    (lit "uto", [lit "tuesday"]);
    (lit "am", [lit "am"]);
    (lit "mj", [lit "month"]);
    (lit "pm", [lit "pm"]);
    (lit " ", [lit " "]);
    (lit "'", [lit ""]);
    (lit "+", [lit "+"]);
    (lit ",", [lit ""]);
    (lit "-", [lit "-"]);
    (lit ".", [lit "."]);
    (lit "/", [lit "/"]);
    (lit ":", [lit ":"]);
    (lit ";", [lit ""]);
    (lit "@", [lit ""]);
    (lit "[", [lit ""]);
    (lit "]", [lit ""]);
    (lit "g", [lit "year"]);
    (lit "h", [lit "hour"]);
    (lit "s", [lit "second"]);
    (lit "z", [lit "z"]);
    (lit "|", [lit ""])];
    ld_reltype := [(lit "sljedece sedmice", lit "in 1 week");
    (lit "sljedece godine", lit "in 1 year");
    (lit "sljedeci mjesec", lit "in 1 month");
    (lit "prosle sedmice", lit "1 week ago");
    (lit "prosle godine", lit "1 year ago");
    (lit "prosli mjesec", lit "1 month ago");
    (lit "ovaj mjesec", lit "0 month ago");
    (lit "ove sedmice", lit "0 week ago");
    (lit "ova minuta", lit "0 minute ago");
    (lit "ove godine", lit "0 year ago");
    (lit "ovaj sat", lit "0 hour ago");
    (lit "danas", lit "0 day ago");
    (lit "jucer", lit "1 day ago");
    (lit "sutra", lit "in 1 day");
    (lit "sada", lit "0 second ago")];
    ld_relrx := [(rx "(?i)prije (\d+[.,]?\d*) mjeseci", lit "$1 month ago");
    (rx "(?i)prije (\d+[.,]?\d*) sedmica", lit "$1 week ago");
    (rx "(?i)prije (\d+[.,]?\d*) sedmicu", lit "$1 week ago");
    (rx "(?i)prije (\d+[.,]?\d*) sekundi", lit "$1 second ago");
    (rx "(?i)prije (\d+[.,]?\d*) sekundu", lit "$1 second ago");
    (rx "(?i)prije (\d+[.,]?\d*) godina", lit "$1 year ago");
    (rx "(?i)prije (\d+[.,]?\d*) godinu", lit "$1 year ago");
    (rx "(?i)prije (\d+[.,]?\d*) minuta", lit "$1 minute ago");
    (rx "(?i)prije (\d+[.,]?\d*) minutu", lit "$1 minute ago");
    (rx "(?i)prije (\d+[.,]?\d*) mjesec", lit "$1 month ago");
    (rx "(?i)prije (\d+[.,]?\d*) dana", lit "$1 day ago");
    (rx "(?i)prije (\d+[.,]?\d*) sati", lit "$1 hour ago");
    (rx "(?i)za (\d+[.,]?\d*) mjeseci", lit "in $1 month");
    (rx "(?i)za (\d+[.,]?\d*) sedmica", lit "in $1 week");
    (rx "(?i)za (\d+[.,]?\d*) sedmicu", lit "in $1 week");
    (rx "(?i)za (\d+[.,]?\d*) sekundi", lit "in $1 second");
    (rx "(?i)za (\d+[.,]?\d*) sekundu", lit "in $1 second");
    (rx "(?i)prije (\d+[.,]?\d*) dan", lit "$1 day ago");
    (rx "(?i)prije (\d+[.,]?\d*) god", lit "$1 year ago");
    (rx "(?i)prije (\d+[.,]?\d*) min", lit "$1 minute ago");
    (rx "(?i)prije (\d+[.,]?\d*) sat", lit "$1 hour ago");
    (rx "(?i)prije (\d+[.,]?\d*) sed", lit "$1 week ago");
    (rx "(?i)prije (\d+[.,]?\d*) sek", lit "$1 second ago");
    (rx "(?i)za (\d+[.,]?\d*) godina", lit "in $1 year");
    (rx "(?i)za (\d+[.,]?\d*) godinu", lit "in $1 year");
    (rx "(?i)za (\d+[.,]?\d*) minuta", lit "in $1 minute");
    (rx "(?i)za (\d+[.,]?\d*) minutu", lit "in $1 minute");
    (rx "(?i)za (\d+[.,]?\d*) mjesec", lit "in $1 month");
    (rx "(?i)prije (\d+[.,]?\d*) mj", lit "$1 month ago");
    (rx "(?i)prije (\d+[.,]?\d*) d", lit "$1 day ago");
    (rx "(?i)prije (\d+[.,]?\d*) g", lit "$1 year ago");
    (rx "(?i)za (\d+[.,]?\d*) dana", lit "in $1 day");
    (rx "(?i)za (\d+[.,]?\d*) sati", lit "in $1 hour");
    (rx "(?i)za (\d+[.,]?\d*) dan", lit "in $1 day");
    (rx "(?i)za (\d+[.,]?\d*) god", lit "in $1 year");
    (rx "(?i)za (\d+[.,]?\d*) min", lit "in $1 minute");
    (rx "(?i)za (\d+[.,]?\d*) sat", lit "in $1 hour");
    (rx "(?i)za (\d+[.,]?\d*) sed", lit "in $1 week");
    (rx "(?i)za (\d+[.,]?\d*) sek", lit "in $1 second");
    (rx "(?i)za (\d+[.,]?\d*) mj", lit "in $1 month");
    (rx "(?i)za (\d+[.,]?\d*) d", lit "in $1 day");
    (rx "(?i)za (\d+[.,]?\d*) g", lit "in $1 year")];
    ld_rx := Some (rx "(?i)(\A|[^\pL\pM\d]|_)(prije \d+[.,]?\d* mjeseci|prije \d+[.,]?\d* sedmica|prije \d+[.,]?\d* sedmicu|prije \d+[.,]?\d* sekundi|prije \d+[.,]?\d* sekundu|prije \d+[.,]?\d* godina|prije \d+[.,]?\d* godinu|prije \d+[.,]?\d* minuta|prije \d+[.,]?\d* minutu|prije \d+[.,]?\d* mjesec|prije \d+[.,]?\d* dana|prije \d+[.,]?\d* sati|za \d+[.,]?\d* mjeseci|za \d+[.,]?\d* sedmica|za \d+[.,]?\d* sedmicu|za \d+[.,]?\d* sekundi|za \d+[.,]?\d* sekundu|prije \d+[.,]?\d* dan|prije \d+[.,]?\d* god|prije \d+[.,]?\d* min|prije \d+[.,]?\d* sat|prije \d+[.,]?\d* sed|prije \d+[.,]?\d* sek|za \d+[.,]?\d* godina|za \d+[.,]?\d* godinu|za \d+[.,]?\d* minuta|za \d+[.,]?\d* minutu|za \d+[.,]?\d* mjesec|prije \d+[.,]?\d* mj|prije \d+[.,]?\d* d|prije \d+[.,]?\d* g|za \d+[.,]?\d* dana|za \d+[.,]?\d* sati|za \d+[.,]?\d* dan|za \d+[.,]?\d* god|za \d+[.,]?\d* min|za \d+[.,]?\d* sat|za \d+[.,]?\d* sed|za \d+[.,]?\d* sek|za \d+[.,]?\d* mj|za \d+[.,]?\d* d|za \d+[.,]?\d* g)(\z|[^\pL\pM\d]|_)");
    ld_rx_exact := Some (rx "(?i)^(prije \d+[.,]?\d* mjeseci|prije \d+[.,]?\d* sedmica|prije \d+[.,]?\d* sedmicu|prije \d+[.,]?\d* sekundi|prije \d+[.,]?\d* sekundu|prije \d+[.,]?\d* godina|prije \d+[.,]?\d* godinu|prije \d+[.,]?\d* minuta|prije \d+[.,]?\d* minutu|prije \d+[.,]?\d* mjesec|prije \d+[.,]?\d* dana|prije \d+[.,]?\d* sati|za \d+[.,]?\d* mjeseci|za \d+[.,]?\d* sedmica|za \d+[.,]?\d* sedmicu|za \d+[.,]?\d* sekundi|za \d+[.,]?\d* sekundu|prije \d+[.,]?\d* dan|prije \d+[.,]?\d* god|prije \d+[.,]?\d* min|prije \d+[.,]?\d* sat|prije \d+[.,]?\d* sed|prije \d+[.,]?\d* sek|za \d+[.,]?\d* godina|za \d+[.,]?\d* godinu|za \d+[.,]?\d* minuta|za \d+[.,]?\d* minutu|za \d+[.,]?\d* mjesec|prije \d+[.,]?\d* mj|prije \d+[.,]?\d* d|prije \d+[.,]?\d* g|za \d+[.,]?\d* dana|za \d+[.,]?\d* sati|za \d+[.,]?\d* dan|za \d+[.,]?\d* god|za \d+[.,]?\d* min|za \d+[.,]?\d* sat|za \d+[.,]?\d* sed|za \d+[.,]?\d* sek|za \d+[.,]?\d* mj|za \d+[.,]?\d* d|za \d+[.,]?\d* g)$");
    ld_known := [lit "sljedece sedmice";
    lit "sljedece godine";
    lit "sljedeci mjesec";
    lit "prosle sedmice";
    lit "prosle godine";
    lit "prosli mjesec";
    lit "ovaj mjesec";
    lit "ove sedmice";
    lit "ponedjeljak";
    lit "ova minuta";
    lit "ove godine";
    lit "prijepodne";
    lit "septembar";
    lit "cetvrtak";
    lit "decembar";
    lit "nedjelja";
    lit "novembar";
    lit "ovaj sat";
    lit "februar";
    lit "oktobar";
    lit "popodne";
    lit "sedmica";
    lit "sekunda";
    lit "srijeda";
    lit "avgust";
    lit "godina";
    lit "januar";
    lit "minuta";
    lit "mjesec";
    lit "subota";
    lit "utorak";
    lit "april";
    lit "danas";
    lit "jucer";
    lit "petak";
    lit "sutra";
    lit "juli";
    lit "juni";
    lit "mart";
    lit "sada";
    lit "apr";
    lit "avg";
    lit "cet";
    lit "dan";
    lit "dec";
    lit "feb";
    lit "gmt";
    lit "god";
    lit "jan";
    lit "jul";
    lit "jun";
    lit "maj";
    lit "mar";
    lit "min";
    lit "ned";
    lit "nov";
    lit "okt";
    lit "pet";
    lit "pon";
    lit "sat";
    lit "sed";
    lit "sek";
    lit "sep";
    lit "sri";
    lit "sub";
    lit "utc";
    lit "uto";
    lit "am";
    lit "mj";
    lit "pm";
    lit " ";
    lit "'";
    lit "+";
    lit ",";
    lit "-";
    lit ".";
    lit "/";
    lit ":";
    lit ";";
    lit "@";
    lit "[";
    lit "]";
    lit "g";
    lit "h";
    lit "s";
    lit "z";
    lit "|"] |}.

(** ca.go:15-194 *)
Definition loc_ca : locale := Eval vm_compute in
  {| ld_name := lit "ca"; ld_order := lit "DMY"; ld_nospacing := false; ld_splitter := 0;
    ld_charset := runes (lit "-bcdefghijlnorstuvxyzàçòú");
    ld_abbr := [];
    ld_simpl := [(rx "(?i)(\A|[^\pL\pM\d_])una(\z|[^\pL\pM\d_])", lit "${1}1${2}");
    (rx "(?i)(\A|[^\pL\pM\d_])un(\z|[^\pL\pM\d_])", lit "${1}1${2}")];
    ld_trans := [(lit "de desembre", [lit "december"]);
    (lit "de novembre", [lit "november"]);
    (lit "de setembre", [lit "september"]);
    (lit "d'octubre", [lit "october"]);
    (lit "de febrer", [lit "february"]);
    (lit "de juliol", [lit "july"]);
    (lit "divendres", [lit "friday"]);
    (lit "de gener", [lit "january"]);
    (lit "desembre", [lit "december"]);
    (lit "dimecres", [lit "wednesday"]);
    (lit "dissabte", [lit "saturday"]);
    (lit "diumenge", [lit "sunday"]);
    (lit "novembre", [lit "november"]);
    (lit "setembre", [lit "september"]);
    (lit "d'abril", [lit "april"]);
    (lit "d'agost", [lit "august"]);
    (lit "de febr", [lit "february"]);
    (lit "de juny", [lit "june"]);
    (lit "de maig", [lit "may"]);
    (lit "de marc", [lit "march"]);
    (lit "dilluns", [lit "monday"]);
    (lit "dimarts", [lit "tuesday"]);
    (lit "octubre", [lit "october"]);
    (lit "setmana", [lit "week"]);
    (lit "de des", [lit "december"]);
    (lit "de gen", [lit "january"]);
    (lit "de jul", [lit "july"]);
    (lit "de nov", [lit "november"]);
    (lit "de set", [lit "september"]);
    (lit "dijous", [lit "thursday"]);
    (lit "febrer", [lit "february"]);
    (lit "juliol", [lit "july"]);
    (lit "abril", [lit "april"]);
    (lit "agost", [lit "august"]);
    (lit "d'abr", [lit "april"]);
    (lit "d'oct", [lit "october"]);
    (lit "gener", [lit "january"]);
    (lit "minut", [lit "minute"]);
    (lit "segon", [lit "second"]);
    (lit "d'ag", [lit "august"]);
    (lit "febr", [lit "february"]);
    (lit "hora", [lit "hour"]);
    (lit "juny", [lit "june"]);
    (lit "maig", [lit "may"]);
    (lit "marc", [lit "march"]);
    (lit "setm", [lit "week"]);
    (lit "abr", [lit "april"]);
    (lit "any", [lit "year"]);
    (lit "del", [lit ""]);
    (lit "des", [lit "december"]);
    (lit "dia", [lit "day"]);
    (lit "gen", [lit "january"]);
    (lit "gmt", [lit "gmt"]);
    (lit "jul", [lit "july"]);
    (lit "mes", [lit "month"]);
    (lit "min", [lit "minute"]);
    (lit "nov", [lit "november"]);
    (lit "oct", [lit "october"]);
    (lit "set", [lit "september"]);
    (lit "utc", [lit "utc"]);
    (lit "ag", [lit "august"]);
    (lit "am", [lit "am"]);
    (lit "dc", [lit "wednesday"]);
    (lit "de", [lit ""]);
    (lit "dg", [lit "sunday"]);
    (lit "dj", [lit "thursday"]);
    (lit "dl", [lit "monday"]);
    (lit "ds", [lit "saturday"]);
    (lit "dt", [lit "tuesday"]);
    (lit "dv", [lit "friday"]);
    (lit "en", [lit "in"]);
    (lit "l'", [lit ""]);
    (lit "pm", [lit "pm"]);
    (lit " ", [lit " "]);
    (lit "'", [lit ""]);
    (lit "+", [lit "+"]);
    (lit ",", [lit ""]);
    (lit "-", [lit "-"]);
    (lit ".", [lit "."]);
    (lit "/", [lit "/"]);
    (lit ":", [lit ":"]);
    (lit ";", [lit ""]);
    (lit "@", [lit ""]);
    (lit "[", [lit ""]);
    (lit "]", [lit ""]);
    (lit "h", [lit "hour"]);
    (lit "i", [lit ""]);
    (lit "s", [lit "second"]);
    (lit "z", [lit "z"]);
    (lit "|", [lit ""])];
    ld_reltype := [(lit "la propera setmana", lit "in 1 week");
    (lit "la proxima setmana", lit "in 1 week");
    (lit "la setmana passada", lit "1 week ago");
    (lit "la setmana que ve", lit "in 1 week");
    (lit "la setmana vinent", lit "in 1 week");
    (lit "aquesta setmana", lit "0 week ago");
    (lit "la setm passada", lit "1 week ago");
    (lit "la setm que ve", lit "in 1 week");
    (lit "el mes passat", lit "1 month ago");
    (lit "el mes que ve", lit "in 1 month");
    (lit "endema passat", lit "in 3 day");
    (lit "abans-d’ahir", lit "2 day ago");
    (lit "aquest minut", lit "0 minute ago");
    (lit "aquesta hora", lit "0 hour ago");
    (lit "aquesta setm", lit "0 week ago");
    (lit "l'any passat", lit "1 year ago");
    (lit "l'any que ve", lit "in 1 year");
    (lit "setm passada", lit "1 week ago");
    (lit "dema passat", lit "in 2 day");
    (lit "despus-ahir", lit "2 day ago");
    (lit "despus-dema", lit "in 2 day");
    (lit "passat dema", lit "in 2 day");
    (lit "setm vinent", lit "in 1 week");
    (lit "aquest mes", lit "0 month ago");
    (lit "della-ahir", lit "2 day ago");
    (lit "mes passat", lit "1 month ago");
    (lit "mes vinent", lit "in 1 month");
    (lit "enguany", lit "0 year ago");
    (lit "sendema", lit "in 2 day");
    (lit "endema", lit "in 2 day");
    (lit "ahir", lit "1 day ago");
    (lit "avui", lit "0 day ago");
    (lit "dema", lit "in 1 day");
    (lit "ara", lit "0 second ago");
    (lit "hui", lit "0 day ago")];
    ld_relrx := [(rx "(?i)d'aqui a (\d+[.,]?\d*) setmanes", lit "in $1 week");
    (rx "(?i)d'aqui a (\d+[.,]?\d*) setmana", lit "in $1 week");
    (rx "(?i)d'aqui a (\d+[.,]?\d*) minuts", lit "in $1 minute");
    (rx "(?i)d'aqui a (\d+[.,]?\d*) segons", lit "in $1 second");
    (rx "(?i)d'aqui a (\d+[.,]?\d*) hores", lit "in $1 hour");
    (rx "(?i)d'aqui a (\d+[.,]?\d*) mesos", lit "in $1 month");
    (rx "(?i)d'aqui a (\d+[.,]?\d*) minut", lit "in $1 minute");
    (rx "(?i)d'aqui a (\d+[.,]?\d*) segon", lit "in $1 second");
    (rx "(?i)d'aqui a (\d+[.,]?\d*) anys", lit "in $1 year");
    (rx "(?i)d'aqui a (\d+[.,]?\d*) dies", lit "in $1 day");
    (rx "(?i)d'aqui a (\d+[.,]?\d*) hora", lit "in $1 hour");
    (rx "(?i)d'aqui a (\d+[.,]?\d*) setm", lit "in $1 week");
    (rx "(?i)d'aqui a (\d+[.,]?\d*) any", lit "in $1 year");
    (rx "(?i)d'aqui a (\d+[.,]?\d*) dia", lit "in $1 day");
    (rx "(?i)d'aqui a (\d+[.,]?\d*) mes", lit "in $1 month");
    (rx "(?i)d'aqui a (\d+[.,]?\d*) min", lit "in $1 minute");
    (rx "(?i)fa (\d+[.,]?\d*) setmanes", lit "$1 week ago");
    (rx "(?i)d'aqui a (\d+[.,]?\d*) h", lit "in $1 hour");
    (rx "(?i)d'aqui a (\d+[.,]?\d*) s", lit "in $1 second");
    (rx "(?i)d‘aqui a (\d+[.,]?\d*) h", lit "in $1 hour");
    (rx "(?i)fa (\d+[.,]?\d*) setmana", lit "$1 week ago");
    (rx "(?i)fa (\d+[.,]?\d*) minuts", lit "$1 minute ago");
    (rx "(?i)fa (\d+[.,]?\d*) segons", lit "$1 second ago");
    (rx "(?i)fa (\d+[.,]?\d*) hores", lit "$1 hour ago");
    (rx "(?i)fa (\d+[.,]?\d*) mesos", lit "$1 month ago");
    (rx "(?i)fa (\d+[.,]?\d*) minut", lit "$1 minute ago");
    (rx "(?i)fa (\d+[.,]?\d*) segon", lit "$1 second ago");
    (rx "(?i)fa (\d+[.,]?\d*) anys", lit "$1 year ago");
    (rx "(?i)fa (\d+[.,]?\d*) dies", lit "$1 day ago");
    (rx "(?i)fa (\d+[.,]?\d*) hora", lit "$1 hour ago");
    (rx "(?i)fa (\d+[.,]?\d*) setm", lit "$1 week ago");
    (rx "(?i)fa (\d+[.,]?\d*) any", lit "$1 year ago");
    (rx "(?i)fa (\d+[.,]?\d*) dia", lit "$1 day ago");
    (rx "(?i)fa (\d+[.,]?\d*) mes", lit "$1 month ago");
    (rx "(?i)fa (\d+[.,]?\d*) min", lit "$1 minute ago");
    (rx "(?i)fa (\d+[.,]?\d*) h", lit "$1 hour ago");
    (rx "(?i)fa (\d+[.,]?\d*) s", lit "$1 second ago")];
    ld_rx := Some (rx "(?i)(\A|[^\pL\pM\d]|_)(d'aqui a \d+[.,]?\d* setmanes|d'aqui a \d+[.,]?\d* setmana|d'aqui a \d+[.,]?\d* minuts|d'aqui a \d+[.,]?\d* segons|d'aqui a \d+[.,]?\d* hores|d'aqui a \d+[.,]?\d* mesos|d'aqui a \d+[.,]?\d* minut|d'aqui a \d+[.,]?\d* segon|d'aqui a \d+[.,]?\d* anys|d'aqui a \d+[.,]?\d* dies|d'aqui a \d+[.,]?\d* hora|d'aqui a \d+[.,]?\d* setm|d'aqui a \d+[.,]?\d* any|d'aqui a \d+[.,]?\d* dia|d'aqui a \d+[.,]?\d* mes|d'aqui a \d+[.,]?\d* min|fa \d+[.,]?\d* setmanes|d'aqui a \d+[.,]?\d* h|d'aqui a \d+[.,]?\d* s|d‘aqui a \d+[.,]?\d* h|fa \d+[.,]?\d* setmana|fa \d+[.,]?\d* minuts|fa \d+[.,]?\d* segons|fa \d+[.,]?\d* hores|fa \d+[.,]?\d* mesos|fa \d+[.,]?\d* minut|fa \d+[.,]?\d* segon|fa \d+[.,]?\d* anys|fa \d+[.,]?\d* dies|fa \d+[.,]?\d* hora|fa \d+[.,]?\d* setm|fa \d+[.,]?\d* any|fa \d+[.,]?\d* dia|fa \d+[.,]?\d* mes|fa \d+[.,]?\d* min|fa \d+[.,]?\d* h|fa \d+[.,]?\d* s)(\z|[^\pL\pM\d]|_)");
    ld_rx_exact := Some (rx "(?i)^(d'aqui a \d+[.,]?\d* setmanes|d'aqui a \d+[.,]?\d* setmana|d'aqui a \d+[.,]?\d* minuts|d'aqui a \d+[.,]?\d* segons|d'aqui a \d+[.,]?\d* hores|d'aqui a \d+[.,]?\d* mesos|d'aqui a \d+[.,]?\d* minut|d'aqui a \d+[.,]?\d* segon|d'aqui a \d+[.,]?\d* anys|d'aqui a \d+[.,]?\d* dies|d'aqui a \d+[.,]?\d* hora|d'aqui a \d+[.,]?\d* setm|d'aqui a \d+[.,]?\d* any|d'aqui a \d+[.,]?\d* dia|d'aqui a \d+[.,]?\d* mes|d'aqui a \d+[.,]?\d* min|fa \d+[.,]?\d* setmanes|d'aqui a \d+[.,]?\d* h|d'aqui a \d+[.,]?\d* s|d‘aqui a \d+[.,]?\d* h|fa \d+[.,]?\d* setmana|fa \d+[.,]?\d* minuts|fa \d+[.,]?\d* segons|fa \d+[.,]?\d* hores|fa \d+[.,]?\d* mesos|fa \d+[.,]?\d* minut|fa \d+[.,]?\d* segon|fa \d+[.,]?\d* anys|fa \d+[.,]?\d* dies|fa \d+[.,]?\d* hora|fa \d+[.,]?\d* setm|fa \d+[.,]?\d* any|fa \d+[.,]?\d* dia|fa \d+[.,]?\d* mes|fa \d+[.,]?\d* min|fa \d+[.,]?\d* h|fa \d+[.,]?\d* s)$");
    ld_known := [lit "la propera setmana";
    lit "la proxima setmana";
    lit "la setmana passada";
    lit "la setmana que ve";
    lit "la setmana vinent";
    lit "aquesta setmana";
    lit "la setm passada";
    lit "la setm que ve";
    lit "el mes passat";
    lit "el mes que ve";
    lit "endema passat";
    lit "abans-d’ahir";
    lit "aquest minut";
    lit "aquesta hora";
    lit "aquesta setm";
    lit "l'any passat";
    lit "l'any que ve";
    lit "setm passada";
    lit "de desembre";
    lit "de novembre";
    lit "de setembre";
    lit "dema passat";
    lit "despus-ahir";
    lit "despus-dema";
    lit "passat dema";
    lit "setm vinent";
    lit "aquest mes";
    lit "della-ahir";
    lit "mes passat";
    lit "mes vinent";
    lit "d'octubre";
    lit "de febrer";
    lit "de juliol";
    lit "divendres";
    lit "de gener";
    lit "desembre";
    lit "dimecres";
    lit "dissabte";
    lit "diumenge";
    lit "novembre";
    lit "setembre";
    lit "d'abril";
    lit "d'agost";
    lit "de febr";
    lit "de juny";
    lit "de maig";
    lit "de marc";
    lit "dilluns";
    lit "dimarts";
    lit "enguany";
    lit "octubre";
    lit "sendema";
    lit "setmana";
    lit "de des";
    lit "de gen";
    lit "de jul";
    lit "de nov";
    lit "de set";
    lit "dijous";
    lit "endema";
    lit "febrer";
    lit "juliol";
    lit "abril";
    lit "agost";
    lit "d'abr";
    lit "d'oct";
    lit "gener";
    lit "minut";
    lit "segon";
    lit "ahir";
    lit "avui";
    lit "d'ag";
    lit "dema";
    lit "febr";
    lit "hora";
    lit "juny";
    lit "maig";
    lit "marc";
    lit "setm";
    lit "abr";
    lit "any";
    lit "ara";
    lit "del";
    lit "des";
    lit "dia";
    lit "gen";
    lit "gmt";
    lit "hui";
    lit "jul";
    lit "mes";
    lit "min";
    lit "nov";
    lit "oct";
    lit "set";
    lit "utc";
    lit "ag";
    lit "am";
    lit "dc";
    lit "de";
    lit "dg";
    lit "dj";
    lit "dl";
    lit "ds";
    lit "dt";
    lit "dv";
    lit "en";
    lit "l'";
    lit "pm";
    lit " ";
    lit "'";
    lit "+";
    lit ",";
    lit "-";
    lit ".";
    lit "/";
    lit ":";
    lit ";";
    lit "@";
    lit "[";
    lit "]";
    lit "h";
    lit "i";
    lit "s";
    lit "z";
    lit "|"] |}.

(** ca.go:196-199 *)
Definition own_ca_AD : locale := Eval vm_compute in
  {| ld_name := lit "ca-AD"; ld_order := lit "DMY"; ld_nospacing := false; ld_splitter := 0;
    ld_charset := runes (lit "");
    ld_abbr := [];
    ld_simpl := [];
    ld_trans := [];
    ld_reltype := [];
    ld_relrx := [];
    ld_rx := None;
    ld_rx_exact := None;
    ld_known := [] |}.
Definition loc_ca_AD : locale := merge loc_ca own_ca_AD.

(** ca.go:201-204 *)
Definition own_ca_FR : locale := Eval vm_compute in
  {| ld_name := lit "ca-FR"; ld_order := lit "DMY"; ld_nospacing := false; ld_splitter := 0;
    ld_charset := runes (lit "");
    ld_abbr := [];
    ld_simpl := [];
    ld_trans := [];
    ld_reltype := [];
    ld_relrx := [];
    ld_rx := None;
    ld_rx_exact := None;
    ld_known := [] |}.
Definition loc_ca_FR : locale := merge loc_ca own_ca_FR.

(** ca.go:206-209 *)
Definition own_ca_IT : locale := Eval vm_compute in
  {| ld_name := lit "ca-IT"; ld_order := lit "DMY"; ld_nospacing := false; ld_splitter := 0;
    ld_charset := runes (lit "");
    ld_abbr := [];
    ld_simpl := [];
    ld_trans := [];
    ld_reltype := [];
    ld_relrx := [];
    ld_rx := None;
    ld_rx_exact := None;
    ld_known := [] |}.
Definition loc_ca_IT : locale := merge loc_ca own_ca_IT.

(** ce.go:12-129 *)
Definition loc_ce : locale := Eval vm_compute in
  {| ld_name := lit "ce"; ld_order := lit "YMD"; ld_nospacing := false; ld_splitter := 0;
    ld_charset := runes (lit "ceghinorstuwzабвгдеийклмнопрстуфхчшьюяӏ");
    ld_abbr := [];
    ld_simpl := [];
    ld_trans := [(lit "пӏераскан де", [lit "friday"]);
    (lit "кӏиранан де", [lit "sunday"]);
    (lit "кхаарин де", [lit "wednesday"]);
    (lit "оршотан де", [lit "monday"]);
    (lit "шинарин де", [lit "tuesday"]);
    (lit "еарин де", [lit "thursday"]);
    (lit "сентябрь", [lit "september"]);
    (lit "декабрь", [lit "december"]);
    (lit "октябрь", [lit "october"]);
    (lit "февраль", [lit "february"]);
    (lit "август", [lit "august"]);
    (lit "апрель", [lit "april"]);
    (lit "ноябрь", [lit "november"]);
    (lit "секунд", [lit "second"]);
    (lit "шот де", [lit "saturday"]);
    (lit "январь", [lit "january"]);
    (lit "кӏира", [lit "week"]);
    (lit "минот", [lit "minute"]);
    (lit "сахьт", [lit "hour"]);
    (lit "бутт", [lit "month"]);
    (lit "июль", [lit "july"]);
    (lit "июнь", [lit "june"]);
    (lit "кӏир", [lit "week"]);
    (lit "март", [lit "march"]);
    (lit "сахь", [lit "hour"]);
    (lit "gmt", [lit "gmt"]);
    (lit "utc", [lit "utc"]);
    (lit "авг", [lit "august"]);
    (lit "апр", [lit "april"]);
    (lit "бут", [lit "month"]);
    (lit "дек", [lit "december"]);
    (lit "июл", [lit "july"]);
    (lit "июн", [lit "june"]);
    (lit "маи", [lit "may"]);
    (lit "мар", [lit "march"]);
    (lit "мин", [lit "minute"]);
    (lit "ноя", [lit "november"]);
    (lit "окт", [lit "october"]);
    (lit "сек", [lit "second"]);
    (lit "сен", [lit "september"]);
    (lit "фев", [lit "february"]);
    (lit "янв", [lit "january"]);
    (lit "am", [lit "am"]);
    (lit "pm", [lit "pm"]);
    (lit "де", [lit "day"]);
    (lit "шо", [lit "year"]);
    (lit " ", [lit " "]);
    (lit "'", [lit ""]);
    (lit "+", [lit "+"]);
    (lit ",", [lit ""]);
    (lit "-", [lit "-"]);
    (lit ".", [lit "."]);
    (lit "/", [lit "/"]);
    (lit ":", [lit ":"]);
    (lit ";", [lit ""]);
    (lit "@", [lit ""]);
    (lit "[", [lit ""]);
    (lit "]", [lit ""]);
    (lit "z", [lit "z"]);
    (lit "|", [lit ""]);
    (lit "ш", [lit "year"])];
    ld_reltype := [(lit "рогӏерчу кӏирнахь", lit "in 1 week");
    (lit "даханчу кӏирнахь", lit "1 week ago");
    (lit "карарчу кӏирнахь", lit "0 week ago");
    (lit "рогӏерчу баттахь", lit "in 1 month");
    (lit "баханчу баттахь", lit "1 month ago");
    (lit "карарчу баттахь", lit "0 month ago");
    (lit "рогӏерчу шарахь", lit "in 1 year");
    (lit "даханчу шарахь", lit "1 year ago");
    (lit "карарчу шарахь", lit "0 year ago");
    (lit "this minute", lit "0 minute ago");
    (lit "this hour", lit "0 hour ago");
    (lit "селхана", lit "1 day ago");
    (lit "тахана", lit "0 day ago");
    (lit "кхана", lit "in 1 day");
    (lit "now", lit "0 second ago")];
    ld_relrx := [(rx "(?i)(\d+[.,]?\d*) секунд хьалха", lit "$1 second ago");
    (rx "(?i)(\d+[.,]?\d*) кӏира даьлча", lit "in $1 week");
    (rx "(?i)(\d+[.,]?\d*) кӏира хьалха", lit "$1 week ago");
    (rx "(?i)(\d+[.,]?\d*) минот хьалха", lit "$1 minute ago");
    (rx "(?i)(\d+[.,]?\d*) сахьт даьлча", lit "in $1 hour");
    (rx "(?i)(\d+[.,]?\d*) сахьт хьалха", lit "$1 hour ago");
    (rx "(?i)(\d+[.,]?\d*) секунд яьлча", lit "in $1 second");
    (rx "(?i)(\d+[.,]?\d*) бутт баьлча", lit "in $1 month");
    (rx "(?i)(\d+[.,]?\d*) бутт хьалха", lit "$1 month ago");
    (rx "(?i)(\d+[.,]?\d*) кӏир даьлча", lit "in $1 week");
    (rx "(?i)(\d+[.,]?\d*) кӏир хьалха", lit "$1 week ago");
    (rx "(?i)(\d+[.,]?\d*) минот яьлча", lit "in $1 minute");
    (rx "(?i)(\d+[.,]?\d*) сахь даьлча", lit "in $1 hour");
    (rx "(?i)(\d+[.,]?\d*) сахь хьалха", lit "$1 hour ago");
    (rx "(?i)(\d+[.,]?\d*) мин хьалха", lit "$1 minute ago");
    (rx "(?i)(\d+[.,]?\d*) сек хьалха", lit "$1 second ago");
    (rx "(?i)(\d+[.,]?\d*) де даьлча", lit "in $1 day");
    (rx "(?i)(\d+[.,]?\d*) де хьалха", lit "$1 day ago");
    (rx "(?i)(\d+[.,]?\d*) мин яьлча", lit "in $1 minute");
    (rx "(?i)(\d+[.,]?\d*) сек яьлча", lit "in $1 second");
    (rx "(?i)(\d+[.,]?\d*) шо даьлча", lit "in $1 year");
    (rx "(?i)(\d+[.,]?\d*) шо хьалха", lit "$1 year ago");
    (rx "(?i)(\d+[.,]?\d*) б баьлча", lit "in $1 month");
    (rx "(?i)(\d+[.,]?\d*) б хьалха", lit "$1 month ago");
    (rx "(?i)(\d+[.,]?\d*) д даьлча", lit "in $1 day");
    (rx "(?i)(\d+[.,]?\d*) д хьалха", lit "$1 day ago");
    (rx "(?i)(\d+[.,]?\d*) ш даьлча", lit "in $1 year");
    (rx "(?i)(\d+[.,]?\d*) ш хьалха", lit "$1 year ago")];
    ld_rx := Some (rx "(?i)(\A|[^\pL\pM\d]|_)(\d+[.,]?\d* секунд хьалха|\d+[.,]?\d* кӏира даьлча|\d+[.,]?\d* кӏира хьалха|\d+[.,]?\d* минот хьалха|\d+[.,]?\d* сахьт даьлча|\d+[.,]?\d* сахьт хьалха|\d+[.,]?\d* секунд яьлча|\d+[.,]?\d* бутт баьлча|\d+[.,]?\d* бутт хьалха|\d+[.,]?\d* кӏир даьлча|\d+[.,]?\d* кӏир хьалха|\d+[.,]?\d* минот яьлча|\d+[.,]?\d* сахь даьлча|\d+[.,]?\d* сахь хьалха|\d+[.,]?\d* мин хьалха|\d+[.,]?\d* сек хьалха|\d+[.,]?\d* де даьлча|\d+[.,]?\d* де хьалха|\d+[.,]?\d* мин яьлча|\d+[.,]?\d* сек яьлча|\d+[.,]?\d* шо даьлча|\d+[.,]?\d* шо хьалха|\d+[.,]?\d* б баьлча|\d+[.,]?\d* б хьалха|\d+[.,]?\d* д даьлча|\d+[.,]?\d* д хьалха|\d+[.,]?\d* ш даьлча|\d+[.,]?\d* ш хьалха)(\z|[^\pL\pM\d]|_)");
    ld_rx_exact := Some (rx "(?i)^(\d+[.,]?\d* секунд хьалха|\d+[.,]?\d* кӏира даьлча|\d+[.,]?\d* кӏира хьалха|\d+[.,]?\d* минот хьалха|\d+[.,]?\d* сахьт даьлча|\d+[.,]?\d* сахьт хьалха|\d+[.,]?\d* секунд яьлча|\d+[.,]?\d* бутт баьлча|\d+[.,]?\d* бутт хьалха|\d+[.,]?\d* кӏир даьлча|\d+[.,]?\d* кӏир хьалха|\d+[.,]?\d* минот яьлча|\d+[.,]?\d* сахь даьлча|\d+[.,]?\d* сахь хьалха|\d+[.,]?\d* мин хьалха|\d+[.,]?\d* сек хьалха|\d+[.,]?\d* де даьлча|\d+[.,]?\d* де хьалха|\d+[.,]?\d* мин яьлча|\d+[.,]?\d* сек яьлча|\d+[.,]?\d* шо даьлча|\d+[.,]?\d* шо хьалха|\d+[.,]?\d* б баьлча|\d+[.,]?\d* б хьалха|\d+[.,]?\d* д даьлча|\d+[.,]?\d* д хьалха|\d+[.,]?\d* ш даьлча|\d+[.,]?\d* ш хьалха)$");
    ld_known := [lit "рогӏерчу кӏирнахь";
    lit "даханчу кӏирнахь";
    lit "карарчу кӏирнахь";
    lit "рогӏерчу баттахь";
    lit "баханчу баттахь";
    lit "карарчу баттахь";
    lit "рогӏерчу шарахь";
    lit "даханчу шарахь";
    lit "карарчу шарахь";
    lit "пӏераскан де";
    lit "this minute";
    lit "кӏиранан де";
    lit "кхаарин де";
    lit "оршотан де";
    lit "шинарин де";
    lit "this hour";
    lit "еарин де";
    lit "сентябрь";
    lit "декабрь";
    lit "октябрь";
    lit "селхана";
    lit "февраль";
    lit "август";
    lit "апрель";
    lit "ноябрь";
    lit "секунд";
    lit "тахана";
    lit "шот де";
    lit "январь";
    lit "кхана";
    lit "кӏира";
    lit "минот";
    lit "сахьт";
    lit "бутт";
    lit "июль";
    lit "июнь";
    lit "кӏир";
    lit "март";
    lit "сахь";
    lit "gmt";
    lit "now";
    lit "utc";
    lit "авг";
    lit "апр";
    lit "бут";
    lit "дек";
    lit "июл";
    lit "июн";
    lit "маи";
    lit "мар";
    lit "мин";
    lit "ноя";
    lit "окт";
    lit "сек";
    lit "сен";
    lit "фев";
    lit "янв";
    lit "am";
    lit "pm";
    lit "де";
    lit "шо";
    lit " ";
    lit "'";
    lit "+";
    lit ",";
    lit "-";
    lit ".";
    lit "/";
    lit ":";
    lit ";";
    lit "@";
    lit "[";
    lit "]";
    lit "z";
    lit "|";
    lit "ш"] |}.

(** cgg.go:10-97 *)
Definition loc_cgg : locale := Eval vm_compute in
  {| ld_name := lit "cgg"; ld_order := lit "DMY"; ld_nospacing := false; ld_splitter := 0;
    ld_charset := runes (lit "/bcdeghijklnorstuwxyz");
    ld_abbr := [];
    ld_simpl := [];
    ld_trans := [(lit "okwaikumi na ibiri", [lit "december"]);
    (lit "okwaikumi na kumwe", [lit "november"]);
    (lit "obucweka/esekendi", [lit "second"]);
    (lit "okwamushanju", [lit "july"]);
    (lit "okwakashatu", [lit "march"]);
    (lit "okwakataana", [lit "may"]);
    (lit "okwamukaaga", [lit "june"]);
    (lit "okwamunaana", [lit "august"]);
    (lit "okwokubanza", [lit "january"]);
    (lit "orwakashatu", [lit "wednesday"]);
    (lit "orwakataano", [lit "friday"]);
    (lit "orwamukaaga", [lit "saturday"]);
    (lit "orwokubanza", [lit "monday"]);
    (lit "okwakabiri", [lit "february"]);
    (lit "okwamwenda", [lit "september"]);
    (lit "orwakabiri", [lit "tuesday"]);
    (lit "okwaikumi", [lit "october"]);
    (lit "edakiika", [lit "minute"]);
    (lit "okwakana", [lit "april"]);
    (lit "orwakana", [lit "thursday"]);
    (lit "eizooba", [lit "day"]);
    (lit "esande", [lit "week"]);
    (lit "omwaka", [lit "year"]);
    (lit "omwezi", [lit "month"]);
    (lit "shaaha", [lit "hour"]);
    (lit "sande", [lit "sunday"]);
    (lit "gmt", [lit "gmt"]);
    (lit "kbr", [lit "february"]);
    (lit "kbz", [lit "january"]);
    (lit "kkm", [lit "october"]);
    (lit "kkn", [lit "april"]);
    (lit "kmk", [lit "june"]);
    (lit "kmn", [lit "august"]);
    (lit "kms", [lit "july"]);
    (lit "kmw", [lit "september"]);
    (lit "knb", [lit "december"]);
    (lit "knk", [lit "november"]);
    (lit "kst", [lit "march"]);
    (lit "ktn", [lit "may"]);
    (lit "okb", [lit "tuesday"]);
    (lit "okn", [lit "thursday"]);
    (lit "oks", [lit "wednesday"]);
    (lit "okt", [lit "friday"]);
    (lit "omk", [lit "saturday"]);
    (lit "ork", [lit "monday"]);
    (lit "san", [lit "sunday"]);
    (lit "utc", [lit "utc"]);
    (lit "am", [lit "am"]);
    (lit "pm", [lit "pm"]);
    (lit " ", [lit " "]);
    (lit "'", [lit ""]);
    (lit "+", [lit "+"]);
    (lit ",", [lit ""]);
    (lit "-", [lit "-"]);
    (lit ".", [lit "."]);
    (lit "/", [lit "/"]);
    (lit ":", [lit ":"]);
    (lit ";", [lit ""]);
    (lit "@", [lit ""]);
    (lit "[", [lit ""]);
    (lit "]", [lit ""]);
    (lit "z", [lit "z"]);
    (lit "|", [lit ""])];
    ld_reltype := [(lit "nyenkyakare", lit "in 1 day");
    (lit "nyomwabazyo", lit "1 day ago");
    (lit "this minute", lit "0 minute ago");
    (lit "last month", lit "1 month ago");
    (lit "next month", lit "in 1 month");
    (lit "this month", lit "0 month ago");
    (lit "last week", lit "1 week ago");
    (lit "last year", lit "1 year ago");
    (lit "next week", lit "in 1 week");
    (lit "next year", lit "in 1 year");
    (lit "this hour", lit "0 hour ago");
    (lit "this week", lit "0 week ago");
    (lit "this year", lit "0 year ago");
    (lit "erizooba", lit "0 day ago");
    (lit "now", lit "0 second ago")];
    ld_relrx := [];
    ld_rx := None;
    ld_rx_exact := None;
    ld_known := [lit "okwaikumi na ibiri";
    lit "okwaikumi na kumwe";
    lit "obucweka/esekendi";
    lit "okwamushanju";
    lit "nyenkyakare";
    lit "nyomwabazyo";
    lit "okwakashatu";
    lit "okwakataana";
    lit "okwamukaaga";
    lit "okwamunaana";
    lit "okwokubanza";
    lit "orwakashatu";
    lit "orwakataano";
    lit "orwamukaaga";
    lit "orwokubanza";
    lit "this minute";
    lit "last month";
    lit "next month";
    lit "okwakabiri";
    lit "okwamwenda";
    lit "orwakabiri";
    lit "this month";
    lit "last week";
    lit "last year";
    lit "next week";
    lit "next year";
    lit "okwaikumi";
    lit "this hour";
    lit "this week";
    lit "this year";
    lit "edakiika";
    lit "erizooba";
    lit "okwakana";
    lit "orwakana";
    lit "eizooba";
    lit "esande";
    lit "omwaka";
    lit "omwezi";
    lit "shaaha";
    lit "sande";
    lit "gmt";
    lit "kbr";
    lit "kbz";
    lit "kkm";
    lit "kkn";
    lit "kmk";
    lit "kmn";
    lit "kms";
    lit "kmw";
    lit "knb";
    lit "knk";
    lit "kst";
    lit "ktn";
    lit "now";
    lit "okb";
    lit "okn";
    lit "oks";
    lit "okt";
    lit "omk";
    lit "ork";
    lit "san";
    lit "utc";
    lit "am";
    lit "pm";
    lit " ";
    lit "'";
    lit "+";
    lit ",";
    lit "-";
    lit ".";
    lit "/";
    lit ":";
    lit ";";
    lit "@";
    lit "[";
    lit "]";
    lit "z";
    lit "|"] |}.

(** chr.go:12-146 *)
Definition loc_chr : locale := Eval vm_compute in
  {| ld_name := lit "chr"; ld_order := lit "MDY"; ld_nospacing := false; ld_splitter := 0;
    ld_charset := runes (lit "cgtuzᏸᏹᏼꭰꭱꭲꭴꭵꭶꭷꭸꭹꭺꭻꭼꭽꭿꮂꮄꮅꮆꮇꮈꮎꮑꮒꮓꮕꮖꮘꮙꮚꮜꮝꮞꮠꮡꮢꮣꮤꮥꮧꮨꮩꮪꮫꮯꮲꮵꮶꮷꮼꮿ");
    ld_abbr := [];
    ld_simpl := [];
    ld_trans := [(lit "ꭴꮥꮨᏼꮜꮧꮢꭲ", [lit "year"]);
    (lit "ꭲꮿꮤꮼꮝꮤꮕ", [lit "minute"]);
    (lit "ꭴꮎꮩꮣꮖꮝꭼ", [lit "sunday"]);
    (lit "ꭴꮎꮩꮣꮘꮥꮎ", [lit "saturday"]);
    (lit "ꭴꮎꮩꮣꮙꮕꭿ", [lit "monday"]);
    (lit "ꮢꮎꮩꮣꮖꮝꮧ", [lit "week"]);
    (lit "ꮢꭿᏹꭲꮧꮲ", [lit "pm"]);
    (lit "ꮷꮎꭹꮆꮝꮧ", [lit "friday"]);
    (lit "ꭰꮒꮝꭼꮨ", [lit "may"]);
    (lit "ꭴꮓꮈꮤꮕ", [lit "january"]);
    (lit "ꮕꭹꮑꭲꭶ", [lit "thursday"]);
    (lit "ꮤꮅꮑꭲꭶ", [lit "tuesday"]);
    (lit "ꮶꭲꮑꭲꭶ", [lit "wednesday"]);
    (lit "ꭵꮝꭹᏹ", [lit "december"]);
    (lit "ꭻᏸꮙꮒ", [lit "july"]);
    (lit "ꮕꮣꮥꮖ", [lit "november"]);
    (lit "ꮡꮯꮆꮣ", [lit "hour"]);
    (lit "ꮥꭽꮇᏹ", [lit "june"]);
    (lit "ꮪꮅꮝꮧ", [lit "september"]);
    (lit "ꮪꮒꮕꮧ", [lit "october"]);
    (lit "gmt", [lit "gmt"]);
    (lit "utc", [lit "utc"]);
    (lit "ꭰꮕᏹ", [lit "march"]);
    (lit "ꭰꮞꮲ", [lit "second"]);
    (lit "ꭲꮿꮤ", [lit "minute"]);
    (lit "ꭶꮆꮒ", [lit "august"]);
    (lit "ꭷꭶꮅ", [lit "february"]);
    (lit "ꭷꮈꭲ", [lit "month"]);
    (lit "ꭷꮼꮒ", [lit "april"]);
    (lit "ꮕꭹꮑ", [lit "thursday"]);
    (lit "ꮖꮝꭼ", [lit "sunday"]);
    (lit "ꮘꮥꮎ", [lit "saturday"]);
    (lit "ꮙꮕꭿ", [lit "monday"]);
    (lit "ꮜꮎꮄ", [lit "am"]);
    (lit "ꮤꮅꮑ", [lit "tuesday"]);
    (lit "ꮶꭲꮑ", [lit "wednesday"]);
    (lit "ꮷꮎꭹ", [lit "friday"]);
    (lit "am", [lit "am"]);
    (lit "pm", [lit "pm"]);
    (lit "ꭰꮒ", [lit "may"]);
    (lit "ꭰꮕ", [lit "march"]);
    (lit "ꭲꭶ", [lit "day"]);
    (lit "ꭴꮓ", [lit "january"]);
    (lit "ꭴꮥ", [lit "year"]);
    (lit "ꭵꮝ", [lit "december"]);
    (lit "ꭶꮆ", [lit "august"]);
    (lit "ꭷꭶ", [lit "february"]);
    (lit "ꭷꮈ", [lit "month"]);
    (lit "ꭷꮼ", [lit "april"]);
    (lit "ꭻᏸ", [lit "july"]);
    (lit "ꮕꮣ", [lit "november"]);
    (lit "ꮡꮯ", [lit "hour"]);
    (lit "ꮢꮎ", [lit "week"]);
    (lit "ꮥꭽ", [lit "june"]);
    (lit "ꮪꮅ", [lit "september"]);
    (lit "ꮪꮒ", [lit "october"]);
    (lit " ", [lit " "]);
    (lit "'", [lit ""]);
    (lit "+", [lit "+"]);
    (lit ",", [lit ""]);
    (lit "-", [lit "-"]);
    (lit ".", [lit "."]);
    (lit "/", [lit "/"]);
    (lit ":", [lit ":"]);
    (lit ";", [lit ""]);
    (lit "@", [lit ""]);
    (lit "[", [lit ""]);
    (lit "]", [lit ""]);
    (lit "z", [lit "z"]);
    (lit "|", [lit ""])];
    ld_reltype := [(lit "ꭿꭰ ꭲꮿꮤꮼꮝꮤꮕ", lit "0 minute ago");
    (lit "ꭿꭰ ꮷꮥꮨᏼꮢꮨ", lit "0 year ago");
    (lit "ꭷꮈꭲ ꮵꭸꮢ", lit "1 month ago");
    (lit "ꭿꭰ ꭰꮅꮅꮜ", lit "0 week ago");
    (lit "ꭿꭰ ꮡꮯꮆꮣ", lit "0 hour ago");
    (lit "ꮤꮅꮑ ꭷꮈꭲ", lit "in 1 month");
    (lit "ꮵꮫꮅᏹꮅꮢꭲ", lit "1 week ago");
    (lit "ꭱꮨ ꮵꭸꮢ", lit "1 year ago");
    (lit "ꭿꭰ ꭷꮈꭲ", lit "0 month ago");
    (lit "ꭺꭿ ꭲꭶ", lit "0 day ago");
    (lit "ꮠꮖꮄꮕꮂ", lit "in 1 week");
    (lit "ꭱꮨᏼꭲ", lit "in 1 year");
    (lit "ꮜꮎꮄꭲ", lit "in 1 day");
    (lit "ꮓꮚ", lit "0 second ago");
    (lit "ꮢꭿ", lit "1 day ago")];
    ld_relrx := [(rx "(?i)ꮎꮏ (\d+[.,]?\d*) ꭲᏻꮎꮩꮣꮖꮝꮧ ꮵꭸꮢ", lit "$1 week ago");
    (rx "(?i)ꮎꮏ (\d+[.,]?\d*) ꭲꮿꮤꮼꮝꮤꮕ ꮵꭸꮢ", lit "$1 minute ago");
    (rx "(?i)ꮎꮏ (\d+[.,]?\d*) ꮢꮎꮩꮣꮖꮝꮧ ꮵꭸꮢ", lit "$1 week ago");
    (rx "(?i)(\d+[.,]?\d*) ꭲꮷꮥꮨᏼꮜꮧꮢꭲ ꮵꭸꮢ", lit "$1 year ago");
    (rx "(?i)(\d+[.,]?\d*) ꭿꮈꮝꭹ ꮷꮢꭿꮫ ꮵꭸꮢ", lit "$1 day ago");
    (rx "(?i)ꮎꮏ (\d+[.,]?\d*) ꮣꮣꮎꮹꮝꭼ ꮵꭸꮢ", lit "in $1 second");
    (rx "(?i)(\d+[.,]?\d*) ꭴꮥꮨᏼꮜꮧꮢꭲ ꮵꭸꮢ", lit "$1 year ago");
    (rx "(?i)ꮎꮏ (\d+[.,]?\d*) ꭲꮷꮥꮨᏼꮜꮧꮢꭲ", lit "in $1 year");
    (rx "(?i)ꮎꮏ (\d+[.,]?\d*) ꭿꮈꮝꭹ ꮷꮢꭿꮫ", lit "in $1 day");
    (rx "(?i)ꮎꮏ (\d+[.,]?\d*) ꭲᏻꮎꮩꮣꮖꮝꮧ", lit "in $1 week");
    (rx "(?i)ꮎꮏ (\d+[.,]?\d*) ꭴꮥꮨᏼꮜꮧꮢꭲ", lit "in $1 year");
    (rx "(?i)ꮎꮏ (\d+[.,]?\d*) ꮧꭷꮈꭲ ꮵꭸꮢ", lit "$1 month ago");
    (rx "(?i)(\d+[.,]?\d*) ꮣꮣꮎꮹꮝꭼ ꮵꭸꮢ", lit "$1 second ago");
    (rx "(?i)ꮎꮏ (\d+[.,]?\d*) ꭲꮿꮤ ꮵꭸꮢ", lit "$1 minute ago");
    (rx "(?i)ꮎꮏ (\d+[.,]?\d*) ꭲꮿꮤꮼꮝꮤꮕ", lit "in $1 minute");
    (rx "(?i)ꮎꮏ (\d+[.,]?\d*) ꭷꮈꭲ ꮵꭸꮢ", lit "$1 month ago");
    (rx "(?i)ꮎꮏ (\d+[.,]?\d*) ꮢꮎꮩꮣꮖꮝꮧ", lit "in $1 week");
    (rx "(?i)(\d+[.,]?\d*) ꭲᏻꮯꮆꮣ ꮵꭸꮢ", lit "$1 hour ago");
    (rx "(?i)ꮎꮏ (\d+[.,]?\d*) ꭴꮥ ꮵꭸꮢ", lit "$1 year ago");
    (rx "(?i)ꮎꮏ (\d+[.,]?\d*) ꭷꮈ ꮵꭸꮢ", lit "$1 month ago");
    (rx "(?i)ꮎꮏ (\d+[.,]?\d*) ꮡꮯ ꮵꭸꮢ", lit "$1 hour ago");
    (rx "(?i)ꮎꮏ (\d+[.,]?\d*) ꮢꮎ ꮵꭸꮢ", lit "$1 week ago");
    (rx "(?i)(\d+[.,]?\d*) ꮡꮯꮆꮣ ꮵꭸꮢ", lit "$1 hour ago");
    (rx "(?i)ꮎꮏ (\d+[.,]?\d*) ꭲᏻꮯꮆꮣ", lit "in $1 hour");
    (rx "(?i)(\d+[.,]?\d*) ꭰꮞꮲ ꮵꭸꮢ", lit "$1 second ago");
    (rx "(?i)ꮎꮏ (\d+[.,]?\d*) ꮡꮯꮆꮣ", lit "in $1 hour");
    (rx "(?i)ꮎꮏ (\d+[.,]?\d*) ꮧꭷꮈꭲ", lit "in $1 month");
    (rx "(?i)(\d+[.,]?\d*) ꭲꭶ ꮵꭸꮢ", lit "$1 day ago");
    (rx "(?i)ꮎꮏ (\d+[.,]?\d*) ꭰꮞꮲ", lit "in $1 second");
    (rx "(?i)ꮎꮏ (\d+[.,]?\d*) ꭲꮿꮤ", lit "in $1 minute");
    (rx "(?i)ꮎꮏ (\d+[.,]?\d*) ꭷꮈꭲ", lit "in $1 month");
    (rx "(?i)ꮎꮏ (\d+[.,]?\d*) ꭲꭶ", lit "in $1 day");
    (rx "(?i)ꮎꮏ (\d+[.,]?\d*) ꭴꮥ", lit "in $1 year");
    (rx "(?i)ꮎꮏ (\d+[.,]?\d*) ꭷꮈ", lit "in $1 month");
    (rx "(?i)ꮎꮏ (\d+[.,]?\d*) ꮡꮯ", lit "in $1 hour");
    (rx "(?i)ꮎꮏ (\d+[.,]?\d*) ꮢꮎ", lit "in $1 week")];
    ld_rx := Some (rx "(?i)(\A|[^\pL\pM\d]|_)(ꮎꮏ \d+[.,]?\d* ꭲᏻꮎꮩꮣꮖꮝꮧ ꮵꭸꮢ|ꮎꮏ \d+[.,]?\d* ꭲꮿꮤꮼꮝꮤꮕ ꮵꭸꮢ|ꮎꮏ \d+[.,]?\d* ꮢꮎꮩꮣꮖꮝꮧ ꮵꭸꮢ|\d+[.,]?\d* ꭲꮷꮥꮨᏼꮜꮧꮢꭲ ꮵꭸꮢ|\d+[.,]?\d* ꭿꮈꮝꭹ ꮷꮢꭿꮫ ꮵꭸꮢ|ꮎꮏ \d+[.,]?\d* ꮣꮣꮎꮹꮝꭼ ꮵꭸꮢ|\d+[.,]?\d* ꭴꮥꮨᏼꮜꮧꮢꭲ ꮵꭸꮢ|ꮎꮏ \d+[.,]?\d* ꭲꮷꮥꮨᏼꮜꮧꮢꭲ|ꮎꮏ \d+[.,]?\d* ꭿꮈꮝꭹ ꮷꮢꭿꮫ|ꮎꮏ \d+[.,]?\d* ꭲᏻꮎꮩꮣꮖꮝꮧ|ꮎꮏ \d+[.,]?\d* ꭴꮥꮨᏼꮜꮧꮢꭲ|ꮎꮏ \d+[.,]?\d* ꮧꭷꮈꭲ ꮵꭸꮢ|\d+[.,]?\d* ꮣꮣꮎꮹꮝꭼ ꮵꭸꮢ|ꮎꮏ \d+[.,]?\d* ꭲꮿꮤ ꮵꭸꮢ|ꮎꮏ \d+[.,]?\d* ꭲꮿꮤꮼꮝꮤꮕ|ꮎꮏ \d+[.,]?\d* ꭷꮈꭲ ꮵꭸꮢ|ꮎꮏ \d+[.,]?\d* ꮢꮎꮩꮣꮖꮝꮧ|\d+[.,]?\d* ꭲᏻꮯꮆꮣ ꮵꭸꮢ|ꮎꮏ \d+[.,]?\d* ꭴꮥ ꮵꭸꮢ|ꮎꮏ \d+[.,]?\d* ꭷꮈ ꮵꭸꮢ|ꮎꮏ \d+[.,]?\d* ꮡꮯ ꮵꭸꮢ|ꮎꮏ \d+[.,]?\d* ꮢꮎ ꮵꭸꮢ|\d+[.,]?\d* ꮡꮯꮆꮣ ꮵꭸꮢ|ꮎꮏ \d+[.,]?\d* ꭲᏻꮯꮆꮣ|\d+[.,]?\d* ꭰꮞꮲ ꮵꭸꮢ|ꮎꮏ \d+[.,]?\d* ꮡꮯꮆꮣ|ꮎꮏ \d+[.,]?\d* ꮧꭷꮈꭲ|\d+[.,]?\d* ꭲꭶ ꮵꭸꮢ|ꮎꮏ \d+[.,]?\d* ꭰꮞꮲ|ꮎꮏ \d+[.,]?\d* ꭲꮿꮤ|ꮎꮏ \d+[.,]?\d* ꭷꮈꭲ|ꮎꮏ \d+[.,]?\d* ꭲꭶ|ꮎꮏ \d+[.,]?\d* ꭴꮥ|ꮎꮏ \d+[.,]?\d* ꭷꮈ|ꮎꮏ \d+[.,]?\d* ꮡꮯ|ꮎꮏ \d+[.,]?\d* ꮢꮎ)(\z|[^\pL\pM\d]|_)");
    ld_rx_exact := Some (rx "(?i)^(ꮎꮏ \d+[.,]?\d* ꭲᏻꮎꮩꮣꮖꮝꮧ ꮵꭸꮢ|ꮎꮏ \d+[.,]?\d* ꭲꮿꮤꮼꮝꮤꮕ ꮵꭸꮢ|ꮎꮏ \d+[.,]?\d* ꮢꮎꮩꮣꮖꮝꮧ ꮵꭸꮢ|\d+[.,]?\d* ꭲꮷꮥꮨᏼꮜꮧꮢꭲ ꮵꭸꮢ|\d+[.,]?\d* ꭿꮈꮝꭹ ꮷꮢꭿꮫ ꮵꭸꮢ|ꮎꮏ \d+[.,]?\d* ꮣꮣꮎꮹꮝꭼ ꮵꭸꮢ|\d+[.,]?\d* ꭴꮥꮨᏼꮜꮧꮢꭲ ꮵꭸꮢ|ꮎꮏ \d+[.,]?\d* ꭲꮷꮥꮨᏼꮜꮧꮢꭲ|ꮎꮏ \d+[.,]?\d* ꭿꮈꮝꭹ ꮷꮢꭿꮫ|ꮎꮏ \d+[.,]?\d* ꭲᏻꮎꮩꮣꮖꮝꮧ|ꮎꮏ \d+[.,]?\d* ꭴꮥꮨᏼꮜꮧꮢꭲ|ꮎꮏ \d+[.,]?\d* ꮧꭷꮈꭲ ꮵꭸꮢ|\d+[.,]?\d* ꮣꮣꮎꮹꮝꭼ ꮵꭸꮢ|ꮎꮏ \d+[.,]?\d* ꭲꮿꮤ ꮵꭸꮢ|ꮎꮏ \d+[.,]?\d* ꭲꮿꮤꮼꮝꮤꮕ|ꮎꮏ \d+[.,]?\d* ꭷꮈꭲ ꮵꭸꮢ|ꮎꮏ \d+[.,]?\d* ꮢꮎꮩꮣꮖꮝꮧ|\d+[.,]?\d* ꭲᏻꮯꮆꮣ ꮵꭸꮢ|ꮎꮏ \d+[.,]?\d* ꭴꮥ ꮵꭸꮢ|ꮎꮏ \d+[.,]?\d* ꭷꮈ ꮵꭸꮢ|ꮎꮏ \d+[.,]?\d* ꮡꮯ ꮵꭸꮢ|ꮎꮏ \d+[.,]?\d* ꮢꮎ ꮵꭸꮢ|\d+[.,]?\d* ꮡꮯꮆꮣ ꮵꭸꮢ|ꮎꮏ \d+[.,]?\d* ꭲᏻꮯꮆꮣ|\d+[.,]?\d* ꭰꮞꮲ ꮵꭸꮢ|ꮎꮏ \d+[.,]?\d* ꮡꮯꮆꮣ|ꮎꮏ \d+[.,]?\d* ꮧꭷꮈꭲ|\d+[.,]?\d* ꭲꭶ ꮵꭸꮢ|ꮎꮏ \d+[.,]?\d* ꭰꮞꮲ|ꮎꮏ \d+[.,]?\d* ꭲꮿꮤ|ꮎꮏ \d+[.,]?\d* ꭷꮈꭲ|ꮎꮏ \d+[.,]?\d* ꭲꭶ|ꮎꮏ \d+[.,]?\d* ꭴꮥ|ꮎꮏ \d+[.,]?\d* ꭷꮈ|ꮎꮏ \d+[.,]?\d* ꮡꮯ|ꮎꮏ \d+[.,]?\d* ꮢꮎ)$");
    ld_known := [lit "ꭿꭰ ꭲꮿꮤꮼꮝꮤꮕ";
    lit "ꭿꭰ ꮷꮥꮨᏼꮢꮨ";
    lit "ꭴꮥꮨᏼꮜꮧꮢꭲ";
    lit "ꭲꮿꮤꮼꮝꮤꮕ";
    lit "ꭴꮎꮩꮣꮖꮝꭼ";
    lit "ꭴꮎꮩꮣꮘꮥꮎ";
    lit "ꭴꮎꮩꮣꮙꮕꭿ";
    lit "ꭷꮈꭲ ꮵꭸꮢ";
    lit "ꭿꭰ ꭰꮅꮅꮜ";
    lit "ꭿꭰ ꮡꮯꮆꮣ";
    lit "ꮢꮎꮩꮣꮖꮝꮧ";
    lit "ꮤꮅꮑ ꭷꮈꭲ";
    lit "ꮵꮫꮅᏹꮅꮢꭲ";
    lit "ꭱꮨ ꮵꭸꮢ";
    lit "ꭿꭰ ꭷꮈꭲ";
    lit "ꮢꭿᏹꭲꮧꮲ";
    lit "ꮷꮎꭹꮆꮝꮧ";
    lit "ꭰꮒꮝꭼꮨ";
    lit "ꭴꮓꮈꮤꮕ";
    lit "ꭺꭿ ꭲꭶ";
    lit "ꮕꭹꮑꭲꭶ";
    lit "ꮠꮖꮄꮕꮂ";
    lit "ꮤꮅꮑꭲꭶ";
    lit "ꮶꭲꮑꭲꭶ";
    lit "ꭱꮨᏼꭲ";
    lit "ꭵꮝꭹᏹ";
    lit "ꭻᏸꮙꮒ";
    lit "ꮕꮣꮥꮖ";
    lit "ꮜꮎꮄꭲ";
    lit "ꮡꮯꮆꮣ";
    lit "ꮥꭽꮇᏹ";
    lit "ꮪꮅꮝꮧ";
    lit "ꮪꮒꮕꮧ";
    lit "gmt";
    lit "utc";
    lit "ꭰꮕᏹ";
    lit "ꭰꮞꮲ";
    lit "ꭲꮿꮤ";
    lit "ꭶꮆꮒ";
    lit "ꭷꭶꮅ";
    lit "ꭷꮈꭲ";
    lit "ꭷꮼꮒ";
    lit "ꮕꭹꮑ";
    lit "ꮖꮝꭼ";
    lit "ꮘꮥꮎ";
    lit "ꮙꮕꭿ";
    lit "ꮜꮎꮄ";
    lit "ꮤꮅꮑ";
    lit "ꮶꭲꮑ";
    lit "ꮷꮎꭹ";
    lit "am";
    lit "pm";
    lit "ꭰꮒ";
    lit "ꭰꮕ";
    lit "ꭲꭶ";
    lit "ꭴꮓ";
    lit "ꭴꮥ";
    lit "ꭵꮝ";
    lit "ꭶꮆ";
    lit "ꭷꭶ";
    lit "ꭷꮈ";
    lit "ꭷꮼ";
    lit "ꭻᏸ";
    lit "ꮓꮚ";
    lit "ꮕꮣ";
    lit "ꮡꮯ";
    lit "ꮢꭿ";
    lit "ꮢꮎ";
    lit "ꮥꭽ";
    lit "ꮪꮅ";
    lit "ꮪꮒ";
    lit " ";
    lit "'";
    lit "+";
    lit ",";
    lit "-";
    lit ".";
    lit "/";
    lit ":";
    lit ";";
    lit "@";
    lit "[";
    lit "]";
    lit "z";
    lit "|"] |}.

(** ckb.go:11-81 *)
Definition loc_ckb : locale := Eval vm_compute in
  {| ld_name := lit "ckb"; ld_order := lit "YMD"; ld_nospacing := false; ld_splitter := 0;
    ld_charset := runes (lit "cdeghiklnorstuwxyzئابتجحدرزسشلمنويپچکھیێە");
    ld_abbr := [];
    ld_simpl := [];
    ld_trans := [(lit "کانوونی دووەم", [lit "january"]);
    (lit "تشرینی دووەم", [lit "november"]);
    (lit "تشرینی یەکەم", [lit "october"]);
    (lit "کانونی یەکەم", [lit "december"]);
    (lit "پێنجشەممە", [lit "thursday"]);
    (lit "چوارشەممە", [lit "wednesday"]);
    (lit "حوزەیران", [lit "june"]);
    (lit "دووشەممە", [lit "monday"]);
    (lit "یەکشەممە", [lit "sunday"]);
    (lit "سێشەممە", [lit "tuesday"]);
    (lit "يەیلوول", [lit "september"]);
    (lit "minute", [lit "minute"]);
    (lit "second", [lit "second"]);
    (lit "تەمووز", [lit "july"]);
    (lit "month", [lit "month"]);
    (lit "شوبات", [lit "february"]);
    (lit "شەممە", [lit "saturday"]);
    (lit "نیسان", [lit "april"]);
    (lit "يازار", [lit "march"]);
    (lit "يایار", [lit "may"]);
    (lit "ھەینی", [lit "friday"]);
    (lit "hour", [lit "hour"]);
    (lit "week", [lit "week"]);
    (lit "year", [lit "year"]);
    (lit "day", [lit "day"]);
    (lit "gmt", [lit "gmt"]);
    (lit "utc", [lit "utc"]);
    (lit "ياب", [lit "august"]);
    (lit "am", [lit "am"]);
    (lit "pm", [lit "pm"]);
    (lit "بن", [lit "am"]);
    (lit "دن", [lit "pm"]);
    (lit " ", [lit " "]);
    (lit "'", [lit ""]);
    (lit "+", [lit "+"]);
    (lit ",", [lit ""]);
    (lit "-", [lit "-"]);
    (lit ".", [lit "."]);
    (lit "/", [lit "/"]);
    (lit ":", [lit ":"]);
    (lit ";", [lit ""]);
    (lit "@", [lit ""]);
    (lit "[", [lit ""]);
    (lit "]", [lit ""]);
    (lit "z", [lit "z"]);
    (lit "|", [lit ""])];
    ld_reltype := [(lit "this minute", lit "0 minute ago");
    (lit "last month", lit "1 month ago");
    (lit "next month", lit "in 1 month");
    (lit "this month", lit "0 month ago");
    (lit "last week", lit "1 week ago");
    (lit "last year", lit "1 year ago");
    (lit "next week", lit "in 1 week");
    (lit "next year", lit "in 1 year");
    (lit "this hour", lit "0 hour ago");
    (lit "this week", lit "0 week ago");
    (lit "this year", lit "0 year ago");
    (lit "yesterday", lit "1 day ago");
    (lit "tomorrow", lit "in 1 day");
    (lit "today", lit "0 day ago");
    (lit "now", lit "0 second ago")];
    ld_relrx := [];
    ld_rx := None;
    ld_rx_exact := None;
    ld_known := [lit "کانوونی دووەم";
    lit "تشرینی دووەم";
    lit "تشرینی یەکەم";
    lit "کانونی یەکەم";
    lit "this minute";
    lit "last month";
    lit "next month";
    lit "this month";
    lit "last week";
    lit "last year";
    lit "next week";
    lit "next year";
    lit "this hour";
    lit "this week";
    lit "this year";
    lit "yesterday";
    lit "پێنجشەممە";
    lit "چوارشەممە";
    lit "tomorrow";
    lit "حوزەیران";
    lit "دووشەممە";
    lit "یەکشەممە";
    lit "سێشەممە";
    lit "يەیلوول";
    lit "minute";
    lit "second";
    lit "تەمووز";
    lit "month";
    lit "today";
    lit "شوبات";
    lit "شەممە";
    lit "نیسان";
    lit "يازار";
    lit "يایار";
    lit "ھەینی";
    lit "hour";
    lit "week";
    lit "year";
    lit "day";
    lit "gmt";
    lit "now";
    lit "utc";
    lit "ياب";
    lit "am";
    lit "pm";
    lit "بن";
    lit "دن";
    lit " ";
    lit "'";
    lit "+";
    lit ",";
    lit "-";
    lit ".";
    lit "/";
    lit ":";
    lit ";";
    lit "@";
    lit "[";
    lit "]";
    lit "z";
    lit "|"] |}.

(** ckb.go:83-86 *)
Definition own_ckb_IR : locale := Eval vm_compute in
  {| ld_name := lit "ckb-IR"; ld_order := lit "YMD"; ld_nospacing := false; ld_splitter := 0;
    ld_charset := runes (lit "");
    ld_abbr := [];
    ld_simpl := [];
    ld_trans := [];
    ld_reltype := [];
    ld_relrx := [];
    ld_rx := None;
    ld_rx_exact := None;
    ld_known := [] |}.
Definition loc_ckb_IR : locale := merge loc_ckb own_ckb_IR.

(** cs.go:12-213 *)
Definition loc_cs : locale := Eval vm_compute in
  {| ld_name := lit "cs"; ld_order := lit "DMY"; ld_nospacing := false; ld_splitter := 1;
    ld_charset := runes (lit "bcdeghijklnorstuvyzáíúýčěřšů");
    ld_abbr := [];
    ld_simpl := [(rx "(?i)(\A|[^\pL\pM\d_])ted(\z|[^\pL\pM\d_])", lit "${1}0 sekunda${2}")];
    ld_trans := [(lit "listopadu", [lit "november"]);
    (lit "priblizne", [lit ""]);
    (lit "cervence", [lit "july"]);
    (lit "cervenec", [lit "july"]);
    (lit "hodinami", [lit "hour"]);
    (lit "listopad", [lit "november"]);
    (lit "minutami", [lit "minute"]);
    (lit "prosince", [lit "december"]);
    (lit "prosinec", [lit "december"]);
    (lit "ctvrtek", [lit "thursday"]);
    (lit "hodinou", [lit "hour"]);
    (lit "mesicem", [lit "month"]);
    (lit "pondeli", [lit "monday"]);
    (lit "sekunda", [lit "second"]);
    (lit "sekundy", [lit "second"]);
    (lit "vterina", [lit "second"]);
    (lit "vteriny", [lit "second"]);
    (lit "brezen", [lit "march"]);
    (lit "brezna", [lit "march"]);
    (lit "cerven", [lit "june"]);
    (lit "cervna", [lit "june"]);
    (lit "hodina", [lit "hour"]);
    (lit "hodinu", [lit "hour"]);
    (lit "hodiny", [lit "hour"]);
    (lit "kveten", [lit "may"]);
    (lit "kvetna", [lit "may"]);
    (lit "mesice", [lit "month"]);
    (lit "mesicu", [lit "month"]);
    (lit "minuta", [lit "minute"]);
    (lit "minuty", [lit "minute"]);
    (lit "nedele", [lit "sunday"]);
    (lit "nedeli", [lit "sunday"]);
    (lit "sekund", [lit "second"]);
    (lit "sobota", [lit "saturday"]);
    (lit "sobotu", [lit "saturday"]);
    (lit "streda", [lit "wednesday"]);
    (lit "stredu", [lit "wednesday"]);
    (lit "tydnem", [lit "week"]);
    (lit "vterin", [lit "second"]);
    (lit "duben", [lit "april"]);
    (lit "dubna", [lit "april"]);
    (lit "hodin", [lit "hour"]);
    (lit "leden", [lit "january"]);
    (lit "ledna", [lit "january"]);
    (lit "mesic", [lit "month"]);
    (lit "minut", [lit "minute"]);
    (lit "patek", [lit "friday"]);
    (lit "rijen", [lit "october"]);
    (lit "rijna", [lit "october"]);
    (lit "srpen", [lit "august"]);
    (lit "srpna", [lit "august"]);
    (lit "tyden", [lit "week"]);
    (lit "tydnu", [lit "week"]);
    (lit "tydny", [lit "week"]);
    (lit "unora", [lit "february"]);
    (lit "utery", [lit "tuesday"]);
    (lit "pred", [lit "ago"]);
    (lit "roku", [lit "year"]);
    (lit "roky", [lit "year"]);
    (lit "unor", [lit "february"]);
    (lit "zari", [lit "september"]);
    (lit "bre", [lit "march"]);
    (lit "cer", [lit "june"]);
    (lit "crc", [lit "july"]);
    (lit "crv", [lit "july"]);
    (lit "ctv", [lit "thursday"]);
    (lit "cvc", [lit "july"]);
    (lit "cvn", [lit "june"]);
    (lit "den", [lit "day"]);
    (lit "dnu", [lit "day"]);
    (lit "dny", [lit "day"]);
    (lit "dop", [lit "am"]);
    (lit "dub", [lit "april"]);
    (lit "gmt", [lit "gmt"]);
    (lit "kve", [lit "may"]);
    (lit "led", [lit "january"]);
    (lit "lis", [lit "november"]);
    (lit "mes", [lit "month"]);
    (lit "min", [lit "minute"]);
    (lit "ned", [lit "sunday"]);
    (lit "odp", [lit "pm"]);
    (lit "pat", [lit "friday"]);
    (lit "pon", [lit "monday"]);
    (lit "pro", [lit "december"]);
    (lit "rij", [lit "october"]);
    (lit "rok", [lit "year"]);
    (lit "sob", [lit "saturday"]);
    (lit "srp", [lit "august"]);
    (lit "str", [lit "wednesday"]);
    (lit "tyd", [lit "week"]);
    (lit "uno", [lit "february"]);
    (lit "unr", [lit "february"]);
    (lit "utc", [lit "utc"]);
    (lit "ute", [lit "tuesday"]);
    (lit "zar", [lit "september"]);
    (lit "am", [lit "am"]);
    (lit "ct", [lit "thursday"]);
    (lit "ne", [lit "sunday"]);
    (lit "pa", [lit "friday"]);
    (lit "pm", [lit "pm"]);
    (lit "po", [lit "monday"]);
    (lit "so", [lit "saturday"]);
    (lit "st", [lit "wednesday"]);
    (lit "ut", [lit "tuesday"]);
    (lit "ve", [lit "in"]);
    (lit " ", [lit " "]);
    (lit "'", [lit ""]);
    (lit "+", [lit "+"]);
    (lit ",", [lit ""]);
    (lit "-", [lit "-"]);
    (lit ".", [lit "."]);
    (lit "/", [lit "/"]);
    (lit ":", [lit ":"]);
    (lit ";", [lit ""]);
    (lit "@", [lit ""]);
    (lit "[", [lit ""]);
    (lit "]", [lit ""]);
    (lit "h", [lit "hour"]);
    (lit "r", [lit "year"]);
    (lit "s", [lit "second"]);
    (lit "v", [lit "in"]);
    (lit "z", [lit "z"]);
    (lit "|", [lit ""])];
    ld_reltype := [(lit "minuly mesic", lit "1 month ago");
    (lit "minuly tyden", lit "1 week ago");
    (lit "pristi mesic", lit "in 1 month");
    (lit "pristi tyden", lit "in 1 week");
    (lit "predevcirem", lit "2 day ago");
    (lit "tento mesic", lit "0 month ago");
    (lit "tento tyden", lit "0 week ago");
    (lit "tuto hodinu", lit "0 hour ago");
    (lit "tuto minutu", lit "0 minute ago");
    (lit "minuly rok", lit "1 year ago");
    (lit "minuly tyd", lit "1 week ago");
    (lit "pristi rok", lit "in 1 year");
    (lit "pristi tyd", lit "in 1 week");
    (lit "tento rok", lit "0 year ago");
    (lit "tento tyd", lit "0 week ago");
    (lit "vcera", lit "1 day ago");
    (lit "zitra", lit "in 1 day");
    (lit "dnes", lit "0 day ago");
    (lit "nyni", lit "0 second ago")];
    ld_relrx := [(rx "(?i)pred (\d+[.,]?\d*) sekundami", lit "$1 second ago");
    (rx "(?i)pred (\d+[.,]?\d*) hodinami", lit "$1 hour ago");
    (rx "(?i)pred (\d+[.,]?\d*) minutami", lit "$1 minute ago");
    (rx "(?i)pred (\d+[.,]?\d*) sekundou", lit "$1 second ago");
    (rx "(?i)pred (\d+[.,]?\d*) hodinou", lit "$1 hour ago");
    (rx "(?i)pred (\d+[.,]?\d*) mesicem", lit "$1 month ago");
    (rx "(?i)pred (\d+[.,]?\d*) minutou", lit "$1 minute ago");
    (rx "(?i)pred (\d+[.,]?\d*) mesici", lit "$1 month ago");
    (rx "(?i)pred (\d+[.,]?\d*) tydnem", lit "$1 week ago");
    (rx "(?i)pred (\d+[.,]?\d*) rokem", lit "$1 year ago");
    (rx "(?i)pred (\d+[.,]?\d*) tydny", lit "$1 week ago");
    (rx "(?i)za (\d+[.,]?\d*) sekundu", lit "in $1 second");
    (rx "(?i)pred (\d+[.,]?\d*) dnem", lit "$1 day ago");
    (rx "(?i)pred (\d+[.,]?\d*) lety", lit "$1 year ago");
    (rx "(?i)za (\d+[.,]?\d*) hodinu", lit "in $1 hour");
    (rx "(?i)za (\d+[.,]?\d*) mesicu", lit "in $1 month");
    (rx "(?i)za (\d+[.,]?\d*) minutu", lit "in $1 minute");
    (rx "(?i)za (\d+[.,]?\d*) sekund", lit "in $1 second");
    (rx "(?i)pred (\d+[.,]?\d*) dny", lit "$1 day ago");
    (rx "(?i)pred (\d+[.,]?\d*) mes", lit "$1 month ago");
    (rx "(?i)pred (\d+[.,]?\d*) min", lit "$1 minute ago");
    (rx "(?i)pred (\d+[.,]?\d*) tyd", lit "$1 week ago");
    (rx "(?i)za (\d+[.,]?\d*) hodin", lit "in $1 hour");
    (rx "(?i)za (\d+[.,]?\d*) mesic", lit "in $1 month");
    (rx "(?i)za (\d+[.,]?\d*) minut", lit "in $1 minute");
    (rx "(?i)za (\d+[.,]?\d*) tyden", lit "in $1 week");
    (rx "(?i)za (\d+[.,]?\d*) tydnu", lit "in $1 week");
    (rx "(?i)pred (\d+[.,]?\d*) h", lit "$1 hour ago");
    (rx "(?i)pred (\d+[.,]?\d*) l", lit "$1 year ago");
    (rx "(?i)pred (\d+[.,]?\d*) r", lit "$1 year ago");
    (rx "(?i)pred (\d+[.,]?\d*) s", lit "$1 second ago");
    (rx "(?i)za (\d+[.,]?\d*) den", lit "in $1 day");
    (rx "(?i)za (\d+[.,]?\d*) dni", lit "in $1 day");
    (rx "(?i)za (\d+[.,]?\d*) let", lit "in $1 year");
    (rx "(?i)za (\d+[.,]?\d*) mes", lit "in $1 month");
    (rx "(?i)za (\d+[.,]?\d*) min", lit "in $1 minute");
    (rx "(?i)za (\d+[.,]?\d*) rok", lit "in $1 year");
    (rx "(?i)za (\d+[.,]?\d*) tyd", lit "in $1 week");
    (rx "(?i)za (\d+[.,]?\d*) h", lit "in $1 hour");
    (rx "(?i)za (\d+[.,]?\d*) l", lit "in $1 year");
    (rx "(?i)za (\d+[.,]?\d*) r", lit "in $1 year");
    (rx "(?i)za (\d+[.,]?\d*) s", lit "in $1 second")];
    ld_rx := Some (rx "(?i)(\A|[^\pL\pM\d]|_)(pred \d+[.,]?\d* sekundami|pred \d+[.,]?\d* hodinami|pred \d+[.,]?\d* minutami|pred \d+[.,]?\d* sekundou|pred \d+[.,]?\d* hodinou|pred \d+[.,]?\d* mesicem|pred \d+[.,]?\d* minutou|pred \d+[.,]?\d* mesici|pred \d+[.,]?\d* tydnem|pred \d+[.,]?\d* rokem|pred \d+[.,]?\d* tydny|za \d+[.,]?\d* sekundu|pred \d+[.,]?\d* dnem|pred \d+[.,]?\d* lety|za \d+[.,]?\d* hodinu|za \d+[.,]?\d* mesicu|za \d+[.,]?\d* minutu|za \d+[.,]?\d* sekund|pred \d+[.,]?\d* dny|pred \d+[.,]?\d* mes|pred \d+[.,]?\d* min|pred \d+[.,]?\d* tyd|za \d+[.,]?\d* hodin|za \d+[.,]?\d* mesic|za \d+[.,]?\d* minut|za \d+[.,]?\d* tyden|za \d+[.,]?\d* tydnu|pred \d+[.,]?\d* h|pred \d+[.,]?\d* l|pred \d+[.,]?\d* r|pred \d+[.,]?\d* s|za \d+[.,]?\d* den|za \d+[.,]?\d* dni|za \d+[.,]?\d* let|za \d+[.,]?\d* mes|za \d+[.,]?\d* min|za \d+[.,]?\d* rok|za \d+[.,]?\d* tyd|za \d+[.,]?\d* h|za \d+[.,]?\d* l|za \d+[.,]?\d* r|za \d+[.,]?\d* s)(\z|[^\pL\pM\d]|_)");
    ld_rx_exact := Some (rx "(?i)^(pred \d+[.,]?\d* sekundami|pred \d+[.,]?\d* hodinami|pred \d+[.,]?\d* minutami|pred \d+[.,]?\d* sekundou|pred \d+[.,]?\d* hodinou|pred \d+[.,]?\d* mesicem|pred \d+[.,]?\d* minutou|pred \d+[.,]?\d* mesici|pred \d+[.,]?\d* tydnem|pred \d+[.,]?\d* rokem|pred \d+[.,]?\d* tydny|za \d+[.,]?\d* sekundu|pred \d+[.,]?\d* dnem|pred \d+[.,]?\d* lety|za \d+[.,]?\d* hodinu|za \d+[.,]?\d* mesicu|za \d+[.,]?\d* minutu|za \d+[.,]?\d* sekund|pred \d+[.,]?\d* dny|pred \d+[.,]?\d* mes|pred \d+[.,]?\d* min|pred \d+[.,]?\d* tyd|za \d+[.,]?\d* hodin|za \d+[.,]?\d* mesic|za \d+[.,]?\d* minut|za \d+[.,]?\d* tyden|za \d+[.,]?\d* tydnu|pred \d+[.,]?\d* h|pred \d+[.,]?\d* l|pred \d+[.,]?\d* r|pred \d+[.,]?\d* s|za \d+[.,]?\d* den|za \d+[.,]?\d* dni|za \d+[.,]?\d* let|za \d+[.,]?\d* mes|za \d+[.,]?\d* min|za \d+[.,]?\d* rok|za \d+[.,]?\d* tyd|za \d+[.,]?\d* h|za \d+[.,]?\d* l|za \d+[.,]?\d* r|za \d+[.,]?\d* s)$");
    ld_known := [lit "minuly mesic";
    lit "minuly tyden";
    lit "pristi mesic";
    lit "pristi tyden";
    lit "predevcirem";
    lit "tento mesic";
    lit "tento tyden";
    lit "tuto hodinu";
    lit "tuto minutu";
    lit "minuly rok";
    lit "minuly tyd";
    lit "pristi rok";
    lit "pristi tyd";
    lit "listopadu";
    lit "priblizne";
    lit "tento rok";
    lit "tento tyd";
    lit "cervence";
    lit "cervenec";
    lit "hodinami";
    lit "listopad";
    lit "minutami";
    lit "prosince";
    lit "prosinec";
    lit "ctvrtek";
    lit "hodinou";
    lit "mesicem";
    lit "pondeli";
    lit "sekunda";
    lit "sekundy";
    lit "vterina";
    lit "vteriny";
    lit "brezen";
    lit "brezna";
    lit "cerven";
    lit "cervna";
    lit "hodina";
    lit "hodinu";
    lit "hodiny";
    lit "kveten";
    lit "kvetna";
    lit "mesice";
    lit "mesicu";
    lit "minuta";
    lit "minuty";
    lit "nedele";
    lit "nedeli";
    lit "sekund";
    lit "sobota";
    lit "sobotu";
    lit "streda";
    lit "stredu";
    lit "tydnem";
    lit "vterin";
    lit "duben";
    lit "dubna";
    lit "hodin";
    lit "leden";
    lit "ledna";
    lit "mesic";
    lit "minut";
    lit "patek";
    lit "rijen";
    lit "rijna";
    lit "srpen";
    lit "srpna";
    lit "tyden";
    lit "tydnu";
    lit "tydny";
    lit "unora";
    lit "utery";
    lit "vcera";
    lit "zitra";
    lit "dnes";
    lit "nyni";
    lit "pred";
    lit "roku";
    lit "roky";
    lit "unor";
    lit "zari";
    lit "bre";
    lit "cer";
    lit "crc";
    lit "crv";
    lit "ctv";
    lit "cvc";
    lit "cvn";
    lit "den";
    lit "dnu";
    lit "dny";
    lit "dop";
    lit "dub";
    lit "gmt";
    lit "kve";
    lit "led";
    lit "lis";
    lit "mes";
    lit "min";
    lit "ned";
    lit "odp";
    lit "pat";
    lit "pon";
    lit "pro";
    lit "rij";
    lit "rok";
    lit "sob";
    lit "srp";
    lit "str";
    lit "tyd";
    lit "uno";
    lit "unr";
    lit "utc";
    lit "ute";
    lit "zar";
    lit "am";
    lit "ct";
    lit "ne";
    lit "pa";
    lit "pm";
    lit "po";
    lit "so";
    lit "st";
    lit "ut";
    lit "ve";
    lit " ";
    lit "'";
    lit "+";
    lit ",";
    lit "-";
    lit ".";
    lit "/";
    lit ":";
    lit ";";
    lit "@";
    lit "[";
    lit "]";
    lit "h";
    lit "r";
    lit "s";
    lit "v";
    lit "z";
    lit "|"] |}.

(** cy.go:12-122 *)
Definition loc_cy : locale := Eval vm_compute in
  {| ld_name := lit "cy"; ld_order := lit "DMY"; ld_nospacing := false; ld_splitter := 0;
    ld_charset := runes (lit "bcdefghilnorstuwyz");
    ld_abbr := [];
    ld_simpl := [];
    ld_trans := [(lit "dydd mercher", [lit "wednesday"]);
    (lit "dydd gwener", [lit "friday"]);
    (lit "dydd mawrth", [lit "tuesday"]);
    (lit "dydd sadwrn", [lit "saturday"]);
    (lit "gorffennaf", [lit "july"]);
    (lit "dydd llun", [lit "monday"]);
    (lit "blwyddyn", [lit "year"]);
    (lit "chwefror", [lit "february"]);
    (lit "dydd iau", [lit "thursday"]);
    (lit "dydd sul", [lit "sunday"]);
    (lit "tachwedd", [lit "november"]);
    (lit "mehefin", [lit "june"]);
    (lit "rhagfyr", [lit "december"]);
    (lit "wythnos", [lit "week"]);
    (lit "ebrill", [lit "april"]);
    (lit "eiliad", [lit "second"]);
    (lit "hydref", [lit "october"]);
    (lit "ionawr", [lit "january"]);
    (lit "mawrth", [lit "march"]);
    (lit "chwef", [lit "february"]);
    (lit "gorff", [lit "july"]);
    (lit "munud", [lit "minute"]);
    (lit "awst", [lit "august"]);
    (lit "dydd", [lit "day"]);
    (lit "gwen", [lit "friday"]);
    (lit "llun", [lit "monday"]);
    (lit "medi", [lit "september"]);
    (lit "rhag", [lit "december"]);
    (lit "tach", [lit "november"]);
    (lit "awr", [lit "hour"]);
    (lit "chw", [lit "february"]);
    (lit "ebr", [lit "april"]);
    (lit "gmt", [lit "gmt"]);
    (lit "gor", [lit "july"]);
    (lit "gwe", [lit "friday"]);
    (lit "hyd", [lit "october"]);
    (lit "iau", [lit "thursday"]);
    (lit "ion", [lit "january"]);
    (lit "mai", [lit "may"]);
    (lit "maw", [lit "march"; lit "tuesday"]);
    (lit "meh", [lit "june"]);
    (lit "mer", [lit "wednesday"]);
    (lit "mis", [lit "month"]);
    (lit "mun", [lit "minute"]);
    (lit "sad", [lit "saturday"]);
    (lit "sul", [lit "sunday"]);
    (lit "utc", [lit "utc"]);
    (lit "am", [lit "am"]);
    (lit "bl", [lit "year"]);
    (lit "pm", [lit "pm"]);
    (lit "yb", [lit "am"]);
    (lit "yh", [lit "pm"]);
    (lit " ", [lit " "]);
    (lit "'", [lit ""]);
    (lit "+", [lit "+"]);
    (lit ",", [lit ""]);
    (lit "-", [lit "-"]);
    (lit ".", [lit "."]);
    (lit "/", [lit "/"]);
    (lit ":", [lit ":"]);
    (lit ";", [lit ""]);
    (lit "@", [lit ""]);
    (lit "[", [lit ""]);
    (lit "]", [lit ""]);
    (lit "z", [lit "z"]);
    (lit "|", [lit ""])];
    ld_reltype := [(lit "wythnos ddiwethaf", lit "1 week ago");
    (lit "blwyddyn nesaf", lit "in 1 year");
    (lit "yr wythnos hon", lit "0 week ago");
    (lit "wythnos nesaf", lit "in 1 week");
    (lit "mis diwethaf", lit "1 month ago");
    (lit "y funud hon", lit "0 minute ago");
    (lit "yr awr hon", lit "0 hour ago");
    (lit "mis nesaf", lit "in 1 month");
    (lit "y mis hwn", lit "0 month ago");
    (lit "llynedd", lit "1 year ago");
    (lit "heddiw", lit "0 day ago");
    (lit "eleni", lit "0 year ago");
    (lit "yfory", lit "in 1 day");
    (lit "ddoe", lit "1 day ago");
    (lit "nawr", lit "0 second ago")];
    ld_relrx := [(rx "(?i)(\d+[.,]?\d*) o flynyddoedd yn ol", lit "$1 year ago");
    (rx "(?i)(\d+[.,]?\d*) diwrnod yn ol", lit "$1 day ago");
    (rx "(?i)(\d+[.,]?\d*) wythnos yn ol", lit "$1 week ago");
    (rx "(?i)ymhen (\d+[.,]?\d*) diwrnod", lit "in $1 day");
    (rx "(?i)ymhen (\d+[.,]?\d*) mlynedd", lit "in $1 year");
    (rx "(?i)ymhen (\d+[.,]?\d*) wythnos", lit "in $1 week");
    (rx "(?i)(\d+[.,]?\d*) eiliad yn ol", lit "$1 second ago");
    (rx "(?i)ymhen (\d+[.,]?\d*) eiliad", lit "in $1 second");
    (rx "(?i)(\d+[.,]?\d*) munud yn ol", lit "$1 minute ago");
    (rx "(?i)ymhen (\d+[.,]?\d*) munud", lit "in $1 minute");
    (rx "(?i)(\d+[.,]?\d*) awr yn ol", lit "$1 hour ago");
    (rx "(?i)(\d+[.,]?\d*) mis yn ol", lit "$1 month ago");
    (rx "(?i)(\d+[.,]?\d*) mun yn ol", lit "$1 minute ago");
    (rx "(?i)ymhen (\d+[.,]?\d*) awr", lit "in $1 hour");
    (rx "(?i)ymhen (\d+[.,]?\d*) mis", lit "in $1 month");
    (rx "(?i)ymhen (\d+[.,]?\d*) mun", lit "in $1 minute")];
    ld_rx := Some (rx "(?i)(\A|[^\pL\pM\d]|_)(\d+[.,]?\d* o flynyddoedd yn ol|\d+[.,]?\d* diwrnod yn ol|\d+[.,]?\d* wythnos yn ol|ymhen \d+[.,]?\d* diwrnod|ymhen \d+[.,]?\d* mlynedd|ymhen \d+[.,]?\d* wythnos|\d+[.,]?\d* eiliad yn ol|ymhen \d+[.,]?\d* eiliad|\d+[.,]?\d* munud yn ol|ymhen \d+[.,]?\d* munud|\d+[.,]?\d* awr yn ol|\d+[.,]?\d* mis yn ol|\d+[.,]?\d* mun yn ol|ymhen \d+[.,]?\d* awr|ymhen \d+[.,]?\d* mis|ymhen \d+[.,]?\d* mun)(\z|[^\pL\pM\d]|_)");
    ld_rx_exact := Some (rx "(?i)^(\d+[.,]?\d* o flynyddoedd yn ol|\d+[.,]?\d* diwrnod yn ol|\d+[.,]?\d* wythnos yn ol|ymhen \d+[.,]?\d* diwrnod|ymhen \d+[.,]?\d* mlynedd|ymhen \d+[.,]?\d* wythnos|\d+[.,]?\d* eiliad yn ol|ymhen \d+[.,]?\d* eiliad|\d+[.,]?\d* munud yn ol|ymhen \d+[.,]?\d* munud|\d+[.,]?\d* awr yn ol|\d+[.,]?\d* mis yn ol|\d+[.,]?\d* mun yn ol|ymhen \d+[.,]?\d* awr|ymhen \d+[.,]?\d* mis|ymhen \d+[.,]?\d* mun)$");
    ld_known := [lit "wythnos ddiwethaf";
    lit "blwyddyn nesaf";
    lit "yr wythnos hon";
    lit "wythnos nesaf";
    lit "dydd mercher";
    lit "mis diwethaf";
    lit "dydd gwener";
    lit "dydd mawrth";
    lit "dydd sadwrn";
    lit "y funud hon";
    lit "gorffennaf";
    lit "yr awr hon";
    lit "dydd llun";
    lit "mis nesaf";
    lit "y mis hwn";
    lit "blwyddyn";
    lit "chwefror";
    lit "dydd iau";
    lit "dydd sul";
    lit "tachwedd";
    lit "llynedd";
    lit "mehefin";
    lit "rhagfyr";
    lit "wythnos";
    lit "ebrill";
    lit "eiliad";
    lit "heddiw";
    lit "hydref";
    lit "ionawr";
    lit "mawrth";
    lit "chwef";
    lit "eleni";
    lit "gorff";
    lit "munud";
    lit "yfory";
    lit "awst";
    lit "ddoe";
    lit "dydd";
    lit "gwen";
    lit "llun";
    lit "medi";
    lit "nawr";
    lit "rhag";
    lit "tach";
    lit "awr";
    lit "chw";
    lit "ebr";
    lit "gmt";
    lit "gor";
    lit "gwe";
    lit "hyd";
    lit "iau";
    lit "ion";
    lit "mai";
    lit "maw";
    lit "meh";
    lit "mer";
    lit "mis";
    lit "mun";
    lit "sad";
    lit "sul";
    lit "utc";
    lit "am";
    lit "bl";
    lit "pm";
    lit "yb";
    lit "yh";
    lit " ";
    lit "'";
    lit "+";
    lit ",";
    lit "-";
    lit ".";
    lit "/";
    lit ":";
    lit ";";
    lit "@";
    lit "[";
    lit "]";
    lit "z";
    lit "|"] |}.

(** da.go:13-176 *)
Definition loc_da : locale := Eval vm_compute in
  {| ld_name := lit "da"; ld_order := lit "DMY"; ld_nospacing := false; ld_splitter := 1;
    ld_charset := runes (lit "bcdefgijklnorstuvzåæø");
    ld_abbr := [lit "d"; lit "kl"];
    ld_simpl := [(rx "(?i)(\A|[^\pL\pM\d_])en(\z|[^\pL\pM\d_])", lit "${1}1${2}");
    (rx "(?i)(\A|[^\pL\pM\d_])et(\z|[^\pL\pM\d_])", lit "${1}1${2}");
    (rx "(?i)(\A|[^\pL\pM\d_])(\d+[.,]?\d*)\s*hr(s?)(\z|[^\pL\pM\d_])", lit "${1}${2} time${3}${4}");
    (rx "(?i)(\A|[^\pL\pM\d_])(\d+[.,]?\d*)\s*min(s?)(\z|[^\pL\pM\d_])", lit "${1}${2} minut${3}${4}");
    (rx "(?i)(\A|[^\pL\pM\d_])(\d+[.,]?\d*)\s*sec(s?)(\z|[^\pL\pM\d_])", lit "${1}${2} sekund${3}${4}");
    (rx "(?i)(\A|[^\pL\pM\d_])middag(\z|[^\pL\pM\d_])", lit "${1}12:00${2}");
    (rx "(?i)(\A|[^\pL\pM\d_])midnat(\z|[^\pL\pM\d_])", lit "${1}00:00${2}");
    (rx "(?i)(\A|[^\pL\pM\d_])(\d+[.,]?\d*)h(\d+[.,]?\d*)m?(\z|[^\pL\pM\d_])", lit "${1}${2}:${3}${4}");
    (rx "(?i)(\A|[^\pL\pM\d_])mindre end 1 minut siden(\z|[^\pL\pM\d_])", lit "${1}45 seconds${2}")];
    ld_trans := [(lit "september", [lit "september"]);
    (lit "december", [lit "december"]);
    (lit "minutter", [lit "minute"]);
    (lit "november", [lit "november"]);
    (lit "sekunder", [lit "second"]);
    (lit "februar", [lit "february"]);
    (lit "maneder", [lit "month"]);
    (lit "oktober", [lit "october"]);
    (lit "tirsdag", [lit "tuesday"]);
    (lit "torsdag", [lit "thursday"]);
    (lit "august", [lit "august"]);
    (lit "fredag", [lit "friday"]);
    (lit "januar", [lit "january"]);
    (lit "lørdag", [lit "saturday"]);
    (lit "mandag", [lit "monday"]);
    (lit "onsdag", [lit "wednesday"]);
    (lit "sekund", [lit "second"]);
    (lit "søndag", [lit "sunday"]);
    (lit "april", [lit "april"]);
    (lit "cirka", [lit ""]);
    (lit "maned", [lit "month"]);
    (lit "marts", [lit "march"]);
    (lit "minut", [lit "minute"]);
    (lit "siden", [lit "ago"]);
    (lit "timer", [lit "hour"]);
    (lit "dage", [lit "day"]);
    (lit "juli", [lit "july"]);
    (lit "juni", [lit "june"]);
    (lit "time", [lit "hour"]);
    (lit "uger", [lit "week"]);
    (lit "apr", [lit "april"]);
    (lit "aug", [lit "august"]);
    (lit "dag", [lit "day"]);
    (lit "dec", [lit "december"]);
    (lit "feb", [lit "february"]);
    (lit "fre", [lit "friday"]);
    (lit "gmt", [lit "gmt"]);
    (lit "jan", [lit "january"]);
    (lit "jul", [lit "july"]);
    (lit "jun", [lit "june"]);
    (lit "kl.", [lit ""]);
    (lit "lør", [lit "saturday"]);
    (lit "maj", [lit "may"]);
    (lit "man", [lit "monday"]);
    (lit "mar", [lit "march"]);
    (lit "min", [lit "minute"]);
    (lit "nov", [lit "november"]);
    (lit "okt", [lit "october"]);
    (lit "ons", [lit "wednesday"]);
    (lit "sek", [lit "second"]);
    (lit "sep", [lit "september"]);
    (lit "søn", [lit "sunday"]);
    (lit "tir", [lit "tuesday"]);
    (lit "tor", [lit "thursday"]);
    (lit "uge", [lit "week"]);
    (lit "utc", [lit "utc"]);
    (lit "am", [lit "am"]);
    (lit "ar", [lit "year"]);
    (lit "d.", [lit ""]);
    (lit "kl", [lit ""]);
    (lit "md", [lit "month"]);
    (lit "pm", [lit "pm"]);
    (lit " ", [lit " "]);
    (lit "'", [lit ""]);
    (lit "+", [lit "+"]);
    (lit ",", [lit ""]);
    (lit "-", [lit "-"]);
    (lit ".", [lit "."]);
    (lit "/", [lit "/"]);
    (lit ":", [lit ":"]);
    (lit ";", [lit ""]);
    (lit "@", [lit ""]);
    (lit "[", [lit ""]);
    (lit "]", [lit ""]);
    (lit "i", [lit "in"]);
    (lit "s", [lit "second"]);
    (lit "t", [lit "hour"]);
    (lit "z", [lit "z"]);
    (lit "|", [lit ""])];
    ld_reltype := [(lit "i det kommende minut", lit "0 minute ago");
    (lit "i den kommende time", lit "0 hour ago");
    (lit "sidste maned", lit "1 month ago");
    (lit "denne maned", lit "0 month ago");
    (lit "næste maned", lit "in 1 month");
    (lit "sidste uge", lit "1 week ago");
    (lit "denne uge", lit "0 week ago");
    (lit "næste uge", lit "in 1 week");
    (lit "sidste ar", lit "1 year ago");
    (lit "sidste md", lit "1 month ago");
    (lit "denne md", lit "0 month ago");
    (lit "i morgen", lit "in 1 day");
    (lit "næste ar", lit "in 1 year");
    (lit "næste md", lit "in 1 month");
    (lit "i dag", lit "0 day ago");
    (lit "i gar", lit "1 day ago");
    (lit "i ar", lit "0 year ago");
    (lit "nu", lit "0 second ago")];
    ld_relrx := [(rx "(?i)for (\d+[.,]?\d*) minutter siden", lit "$1 minute ago");
    (rx "(?i)for (\d+[.,]?\d*) sekunder siden", lit "$1 second ago");
    (rx "(?i)for (\d+[.,]?\d*) maneder siden", lit "$1 month ago");
    (rx "(?i)for (\d+[.,]?\d*) sekund siden", lit "$1 second ago");
    (rx "(?i)for (\d+[.,]?\d*) maned siden", lit "$1 month ago");
    (rx "(?i)for (\d+[.,]?\d*) minut siden", lit "$1 minute ago");
    (rx "(?i)for (\d+[.,]?\d*) timer siden", lit "$1 hour ago");
    (rx "(?i)for (\d+[.,]?\d*) dage siden", lit "$1 day ago");
    (rx "(?i)for (\d+[.,]?\d*) time siden", lit "$1 hour ago");
    (rx "(?i)for (\d+[.,]?\d*) uger siden", lit "$1 week ago");
    (rx "(?i)for (\d+[.,]?\d*) dag siden", lit "$1 day ago");
    (rx "(?i)for (\d+[.,]?\d*) mdr siden", lit "$1 month ago");
    (rx "(?i)for (\d+[.,]?\d*) min siden", lit "$1 minute ago");
    (rx "(?i)for (\d+[.,]?\d*) sek siden", lit "$1 second ago");
    (rx "(?i)for (\d+[.,]?\d*) uge siden", lit "$1 week ago");
    (rx "(?i)for (\d+[.,]?\d*) ar siden", lit "$1 year ago");
    (rx "(?i)for (\d+[.,]?\d*) md siden", lit "$1 month ago");
    (rx "(?i)for (\d+[.,]?\d*) minutter", lit "${1} minute ago");
    (rx "(?i)for (\d+[.,]?\d*) sekunder", lit "${1} second ago");
    (rx "(?i)om (\d+[.,]?\d*) minutter", lit "in $1 minute");
    (rx "(?i)om (\d+[.,]?\d*) sekunder", lit "in $1 second");
    (rx "(?i)om (\d+[.,]?\d*) maneder", lit "in $1 month");
    (rx "(?i)for (\d+[.,]?\d*) timer", lit "${1} hour ago");
    (rx "(?i)om (\d+[.,]?\d*) sekund", lit "in $1 second");
    (rx "(?i)om (\d+[.,]?\d*) maned", lit "in $1 month");
    (rx "(?i)om (\d+[.,]?\d*) minut", lit "in $1 minute");
    (rx "(?i)om (\d+[.,]?\d*) timer", lit "in $1 hour");
    (rx "(?i)for (\d+[.,]?\d*)\s*h", lit "${1} hour ago");
    (rx "(?i)for (\d+[.,]?\d*)\s*m", lit "${1} minute ago");
    (rx "(?i)for (\d+[.,]?\d*)\s*s", lit "${1} second ago");
    (rx "(?i)om (\d+[.,]?\d*) dage", lit "in $1 day");
    (rx "(?i)om (\d+[.,]?\d*) time", lit "in $1 hour");
    (rx "(?i)om (\d+[.,]?\d*) uger", lit "in $1 week");
    (rx "(?i)om (\d+[.,]?\d*) dag", lit "in $1 day");
    (rx "(?i)om (\d+[.,]?\d*) mdr", lit "in $1 month");
    (rx "(?i)om (\d+[.,]?\d*) min", lit "in $1 minute");
    (rx "(?i)om (\d+[.,]?\d*) sek", lit "in $1 second");
    (rx "(?i)om (\d+[.,]?\d*) uge", lit "in $1 week");
    (rx "(?i)om (\d+[.,]?\d*) ar", lit "in $1 year");
    (rx "(?i)om (\d+[.,]?\d*) md", lit "in $1 month")];
    ld_rx := Some (rx "(?i)(\A|[^\pL\pM\d]|_)(for \d+[.,]?\d* minutter siden|for \d+[.,]?\d* sekunder siden|for \d+[.,]?\d* maneder siden|for \d+[.,]?\d* sekund siden|for \d+[.,]?\d* maned siden|for \d+[.,]?\d* minut siden|for \d+[.,]?\d* timer siden|for \d+[.,]?\d* dage siden|for \d+[.,]?\d* time siden|for \d+[.,]?\d* uger siden|for \d+[.,]?\d* dag siden|for \d+[.,]?\d* mdr siden|for \d+[.,]?\d* min siden|for \d+[.,]?\d* sek siden|for \d+[.,]?\d* uge siden|for \d+[.,]?\d* ar siden|for \d+[.,]?\d* md siden|for \d+[.,]?\d* minutter|for \d+[.,]?\d* sekunder|om \d+[.,]?\d* minutter|om \d+[.,]?\d* sekunder|om \d+[.,]?\d* maneder|for \d+[.,]?\d* timer|om \d+[.,]?\d* sekund|om \d+[.,]?\d* maned|om \d+[.,]?\d* minut|om \d+[.,]?\d* timer|for \d+[.,]?\d*\s*h|for \d+[.,]?\d*\s*m|for \d+[.,]?\d*\s*s|om \d+[.,]?\d* dage|om \d+[.,]?\d* time|om \d+[.,]?\d* uger|om \d+[.,]?\d* dag|om \d+[.,]?\d* mdr|om \d+[.,]?\d* min|om \d+[.,]?\d* sek|om \d+[.,]?\d* uge|om \d+[.,]?\d* ar|om \d+[.,]?\d* md)(\z|[^\pL\pM\d]|_)");
    ld_rx_exact := Some (rx "(?i)^(for \d+[.,]?\d* minutter siden|for \d+[.,]?\d* sekunder siden|for \d+[.,]?\d* maneder siden|for \d+[.,]?\d* sekund siden|for \d+[.,]?\d* maned siden|for \d+[.,]?\d* minut siden|for \d+[.,]?\d* timer siden|for \d+[.,]?\d* dage siden|for \d+[.,]?\d* time siden|for \d+[.,]?\d* uger siden|for \d+[.,]?\d* dag siden|for \d+[.,]?\d* mdr siden|for \d+[.,]?\d* min siden|for \d+[.,]?\d* sek siden|for \d+[.,]?\d* uge siden|for \d+[.,]?\d* ar siden|for \d+[.,]?\d* md siden|for \d+[.,]?\d* minutter|for \d+[.,]?\d* sekunder|om \d+[.,]?\d* minutter|om \d+[.,]?\d* sekunder|om \d+[.,]?\d* maneder|for \d+[.,]?\d* timer|om \d+[.,]?\d* sekund|om \d+[.,]?\d* maned|om \d+[.,]?\d* minut|om \d+[.,]?\d* timer|for \d+[.,]?\d*\s*h|for \d+[.,]?\d*\s*m|for \d+[.,]?\d*\s*s|om \d+[.,]?\d* dage|om \d+[.,]?\d* time|om \d+[.,]?\d* uger|om \d+[.,]?\d* dag|om \d+[.,]?\d* mdr|om \d+[.,]?\d* min|om \d+[.,]?\d* sek|om \d+[.,]?\d* uge|om \d+[.,]?\d* ar|om \d+[.,]?\d* md)$");
    ld_known := [lit "i det kommende minut";
    lit "i den kommende time";
    lit "sidste maned";
    lit "denne maned";
    lit "næste maned";
    lit "sidste uge";
    lit "denne uge";
    lit "næste uge";
    lit "september";
    lit "sidste ar";
    lit "sidste md";
    lit "december";
    lit "denne md";
    lit "i morgen";
    lit "minutter";
    lit "november";
    lit "næste ar";
    lit "næste md";
    lit "sekunder";
    lit "februar";
    lit "maneder";
    lit "oktober";
    lit "tirsdag";
    lit "torsdag";
    lit "august";
    lit "fredag";
    lit "januar";
    lit "lørdag";
    lit "mandag";
    lit "onsdag";
    lit "sekund";
    lit "søndag";
    lit "april";
    lit "cirka";
    lit "i dag";
    lit "i gar";
    lit "maned";
    lit "marts";
    lit "minut";
    lit "siden";
    lit "timer";
    lit "dage";
    lit "i ar";
    lit "juli";
    lit "juni";
    lit "time";
    lit "uger";
    lit "apr";
    lit "aug";
    lit "dag";
    lit "dec";
    lit "feb";
    lit "fre";
    lit "gmt";
    lit "jan";
    lit "jul";
    lit "jun";
    lit "kl.";
    lit "lør";
    lit "maj";
    lit "man";
    lit "mar";
    lit "min";
    lit "nov";
    lit "okt";
    lit "ons";
    lit "sek";
    lit "sep";
    lit "søn";
    lit "tir";
    lit "tor";
    lit "uge";
    lit "utc";
    lit "am";
    lit "ar";
    lit "d.";
    lit "kl";
    lit "md";
    lit "nu";
    lit "pm";
    lit " ";
    lit "'";
    lit "+";
    lit ",";
    lit "-";
    lit ".";
    lit "/";
    lit ":";
    lit ";";
    lit "@";
    lit "[";
    lit "]";
    lit "i";
    lit "s";
    lit "t";
    lit "z";
    lit "|"] |}.

(** da.go:178-181 *)
Definition own_da_GL : locale := Eval vm_compute in
  {| ld_name := lit "da-GL"; ld_order := lit "DMY"; ld_nospacing := false; ld_splitter := 0;
    ld_charset := runes (lit "");
    ld_abbr := [];
    ld_simpl := [];
    ld_trans := [];
    ld_reltype := [];
    ld_relrx := [];
    ld_rx := None;
    ld_rx_exact := None;
    ld_known := [] |}.
Definition loc_da_GL : locale := merge loc_da own_da_GL.

(** dav.go:10-95 *)
Definition loc_dav : locale := Eval vm_compute in
  {| ld_name := lit "dav"; ld_order := lit "DMY"; ld_nospacing := false; ld_splitter := 0;
    ld_charset := runes (lit "bcdefghijklnorstuwxyz");
    ld_abbr := [];
    ld_simpl := [];
    ld_trans := [(lit "mori ghwa ikumi na imweri", [lit "november"]);
    (lit "mori ghwa ikumi na iwi", [lit "december"]);
    (lit "mori ghwa karandadu", [lit "june"]);
    (lit "mori ghwa mfungade", [lit "july"]);
    (lit "mori ghwa wunyanya", [lit "august"]);
    (lit "kuramuka jimweri", [lit "monday"]);
    (lit "mori ghwa ikenda", [lit "september"]);
    (lit "mori ghwa imbiri", [lit "january"]);
    (lit "mori ghwa kadadu", [lit "march"]);
    (lit "mori ghwa kasanu", [lit "may"]);
    (lit "kuramuka kadadu", [lit "wednesday"]);
    (lit "kuramuka kasanu", [lit "friday"]);
    (lit "mori ghwa ikumi", [lit "october"]);
    (lit "ituku ja jumwa", [lit "sunday"]);
    (lit "mori ghwa kana", [lit "april"]);
    (lit "mori ghwa kawi", [lit "february"]);
    (lit "kuramuka kana", [lit "thursday"]);
    (lit "kuramuka kawi", [lit "tuesday"]);
    (lit "kifula nguwo", [lit "saturday"]);
    (lit "luma lwa k", [lit "am"]);
    (lit "luma lwa p", [lit "pm"]);
    (lit "sekunde", [lit "second"]);
    (lit "dakika", [lit "minute"]);
    (lit "ituku", [lit "day"]);
    (lit "mwaka", [lit "year"]);
    (lit "juma", [lit "week"]);
    (lit "mori", [lit "month"]);
    (lit "gmt", [lit "gmt"]);
    (lit "ike", [lit "september"]);
    (lit "iku", [lit "october"]);
    (lit "imb", [lit "january"]);
    (lit "imw", [lit "november"]);
    (lit "iwi", [lit "december"]);
    (lit "jim", [lit "monday"]);
    (lit "jum", [lit "sunday"]);
    (lit "kad", [lit "march"; lit "wednesday"]);
    (lit "kan", [lit "april"; lit "thursday"]);
    (lit "kar", [lit "june"]);
    (lit "kas", [lit "may"; lit "friday"]);
    (lit "kaw", [lit "tuesday"; lit "february"]);
    (lit "mfu", [lit "july"]);
    (lit "ngu", [lit "saturday"]);
    (lit "saa", [lit "hour"]);
    (lit "utc", [lit "utc"]);
    (lit "wun", [lit "august"]);
    (lit "am", [lit "am"]);
    (lit "pm", [lit "pm"]);
    (lit " ", [lit " "]);
    (lit "'", [lit ""]);
    (lit "+", [lit "+"]);
    (lit ",", [lit ""]);
    (lit "-", [lit "-"]);
    (lit ".", [lit "."]);
    (lit "/", [lit "/"]);
    (lit ":", [lit ":"]);
    (lit ";", [lit ""]);
    (lit "@", [lit ""]);
    (lit "[", [lit ""]);
    (lit "]", [lit ""]);
    (lit "z", [lit "z"]);
    (lit "|", [lit ""])];
    ld_reltype := [(lit "this minute", lit "0 minute ago");
    (lit "last month", lit "1 month ago");
    (lit "next month", lit "in 1 month");
    (lit "this month", lit "0 month ago");
    (lit "last week", lit "1 week ago");
    (lit "last year", lit "1 year ago");
    (lit "next week", lit "in 1 week");
    (lit "next year", lit "in 1 year");
    (lit "this hour", lit "0 hour ago");
    (lit "this week", lit "0 week ago");
    (lit "this year", lit "0 year ago");
    (lit "idime", lit "0 day ago");
    (lit "kesho", lit "in 1 day");
    (lit "iguo", lit "1 day ago");
    (lit "now", lit "0 second ago")];
    ld_relrx := [];
    ld_rx := None;
    ld_rx_exact := None;
    ld_known := [lit "mori ghwa ikumi na imweri";
    lit "mori ghwa ikumi na iwi";
    lit "mori ghwa karandadu";
    lit "mori ghwa mfungade";
    lit "mori ghwa wunyanya";
    lit "kuramuka jimweri";
    lit "mori ghwa ikenda";
    lit "mori ghwa imbiri";
    lit "mori ghwa kadadu";
    lit "mori ghwa kasanu";
    lit "kuramuka kadadu";
    lit "kuramuka kasanu";
    lit "mori ghwa ikumi";
    lit "ituku ja jumwa";
    lit "mori ghwa kana";
    lit "mori ghwa kawi";
    lit "kuramuka kana";
    lit "kuramuka kawi";
    lit "kifula nguwo";
    lit "this minute";
    lit "last month";
    lit "luma lwa k";
    lit "luma lwa p";
    lit "next month";
    lit "this month";
    lit "last week";
    lit "last year";
    lit "next week";
    lit "next year";
    lit "this hour";
    lit "this week";
    lit "this year";
    lit "sekunde";
    lit "dakika";
    lit "idime";
    lit "ituku";
    lit "kesho";
    lit "mwaka";
    lit "iguo";
    lit "juma";
    lit "mori";
    lit "gmt";
    lit "ike";
    lit "iku";
    lit "imb";
    lit "imw";
    lit "iwi";
    lit "jim";
    lit "jum";
    lit "kad";
    lit "kan";
    lit "kar";
    lit "kas";
    lit "kaw";
    lit "mfu";
    lit "ngu";
    lit "now";
    lit "saa";
    lit "utc";
    lit "wun";
    lit "am";
    lit "pm";
    lit " ";
    lit "'";
    lit "+";
    lit ",";
    lit "-";
    lit ".";
    lit "/";
    lit ":";
    lit ";";
    lit "@";
    lit "[";
    lit "]";
    lit "z";
    lit "|"] |}.

(** all patterns above are accepted by the syntax parser *)
Example patterns_ok : forallb (fun s => match parse_regex s with Some _ => true | None => false end)
  [lit "(?i)(\A|[^\pL\pM\d]|_)(\d+[.,]?\d* o flynyddoedd yn ol|\d+[.,]?\d* diwrnod yn ol|\d+[.,]?\d* wythnos yn ol|ymhen \d+[.,]?\d* diwrnod|ymhen \d+[.,]?\d* mlynedd|ymhen \d+[.,]?\d* wythnos|\d+[.,]?\d* eiliad yn ol|ymhen \d+[.,]?\d* eiliad|\d+[.,]?\d* munud yn ol|ymhen \d+[.,]?\d* munud|\d+[.,]?\d* awr yn ol|\d+[.,]?\d* mis yn ol|\d+[.,]?\d* mun yn ol|ymhen \d+[.,]?\d* awr|ymhen \d+[.,]?\d* mis|ymhen \d+[.,]?\d* mun)(\z|[^\pL\pM\d]|_)";
  lit "(?i)(\A|[^\pL\pM\d]|_)(\d+[.,]?\d* секунд хьалха|\d+[.,]?\d* кӏира даьлча|\d+[.,]?\d* кӏира хьалха|\d+[.,]?\d* минот хьалха|\d+[.,]?\d* сахьт даьлча|\d+[.,]?\d* сахьт хьалха|\d+[.,]?\d* секунд яьлча|\d+[.,]?\d* бутт баьлча|\d+[.,]?\d* бутт хьалха|\d+[.,]?\d* кӏир даьлча|\d+[.,]?\d* кӏир хьалха|\d+[.,]?\d* минот яьлча|\d+[.,]?\d* сахь даьлча|\d+[.,]?\d* сахь хьалха|\d+[.,]?\d* мин хьалха|\d+[.,]?\d* сек хьалха|\d+[.,]?\d* де даьлча|\d+[.,]?\d* де хьалха|\d+[.,]?\d* мин яьлча|\d+[.,]?\d* сек яьлча|\d+[.,]?\d* шо даьлча|\d+[.,]?\d* шо хьалха|\d+[.,]?\d* б баьлча|\d+[.,]?\d* б хьалха|\d+[.,]?\d* д даьлча|\d+[.,]?\d* д хьалха|\d+[.,]?\d* ш даьлча|\d+[.,]?\d* ш хьалха)(\z|[^\pL\pM\d]|_)";
  lit "(?i)(\A|[^\pL\pM\d]|_)(\d+[.,]?\d* সেকেনড পরবে|\d+[.,]?\d* দিনের মধযে|\d+[.,]?\d* মিনিট পরবে|\d+[.,]?\d* সেকেনড আগে|\d+[.,]?\d* মিনিট আগে|\d+[.,]?\d* সপতাহ আগে|\d+[.,]?\d* ঘনটা আগে|\d+[.,]?\d* বছর পরবে|\d+[.,]?\d* দিন আগে|\d+[.,]?\d* মাস আগে|\d+[.,]?\d* সেকেনডে|\d+[.,]?\d* মিনিটে|\d+[.,]?\d* সপতাহে|\d+[.,]?\d* ঘনটায|\d+[.,]?\d* বছরে|\d+[.,]?\d* মাসে)(\z|[^\pL\pM\d]|_)";
  lit "(?i)(\A|[^\pL\pM\d]|_)(a-benn \d+[.,]?\d* eilenn|a-benn \d+[.,]?\d* sizhun|a-benn \d+[.,]?\d* bloaz|a-benn \d+[.,]?\d* munut|a-benn \d+[.,]?\d* vloaz|a-benn \d+[.,]?\d* deiz|a-benn \d+[.,]?\d* eur|a-benn \d+[.,]?\d* min|a-benn \d+[.,]?\d* miz|\d+[.,]?\d* eilenn zo|\d+[.,]?\d* sizhun zo|a-benn \d+[.,]?\d* bl|\d+[.,]?\d* bloaz zo|\d+[.,]?\d* munut zo|\d+[.,]?\d* vloaz zo|a-benn \d+[.,]?\d* d|a-benn \d+[.,]?\d* e|a-benn \d+[.,]?\d* s|\d+[.,]?\d* deiz zo|\d+[.,]?\d* eur zo|\d+[.,]?\d* min zo|\d+[.,]?\d* miz zo|\d+[.,]?\d* bl zo|\d+[.,]?\d* d zo|\d+[.,]?\d* e zo|\d+[.,]?\d* s zo)(\z|[^\pL\pM\d]|_)";
  lit "(?i)(\A|[^\pL\pM\d]|_)(d'aqui a \d+[.,]?\d* setmanes|d'aqui a \d+[.,]?\d* setmana|d'aqui a \d+[.,]?\d* minuts|d'aqui a \d+[.,]?\d* segons|d'aqui a \d+[.,]?\d* hores|d'aqui a \d+[.,]?\d* mesos|d'aqui a \d+[.,]?\d* minut|d'aqui a \d+[.,]?\d* segon|d'aqui a \d+[.,]?\d* anys|d'aqui a \d+[.,]?\d* dies|d'aqui a \d+[.,]?\d* hora|d'aqui a \d+[.,]?\d* setm|d'aqui a \d+[.,]?\d* any|d'aqui a \d+[.,]?\d* dia|d'aqui a \d+[.,]?\d* mes|d'aqui a \d+[.,]?\d* min|fa \d+[.,]?\d* setmanes|d'aqui a \d+[.,]?\d* h|d'aqui a \d+[.,]?\d* s|d‘aqui a \d+[.,]?\d* h|fa \d+[.,]?\d* setmana|fa \d+[.,]?\d* minuts|fa \d+[.,]?\d* segons|fa \d+[.,]?\d* hores|fa \d+[.,]?\d* mesos|fa \d+[.,]?\d* minut|fa \d+[.,]?\d* segon|fa \d+[.,]?\d* anys|fa \d+[.,]?\d* dies|fa \d+[.,]?\d* hora|fa \d+[.,]?\d* setm|fa \d+[.,]?\d* any|fa \d+[.,]?\d* dia|fa \d+[.,]?\d* mes|fa \d+[.,]?\d* min|fa \d+[.,]?\d* h|fa \d+[.,]?\d* s)(\z|[^\pL\pM\d]|_)";
  lit "(?i)(\A|[^\pL\pM\d]|_)(for \d+[.,]?\d* minutter siden|for \d+[.,]?\d* sekunder siden|for \d+[.,]?\d* maneder siden|for \d+[.,]?\d* sekund siden|for \d+[.,]?\d* maned siden|for \d+[.,]?\d* minut siden|for \d+[.,]?\d* timer siden|for \d+[.,]?\d* dage siden|for \d+[.,]?\d* time siden|for \d+[.,]?\d* uger siden|for \d+[.,]?\d* dag siden|for \d+[.,]?\d* mdr siden|for \d+[.,]?\d* min siden|for \d+[.,]?\d* sek siden|for \d+[.,]?\d* uge siden|for \d+[.,]?\d* ar siden|for \d+[.,]?\d* md siden|for \d+[.,]?\d* minutter|for \d+[.,]?\d* sekunder|om \d+[.,]?\d* minutter|om \d+[.,]?\d* sekunder|om \d+[.,]?\d* maneder|for \d+[.,]?\d* timer|om \d+[.,]?\d* sekund|om \d+[.,]?\d* maned|om \d+[.,]?\d* minut|om \d+[.,]?\d* timer|for \d+[.,]?\d*\s*h|for \d+[.,]?\d*\s*m|for \d+[.,]?\d*\s*s|om \d+[.,]?\d* dage|om \d+[.,]?\d* time|om \d+[.,]?\d* uger|om \d+[.,]?\d* dag|om \d+[.,]?\d* mdr|om \d+[.,]?\d* min|om \d+[.,]?\d* sek|om \d+[.,]?\d* uge|om \d+[.,]?\d* ar|om \d+[.,]?\d* md)(\z|[^\pL\pM\d]|_)";
  lit "(?i)(\A|[^\pL\pM\d]|_)(pred \d+[.,]?\d* sekundami|pred \d+[.,]?\d* hodinami|pred \d+[.,]?\d* minutami|pred \d+[.,]?\d* sekundou|pred \d+[.,]?\d* hodinou|pred \d+[.,]?\d* mesicem|pred \d+[.,]?\d* minutou|pred \d+[.,]?\d* mesici|pred \d+[.,]?\d* tydnem|pred \d+[.,]?\d* rokem|pred \d+[.,]?\d* tydny|za \d+[.,]?\d* sekundu|pred \d+[.,]?\d* dnem|pred \d+[.,]?\d* lety|za \d+[.,]?\d* hodinu|za \d+[.,]?\d* mesicu|za \d+[.,]?\d* minutu|za \d+[.,]?\d* sekund|pred \d+[.,]?\d* dny|pred \d+[.,]?\d* mes|pred \d+[.,]?\d* min|pred \d+[.,]?\d* tyd|za \d+[.,]?\d* hodin|za \d+[.,]?\d* mesic|za \d+[.,]?\d* minut|za \d+[.,]?\d* tyden|za \d+[.,]?\d* tydnu|pred \d+[.,]?\d* h|pred \d+[.,]?\d* l|pred \d+[.,]?\d* r|pred \d+[.,]?\d* s|za \d+[.,]?\d* den|za \d+[.,]?\d* dni|za \d+[.,]?\d* let|za \d+[.,]?\d* mes|za \d+[.,]?\d* min|za \d+[.,]?\d* rok|za \d+[.,]?\d* tyd|za \d+[.,]?\d* h|za \d+[.,]?\d* l|za \d+[.,]?\d* r|za \d+[.,]?\d* s)(\z|[^\pL\pM\d]|_)";
  lit "(?i)(\A|[^\pL\pM\d]|_)(prije \d+[.,]?\d* mjeseci|prije \d+[.,]?\d* sedmica|prije \d+[.,]?\d* sedmicu|prije \d+[.,]?\d* sekundi|prije \d+[.,]?\d* sekundu|prije \d+[.,]?\d* godina|prije \d+[.,]?\d* godinu|prije \d+[.,]?\d* minuta|prije \d+[.,]?\d* minutu|prije \d+[.,]?\d* mjesec|prije \d+[.,]?\d* dana|prije \d+[.,]?\d* sati|za \d+[.,]?\d* mjeseci|za \d+[.,]?\d* sedmica|za \d+[.,]?\d* sedmicu|za \d+[.,]?\d* sekundi|za \d+[.,]?\d* sekundu|prije \d+[.,]?\d* dan|prije \d+[.,]?\d* god|prije \d+[.,]?\d* min|prije \d+[.,]?\d* sat|prije \d+[.,]?\d* sed|prije \d+[.,]?\d* sek|za \d+[.,]?\d* godina|za \d+[.,]?\d* godinu|za \d+[.,]?\d* minuta|za \d+[.,]?\d* minutu|za \d+[.,]?\d* mjesec|prije \d+[.,]?\d* mj|prije \d+[.,]?\d* d|prije \d+[.,]?\d* g|za \d+[.,]?\d* dana|za \d+[.,]?\d* sati|za \d+[.,]?\d* dan|za \d+[.,]?\d* god|za \d+[.,]?\d* min|za \d+[.,]?\d* sat|za \d+[.,]?\d* sed|za \d+[.,]?\d* sek|za \d+[.,]?\d* mj|za \d+[.,]?\d* d|za \d+[.,]?\d* g)(\z|[^\pL\pM\d]|_)";
  lit "(?i)(\A|[^\pL\pM\d]|_)(пре \d+[.,]?\d* секунди|за \d+[.,]?\d* секунди|пре \d+[.,]?\d* година|пре \d+[.,]?\d* годину|пре \d+[.,]?\d* месеци|пре \d+[.,]?\d* минута|пре \d+[.,]?\d* недеља|пре \d+[.,]?\d* недељу|пре \d+[.,]?\d* секунд|за \d+[.,]?\d* година|за \d+[.,]?\d* годину|за \d+[.,]?\d* месеци|за \d+[.,]?\d* минута|за \d+[.,]?\d* недеља|за \d+[.,]?\d* недељу|за \d+[.,]?\d* секунд|пре \d+[.,]?\d* месец|пре \d+[.,]?\d* минут|за \d+[.,]?\d* месец|за \d+[.,]?\d* минут|пре \d+[.,]?\d* дана|пре \d+[.,]?\d* сати|за \d+[.,]?\d* дана|за \d+[.,]?\d* сати|пре \d+[.,]?\d* дан|пре \d+[.,]?\d* сат|за \d+[.,]?\d* дан|за \d+[.,]?\d* сат)(\z|[^\pL\pM\d]|_)";
  lit "(?i)(\A|[^\pL\pM\d]|_)(ꮎꮏ \d+[.,]?\d* ꭲᏻꮎꮩꮣꮖꮝꮧ ꮵꭸꮢ|ꮎꮏ \d+[.,]?\d* ꭲꮿꮤꮼꮝꮤꮕ ꮵꭸꮢ|ꮎꮏ \d+[.,]?\d* ꮢꮎꮩꮣꮖꮝꮧ ꮵꭸꮢ|\d+[.,]?\d* ꭲꮷꮥꮨᏼꮜꮧꮢꭲ ꮵꭸꮢ|\d+[.,]?\d* ꭿꮈꮝꭹ ꮷꮢꭿꮫ ꮵꭸꮢ|ꮎꮏ \d+[.,]?\d* ꮣꮣꮎꮹꮝꭼ ꮵꭸꮢ|\d+[.,]?\d* ꭴꮥꮨᏼꮜꮧꮢꭲ ꮵꭸꮢ|ꮎꮏ \d+[.,]?\d* ꭲꮷꮥꮨᏼꮜꮧꮢꭲ|ꮎꮏ \d+[.,]?\d* ꭿꮈꮝꭹ ꮷꮢꭿꮫ|ꮎꮏ \d+[.,]?\d* ꭲᏻꮎꮩꮣꮖꮝꮧ|ꮎꮏ \d+[.,]?\d* ꭴꮥꮨᏼꮜꮧꮢꭲ|ꮎꮏ \d+[.,]?\d* ꮧꭷꮈꭲ ꮵꭸꮢ|\d+[.,]?\d* ꮣꮣꮎꮹꮝꭼ ꮵꭸꮢ|ꮎꮏ \d+[.,]?\d* ꭲꮿꮤ ꮵꭸꮢ|ꮎꮏ \d+[.,]?\d* ꭲꮿꮤꮼꮝꮤꮕ|ꮎꮏ \d+[.,]?\d* ꭷꮈꭲ ꮵꭸꮢ|ꮎꮏ \d+[.,]?\d* ꮢꮎꮩꮣꮖꮝꮧ|\d+[.,]?\d* ꭲᏻꮯꮆꮣ ꮵꭸꮢ|ꮎꮏ \d+[.,]?\d* ꭴꮥ ꮵꭸꮢ|ꮎꮏ \d+[.,]?\d* ꭷꮈ ꮵꭸꮢ|ꮎꮏ \d+[.,]?\d* ꮡꮯ ꮵꭸꮢ|ꮎꮏ \d+[.,]?\d* ꮢꮎ ꮵꭸꮢ|\d+[.,]?\d* ꮡꮯꮆꮣ ꮵꭸꮢ|ꮎꮏ \d+[.,]?\d* ꭲᏻꮯꮆꮣ|\d+[.,]?\d* ꭰꮞꮲ ꮵꭸꮢ|ꮎꮏ \d+[.,]?\d* ꮡꮯꮆꮣ|ꮎꮏ \d+[.,]?\d* ꮧꭷꮈꭲ|\d+[.,]?\d* ꭲꭶ ꮵꭸꮢ|ꮎꮏ \d+[.,]?\d* ꭰꮞꮲ|ꮎꮏ \d+[.,]?\d* ꭲꮿꮤ|ꮎꮏ \d+[.,]?\d* ꭷꮈꭲ|ꮎꮏ \d+[.,]?\d* ꭲꭶ|ꮎꮏ \d+[.,]?\d* ꭴꮥ|ꮎꮏ \d+[.,]?\d* ꭷꮈ|ꮎꮏ \d+[.,]?\d* ꮡꮯ|ꮎꮏ \d+[.,]?\d* ꮢꮎ)(\z|[^\pL\pM\d]|_)";
  lit "(?i)(\A|[^\pL\pM\d_])(\d+[.,]?\d*)\s*hr(s?)(\z|[^\pL\pM\d_])";
  lit "(?i)(\A|[^\pL\pM\d_])(\d+[.,]?\d*)\s*min(s?)(\z|[^\pL\pM\d_])";
  lit "(?i)(\A|[^\pL\pM\d_])(\d+[.,]?\d*)\s*sec(s?)(\z|[^\pL\pM\d_])";
  lit "(?i)(\A|[^\pL\pM\d_])(\d+[.,]?\d*)h(\d+[.,]?\d*)m?(\z|[^\pL\pM\d_])";
  lit "(?i)(\A|[^\pL\pM\d_])en(\z|[^\pL\pM\d_])";
  lit "(?i)(\A|[^\pL\pM\d_])et(\z|[^\pL\pM\d_])";
  lit "(?i)(\A|[^\pL\pM\d_])middag(\z|[^\pL\pM\d_])";
  lit "(?i)(\A|[^\pL\pM\d_])midnat(\z|[^\pL\pM\d_])";
  lit "(?i)(\A|[^\pL\pM\d_])mindre end 1 minut siden(\z|[^\pL\pM\d_])";
  lit "(?i)(\A|[^\pL\pM\d_])ted(\z|[^\pL\pM\d_])";
  lit "(?i)(\A|[^\pL\pM\d_])un(\z|[^\pL\pM\d_])";
  lit "(?i)(\A|[^\pL\pM\d_])una(\z|[^\pL\pM\d_])";
  lit "(?i)(\A|[^\pL\pM\d_])মধযরাত(\z|[^\pL\pM\d_])";
  lit "(?i)(\A|[^\pL\pM\d_])মধযাহন(\z|[^\pL\pM\d_])";
  lit "(?i)(\d+[.,]?\d*) awr yn ol";
  lit "(?i)(\d+[.,]?\d*) bl zo";
  lit "(?i)(\d+[.,]?\d*) bloaz zo";
  lit "(?i)(\d+[.,]?\d*) d zo";
  lit "(?i)(\d+[.,]?\d*) deiz zo";
  lit "(?i)(\d+[.,]?\d*) diwrnod yn ol";
  lit "(?i)(\d+[.,]?\d*) e zo";
  lit "(?i)(\d+[.,]?\d*) eilenn zo";
  lit "(?i)(\d+[.,]?\d*) eiliad yn ol";
  lit "(?i)(\d+[.,]?\d*) eur zo";
  lit "(?i)(\d+[.,]?\d*) min zo";
  lit "(?i)(\d+[.,]?\d*) mis yn ol";
  lit "(?i)(\d+[.,]?\d*) miz zo";
  lit "(?i)(\d+[.,]?\d*) mun yn ol";
  lit "(?i)(\d+[.,]?\d*) munud yn ol";
  lit "(?i)(\d+[.,]?\d*) munut zo";
  lit "(?i)(\d+[.,]?\d*) o flynyddoedd yn ol";
  lit "(?i)(\d+[.,]?\d*) s zo";
  lit "(?i)(\d+[.,]?\d*) sizhun zo";
  lit "(?i)(\d+[.,]?\d*) vloaz zo";
  lit "(?i)(\d+[.,]?\d*) wythnos yn ol";
  lit "(?i)(\d+[.,]?\d*) б баьлча";
  lit "(?i)(\d+[.,]?\d*) б хьалха";
  lit "(?i)(\d+[.,]?\d*) бутт баьлча";
  lit "(?i)(\d+[.,]?\d*) бутт хьалха";
  lit "(?i)(\d+[.,]?\d*) д даьлча";
  lit "(?i)(\d+[.,]?\d*) д хьалха";
  lit "(?i)(\d+[.,]?\d*) де даьлча";
  lit "(?i)(\d+[.,]?\d*) де хьалха";
  lit "(?i)(\d+[.,]?\d*) кӏир даьлча";
  lit "(?i)(\d+[.,]?\d*) кӏир хьалха";
  lit "(?i)(\d+[.,]?\d*) кӏира даьлча";
  lit "(?i)(\d+[.,]?\d*) кӏира хьалха";
  lit "(?i)(\d+[.,]?\d*) мин хьалха";
  lit "(?i)(\d+[.,]?\d*) мин яьлча";
  lit "(?i)(\d+[.,]?\d*) минот хьалха";
  lit "(?i)(\d+[.,]?\d*) минот яьлча";
  lit "(?i)(\d+[.,]?\d*) сахь даьлча";
  lit "(?i)(\d+[.,]?\d*) сахь хьалха";
  lit "(?i)(\d+[.,]?\d*) сахьт даьлча";
  lit "(?i)(\d+[.,]?\d*) сахьт хьалха";
  lit "(?i)(\d+[.,]?\d*) сек хьалха";
  lit "(?i)(\d+[.,]?\d*) сек яьлча";
  lit "(?i)(\d+[.,]?\d*) секунд хьалха";
  lit "(?i)(\d+[.,]?\d*) секунд яьлча";
  lit "(?i)(\d+[.,]?\d*) ш даьлча";
  lit "(?i)(\d+[.,]?\d*) ш хьалха";
  lit "(?i)(\d+[.,]?\d*) шо даьлча";
  lit "(?i)(\d+[.,]?\d*) шо хьалха";
  lit "(?i)(\d+[.,]?\d*) ঘনটা আগে";
  lit "(?i)(\d+[.,]?\d*) ঘনটায";
  lit "(?i)(\d+[.,]?\d*) দিন আগে";
  lit "(?i)(\d+[.,]?\d*) দিনের মধযে";
  lit "(?i)(\d+[.,]?\d*) বছর পরবে";
  lit "(?i)(\d+[.,]?\d*) বছরে";
  lit "(?i)(\d+[.,]?\d*) মাস আগে";
  lit "(?i)(\d+[.,]?\d*) মাসে";
  lit "(?i)(\d+[.,]?\d*) মিনিট আগে";
  lit "(?i)(\d+[.,]?\d*) মিনিট পরবে";
  lit "(?i)(\d+[.,]?\d*) মিনিটে";
  lit "(?i)(\d+[.,]?\d*) সপতাহ আগে";
  lit "(?i)(\d+[.,]?\d*) সপতাহে";
  lit "(?i)(\d+[.,]?\d*) সেকেনড আগে";
  lit "(?i)(\d+[.,]?\d*) সেকেনড পরবে";
  lit "(?i)(\d+[.,]?\d*) সেকেনডে";
  lit "(?i)(\d+[.,]?\d*) ꭰꮞꮲ ꮵꭸꮢ";
  lit "(?i)(\d+[.,]?\d*) ꭲᏻꮯꮆꮣ ꮵꭸꮢ";
  lit "(?i)(\d+[.,]?\d*) ꭲꭶ ꮵꭸꮢ";
  lit "(?i)(\d+[.,]?\d*) ꭲꮷꮥꮨᏼꮜꮧꮢꭲ ꮵꭸꮢ";
  lit "(?i)(\d+[.,]?\d*) ꭴꮥꮨᏼꮜꮧꮢꭲ ꮵꭸꮢ";
  lit "(?i)(\d+[.,]?\d*) ꭿꮈꮝꭹ ꮷꮢꭿꮫ ꮵꭸꮢ";
  lit "(?i)(\d+[.,]?\d*) ꮡꮯꮆꮣ ꮵꭸꮢ";
  lit "(?i)(\d+[.,]?\d*) ꮣꮣꮎꮹꮝꭼ ꮵꭸꮢ";
  lit "(?i)^(\d+[.,]?\d* o flynyddoedd yn ol|\d+[.,]?\d* diwrnod yn ol|\d+[.,]?\d* wythnos yn ol|ymhen \d+[.,]?\d* diwrnod|ymhen \d+[.,]?\d* mlynedd|ymhen \d+[.,]?\d* wythnos|\d+[.,]?\d* eiliad yn ol|ymhen \d+[.,]?\d* eiliad|\d+[.,]?\d* munud yn ol|ymhen \d+[.,]?\d* munud|\d+[.,]?\d* awr yn ol|\d+[.,]?\d* mis yn ol|\d+[.,]?\d* mun yn ol|ymhen \d+[.,]?\d* awr|ymhen \d+[.,]?\d* mis|ymhen \d+[.,]?\d* mun)$";
  lit "(?i)^(\d+[.,]?\d* секунд хьалха|\d+[.,]?\d* кӏира даьлча|\d+[.,]?\d* кӏира хьалха|\d+[.,]?\d* минот хьалха|\d+[.,]?\d* сахьт даьлча|\d+[.,]?\d* сахьт хьалха|\d+[.,]?\d* секунд яьлча|\d+[.,]?\d* бутт баьлча|\d+[.,]?\d* бутт хьалха|\d+[.,]?\d* кӏир даьлча|\d+[.,]?\d* кӏир хьалха|\d+[.,]?\d* минот яьлча|\d+[.,]?\d* сахь даьлча|\d+[.,]?\d* сахь хьалха|\d+[.,]?\d* мин хьалха|\d+[.,]?\d* сек хьалха|\d+[.,]?\d* де даьлча|\d+[.,]?\d* де хьалха|\d+[.,]?\d* мин яьлча|\d+[.,]?\d* сек яьлча|\d+[.,]?\d* шо даьлча|\d+[.,]?\d* шо хьалха|\d+[.,]?\d* б баьлча|\d+[.,]?\d* б хьалха|\d+[.,]?\d* д даьлча|\d+[.,]?\d* д хьалха|\d+[.,]?\d* ш даьлча|\d+[.,]?\d* ш хьалха)$";
  lit "(?i)^(\d+[.,]?\d* সেকেনড পরবে|\d+[.,]?\d* দিনের মধযে|\d+[.,]?\d* মিনিট পরবে|\d+[.,]?\d* সেকেনড আগে|\d+[.,]?\d* মিনিট আগে|\d+[.,]?\d* সপতাহ আগে|\d+[.,]?\d* ঘনটা আগে|\d+[.,]?\d* বছর পরবে|\d+[.,]?\d* দিন আগে|\d+[.,]?\d* মাস আগে|\d+[.,]?\d* সেকেনডে|\d+[.,]?\d* মিনিটে|\d+[.,]?\d* সপতাহে|\d+[.,]?\d* ঘনটায|\d+[.,]?\d* বছরে|\d+[.,]?\d* মাসে)$";
  lit "(?i)^(a-benn \d+[.,]?\d* eilenn|a-benn \d+[.,]?\d* sizhun|a-benn \d+[.,]?\d* bloaz|a-benn \d+[.,]?\d* munut|a-benn \d+[.,]?\d* vloaz|a-benn \d+[.,]?\d* deiz|a-benn \d+[.,]?\d* eur|a-benn \d+[.,]?\d* min|a-benn \d+[.,]?\d* miz|\d+[.,]?\d* eilenn zo|\d+[.,]?\d* sizhun zo|a-benn \d+[.,]?\d* bl|\d+[.,]?\d* bloaz zo|\d+[.,]?\d* munut zo|\d+[.,]?\d* vloaz zo|a-benn \d+[.,]?\d* d|a-benn \d+[.,]?\d* e|a-benn \d+[.,]?\d* s|\d+[.,]?\d* deiz zo|\d+[.,]?\d* eur zo|\d+[.,]?\d* min zo|\d+[.,]?\d* miz zo|\d+[.,]?\d* bl zo|\d+[.,]?\d* d zo|\d+[.,]?\d* e zo|\d+[.,]?\d* s zo)$";
  lit "(?i)^(d'aqui a \d+[.,]?\d* setmanes|d'aqui a \d+[.,]?\d* setmana|d'aqui a \d+[.,]?\d* minuts|d'aqui a \d+[.,]?\d* segons|d'aqui a \d+[.,]?\d* hores|d'aqui a \d+[.,]?\d* mesos|d'aqui a \d+[.,]?\d* minut|d'aqui a \d+[.,]?\d* segon|d'aqui a \d+[.,]?\d* anys|d'aqui a \d+[.,]?\d* dies|d'aqui a \d+[.,]?\d* hora|d'aqui a \d+[.,]?\d* setm|d'aqui a \d+[.,]?\d* any|d'aqui a \d+[.,]?\d* dia|d'aqui a \d+[.,]?\d* mes|d'aqui a \d+[.,]?\d* min|fa \d+[.,]?\d* setmanes|d'aqui a \d+[.,]?\d* h|d'aqui a \d+[.,]?\d* s|d‘aqui a \d+[.,]?\d* h|fa \d+[.,]?\d* setmana|fa \d+[.,]?\d* minuts|fa \d+[.,]?\d* segons|fa \d+[.,]?\d* hores|fa \d+[.,]?\d* mesos|fa \d+[.,]?\d* minut|fa \d+[.,]?\d* segon|fa \d+[.,]?\d* anys|fa \d+[.,]?\d* dies|fa \d+[.,]?\d* hora|fa \d+[.,]?\d* setm|fa \d+[.,]?\d* any|fa \d+[.,]?\d* dia|fa \d+[.,]?\d* mes|fa \d+[.,]?\d* min|fa \d+[.,]?\d* h|fa \d+[.,]?\d* s)$";
  lit "(?i)^(for \d+[.,]?\d* minutter siden|for \d+[.,]?\d* sekunder siden|for \d+[.,]?\d* maneder siden|for \d+[.,]?\d* sekund siden|for \d+[.,]?\d* maned siden|for \d+[.,]?\d* minut siden|for \d+[.,]?\d* timer siden|for \d+[.,]?\d* dage siden|for \d+[.,]?\d* time siden|for \d+[.,]?\d* uger siden|for \d+[.,]?\d* dag siden|for \d+[.,]?\d* mdr siden|for \d+[.,]?\d* min siden|for \d+[.,]?\d* sek siden|for \d+[.,]?\d* uge siden|for \d+[.,]?\d* ar siden|for \d+[.,]?\d* md siden|for \d+[.,]?\d* minutter|for \d+[.,]?\d* sekunder|om \d+[.,]?\d* minutter|om \d+[.,]?\d* sekunder|om \d+[.,]?\d* maneder|for \d+[.,]?\d* timer|om \d+[.,]?\d* sekund|om \d+[.,]?\d* maned|om \d+[.,]?\d* minut|om \d+[.,]?\d* timer|for \d+[.,]?\d*\s*h|for \d+[.,]?\d*\s*m|for \d+[.,]?\d*\s*s|om \d+[.,]?\d* dage|om \d+[.,]?\d* time|om \d+[.,]?\d* uger|om \d+[.,]?\d* dag|om \d+[.,]?\d* mdr|om \d+[.,]?\d* min|om \d+[.,]?\d* sek|om \d+[.,]?\d* uge|om \d+[.,]?\d* ar|om \d+[.,]?\d* md)$";
  lit "(?i)^(pred \d+[.,]?\d* sekundami|pred \d+[.,]?\d* hodinami|pred \d+[.,]?\d* minutami|pred \d+[.,]?\d* sekundou|pred \d+[.,]?\d* hodinou|pred \d+[.,]?\d* mesicem|pred \d+[.,]?\d* minutou|pred \d+[.,]?\d* mesici|pred \d+[.,]?\d* tydnem|pred \d+[.,]?\d* rokem|pred \d+[.,]?\d* tydny|za \d+[.,]?\d* sekundu|pred \d+[.,]?\d* dnem|pred \d+[.,]?\d* lety|za \d+[.,]?\d* hodinu|za \d+[.,]?\d* mesicu|za \d+[.,]?\d* minutu|za \d+[.,]?\d* sekund|pred \d+[.,]?\d* dny|pred \d+[.,]?\d* mes|pred \d+[.,]?\d* min|pred \d+[.,]?\d* tyd|za \d+[.,]?\d* hodin|za \d+[.,]?\d* mesic|za \d+[.,]?\d* minut|za \d+[.,]?\d* tyden|za \d+[.,]?\d* tydnu|pred \d+[.,]?\d* h|pred \d+[.,]?\d* l|pred \d+[.,]?\d* r|pred \d+[.,]?\d* s|za \d+[.,]?\d* den|za \d+[.,]?\d* dni|za \d+[.,]?\d* let|za \d+[.,]?\d* mes|za \d+[.,]?\d* min|za \d+[.,]?\d* rok|za \d+[.,]?\d* tyd|za \d+[.,]?\d* h|za \d+[.,]?\d* l|za \d+[.,]?\d* r|za \d+[.,]?\d* s)$";
  lit "(?i)^(prije \d+[.,]?\d* mjeseci|prije \d+[.,]?\d* sedmica|prije \d+[.,]?\d* sedmicu|prije \d+[.,]?\d* sekundi|prije \d+[.,]?\d* sekundu|prije \d+[.,]?\d* godina|prije \d+[.,]?\d* godinu|prije \d+[.,]?\d* minuta|prije \d+[.,]?\d* minutu|prije \d+[.,]?\d* mjesec|prije \d+[.,]?\d* dana|prije \d+[.,]?\d* sati|za \d+[.,]?\d* mjeseci|za \d+[.,]?\d* sedmica|za \d+[.,]?\d* sedmicu|za \d+[.,]?\d* sekundi|za \d+[.,]?\d* sekundu|prije \d+[.,]?\d* dan|prije \d+[.,]?\d* god|prije \d+[.,]?\d* min|prije \d+[.,]?\d* sat|prije \d+[.,]?\d* sed|prije \d+[.,]?\d* sek|za \d+[.,]?\d* godina|za \d+[.,]?\d* godinu|za \d+[.,]?\d* minuta|za \d+[.,]?\d* minutu|za \d+[.,]?\d* mjesec|prije \d+[.,]?\d* mj|prije \d+[.,]?\d* d|prije \d+[.,]?\d* g|za \d+[.,]?\d* dana|za \d+[.,]?\d* sati|za \d+[.,]?\d* dan|za \d+[.,]?\d* god|za \d+[.,]?\d* min|za \d+[.,]?\d* sat|za \d+[.,]?\d* sed|za \d+[.,]?\d* sek|za \d+[.,]?\d* mj|za \d+[.,]?\d* d|za \d+[.,]?\d* g)$";
  lit "(?i)^(пре \d+[.,]?\d* секунди|за \d+[.,]?\d* секунди|пре \d+[.,]?\d* година|пре \d+[.,]?\d* годину|пре \d+[.,]?\d* месеци|пре \d+[.,]?\d* минута|пре \d+[.,]?\d* недеља|пре \d+[.,]?\d* недељу|пре \d+[.,]?\d* секунд|за \d+[.,]?\d* година|за \d+[.,]?\d* годину|за \d+[.,]?\d* месеци|за \d+[.,]?\d* минута|за \d+[.,]?\d* недеља|за \d+[.,]?\d* недељу|за \d+[.,]?\d* секунд|пре \d+[.,]?\d* месец|пре \d+[.,]?\d* минут|за \d+[.,]?\d* месец|за \d+[.,]?\d* минут|пре \d+[.,]?\d* дана|пре \d+[.,]?\d* сати|за \d+[.,]?\d* дана|за \d+[.,]?\d* сати|пре \d+[.,]?\d* дан|пре \d+[.,]?\d* сат|за \d+[.,]?\d* дан|за \d+[.,]?\d* сат)$";
  lit "(?i)^(ꮎꮏ \d+[.,]?\d* ꭲᏻꮎꮩꮣꮖꮝꮧ ꮵꭸꮢ|ꮎꮏ \d+[.,]?\d* ꭲꮿꮤꮼꮝꮤꮕ ꮵꭸꮢ|ꮎꮏ \d+[.,]?\d* ꮢꮎꮩꮣꮖꮝꮧ ꮵꭸꮢ|\d+[.,]?\d* ꭲꮷꮥꮨᏼꮜꮧꮢꭲ ꮵꭸꮢ|\d+[.,]?\d* ꭿꮈꮝꭹ ꮷꮢꭿꮫ ꮵꭸꮢ|ꮎꮏ \d+[.,]?\d* ꮣꮣꮎꮹꮝꭼ ꮵꭸꮢ|\d+[.,]?\d* ꭴꮥꮨᏼꮜꮧꮢꭲ ꮵꭸꮢ|ꮎꮏ \d+[.,]?\d* ꭲꮷꮥꮨᏼꮜꮧꮢꭲ|ꮎꮏ \d+[.,]?\d* ꭿꮈꮝꭹ ꮷꮢꭿꮫ|ꮎꮏ \d+[.,]?\d* ꭲᏻꮎꮩꮣꮖꮝꮧ|ꮎꮏ \d+[.,]?\d* ꭴꮥꮨᏼꮜꮧꮢꭲ|ꮎꮏ \d+[.,]?\d* ꮧꭷꮈꭲ ꮵꭸꮢ|\d+[.,]?\d* ꮣꮣꮎꮹꮝꭼ ꮵꭸꮢ|ꮎꮏ \d+[.,]?\d* ꭲꮿꮤ ꮵꭸꮢ|ꮎꮏ \d+[.,]?\d* ꭲꮿꮤꮼꮝꮤꮕ|ꮎꮏ \d+[.,]?\d* ꭷꮈꭲ ꮵꭸꮢ|ꮎꮏ \d+[.,]?\d* ꮢꮎꮩꮣꮖꮝꮧ|\d+[.,]?\d* ꭲᏻꮯꮆꮣ ꮵꭸꮢ|ꮎꮏ \d+[.,]?\d* ꭴꮥ ꮵꭸꮢ|ꮎꮏ \d+[.,]?\d* ꭷꮈ ꮵꭸꮢ|ꮎꮏ \d+[.,]?\d* ꮡꮯ ꮵꭸꮢ|ꮎꮏ \d+[.,]?\d* ꮢꮎ ꮵꭸꮢ|\d+[.,]?\d* ꮡꮯꮆꮣ ꮵꭸꮢ|ꮎꮏ \d+[.,]?\d* ꭲᏻꮯꮆꮣ|\d+[.,]?\d* ꭰꮞꮲ ꮵꭸꮢ|ꮎꮏ \d+[.,]?\d* ꮡꮯꮆꮣ|ꮎꮏ \d+[.,]?\d* ꮧꭷꮈꭲ|\d+[.,]?\d* ꭲꭶ ꮵꭸꮢ|ꮎꮏ \d+[.,]?\d* ꭰꮞꮲ|ꮎꮏ \d+[.,]?\d* ꭲꮿꮤ|ꮎꮏ \d+[.,]?\d* ꭷꮈꭲ|ꮎꮏ \d+[.,]?\d* ꭲꭶ|ꮎꮏ \d+[.,]?\d* ꭴꮥ|ꮎꮏ \d+[.,]?\d* ꭷꮈ|ꮎꮏ \d+[.,]?\d* ꮡꮯ|ꮎꮏ \d+[.,]?\d* ꮢꮎ)$";
  lit "(?i)a-benn (\d+[.,]?\d*) bl";
  lit "(?i)a-benn (\d+[.,]?\d*) bloaz";
  lit "(?i)a-benn (\d+[.,]?\d*) d";
  lit "(?i)a-benn (\d+[.,]?\d*) deiz";
  lit "(?i)a-benn (\d+[.,]?\d*) e";
  lit "(?i)a-benn (\d+[.,]?\d*) eilenn";
  lit "(?i)a-benn (\d+[.,]?\d*) eur";
  lit "(?i)a-benn (\d+[.,]?\d*) min";
  lit "(?i)a-benn (\d+[.,]?\d*) miz";
  lit "(?i)a-benn (\d+[.,]?\d*) munut";
  lit "(?i)a-benn (\d+[.,]?\d*) s";
  lit "(?i)a-benn (\d+[.,]?\d*) sizhun";
  lit "(?i)a-benn (\d+[.,]?\d*) vloaz";
  lit "(?i)d'aqui a (\d+[.,]?\d*) any";
  lit "(?i)d'aqui a (\d+[.,]?\d*) anys";
  lit "(?i)d'aqui a (\d+[.,]?\d*) dia";
  lit "(?i)d'aqui a (\d+[.,]?\d*) dies";
  lit "(?i)d'aqui a (\d+[.,]?\d*) h";
  lit "(?i)d'aqui a (\d+[.,]?\d*) hora";
  lit "(?i)d'aqui a (\d+[.,]?\d*) hores";
  lit "(?i)d'aqui a (\d+[.,]?\d*) mes";
  lit "(?i)d'aqui a (\d+[.,]?\d*) mesos";
  lit "(?i)d'aqui a (\d+[.,]?\d*) min";
  lit "(?i)d'aqui a (\d+[.,]?\d*) minut";
  lit "(?i)d'aqui a (\d+[.,]?\d*) minuts";
  lit "(?i)d'aqui a (\d+[.,]?\d*) s";
  lit "(?i)d'aqui a (\d+[.,]?\d*) segon";
  lit "(?i)d'aqui a (\d+[.,]?\d*) segons";
  lit "(?i)d'aqui a (\d+[.,]?\d*) setm";
  lit "(?i)d'aqui a (\d+[.,]?\d*) setmana";
  lit "(?i)d'aqui a (\d+[.,]?\d*) setmanes";
  lit "(?i)d‘aqui a (\d+[.,]?\d*) h";
  lit "(?i)fa (\d+[.,]?\d*) any";
  lit "(?i)fa (\d+[.,]?\d*) anys";
  lit "(?i)fa (\d+[.,]?\d*) dia";
  lit "(?i)fa (\d+[.,]?\d*) dies";
  lit "(?i)fa (\d+[.,]?\d*) h";
  lit "(?i)fa (\d+[.,]?\d*) hora";
  lit "(?i)fa (\d+[.,]?\d*) hores";
  lit "(?i)fa (\d+[.,]?\d*) mes";
  lit "(?i)fa (\d+[.,]?\d*) mesos";
  lit "(?i)fa (\d+[.,]?\d*) min";
  lit "(?i)fa (\d+[.,]?\d*) minut";
  lit "(?i)fa (\d+[.,]?\d*) minuts";
  lit "(?i)fa (\d+[.,]?\d*) s";
  lit "(?i)fa (\d+[.,]?\d*) segon";
  lit "(?i)fa (\d+[.,]?\d*) segons";
  lit "(?i)fa (\d+[.,]?\d*) setm";
  lit "(?i)fa (\d+[.,]?\d*) setmana";
  lit "(?i)fa (\d+[.,]?\d*) setmanes";
  lit "(?i)for (\d+[.,]?\d*) ar siden";
  lit "(?i)for (\d+[.,]?\d*) dag siden";
  lit "(?i)for (\d+[.,]?\d*) dage siden";
  lit "(?i)for (\d+[.,]?\d*) maned siden";
  lit "(?i)for (\d+[.,]?\d*) maneder siden";
  lit "(?i)for (\d+[.,]?\d*) md siden";
  lit "(?i)for (\d+[.,]?\d*) mdr siden";
  lit "(?i)for (\d+[.,]?\d*) min siden";
  lit "(?i)for (\d+[.,]?\d*) minut siden";
  lit "(?i)for (\d+[.,]?\d*) minutter";
  lit "(?i)for (\d+[.,]?\d*) minutter siden";
  lit "(?i)for (\d+[.,]?\d*) sek siden";
  lit "(?i)for (\d+[.,]?\d*) sekund siden";
  lit "(?i)for (\d+[.,]?\d*) sekunder";
  lit "(?i)for (\d+[.,]?\d*) sekunder siden";
  lit "(?i)for (\d+[.,]?\d*) time siden";
  lit "(?i)for (\d+[.,]?\d*) timer";
  lit "(?i)for (\d+[.,]?\d*) timer siden";
  lit "(?i)for (\d+[.,]?\d*) uge siden";
  lit "(?i)for (\d+[.,]?\d*) uger siden";
  lit "(?i)for (\d+[.,]?\d*)\s*h";
  lit "(?i)for (\d+[.,]?\d*)\s*m";
  lit "(?i)for (\d+[.,]?\d*)\s*s";
  lit "(?i)om (\d+[.,]?\d*) ar";
  lit "(?i)om (\d+[.,]?\d*) dag";
  lit "(?i)om (\d+[.,]?\d*) dage";
  lit "(?i)om (\d+[.,]?\d*) maned";
  lit "(?i)om (\d+[.,]?\d*) maneder";
  lit "(?i)om (\d+[.,]?\d*) md";
  lit "(?i)om (\d+[.,]?\d*) mdr";
  lit "(?i)om (\d+[.,]?\d*) min";
  lit "(?i)om (\d+[.,]?\d*) minut";
  lit "(?i)om (\d+[.,]?\d*) minutter";
  lit "(?i)om (\d+[.,]?\d*) sek";
  lit "(?i)om (\d+[.,]?\d*) sekund";
  lit "(?i)om (\d+[.,]?\d*) sekunder";
  lit "(?i)om (\d+[.,]?\d*) time";
  lit "(?i)om (\d+[.,]?\d*) timer";
  lit "(?i)om (\d+[.,]?\d*) uge";
  lit "(?i)om (\d+[.,]?\d*) uger";
  lit "(?i)pred (\d+[.,]?\d*) dnem";
  lit "(?i)pred (\d+[.,]?\d*) dny";
  lit "(?i)pred (\d+[.,]?\d*) h";
  lit "(?i)pred (\d+[.,]?\d*) hodinami";
  lit "(?i)pred (\d+[.,]?\d*) hodinou";
  lit "(?i)pred (\d+[.,]?\d*) l";
  lit "(?i)pred (\d+[.,]?\d*) lety";
  lit "(?i)pred (\d+[.,]?\d*) mes";
  lit "(?i)pred (\d+[.,]?\d*) mesicem";
  lit "(?i)pred (\d+[.,]?\d*) mesici";
  lit "(?i)pred (\d+[.,]?\d*) min";
  lit "(?i)pred (\d+[.,]?\d*) minutami";
  lit "(?i)pred (\d+[.,]?\d*) minutou";
  lit "(?i)pred (\d+[.,]?\d*) r";
  lit "(?i)pred (\d+[.,]?\d*) rokem";
  lit "(?i)pred (\d+[.,]?\d*) s";
  lit "(?i)pred (\d+[.,]?\d*) sekundami";
  lit "(?i)pred (\d+[.,]?\d*) sekundou";
  lit "(?i)pred (\d+[.,]?\d*) tyd";
  lit "(?i)pred (\d+[.,]?\d*) tydnem";
  lit "(?i)pred (\d+[.,]?\d*) tydny";
  lit "(?i)prije (\d+[.,]?\d*) d";
  lit "(?i)prije (\d+[.,]?\d*) dan";
  lit "(?i)prije (\d+[.,]?\d*) dana";
  lit "(?i)prije (\d+[.,]?\d*) g";
  lit "(?i)prije (\d+[.,]?\d*) god";
  lit "(?i)prije (\d+[.,]?\d*) godina";
  lit "(?i)prije (\d+[.,]?\d*) godinu";
  lit "(?i)prije (\d+[.,]?\d*) min";
  lit "(?i)prije (\d+[.,]?\d*) minuta";
  lit "(?i)prije (\d+[.,]?\d*) minutu";
  lit "(?i)prije (\d+[.,]?\d*) mj";
  lit "(?i)prije (\d+[.,]?\d*) mjesec";
  lit "(?i)prije (\d+[.,]?\d*) mjeseci";
  lit "(?i)prije (\d+[.,]?\d*) sat";
  lit "(?i)prije (\d+[.,]?\d*) sati";
  lit "(?i)prije (\d+[.,]?\d*) sed";
  lit "(?i)prije (\d+[.,]?\d*) sedmica";
  lit "(?i)prije (\d+[.,]?\d*) sedmicu";
  lit "(?i)prije (\d+[.,]?\d*) sek";
  lit "(?i)prije (\d+[.,]?\d*) sekundi";
  lit "(?i)prije (\d+[.,]?\d*) sekundu";
  lit "(?i)ymhen (\d+[.,]?\d*) awr";
  lit "(?i)ymhen (\d+[.,]?\d*) diwrnod";
  lit "(?i)ymhen (\d+[.,]?\d*) eiliad";
  lit "(?i)ymhen (\d+[.,]?\d*) mis";
  lit "(?i)ymhen (\d+[.,]?\d*) mlynedd";
  lit "(?i)ymhen (\d+[.,]?\d*) mun";
  lit "(?i)ymhen (\d+[.,]?\d*) munud";
  lit "(?i)ymhen (\d+[.,]?\d*) wythnos";
  lit "(?i)za (\d+[.,]?\d*) d";
  lit "(?i)za (\d+[.,]?\d*) dan";
  lit "(?i)za (\d+[.,]?\d*) dana";
  lit "(?i)za (\d+[.,]?\d*) den";
  lit "(?i)za (\d+[.,]?\d*) dni";
  lit "(?i)za (\d+[.,]?\d*) g";
  lit "(?i)za (\d+[.,]?\d*) god";
  lit "(?i)za (\d+[.,]?\d*) godina";
  lit "(?i)za (\d+[.,]?\d*) godinu";
  lit "(?i)za (\d+[.,]?\d*) h";
  lit "(?i)za (\d+[.,]?\d*) hodin";
  lit "(?i)za (\d+[.,]?\d*) hodinu";
  lit "(?i)za (\d+[.,]?\d*) l";
  lit "(?i)za (\d+[.,]?\d*) let";
  lit "(?i)za (\d+[.,]?\d*) mes";
  lit "(?i)za (\d+[.,]?\d*) mesic";
  lit "(?i)za (\d+[.,]?\d*) mesicu";
  lit "(?i)za (\d+[.,]?\d*) min";
  lit "(?i)za (\d+[.,]?\d*) minut";
  lit "(?i)za (\d+[.,]?\d*) minuta";
  lit "(?i)za (\d+[.,]?\d*) minutu";
  lit "(?i)za (\d+[.,]?\d*) mj";
  lit "(?i)za (\d+[.,]?\d*) mjesec";
  lit "(?i)za (\d+[.,]?\d*) mjeseci";
  lit "(?i)za (\d+[.,]?\d*) r";
  lit "(?i)za (\d+[.,]?\d*) rok";
  lit "(?i)za (\d+[.,]?\d*) s";
  lit "(?i)za (\d+[.,]?\d*) sat";
  lit "(?i)za (\d+[.,]?\d*) sati";
  lit "(?i)za (\d+[.,]?\d*) sed";
  lit "(?i)za (\d+[.,]?\d*) sedmica";
  lit "(?i)za (\d+[.,]?\d*) sedmicu";
  lit "(?i)za (\d+[.,]?\d*) sek";
  lit "(?i)za (\d+[.,]?\d*) sekund";
  lit "(?i)za (\d+[.,]?\d*) sekundi";
  lit "(?i)za (\d+[.,]?\d*) sekundu";
  lit "(?i)za (\d+[.,]?\d*) tyd";
  lit "(?i)za (\d+[.,]?\d*) tyden";
  lit "(?i)za (\d+[.,]?\d*) tydnu";
  lit "(?i)за (\d+[.,]?\d*) година";
  lit "(?i)за (\d+[.,]?\d*) годину";
  lit "(?i)за (\d+[.,]?\d*) дан";
  lit "(?i)за (\d+[.,]?\d*) дана";
  lit "(?i)за (\d+[.,]?\d*) месец";
  lit "(?i)за (\d+[.,]?\d*) месеци";
  lit "(?i)за (\d+[.,]?\d*) минут";
  lit "(?i)за (\d+[.,]?\d*) минута";
  lit "(?i)за (\d+[.,]?\d*) недеља";
  lit "(?i)за (\d+[.,]?\d*) недељу";
  lit "(?i)за (\d+[.,]?\d*) сат";
  lit "(?i)за (\d+[.,]?\d*) сати";
  lit "(?i)за (\d+[.,]?\d*) секунд";
  lit "(?i)за (\d+[.,]?\d*) секунди";
  lit "(?i)пре (\d+[.,]?\d*) година";
  lit "(?i)пре (\d+[.,]?\d*) годину";
  lit "(?i)пре (\d+[.,]?\d*) дан";
  lit "(?i)пре (\d+[.,]?\d*) дана";
  lit "(?i)пре (\d+[.,]?\d*) месец";
  lit "(?i)пре (\d+[.,]?\d*) месеци";
  lit "(?i)пре (\d+[.,]?\d*) минут";
  lit "(?i)пре (\d+[.,]?\d*) минута";
  lit "(?i)пре (\d+[.,]?\d*) недеља";
  lit "(?i)пре (\d+[.,]?\d*) недељу";
  lit "(?i)пре (\d+[.,]?\d*) сат";
  lit "(?i)пре (\d+[.,]?\d*) сати";
  lit "(?i)пре (\d+[.,]?\d*) секунд";
  lit "(?i)пре (\d+[.,]?\d*) секунди";
  lit "(?i)ꮎꮏ (\d+[.,]?\d*) ꭰꮞꮲ";
  lit "(?i)ꮎꮏ (\d+[.,]?\d*) ꭲᏻꮎꮩꮣꮖꮝꮧ";
  lit "(?i)ꮎꮏ (\d+[.,]?\d*) ꭲᏻꮎꮩꮣꮖꮝꮧ ꮵꭸꮢ";
  lit "(?i)ꮎꮏ (\d+[.,]?\d*) ꭲᏻꮯꮆꮣ";
  lit "(?i)ꮎꮏ (\d+[.,]?\d*) ꭲꭶ";
  lit "(?i)ꮎꮏ (\d+[.,]?\d*) ꭲꮷꮥꮨᏼꮜꮧꮢꭲ";
  lit "(?i)ꮎꮏ (\d+[.,]?\d*) ꭲꮿꮤ";
  lit "(?i)ꮎꮏ (\d+[.,]?\d*) ꭲꮿꮤ ꮵꭸꮢ";
  lit "(?i)ꮎꮏ (\d+[.,]?\d*) ꭲꮿꮤꮼꮝꮤꮕ";
  lit "(?i)ꮎꮏ (\d+[.,]?\d*) ꭲꮿꮤꮼꮝꮤꮕ ꮵꭸꮢ";
  lit "(?i)ꮎꮏ (\d+[.,]?\d*) ꭴꮥ";
  lit "(?i)ꮎꮏ (\d+[.,]?\d*) ꭴꮥ ꮵꭸꮢ";
  lit "(?i)ꮎꮏ (\d+[.,]?\d*) ꭴꮥꮨᏼꮜꮧꮢꭲ";
  lit "(?i)ꮎꮏ (\d+[.,]?\d*) ꭷꮈ";
  lit "(?i)ꮎꮏ (\d+[.,]?\d*) ꭷꮈ ꮵꭸꮢ";
  lit "(?i)ꮎꮏ (\d+[.,]?\d*) ꭷꮈꭲ";
  lit "(?i)ꮎꮏ (\d+[.,]?\d*) ꭷꮈꭲ ꮵꭸꮢ";
  lit "(?i)ꮎꮏ (\d+[.,]?\d*) ꭿꮈꮝꭹ ꮷꮢꭿꮫ";
  lit "(?i)ꮎꮏ (\d+[.,]?\d*) ꮡꮯ";
  lit "(?i)ꮎꮏ (\d+[.,]?\d*) ꮡꮯ ꮵꭸꮢ";
  lit "(?i)ꮎꮏ (\d+[.,]?\d*) ꮡꮯꮆꮣ";
  lit "(?i)ꮎꮏ (\d+[.,]?\d*) ꮢꮎ";
  lit "(?i)ꮎꮏ (\d+[.,]?\d*) ꮢꮎ ꮵꭸꮢ";
  lit "(?i)ꮎꮏ (\d+[.,]?\d*) ꮢꮎꮩꮣꮖꮝꮧ";
  lit "(?i)ꮎꮏ (\d+[.,]?\d*) ꮢꮎꮩꮣꮖꮝꮧ ꮵꭸꮢ";
  lit "(?i)ꮎꮏ (\d+[.,]?\d*) ꮣꮣꮎꮹꮝꭼ ꮵꭸꮢ";
  lit "(?i)ꮎꮏ (\d+[.,]?\d*) ꮧꭷꮈꭲ";
  lit "(?i)ꮎꮏ (\d+[.,]?\d*) ꮧꭷꮈꭲ ꮵꭸꮢ"] = true.
Proof. vm_compute. reflexivity. Qed.

Definition table_02 : list (str * locale) :=
  [(lit "bn", loc_bn);
   (lit "bn-IN", loc_bn_IN);
   (lit "bo", loc_bo);
   (lit "bo-IN", loc_bo_IN);
   (lit "br", loc_br);
   (lit "brx", loc_brx);
   (lit "bs-Cyrl", loc_bs_Cyrl);
   (lit "bs-Latn", loc_bs_Latn);
   (lit "bs", loc_bs);
   (lit "ca", loc_ca);
   (lit "ca-AD", loc_ca_AD);
   (lit "ca-FR", loc_ca_FR);
   (lit "ca-IT", loc_ca_IT);
   (lit "ce", loc_ce);
   (lit "cgg", loc_cgg);
   (lit "chr", loc_chr);
   (lit "ckb", loc_ckb);
   (lit "ckb-IR", loc_ckb_IR);
   (lit "cs", loc_cs);
   (lit "cy", loc_cy);
   (lit "da", loc_da);
   (lit "da-GL", loc_da_GL);
   (lit "dav", loc_dav)].

(** each region with its language *)
Definition regions_02 : list (str * str) :=
  [(lit "bn-IN", lit "bn");
   (lit "bo-IN", lit "bo");
   (lit "ca-AD", lit "ca");
   (lit "ca-FR", lit "ca");
   (lit "ca-IT", lit "ca");
   (lit "ckb-IR", lit "ckb");
   (lit "da-GL", lit "da")].
