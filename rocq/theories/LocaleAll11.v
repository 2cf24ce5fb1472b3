(** Generated by tools/gen_all_locales.py from /repo/internal/data. Do not edit. *)
From Verif Require Import GoBase SMap Regex Language LocaleData.

(** so.go:13-102 *)
Definition loc_so : locale := Eval vm_compute in
  {| ld_name := lit "so"; ld_order := lit "DMY"; ld_nospacing := false; ld_splitter := 0;
    ld_charset := runes (lit "bcdefghijklnorstuwxyz");
    ld_abbr := [];
    ld_simpl := [];
    ld_trans := [(lit "bisha laba iyo tobnaad", [lit "december"]);
    (lit "bisha kow iyo tobnaad", [lit "november"]);
    (lit "bisha saddexaad", [lit "march"]);
    (lit "bisha sagaalaad", [lit "september"]);
    (lit "bisha sideedaad", [lit "august"]);
    (lit "bisha todobaad", [lit "july"]);
    (lit "bisha koobaad", [lit "january"]);
    (lit "bisha shanaad", [lit "may"]);
    (lit "bisha tobnaad", [lit "october"]);
    (lit "bisha afraad", [lit "april"]);
    (lit "bisha labaad", [lit "february"]);
    (lit "bisha lixaad", [lit "june"]);
    (lit "khamiis", [lit "thursday"]);
    (lit "talaado", [lit "tuesday"]);
    (lit "arbaco", [lit "wednesday"]);
    (lit "isniin", [lit "monday"]);
    (lit "minute", [lit "minute"]);
    (lit "second", [lit "second"]);
    (lit "jimco", [lit "friday"]);
    (lit "month", [lit "month"]);
    (lit "sabti", [lit "saturday"]);
    (lit "axad", [lit "sunday"]);
    (lit "hour", [lit "hour"]);
    (lit "week", [lit "week"]);
    (lit "year", [lit "year"]);
    (lit "afr", [lit "april"]);
    (lit "arb", [lit "wednesday"]);
    (lit "axd", [lit "sunday"]);
    (lit "day", [lit "day"]);
    (lit "gmt", [lit "gmt"]);
    (lit "isn", [lit "monday"]);
    (lit "jim", [lit "friday"]);
    (lit "kha", [lit "thursday"]);
    (lit "kit", [lit "november"]);
    (lit "kob", [lit "january"]);
    (lit "lab", [lit "february"]);
    (lit "lit", [lit "december"]);
    (lit "lix", [lit "june"]);
    (lit "sab", [lit "saturday"]);
    (lit "sad", [lit "march"]);
    (lit "sag", [lit "september"]);
    (lit "sha", [lit "may"]);
    (lit "sid", [lit "august"]);
    (lit "tal", [lit "tuesday"]);
    (lit "tob", [lit "october"]);
    (lit "tod", [lit "july"]);
    (lit "utc", [lit "utc"]);
    (lit "am", [lit "am"]);
    (lit "gn", [lit "pm"]);
    (lit "pm", [lit "pm"]);
    (lit "sn", [lit "am"]);
    (lit " ", [lit " "]);
    (lit "'", [lit ""]);
    (lit "+", [lit "+"]);
    (lit ",", [lit ""]);
    (lit "-", [lit "-"]);
    (lit ".", [lit "."]);
    (lit "/", [lit "/"]);
    (lit ":", [lit ":"]);
    (lit ";", [lit ""]);
    (lit "@", [lit ""]);
    (lit "[", [lit ""]);
    (lit "]", [lit ""]);
    (lit "z", [lit "z"]);
    (lit "|", [lit ""])];
    ld_reltype := [(lit "this minute", lit "0 minute ago");
    (lit "last month", lit "1 month ago");
    (lit "next month", lit "in 1 month");
    (lit "this month", lit "0 month ago");
    (lit "last week", lit "1 week ago");
    (lit "last year", lit "1 year ago");
    (lit "next week", lit "in 1 week");
    (lit "next year", lit "in 1 year");
    (lit "this hour", lit "0 hour ago");
    (lit "this week", lit "0 week ago");
    (lit "this year", lit "0 year ago");
    (lit "maanta", lit "0 day ago");
    (lit "shalay", lit "1 day ago");
    (lit "berri", lit "in 1 day");
    (lit "now", lit "0 second ago")];
    ld_relrx := [];
    ld_rx := None;
    ld_rx_exact := None;
    ld_known := [lit "bisha laba iyo tobnaad";
    lit "bisha kow iyo tobnaad";
    lit "bisha saddexaad";
    lit "bisha sagaalaad";
    lit "bisha sideedaad";
    lit "bisha todobaad";
    lit "bisha koobaad";
    lit "bisha shanaad";
    lit "bisha tobnaad";
    lit "bisha afraad";
    lit "bisha labaad";
    lit "bisha lixaad";
    lit "this minute";
    lit "last month";
    lit "next month";
    lit "this month";
    lit "last week";
    lit "last year";
    lit "next week";
    lit "next year";
    lit "this hour";
    lit "this week";
    lit "this year";
    lit "khamiis";
    lit "talaado";
    lit "arbaco";
    lit "isniin";
    lit "maanta";
    lit "minute";
    lit "second";
    lit "shalay";
    lit "berri";
    lit "jimco";
    lit "month";
    lit "sabti";
    lit "axad";
    lit "hour";
    lit "week";
    lit "year";
    lit "afr";
    lit "arb";
    lit "axd";
    lit "day";
    lit "gmt";
    lit "isn";
    lit "jim";
    lit "kha";
    lit "kit";
    lit "kob";
    lit "lab";
    lit "lit";
    lit "lix";
    lit "now";
    lit "sab";
    lit "sad";
    lit "sag";
    lit "sha";
    lit "sid";
    lit "tal";
    lit "tob";
    lit "tod";
    lit "utc";
    lit "am";
    lit "gn";
    lit "pm";
    lit "sn";
    lit " ";
    lit "'";
    lit "+";
    lit ",";
    lit "-";
    lit ".";
    lit "/";
    lit ":";
    lit ";";
    lit "@";
    lit "[";
    lit "]";
    lit "z";
    lit "|"] |}.

(** so.go:104-107 *)
Definition own_so_DJ : locale := Eval vm_compute in
  {| ld_name := lit "so-DJ"; ld_order := lit "DMY"; ld_nospacing := false; ld_splitter := 0;
    ld_charset := runes (lit "");
    ld_abbr := [];
    ld_simpl := [];
    ld_trans := [];
    ld_reltype := [];
    ld_relrx := [];
    ld_rx := None;
    ld_rx_exact := None;
    ld_known := [] |}.
Definition loc_so_DJ : locale := merge loc_so own_so_DJ.

(** so.go:109-112 *)
Definition own_so_ET : locale := Eval vm_compute in
  {| ld_name := lit "so-ET"; ld_order := lit "DMY"; ld_nospacing := false; ld_splitter := 0;
    ld_charset := runes (lit "");
    ld_abbr := [];
    ld_simpl := [];
    ld_trans := [];
    ld_reltype := [];
    ld_relrx := [];
    ld_rx := None;
    ld_rx_exact := None;
    ld_known := [] |}.
Definition loc_so_ET : locale := merge loc_so own_so_ET.

(** so.go:114-117 *)
Definition own_so_KE : locale := Eval vm_compute in
  {| ld_name := lit "so-KE"; ld_order := lit "DMY"; ld_nospacing := false; ld_splitter := 0;
    ld_charset := runes (lit "");
    ld_abbr := [];
    ld_simpl := [];
    ld_trans := [];
    ld_reltype := [];
    ld_relrx := [];
    ld_rx := None;
    ld_rx_exact := None;
    ld_known := [] |}.
Definition loc_so_KE : locale := merge loc_so own_so_KE.

(** sq.go:14-136 *)
Definition loc_sq : locale := Eval vm_compute in
  {| ld_name := lit "sq"; ld_order := lit "DMY"; ld_nospacing := false; ld_splitter := 0;
    ld_charset := runes (lit "cdeghijklnorstuvzë");
    ld_abbr := [];
    ld_simpl := [];
    ld_trans := [(lit "e paradites", [lit "am"]);
    (lit "e pasdites", [lit "pm"]);
    (lit "e merkure", [lit "wednesday"]);
    (lit "e premte", [lit "friday"]);
    (lit "e shtune", [lit "saturday"]);
    (lit "paradite", [lit "am"]);
    (lit "dhjetor", [lit "december"]);
    (lit "e enjte", [lit "thursday"]);
    (lit "e marte", [lit "tuesday"]);
    (lit "pasdite", [lit "pm"]);
    (lit "qershor", [lit "june"]);
    (lit "sekonde", [lit "second"]);
    (lit "shtator", [lit "september"]);
    (lit "e diel", [lit "sunday"]);
    (lit "e hene", [lit "monday"]);
    (lit "korrik", [lit "july"]);
    (lit "minute", [lit "minute"]);
    (lit "nentor", [lit "november"]);
    (lit "shkurt", [lit "february"]);
    (lit "gusht", [lit "august"]);
    (lit "janar", [lit "january"]);
    (lit "prill", [lit "april"]);
    (lit "tetor", [lit "october"]);
    (lit "dite", [lit "day"]);
    (lit "jave", [lit "week"]);
    (lit "mars", [lit "march"]);
    (lit "muaj", [lit "month"]);
    (lit "dhj", [lit "december"]);
    (lit "die", [lit "sunday"]);
    (lit "enj", [lit "thursday"]);
    (lit "gmt", [lit "gmt"]);
    (lit "gsh", [lit "august"]);
    (lit "hen", [lit "monday"]);
    (lit "jan", [lit "january"]);
    (lit "kor", [lit "july"]);
    (lit "maj", [lit "may"]);
    (lit "mar", [lit "march"; lit "tuesday"]);
    (lit "mer", [lit "wednesday"]);
    (lit "min", [lit "minute"]);
    (lit "nen", [lit "november"]);
    (lit "ore", [lit "hour"]);
    (lit "pre", [lit "friday"]);
    (lit "pri", [lit "april"]);
    (lit "qer", [lit "june"]);
    (lit "sek", [lit "second"]);
    (lit "shk", [lit "february"]);
    (lit "sht", [lit "saturday"; lit "september"]);
    (lit "tet", [lit "october"]);
    (lit "utc", [lit "utc"]);
    (lit "vit", [lit "year"]);
    (lit "am", [lit "am"]);
    (lit "pm", [lit "pm"]);
    (lit " ", [lit " "]);
    (lit "'", [lit ""]);
    (lit "+", [lit "+"]);
    (lit ",", [lit ""]);
    (lit "-", [lit "-"]);
    (lit ".", [lit "."]);
    (lit "/", [lit "/"]);
    (lit ":", [lit ":"]);
    (lit ";", [lit ""]);
    (lit "@", [lit ""]);
    (lit "[", [lit ""]);
    (lit "]", [lit ""]);
    (lit "z", [lit "z"]);
    (lit "|", [lit ""])];
    ld_reltype := [(lit "muajin e ardhshem", lit "in 1 month");
    (lit "javen e ardhshme", lit "in 1 week");
    (lit "vitin e ardhshem", lit "in 1 year");
    (lit "muajin e kaluar", lit "1 month ago");
    (lit "javen e kaluar", lit "1 week ago");
    (lit "vitin e kaluar", lit "1 year ago");
    (lit "kete minute", lit "0 minute ago");
    (lit "kete jave", lit "0 week ago");
    (lit "kete muaj", lit "0 month ago");
    (lit "kete ore", lit "0 hour ago");
    (lit "kete vit", lit "0 year ago");
    (lit "neser", lit "in 1 day");
    (lit "tani", lit "0 second ago");
    (lit "dje", lit "1 day ago");
    (lit "sot", lit "0 day ago")];
    ld_relrx := [(rx "(?i)(\d+[.,]?\d*) sekonda me pare", lit "$1 second ago");
    (rx "(?i)(\d+[.,]?\d*) sekonde me pare", lit "$1 second ago");
    (rx "(?i)(\d+[.,]?\d*) minuta me pare", lit "$1 minute ago");
    (rx "(?i)(\d+[.,]?\d*) minute me pare", lit "$1 minute ago");
    (rx "(?i)pas (\d+[.,]?\d*) sekondash", lit "in $1 second");
    (rx "(?i)(\d+[.,]?\d*) dite me pare", lit "$1 day ago");
    (rx "(?i)(\d+[.,]?\d*) jave me pare", lit "$1 week ago");
    (rx "(?i)(\d+[.,]?\d*) muaj me pare", lit "$1 month ago");
    (rx "(?i)(\d+[.,]?\d*) vjet me pare", lit "$1 year ago");
    (rx "(?i)pas (\d+[.,]?\d*) minutash", lit "in $1 minute");
    (rx "(?i)(\d+[.,]?\d*) min me pare", lit "$1 minute ago");
    (rx "(?i)(\d+[.,]?\d*) ore me pare", lit "$1 hour ago");
    (rx "(?i)(\d+[.,]?\d*) sek me pare", lit "$1 second ago");
    (rx "(?i)(\d+[.,]?\d*) vit me pare", lit "$1 year ago");
    (rx "(?i)pas (\d+[.,]?\d*) sekonde", lit "in $1 second");
    (rx "(?i)pas (\d+[.,]?\d*) vjetesh", lit "in $1 year");
    (rx "(?i)pas (\d+[.,]?\d*) ditesh", lit "in $1 day");
    (rx "(?i)pas (\d+[.,]?\d*) javesh", lit "in $1 week");
    (rx "(?i)pas (\d+[.,]?\d*) minute", lit "in $1 minute");
    (rx "(?i)pas (\d+[.,]?\d*) muajsh", lit "in $1 month");
    (rx "(?i)pas (\d+[.,]?\d*) muaji", lit "in $1 month");
    (rx "(?i)pas (\d+[.,]?\d*) oresh", lit "in $1 hour");
    (rx "(?i)pas (\d+[.,]?\d*) dite", lit "in $1 day");
    (rx "(?i)pas (\d+[.,]?\d*) jave", lit "in $1 week");
    (rx "(?i)pas (\d+[.,]?\d*) viti", lit "in $1 year");
    (rx "(?i)pas (\d+[.,]?\d*) min", lit "in $1 minute");
    (rx "(?i)pas (\d+[.,]?\d*) ore", lit "in $1 hour");
    (rx "(?i)pas (\d+[.,]?\d*) sek", lit "in $1 second")];
    ld_rx := Some (rx "(?i)(\A|[^\pL\pM\d]|_)(\d+[.,]?\d* sekonda me pare|\d+[.,]?\d* sekonde me pare|\d+[.,]?\d* minuta me pare|\d+[.,]?\d* minute me pare|pas \d+[.,]?\d* sekondash|\d+[.,]?\d* dite me pare|\d+[.,]?\d* jave me pare|\d+[.,]?\d* muaj me pare|\d+[.,]?\d* vjet me pare|pas \d+[.,]?\d* minutash|\d+[.,]?\d* min me pare|\d+[.,]?\d* ore me pare|\d+[.,]?\d* sek me pare|\d+[.,]?\d* vit me pare|pas \d+[.,]?\d* sekonde|pas \d+[.,]?\d* vjetesh|pas \d+[.,]?\d* ditesh|pas \d+[.,]?\d* javesh|pas \d+[.,]?\d* minute|pas \d+[.,]?\d* muajsh|pas \d+[.,]?\d* muaji|pas \d+[.,]?\d* oresh|pas \d+[.,]?\d* dite|pas \d+[.,]?\d* jave|pas \d+[.,]?\d* viti|pas \d+[.,]?\d* min|pas \d+[.,]?\d* ore|pas \d+[.,]?\d* sek)(\z|[^\pL\pM\d]|_)");
    ld_rx_exact := Some (rx "(?i)^(\d+[.,]?\d* sekonda me pare|\d+[.,]?\d* sekonde me pare|\d+[.,]?\d* minuta me pare|\d+[.,]?\d* minute me pare|pas \d+[.,]?\d* sekondash|\d+[.,]?\d* dite me pare|\d+[.,]?\d* jave me pare|\d+[.,]?\d* muaj me pare|\d+[.,]?\d* vjet me pare|pas \d+[.,]?\d* minutash|\d+[.,]?\d* min me pare|\d+[.,]?\d* ore me pare|\d+[.,]?\d* sek me pare|\d+[.,]?\d* vit me pare|pas \d+[.,]?\d* sekonde|pas \d+[.,]?\d* vjetesh|pas \d+[.,]?\d* ditesh|pas \d+[.,]?\d* javesh|pas \d+[.,]?\d* minute|pas \d+[.,]?\d* muajsh|pas \d+[.,]?\d* muaji|pas \d+[.,]?\d* oresh|pas \d+[.,]?\d* dite|pas \d+[.,]?\d* jave|pas \d+[.,]?\d* viti|pas \d+[.,]?\d* min|pas \d+[.,]?\d* ore|pas \d+[.,]?\d* sek)$");
    ld_known := [lit "muajin e ardhshem";
    lit "javen e ardhshme";
    lit "vitin e ardhshem";
    lit "muajin e kaluar";
    lit "javen e kaluar";
    lit "vitin e kaluar";
    lit "e paradites";
    lit "kete minute";
    lit "e pasdites";
    lit "e merkure";
    lit "kete jave";
    lit "kete muaj";
    lit "e premte";
    lit "e shtune";
    lit "kete ore";
    lit "kete vit";
    lit "paradite";
    lit "dhjetor";
    lit "e enjte";
    lit "e marte";
    lit "pasdite";
    lit "qershor";
    lit "sekonde";
    lit "shtator";
    lit "e diel";
    lit "e hene";
    lit "korrik";
    lit "minute";
    lit "nentor";
    lit "shkurt";
    lit "gusht";
    lit "janar";
    lit "neser";
    lit "prill";
    lit "tetor";
    lit "dite";
    lit "jave";
    lit "mars";
    lit "muaj";
    lit "tani";
    lit "dhj";
    lit "die";
    lit "dje";
    lit "enj";
    lit "gmt";
    lit "gsh";
    lit "hen";
    lit "jan";
    lit "kor";
    lit "maj";
    lit "mar";
    lit "mer";
    lit "min";
    lit "nen";
    lit "ore";
    lit "pre";
    lit "pri";
    lit "qer";
    lit "sek";
    lit "shk";
    lit "sht";
    lit "sot";
    lit "tet";
    lit "utc";
    lit "vit";
    lit "am";
    lit "pm";
    lit " ";
    lit "'";
    lit "+";
    lit ",";
    lit "-";
    lit ".";
    lit "/";
    lit ":";
    lit ";";
    lit "@";
    lit "[";
    lit "]";
    lit "z";
    lit "|"] |}.

(** sq.go:138-141 *)
Definition own_sq_MK : locale := Eval vm_compute in
  {| ld_name := lit "sq-MK"; ld_order := lit "DMY"; ld_nospacing := false; ld_splitter := 0;
    ld_charset := runes (lit "");
    ld_abbr := [];
    ld_simpl := [];
    ld_trans := [];
    ld_reltype := [];
    ld_relrx := [];
    ld_rx := None;
    ld_rx_exact := None;
    ld_known := [] |}.
Definition loc_sq_MK : locale := merge loc_sq own_sq_MK.

(** sq.go:143-146 *)
Definition own_sq_XK : locale := Eval vm_compute in
  {| ld_name := lit "sq-XK"; ld_order := lit "DMY"; ld_nospacing := false; ld_splitter := 0;
    ld_charset := runes (lit "");
    ld_abbr := [];
    ld_simpl := [];
    ld_trans := [];
    ld_reltype := [];
    ld_relrx := [];
    ld_rx := None;
    ld_rx_exact := None;
    ld_known := [] |}.
Definition loc_sq_XK : locale := merge loc_sq own_sq_XK.

(** sr-cyrl.go:15-162 *)
Definition loc_sr_Cyrl : locale := Eval vm_compute in
  {| ld_name := lit "sr-Cyrl"; ld_order := lit "DMY."; ld_nospacing := false; ld_splitter := 0;
    ld_charset := runes (lit "cgtuzабвгдеиклмнопрстуфцчшјљћ");
    ld_abbr := [];
    ld_simpl := [];
    ld_trans := [(lit "понедељак", [lit "monday"]);
    (lit "пре подне", [lit "am"]);
    (lit "септембар", [lit "september"]);
    (lit "децембар", [lit "december"]);
    (lit "новембар", [lit "november"]);
    (lit "по подне", [lit "pm"]);
    (lit "четвртак", [lit "thursday"]);
    (lit "октобар", [lit "october"]);
    (lit "фебруар", [lit "february"]);
    (lit "август", [lit "august"]);
    (lit "година", [lit "year"]);
    (lit "недеља", [lit "week"; lit "sunday"]);
    (lit "секунд", [lit "second"]);
    (lit "субота", [lit "saturday"]);
    (lit "уторак", [lit "tuesday"]);
    (lit "јануар", [lit "january"]);
    (lit "април", [lit "april"]);
    (lit "месец", [lit "month"]);
    (lit "минут", [lit "minute"]);
    (lit "петак", [lit "friday"]);
    (lit "среда", [lit "wednesday"]);
    (lit "март", [lit "march"]);
    (lit "gmt", [lit "gmt"]);
    (lit "utc", [lit "utc"]);
    (lit "авг", [lit "august"]);
    (lit "апр", [lit "april"]);
    (lit "год", [lit "year"]);
    (lit "дан", [lit "day"]);
    (lit "дец", [lit "december"]);
    (lit "мар", [lit "march"]);
    (lit "мај", [lit "may"]);
    (lit "мес", [lit "month"]);
    (lit "мин", [lit "minute"]);
    (lit "нед", [lit "week"; lit "sunday"]);
    (lit "нов", [lit "november"]);
    (lit "окт", [lit "october"]);
    (lit "пет", [lit "friday"]);
    (lit "пон", [lit "monday"]);
    (lit "сат", [lit "hour"]);
    (lit "сек", [lit "second"]);
    (lit "сеп", [lit "september"]);
    (lit "сре", [lit "wednesday"]);
    (lit "суб", [lit "saturday"]);
    (lit "уто", [lit "tuesday"]);
    (lit "феб", [lit "february"]);
    (lit "чет", [lit "thursday"]);
    (lit "јан", [lit "january"]);
    (lit "јул", [lit "july"]);
    (lit "јун", [lit "june"]);
    (lit "am", [lit "am"]);
    (lit "pm", [lit "pm"]);
    (lit " ", [lit " "]);
    (lit "'", [lit ""]);
    (lit "+", [lit "+"]);
    (lit ",", [lit ""]);
    (lit "-", [lit "-"]);
    (lit ".", [lit "."]);
    (lit "/", [lit "/"]);
    (lit ":", [lit ":"]);
    (lit ";", [lit ""]);
    (lit "@", [lit ""]);
    (lit "[", [lit ""]);
    (lit "]", [lit ""]);
    (lit "z", [lit "z"]);
    (lit "|", [lit ""]);
    (lit "г", [lit "year"]);
    (lit "д", [lit "day"]);
    (lit "м", [lit "month"]);
    (lit "н", [lit "week"]);
    (lit "с", [lit "second"]);
    (lit "ч", [lit "hour"])];
    ld_reltype := [(lit "следећег месеца", lit "in 1 month");
    (lit "прошлог месеца", lit "1 month ago");
    (lit "следеће године", lit "in 1 year");
    (lit "следеће недеље", lit "in 1 week");
    (lit "прошле године", lit "1 year ago");
    (lit "прошле недеље", lit "1 week ago");
    (lit "овог месеца", lit "0 month ago");
    (lit "овог минута", lit "0 minute ago");
    (lit "ове године", lit "0 year ago");
    (lit "ове недеље", lit "0 week ago");
    (lit "овог сата", lit "0 hour ago");
    (lit "данас", lit "0 day ago");
    (lit "сутра", lit "in 1 day");
    (lit "сада", lit "0 second ago");
    (lit "јуче", lit "1 day ago")];
    ld_relrx := [(rx "(?i)пре (\d+[.,]?\d*) секунде", lit "$1 second ago");
    (rx "(?i)пре (\d+[.,]?\d*) секунди", lit "$1 second ago");
    (rx "(?i)за (\d+[.,]?\d*) секунди", lit "in $1 second");
    (rx "(?i)за (\d+[.,]?\d*) секунду", lit "in $1 second");
    (rx "(?i)пре (\d+[.,]?\d*) година", lit "$1 year ago");
    (rx "(?i)пре (\d+[.,]?\d*) године", lit "$1 year ago");
    (rx "(?i)пре (\d+[.,]?\d*) месеца", lit "$1 month ago");
    (rx "(?i)пре (\d+[.,]?\d*) месеци", lit "$1 month ago");
    (rx "(?i)пре (\d+[.,]?\d*) минута", lit "$1 minute ago");
    (rx "(?i)пре (\d+[.,]?\d*) недеља", lit "$1 week ago");
    (rx "(?i)пре (\d+[.,]?\d*) недеље", lit "$1 week ago");
    (rx "(?i)за (\d+[.,]?\d*) година", lit "in $1 year");
    (rx "(?i)за (\d+[.,]?\d*) годину", lit "in $1 year");
    (rx "(?i)за (\d+[.,]?\d*) месеци", lit "in $1 month");
    (rx "(?i)за (\d+[.,]?\d*) минута", lit "in $1 minute");
    (rx "(?i)за (\d+[.,]?\d*) недеља", lit "in $1 week");
    (rx "(?i)за (\d+[.,]?\d*) недељу", lit "in $1 week");
    (rx "(?i)за (\d+[.,]?\d*) месец", lit "in $1 month");
    (rx "(?i)за (\d+[.,]?\d*) минут", lit "in $1 minute");
    (rx "(?i)пре (\d+[.,]?\d*) дана", lit "$1 day ago");
    (rx "(?i)пре (\d+[.,]?\d*) сата", lit "$1 hour ago");
    (rx "(?i)пре (\d+[.,]?\d*) сати", lit "$1 hour ago");
    (rx "(?i)за (\d+[.,]?\d*) дана", lit "in $1 day");
    (rx "(?i)за (\d+[.,]?\d*) сати", lit "in $1 hour");
    (rx "(?i)пре (\d+[.,]?\d*) год", lit "$1 year ago");
    (rx "(?i)пре (\d+[.,]?\d*) мес", lit "$1 month ago");
    (rx "(?i)пре (\d+[.,]?\d*) мин", lit "$1 minute ago");
    (rx "(?i)пре (\d+[.,]?\d*) нед", lit "$1 week ago");
    (rx "(?i)пре (\d+[.,]?\d*) сек", lit "$1 second ago");
    (rx "(?i)за (\d+[.,]?\d*) год", lit "in $1 year");
    (rx "(?i)за (\d+[.,]?\d*) дан", lit "in $1 day");
    (rx "(?i)за (\d+[.,]?\d*) мес", lit "in $1 month");
    (rx "(?i)за (\d+[.,]?\d*) мин", lit "in $1 minute");
    (rx "(?i)за (\d+[.,]?\d*) нед", lit "in $1 week");
    (rx "(?i)за (\d+[.,]?\d*) сат", lit "in $1 hour");
    (rx "(?i)за (\d+[.,]?\d*) сек", lit "in $1 second");
    (rx "(?i)пре (\d+[.,]?\d*) г", lit "$1 year ago");
    (rx "(?i)пре (\d+[.,]?\d*) д", lit "$1 day ago");
    (rx "(?i)пре (\d+[.,]?\d*) м", lit "$1 month ago");
    (rx "(?i)пре (\d+[.,]?\d*) н", lit "$1 week ago");
    (rx "(?i)пре (\d+[.,]?\d*) с", lit "$1 second ago");
    (rx "(?i)пре (\d+[.,]?\d*) ч", lit "$1 hour ago");
    (rx "(?i)за (\d+[.,]?\d*) г", lit "in $1 year");
    (rx "(?i)за (\d+[.,]?\d*) д", lit "in $1 day");
    (rx "(?i)за (\d+[.,]?\d*) м", lit "in $1 month");
    (rx "(?i)за (\d+[.,]?\d*) н", lit "in $1 week");
    (rx "(?i)за (\d+[.,]?\d*) с", lit "in $1 second");
    (rx "(?i)за (\d+[.,]?\d*) ч", lit "in $1 hour")];
    ld_rx := Some (rx "(?i)(\A|[^\pL\pM\d]|_)(пре \d+[.,]?\d* секунде|пре \d+[.,]?\d* секунди|за \d+[.,]?\d* секунди|за \d+[.,]?\d* секунду|пре \d+[.,]?\d* година|пре \d+[.,]?\d* године|пре \d+[.,]?\d* месеца|пре \d+[.,]?\d* месеци|пре \d+[.,]?\d* минута|пре \d+[.,]?\d* недеља|пре \d+[.,]?\d* недеље|за \d+[.,]?\d* година|за \d+[.,]?\d* годину|за \d+[.,]?\d* месеци|за \d+[.,]?\d* минута|за \d+[.,]?\d* недеља|за \d+[.,]?\d* недељу|за \d+[.,]?\d* месец|за \d+[.,]?\d* минут|пре \d+[.,]?\d* дана|пре \d+[.,]?\d* сата|пре \d+[.,]?\d* сати|за \d+[.,]?\d* дана|за \d+[.,]?\d* сати|пре \d+[.,]?\d* год|пре \d+[.,]?\d* мес|пре \d+[.,]?\d* мин|пре \d+[.,]?\d* нед|пре \d+[.,]?\d* сек|за \d+[.,]?\d* год|за \d+[.,]?\d* дан|за \d+[.,]?\d* мес|за \d+[.,]?\d* мин|за \d+[.,]?\d* нед|за \d+[.,]?\d* сат|за \d+[.,]?\d* сек|пре \d+[.,]?\d* г|пре \d+[.,]?\d* д|пре \d+[.,]?\d* м|пре \d+[.,]?\d* н|пре \d+[.,]?\d* с|пре \d+[.,]?\d* ч|за \d+[.,]?\d* г|за \d+[.,]?\d* д|за \d+[.,]?\d* м|за \d+[.,]?\d* н|за \d+[.,]?\d* с|за \d+[.,]?\d* ч)(\z|[^\pL\pM\d]|_)");
    ld_rx_exact := Some (rx "(?i)^(пре \d+[.,]?\d* секунде|пре \d+[.,]?\d* секунди|за \d+[.,]?\d* секунди|за \d+[.,]?\d* секунду|пре \d+[.,]?\d* година|пре \d+[.,]?\d* године|пре \d+[.,]?\d* месеца|пре \d+[.,]?\d* месеци|пре \d+[.,]?\d* минута|пре \d+[.,]?\d* недеља|пре \d+[.,]?\d* недеље|за \d+[.,]?\d* година|за \d+[.,]?\d* годину|за \d+[.,]?\d* месеци|за \d+[.,]?\d* минута|за \d+[.,]?\d* недеља|за \d+[.,]?\d* недељу|за \d+[.,]?\d* месец|за \d+[.,]?\d* минут|пре \d+[.,]?\d* дана|пре \d+[.,]?\d* сата|пре \d+[.,]?\d* сати|за \d+[.,]?\d* дана|за \d+[.,]?\d* сати|пре \d+[.,]?\d* год|пре \d+[.,]?\d* мес|пре \d+[.,]?\d* мин|пре \d+[.,]?\d* нед|пре \d+[.,]?\d* сек|за \d+[.,]?\d* год|за \d+[.,]?\d* дан|за \d+[.,]?\d* мес|за \d+[.,]?\d* мин|за \d+[.,]?\d* нед|за \d+[.,]?\d* сат|за \d+[.,]?\d* сек|пре \d+[.,]?\d* г|пре \d+[.,]?\d* д|пре \d+[.,]?\d* м|пре \d+[.,]?\d* н|пре \d+[.,]?\d* с|пре \d+[.,]?\d* ч|за \d+[.,]?\d* г|за \d+[.,]?\d* д|за \d+[.,]?\d* м|за \d+[.,]?\d* н|за \d+[.,]?\d* с|за \d+[.,]?\d* ч)$");
    ld_known := [lit "следећег месеца";
    lit "прошлог месеца";
    lit "следеће године";
    lit "следеће недеље";
    lit "прошле године";
    lit "прошле недеље";
    lit "овог месеца";
    lit "овог минута";
    lit "ове године";
    lit "ове недеље";
    lit "овог сата";
    lit "понедељак";
    lit "пре подне";
    lit "септембар";
    lit "децембар";
    lit "новембар";
    lit "по подне";
    lit "четвртак";
    lit "октобар";
    lit "фебруар";
    lit "август";
    lit "година";
    lit "недеља";
    lit "секунд";
    lit "субота";
    lit "уторак";
    lit "јануар";
    lit "април";
    lit "данас";
    lit "месец";
    lit "минут";
    lit "петак";
    lit "среда";
    lit "сутра";
    lit "март";
    lit "сада";
    lit "јуче";
    lit "gmt";
    lit "utc";
    lit "авг";
    lit "апр";
    lit "год";
    lit "дан";
    lit "дец";
    lit "мар";
    lit "мај";
    lit "мес";
    lit "мин";
    lit "нед";
    lit "нов";
    lit "окт";
    lit "пет";
    lit "пон";
    lit "сат";
    lit "сек";
    lit "сеп";
    lit "сре";
    lit "суб";
    lit "уто";
    lit "феб";
    lit "чет";
    lit "јан";
    lit "јул";
    lit "јун";
    lit "am";
    lit "pm";
    lit " ";
    lit "'";
    lit "+";
    lit ",";
    lit "-";
    lit ".";
    lit "/";
    lit ":";
    lit ";";
    lit "@";
    lit "[";
    lit "]";
    lit "z";
    lit "|";
    lit "г";
    lit "д";
    lit "м";
    lit "н";
    lit "с";
    lit "ч"] |}.

(** sr-cyrl.go:164-176 *)
Definition own_sr_Cyrl_BA : locale := Eval vm_compute in
  {| ld_name := lit "sr-Cyrl-BA"; ld_order := lit "DMY."; ld_nospacing := false; ld_splitter := 0;
    ld_charset := runes (lit "");
    ld_abbr := [];
    ld_simpl := [];
    ld_trans := [(lit "прије подне", [lit "am"]);
    (lit "недјеља", [lit "sunday"]);
    (lit "сриједа", [lit "wednesday"]);
    (lit "септ", [lit "september"]);
    (lit "ср", [lit "wednesday"]);
    (lit "ут", [lit "tuesday"])];
    ld_reltype := [];
    ld_relrx := [];
    ld_rx := None;
    ld_rx_exact := None;
    ld_known := [lit "следећег месеца";
    lit "прошлог месеца";
    lit "следеће године";
    lit "следеће недеље";
    lit "прошле године";
    lit "прошле недеље";
    lit "овог месеца";
    lit "овог минута";
    lit "прије подне";
    lit "ове године";
    lit "ове недеље";
    lit "овог сата";
    lit "понедељак";
    lit "пре подне";
    lit "септембар";
    lit "децембар";
    lit "новембар";
    lit "по подне";
    lit "четвртак";
    lit "недјеља";
    lit "октобар";
    lit "сриједа";
    lit "фебруар";
    lit "август";
    lit "година";
    lit "недеља";
    lit "секунд";
    lit "субота";
    lit "уторак";
    lit "јануар";
    lit "април";
    lit "данас";
    lit "месец";
    lit "минут";
    lit "петак";
    lit "среда";
    lit "сутра";
    lit "март";
    lit "сада";
    lit "септ";
    lit "јуче";
    lit "gmt";
    lit "utc";
    lit "авг";
    lit "апр";
    lit "год";
    lit "дан";
    lit "дец";
    lit "мар";
    lit "мај";
    lit "мес";
    lit "мин";
    lit "нед";
    lit "нов";
    lit "окт";
    lit "пет";
    lit "пон";
    lit "сат";
    lit "сек";
    lit "сеп";
    lit "сре";
    lit "суб";
    lit "уто";
    lit "феб";
    lit "чет";
    lit "јан";
    lit "јул";
    lit "јун";
    lit "am";
    lit "pm";
    lit "ср";
    lit "ут";
    lit " ";
    lit "'";
    lit "+";
    lit ",";
    lit "-";
    lit ".";
    lit "/";
    lit ":";
    lit ";";
    lit "@";
    lit "[";
    lit "]";
    lit "z";
    lit "|";
    lit "г";
    lit "д";
    lit "м";
    lit "н";
    lit "с";
    lit "ч"] |}.
Definition loc_sr_Cyrl_BA : locale := merge loc_sr_Cyrl own_sr_Cyrl_BA.

(** sr-cyrl.go:178-190 *)
Definition own_sr_Cyrl_ME : locale := Eval vm_compute in
  {| ld_name := lit "sr-Cyrl-ME"; ld_order := lit "DMY."; ld_nospacing := false; ld_splitter := 0;
    ld_charset := runes (lit "");
    ld_abbr := [];
    ld_simpl := [];
    ld_trans := [(lit "прије подне", [lit "am"]);
    (lit "недјеља", [lit "sunday"]);
    (lit "сриједа", [lit "wednesday"]);
    (lit "септ", [lit "september"]);
    (lit "ср", [lit "wednesday"]);
    (lit "ут", [lit "tuesday"])];
    ld_reltype := [];
    ld_relrx := [];
    ld_rx := None;
    ld_rx_exact := None;
    ld_known := [lit "следећег месеца";
    lit "прошлог месеца";
    lit "следеће године";
    lit "следеће недеље";
    lit "прошле године";
    lit "прошле недеље";
    lit "овог месеца";
    lit "овог минута";
    lit "прије подне";
    lit "ове године";
    lit "ове недеље";
    lit "овог сата";
    lit "понедељак";
    lit "пре подне";
    lit "септембар";
    lit "децембар";
    lit "новембар";
    lit "по подне";
    lit "четвртак";
    lit "недјеља";
    lit "октобар";
    lit "сриједа";
    lit "фебруар";
    lit "август";
    lit "година";
    lit "недеља";
    lit "секунд";
    lit "субота";
    lit "уторак";
    lit "јануар";
    lit "април";
    lit "данас";
    lit "месец";
    lit "минут";
    lit "петак";
    lit "среда";
    lit "сутра";
    lit "март";
    lit "сада";
    lit "септ";
    lit "јуче";
    lit "gmt";
    lit "utc";
    lit "авг";
    lit "апр";
    lit "год";
    lit "дан";
    lit "дец";
    lit "мар";
    lit "мај";
    lit "мес";
    lit "мин";
    lit "нед";
    lit "нов";
    lit "окт";
    lit "пет";
    lit "пон";
    lit "сат";
    lit "сек";
    lit "сеп";
    lit "сре";
    lit "суб";
    lit "уто";
    lit "феб";
    lit "чет";
    lit "јан";
    lit "јул";
    lit "јун";
    lit "am";
    lit "pm";
    lit "ср";
    lit "ут";
    lit " ";
    lit "'";
    lit "+";
    lit ",";
    lit "-";
    lit ".";
    lit "/";
    lit ":";
    lit ";";
    lit "@";
    lit "[";
    lit "]";
    lit "z";
    lit "|";
    lit "г";
    lit "д";
    lit "м";
    lit "н";
    lit "с";
    lit "ч"] |}.
Definition loc_sr_Cyrl_ME : locale := merge loc_sr_Cyrl own_sr_Cyrl_ME.

(** sr-cyrl.go:192-201 *)
Definition own_sr_Cyrl_XK : locale := Eval vm_compute in
  {| ld_name := lit "sr-Cyrl-XK"; ld_order := lit "DMY."; ld_nospacing := false; ld_splitter := 0;
    ld_charset := runes (lit "");
    ld_abbr := [];
    ld_simpl := [];
    ld_trans := [(lit "септ", [lit "september"]);
    (lit "ср", [lit "wednesday"]);
    (lit "ут", [lit "tuesday"])];
    ld_reltype := [];
    ld_relrx := [];
    ld_rx := None;
    ld_rx_exact := None;
    ld_known := [lit "следећег месеца";
    lit "прошлог месеца";
    lit "следеће године";
    lit "следеће недеље";
    lit "прошле године";
    lit "прошле недеље";
    lit "овог месеца";
    lit "овог минута";
    lit "ове године";
    lit "ове недеље";
    lit "овог сата";
    lit "понедељак";
    lit "пре подне";
    lit "септембар";
    lit "децембар";
    lit "новембар";
    lit "по подне";
    lit "четвртак";
    lit "октобар";
    lit "фебруар";
    lit "август";
    lit "година";
    lit "недеља";
    lit "секунд";
    lit "субота";
    lit "уторак";
    lit "јануар";
    lit "април";
    lit "данас";
    lit "месец";
    lit "минут";
    lit "петак";
    lit "среда";
    lit "сутра";
    lit "март";
    lit "сада";
    lit "септ";
    lit "јуче";
    lit "gmt";
    lit "utc";
    lit "авг";
    lit "апр";
    lit "год";
    lit "дан";
    lit "дец";
    lit "мар";
    lit "мај";
    lit "мес";
    lit "мин";
    lit "нед";
    lit "нов";
    lit "окт";
    lit "пет";
    lit "пон";
    lit "сат";
    lit "сек";
    lit "сеп";
    lit "сре";
    lit "суб";
    lit "уто";
    lit "феб";
    lit "чет";
    lit "јан";
    lit "јул";
    lit "јун";
    lit "am";
    lit "pm";
    lit "ср";
    lit "ут";
    lit " ";
    lit "'";
    lit "+";
    lit ",";
    lit "-";
    lit ".";
    lit "/";
    lit ":";
    lit ";";
    lit "@";
    lit "[";
    lit "]";
    lit "z";
    lit "|";
    lit "г";
    lit "д";
    lit "м";
    lit "н";
    lit "с";
    lit "ч"] |}.
Definition loc_sr_Cyrl_XK : locale := merge loc_sr_Cyrl own_sr_Cyrl_XK.

(** sr-latn.go:15-162 *)
Definition loc_sr_Latn : locale := Eval vm_compute in
  {| ld_name := lit "sr-Latn"; ld_order := lit "DMY."; ld_nospacing := false; ld_splitter := 0;
    ld_charset := runes (lit "bcdefgijklnorstuvzćčš");
    ld_abbr := [];
    ld_simpl := [];
    ld_trans := [(lit "ponedeljak", [lit "monday"]);
    (lit "pre podne", [lit "am"]);
    (lit "septembar", [lit "september"]);
    (lit "cetvrtak", [lit "thursday"]);
    (lit "decembar", [lit "december"]);
    (lit "novembar", [lit "november"]);
    (lit "po podne", [lit "pm"]);
    (lit "februar", [lit "february"]);
    (lit "nedelja", [lit "week"; lit "sunday"]);
    (lit "oktobar", [lit "october"]);
    (lit "avgust", [lit "august"]);
    (lit "godina", [lit "year"]);
    (lit "januar", [lit "january"]);
    (lit "sekund", [lit "second"]);
    (lit "subota", [lit "saturday"]);
    (lit "utorak", [lit "tuesday"]);
    (lit "april", [lit "april"]);
    (lit "mesec", [lit "month"]);
    (lit "minut", [lit "minute"]);
    (lit "petak", [lit "friday"]);
    (lit "sreda", [lit "wednesday"]);
    (lit "mart", [lit "march"]);
    (lit "apr", [lit "april"]);
    (lit "avg", [lit "august"]);
    (lit "cet", [lit "thursday"]);
    (lit "dan", [lit "day"]);
    (lit "dec", [lit "december"]);
    (lit "feb", [lit "february"]);
    (lit "gmt", [lit "gmt"]);
    (lit "god", [lit "year"]);
    (lit "jan", [lit "january"]);
    (lit "jul", [lit "july"]);
    (lit "jun", [lit "june"]);
    (lit "maj", [lit "may"]);
    (lit "mar", [lit "march"]);
    (lit "mes", [lit "month"]);
    (lit "min", [lit "minute"]);
    (lit "ned", [lit "week"; lit "sunday"]);
    (lit "nov", [lit "november"]);
    (lit "okt", [lit "october"]);
    (lit "pet", [lit "friday"]);
    (lit "pon", [lit "monday"]);
    (lit "sat", [lit "hour"]);
    (lit "sek", [lit "second"]);
    (lit "sep", [lit "september"]);
    (lit "sre", [lit "wednesday"]);
    (lit "sub", [lit "saturday"]);
    (lit "utc", [lit "utc"]);
    (lit "uto", [lit "tuesday"]);
    (lit "am", [lit "am"]);
    (lit "pm", [lit "pm"]);
    (lit " ", [lit " "]);
    (lit "'", [lit ""]);
    (lit "+", [lit "+"]);
    (lit ",", [lit ""]);
    (lit "-", [lit "-"]);
    (lit ".", [lit "."]);
    (lit "/", [lit "/"]);
    (lit ":", [lit ":"]);
    (lit ";", [lit ""]);
    (lit "@", [lit ""]);
    (lit "[", [lit ""]);
    (lit "]", [lit ""]);
    (lit "c", [lit "hour"]);
    (lit "d", [lit "day"]);
    (lit "g", [lit "year"]);
    (lit "m", [lit "month"]);
    (lit "n", [lit "week"]);
    (lit "s", [lit "second"]);
    (lit "z", [lit "z"]);
    (lit "|", [lit ""])];
    ld_reltype := [(lit "sledece nedelje", lit "in 1 week");
    (lit "sledeceg meseca", lit "in 1 month");
    (lit "prosle nedelje", lit "1 week ago");
    (lit "proslog meseca", lit "1 month ago");
    (lit "sledece godine", lit "in 1 year");
    (lit "prosle godine", lit "1 year ago");
    (lit "ove nedelje", lit "0 week ago");
    (lit "ovog meseca", lit "0 month ago");
    (lit "ovog minuta", lit "0 minute ago");
    (lit "ove godine", lit "0 year ago");
    (lit "ovog sata", lit "0 hour ago");
    (lit "danas", lit "0 day ago");
    (lit "sutra", lit "in 1 day");
    (lit "juce", lit "1 day ago");
    (lit "sada", lit "0 second ago")];
    ld_relrx := [(rx "(?i)pre (\d+[.,]?\d*) nedelja", lit "$1 week ago");
    (rx "(?i)pre (\d+[.,]?\d*) nedelje", lit "$1 week ago");
    (rx "(?i)pre (\d+[.,]?\d*) sekunde", lit "$1 second ago");
    (rx "(?i)pre (\d+[.,]?\d*) sekundi", lit "$1 second ago");
    (rx "(?i)pre (\d+[.,]?\d*) godina", lit "$1 year ago");
    (rx "(?i)pre (\d+[.,]?\d*) godine", lit "$1 year ago");
    (rx "(?i)pre (\d+[.,]?\d*) meseca", lit "$1 month ago");
    (rx "(?i)pre (\d+[.,]?\d*) meseci", lit "$1 month ago");
    (rx "(?i)pre (\d+[.,]?\d*) minuta", lit "$1 minute ago");
    (rx "(?i)za (\d+[.,]?\d*) nedelja", lit "in $1 week");
    (rx "(?i)za (\d+[.,]?\d*) nedelju", lit "in $1 week");
    (rx "(?i)za (\d+[.,]?\d*) sekundi", lit "in $1 second");
    (rx "(?i)za (\d+[.,]?\d*) sekundu", lit "in $1 second");
    (rx "(?i)za (\d+[.,]?\d*) godina", lit "in $1 year");
    (rx "(?i)za (\d+[.,]?\d*) godinu", lit "in $1 year");
    (rx "(?i)za (\d+[.,]?\d*) meseci", lit "in $1 month");
    (rx "(?i)za (\d+[.,]?\d*) minuta", lit "in $1 minute");
    (rx "(?i)pre (\d+[.,]?\d*) dana", lit "$1 day ago");
    (rx "(?i)pre (\d+[.,]?\d*) sata", lit "$1 hour ago");
    (rx "(?i)pre (\d+[.,]?\d*) sati", lit "$1 hour ago");
    (rx "(?i)za (\d+[.,]?\d*) mesec", lit "in $1 month");
    (rx "(?i)za (\d+[.,]?\d*) minut", lit "in $1 minute");
    (rx "(?i)pre (\d+[.,]?\d*) god", lit "$1 year ago");
    (rx "(?i)pre (\d+[.,]?\d*) mes", lit "$1 month ago");
    (rx "(?i)pre (\d+[.,]?\d*) min", lit "$1 minute ago");
    (rx "(?i)pre (\d+[.,]?\d*) ned", lit "$1 week ago");
    (rx "(?i)pre (\d+[.,]?\d*) sek", lit "$1 second ago");
    (rx "(?i)za (\d+[.,]?\d*) dana", lit "in $1 day");
    (rx "(?i)za (\d+[.,]?\d*) sati", lit "in $1 hour");
    (rx "(?i)za (\d+[.,]?\d*) dan", lit "in $1 day");
    (rx "(?i)za (\d+[.,]?\d*) god", lit "in $1 year");
    (rx "(?i)za (\d+[.,]?\d*) mes", lit "in $1 month");
    (rx "(?i)za (\d+[.,]?\d*) min", lit "in $1 minute");
    (rx "(?i)za (\d+[.,]?\d*) ned", lit "in $1 week");
    (rx "(?i)za (\d+[.,]?\d*) sat", lit "in $1 hour");
    (rx "(?i)za (\d+[.,]?\d*) sek", lit "in $1 second");
    (rx "(?i)pre (\d+[.,]?\d*) c", lit "$1 hour ago");
    (rx "(?i)pre (\d+[.,]?\d*) d", lit "$1 day ago");
    (rx "(?i)pre (\d+[.,]?\d*) g", lit "$1 year ago");
    (rx "(?i)pre (\d+[.,]?\d*) m", lit "$1 month ago");
    (rx "(?i)pre (\d+[.,]?\d*) n", lit "$1 week ago");
    (rx "(?i)pre (\d+[.,]?\d*) s", lit "$1 second ago");
    (rx "(?i)za (\d+[.,]?\d*) c", lit "in $1 hour");
    (rx "(?i)za (\d+[.,]?\d*) d", lit "in $1 day");
    (rx "(?i)za (\d+[.,]?\d*) g", lit "in $1 year");
    (rx "(?i)za (\d+[.,]?\d*) m", lit "in $1 month");
    (rx "(?i)za (\d+[.,]?\d*) n", lit "in $1 week");
    (rx "(?i)za (\d+[.,]?\d*) s", lit "in $1 second")];
    ld_rx := Some (rx "(?i)(\A|[^\pL\pM\d]|_)(pre \d+[.,]?\d* nedelja|pre \d+[.,]?\d* nedelje|pre \d+[.,]?\d* sekunde|pre \d+[.,]?\d* sekundi|pre \d+[.,]?\d* godina|pre \d+[.,]?\d* godine|pre \d+[.,]?\d* meseca|pre \d+[.,]?\d* meseci|pre \d+[.,]?\d* minuta|za \d+[.,]?\d* nedelja|za \d+[.,]?\d* nedelju|za \d+[.,]?\d* sekundi|za \d+[.,]?\d* sekundu|za \d+[.,]?\d* godina|za \d+[.,]?\d* godinu|za \d+[.,]?\d* meseci|za \d+[.,]?\d* minuta|pre \d+[.,]?\d* dana|pre \d+[.,]?\d* sata|pre \d+[.,]?\d* sati|za \d+[.,]?\d* mesec|za \d+[.,]?\d* minut|pre \d+[.,]?\d* god|pre \d+[.,]?\d* mes|pre \d+[.,]?\d* min|pre \d+[.,]?\d* ned|pre \d+[.,]?\d* sek|za \d+[.,]?\d* dana|za \d+[.,]?\d* sati|za \d+[.,]?\d* dan|za \d+[.,]?\d* god|za \d+[.,]?\d* mes|za \d+[.,]?\d* min|za \d+[.,]?\d* ned|za \d+[.,]?\d* sat|za \d+[.,]?\d* sek|pre \d+[.,]?\d* c|pre \d+[.,]?\d* d|pre \d+[.,]?\d* g|pre \d+[.,]?\d* m|pre \d+[.,]?\d* n|pre \d+[.,]?\d* s|za \d+[.,]?\d* c|za \d+[.,]?\d* d|za \d+[.,]?\d* g|za \d+[.,]?\d* m|za \d+[.,]?\d* n|za \d+[.,]?\d* s)(\z|[^\pL\pM\d]|_)");
    ld_rx_exact := Some (rx "(?i)^(pre \d+[.,]?\d* nedelja|pre \d+[.,]?\d* nedelje|pre \d+[.,]?\d* sekunde|pre \d+[.,]?\d* sekundi|pre \d+[.,]?\d* godina|pre \d+[.,]?\d* godine|pre \d+[.,]?\d* meseca|pre \d+[.,]?\d* meseci|pre \d+[.,]?\d* minuta|za \d+[.,]?\d* nedelja|za \d+[.,]?\d* nedelju|za \d+[.,]?\d* sekundi|za \d+[.,]?\d* sekundu|za \d+[.,]?\d* godina|za \d+[.,]?\d* godinu|za \d+[.,]?\d* meseci|za \d+[.,]?\d* minuta|pre \d+[.,]?\d* dana|pre \d+[.,]?\d* sata|pre \d+[.,]?\d* sati|za \d+[.,]?\d* mesec|za \d+[.,]?\d* minut|pre \d+[.,]?\d* god|pre \d+[.,]?\d* mes|pre \d+[.,]?\d* min|pre \d+[.,]?\d* ned|pre \d+[.,]?\d* sek|za \d+[.,]?\d* dana|za \d+[.,]?\d* sati|za \d+[.,]?\d* dan|za \d+[.,]?\d* god|za \d+[.,]?\d* mes|za \d+[.,]?\d* min|za \d+[.,]?\d* ned|za \d+[.,]?\d* sat|za \d+[.,]?\d* sek|pre \d+[.,]?\d* c|pre \d+[.,]?\d* d|pre \d+[.,]?\d* g|pre \d+[.,]?\d* m|pre \d+[.,]?\d* n|pre \d+[.,]?\d* s|za \d+[.,]?\d* c|za \d+[.,]?\d* d|za \d+[.,]?\d* g|za \d+[.,]?\d* m|za \d+[.,]?\d* n|za \d+[.,]?\d* s)$");
    ld_known := [lit "sledece nedelje";
    lit "sledeceg meseca";
    lit "prosle nedelje";
    lit "proslog meseca";
    lit "sledece godine";
    lit "prosle godine";
    lit "ove nedelje";
    lit "ovog meseca";
    lit "ovog minuta";
    lit "ove godine";
    lit "ponedeljak";
    lit "ovog sata";
    lit "pre podne";
    lit "septembar";
    lit "cetvrtak";
    lit "decembar";
    lit "novembar";
    lit "po podne";
    lit "februar";
    lit "nedelja";
    lit "oktobar";
    lit "avgust";
    lit "godina";
    lit "januar";
    lit "sekund";
    lit "subota";
    lit "utorak";
    lit "april";
    lit "danas";
    lit "mesec";
    lit "minut";
    lit "petak";
    lit "sreda";
    lit "sutra";
    lit "juce";
    lit "mart";
    lit "sada";
    lit "apr";
    lit "avg";
    lit "cet";
    lit "dan";
    lit "dec";
    lit "feb";
    lit "gmt";
    lit "god";
    lit "jan";
    lit "jul";
    lit "jun";
    lit "maj";
    lit "mar";
    lit "mes";
    lit "min";
    lit "ned";
    lit "nov";
    lit "okt";
    lit "pet";
    lit "pon";
    lit "sat";
    lit "sek";
    lit "sep";
    lit "sre";
    lit "sub";
    lit "utc";
    lit "uto";
    lit "am";
    lit "pm";
    lit " ";
    lit "'";
    lit "+";
    lit ",";
    lit "-";
    lit ".";
    lit "/";
    lit ":";
    lit ";";
    lit "@";
    lit "[";
    lit "]";
    lit "c";
    lit "d";
    lit "g";
    lit "m";
    lit "n";
    lit "s";
    lit "z";
    lit "|"] |}.

(** sr-latn.go:164-176 *)
Definition own_sr_Latn_BA : locale := Eval vm_compute in
  {| ld_name := lit "sr-Latn-BA"; ld_order := lit "DMY."; ld_nospacing := false; ld_splitter := 0;
    ld_charset := runes (lit "");
    ld_abbr := [];
    ld_simpl := [];
    ld_trans := [(lit "prije podne", [lit "am"]);
    (lit "nedjelja", [lit "sunday"]);
    (lit "srijeda", [lit "wednesday"]);
    (lit "sept", [lit "september"]);
    (lit "sr", [lit "wednesday"]);
    (lit "ut", [lit "tuesday"])];
    ld_reltype := [];
    ld_relrx := [];
    ld_rx := None;
    ld_rx_exact := None;
    ld_known := [lit "sledece nedelje";
    lit "sledeceg meseca";
    lit "prosle nedelje";
    lit "proslog meseca";
    lit "sledece godine";
    lit "prosle godine";
    lit "ove nedelje";
    lit "ovog meseca";
    lit "ovog minuta";
    lit "prije podne";
    lit "ove godine";
    lit "ponedeljak";
    lit "ovog sata";
    lit "pre podne";
    lit "septembar";
    lit "cetvrtak";
    lit "decembar";
    lit "nedjelja";
    lit "novembar";
    lit "po podne";
    lit "februar";
    lit "nedelja";
    lit "oktobar";
    lit "srijeda";
    lit "avgust";
    lit "godina";
    lit "januar";
    lit "sekund";
    lit "subota";
    lit "utorak";
    lit "april";
    lit "danas";
    lit "mesec";
    lit "minut";
    lit "petak";
    lit "sreda";
    lit "sutra";
    lit "juce";
    lit "mart";
    lit "sada";
    lit "sept";
    lit "apr";
    lit "avg";
    lit "cet";
    lit "dan";
    lit "dec";
    lit "feb";
    lit "gmt";
    lit "god";
    lit "jan";
    lit "jul";
    lit "jun";
    lit "maj";
    lit "mar";
    lit "mes";
    lit "min";
    lit "ned";
    lit "nov";
    lit "okt";
    lit "pet";
    lit "pon";
    lit "sat";
    lit "sek";
    lit "sep";
    lit "sre";
    lit "sub";
    lit "utc";
    lit "uto";
    lit "am";
    lit "pm";
    lit "sr";
    lit "ut";
    lit " ";
    lit "'";
    lit "+";
    lit ",";
    lit "-";
    lit ".";
    lit "/";
    lit ":";
    lit ";";
    lit "@";
    lit "[";
    lit "]";
    lit "c";
    lit "d";
    lit "g";
    lit "m";
    lit "n";
    lit "s";
    lit "z";
    lit "|"] |}.
Definition loc_sr_Latn_BA : locale := merge loc_sr_Latn own_sr_Latn_BA.

(** sr-latn.go:178-190 *)
Definition own_sr_Latn_ME : locale := Eval vm_compute in
  {| ld_name := lit "sr-Latn-ME"; ld_order := lit "DMY."; ld_nospacing := false; ld_splitter := 0;
    ld_charset := runes (lit "");
    ld_abbr := [];
    ld_simpl := [];
    ld_trans := [(lit "prije podne", [lit "am"]);
    (lit "nedjelja", [lit "sunday"]);
    (lit "srijeda", [lit "wednesday"]);
    (lit "sept", [lit "september"]);
    (lit "sr", [lit "wednesday"]);
    (lit "ut", [lit "tuesday"])];
    ld_reltype := [];
    ld_relrx := [];
    ld_rx := None;
    ld_rx_exact := None;
    ld_known := [lit "sledece nedelje";
    lit "sledeceg meseca";
    lit "prosle nedelje";
    lit "proslog meseca";
    lit "sledece godine";
    lit "prosle godine";
    lit "ove nedelje";
    lit "ovog meseca";
    lit "ovog minuta";
    lit "prije podne";
    lit "ove godine";
    lit "ponedeljak";
    lit "ovog sata";
    lit "pre podne";
    lit "septembar";
    lit "cetvrtak";
    lit "decembar";
    lit "nedjelja";
    lit "novembar";
    lit "po podne";
    lit "februar";
    lit "nedelja";
    lit "oktobar";
    lit "srijeda";
    lit "avgust";
    lit "godina";
    lit "januar";
    lit "sekund";
    lit "subota";
    lit "utorak";
    lit "april";
    lit "danas";
    lit "mesec";
    lit "minut";
    lit "petak";
    lit "sreda";
    lit "sutra";
    lit "juce";
    lit "mart";
    lit "sada";
    lit "sept";
    lit "apr";
    lit "avg";
    lit "cet";
    lit "dan";
    lit "dec";
    lit "feb";
    lit "gmt";
    lit "god";
    lit "jan";
    lit "jul";
    lit "jun";
    lit "maj";
    lit "mar";
    lit "mes";
    lit "min";
    lit "ned";
    lit "nov";
    lit "okt";
    lit "pet";
    lit "pon";
    lit "sat";
    lit "sek";
    lit "sep";
    lit "sre";
    lit "sub";
    lit "utc";
    lit "uto";
    lit "am";
    lit "pm";
    lit "sr";
    lit "ut";
    lit " ";
    lit "'";
    lit "+";
    lit ",";
    lit "-";
    lit ".";
    lit "/";
    lit ":";
    lit ";";
    lit "@";
    lit "[";
    lit "]";
    lit "c";
    lit "d";
    lit "g";
    lit "m";
    lit "n";
    lit "s";
    lit "z";
    lit "|"] |}.
Definition loc_sr_Latn_ME : locale := merge loc_sr_Latn own_sr_Latn_ME.

(** sr-latn.go:192-201 *)
Definition own_sr_Latn_XK : locale := Eval vm_compute in
  {| ld_name := lit "sr-Latn-XK"; ld_order := lit "DMY."; ld_nospacing := false; ld_splitter := 0;
    ld_charset := runes (lit "");
    ld_abbr := [];
    ld_simpl := [];
    ld_trans := [(lit "sept", [lit "september"]);
    (lit "sr", [lit "wednesday"]);
    (lit "ut", [lit "tuesday"])];
    ld_reltype := [];
    ld_relrx := [];
    ld_rx := None;
    ld_rx_exact := None;
    ld_known := [lit "sledece nedelje";
    lit "sledeceg meseca";
    lit "prosle nedelje";
    lit "proslog meseca";
    lit "sledece godine";
    lit "prosle godine";
    lit "ove nedelje";
    lit "ovog meseca";
    lit "ovog minuta";
    lit "ove godine";
    lit "ponedeljak";
    lit "ovog sata";
    lit "pre podne";
    lit "septembar";
    lit "cetvrtak";
    lit "decembar";
    lit "novembar";
    lit "po podne";
    lit "februar";
    lit "nedelja";
    lit "oktobar";
    lit "avgust";
    lit "godina";
    lit "januar";
    lit "sekund";
    lit "subota";
    lit "utorak";
    lit "april";
    lit "danas";
    lit "mesec";
    lit "minut";
    lit "petak";
    lit "sreda";
    lit "sutra";
    lit "juce";
    lit "mart";
    lit "sada";
    lit "sept";
    lit "apr";
    lit "avg";
    lit "cet";
    lit "dan";
    lit "dec";
    lit "feb";
    lit "gmt";
    lit "god";
    lit "jan";
    lit "jul";
    lit "jun";
    lit "maj";
    lit "mar";
    lit "mes";
    lit "min";
    lit "ned";
    lit "nov";
    lit "okt";
    lit "pet";
    lit "pon";
    lit "sat";
    lit "sek";
    lit "sep";
    lit "sre";
    lit "sub";
    lit "utc";
    lit "uto";
    lit "am";
    lit "pm";
    lit "sr";
    lit "ut";
    lit " ";
    lit "'";
    lit "+";
    lit ",";
    lit "-";
    lit ".";
    lit "/";
    lit ":";
    lit ";";
    lit "@";
    lit "[";
    lit "]";
    lit "c";
    lit "d";
    lit "g";
    lit "m";
    lit "n";
    lit "s";
    lit "z";
    lit "|"] |}.
Definition loc_sr_Latn_XK : locale := merge loc_sr_Latn own_sr_Latn_XK.

(** sr.go:12-159 *)
Definition loc_sr : locale := Eval vm_compute in
  {| ld_name := lit "sr"; ld_order := lit "DMY."; ld_nospacing := false; ld_splitter := 0;
    ld_charset := runes (lit "cgtuzабвгдеиклмнопрстуфцчшјљћ");
    ld_abbr := [];
    ld_simpl := [];
    ld_trans := [(lit "понедељак", [lit "monday"]);
    (lit "пре подне", [lit "am"]);
    (lit "септембар", [lit "september"]);
    (lit "децембар", [lit "december"]);
    (lit "новембар", [lit "november"]);
    (lit "по подне", [lit "pm"]);
    (lit "четвртак", [lit "thursday"]);
    (lit "октобар", [lit "october"]);
    (lit "фебруар", [lit "february"]);
    (lit "август", [lit "august"]);
    (lit "година", [lit "year"]);
    (lit "недеља", [lit "week"; lit "sunday"]);
    (lit "секунд", [lit "second"]);
    (lit "субота", [lit "saturday"]);
    (lit "уторак", [lit "tuesday"]);
    (lit "јануар", [lit "january"]);
    (lit "април", [lit "april"]);
    (lit "месец", [lit "month"]);
    (lit "минут", [lit "minute"]);
    (lit "петак", [lit "friday"]);
    (lit "среда", [lit "wednesday"]);
    (lit "март", [lit "march"]);
    (lit "gmt", [lit "gmt"]);
    (lit "utc", [lit "utc"]);
    (lit "авг", [lit "august"]);
    (lit "апр", [lit "april"]);
    (lit "год", [lit "year"]);
    (lit "дан", [lit "day"]);
    (lit "дец", [lit "december"]);
    (lit "мар", [lit "march"]);
    (lit "мај", [lit "may"]);
    (lit "мес", [lit "month"]);
    (lit "мин", [lit "minute"]);
    (lit "нед", [lit "week"; lit "sunday"]);
    (lit "нов", [lit "november"]);
    (lit "окт", [lit "october"]);
    (lit "пет", [lit "friday"]);
    (lit "пон", [lit "monday"]);
    (lit "сат", [lit "hour"]);
    (lit "сек", [lit "second"]);
    (lit "сеп", [lit "september"]);
    (lit "сре", [lit "wednesday"]);
    (lit "суб", [lit "saturday"]);
    (lit "уто", [lit "tuesday"]);
    (lit "феб", [lit "february"]);
    (lit "чет", [lit "thursday"]);
    (lit "јан", [lit "january"]);
    (lit "јул", [lit "july"]);
    (lit "јун", [lit "june"]);
    (lit "am", [lit "am"]);
    (lit "pm", [lit "pm"]);
    (lit " ", [lit " "]);
    (lit "'", [lit ""]);
    (lit "+", [lit "+"]);
    (lit ",", [lit ""]);
    (lit "-", [lit "-"]);
    (lit ".", [lit "."]);
    (lit "/", [lit "/"]);
    (lit ":", [lit ":"]);
    (lit ";", [lit ""]);
    (lit "@", [lit ""]);
    (lit "[", [lit ""]);
    (lit "]", [lit ""]);
    (lit "z", [lit "z"]);
    (lit "|", [lit ""]);
    (lit "г", [lit "year"]);
    (lit "д", [lit "day"]);
    (lit "м", [lit "month"]);
    (lit "н", [lit "week"]);
    (lit "с", [lit "second"]);
    (lit "ч", [lit "hour"])];
    ld_reltype := [(lit "следећег месеца", lit "in 1 month");
    (lit "прошлог месеца", lit "1 month ago");
    (lit "следеће године", lit "in 1 year");
    (lit "следеће недеље", lit "in 1 week");
    (lit "прошле године", lit "1 year ago");
    (lit "прошле недеље", lit "1 week ago");
    (lit "овог месеца", lit "0 month ago");
    (lit "овог минута", lit "0 minute ago");
    (lit "ове године", lit "0 year ago");
    (lit "ове недеље", lit "0 week ago");
    (lit "овог сата", lit "0 hour ago");
    (lit "данас", lit "0 day ago");
    (lit "сутра", lit "in 1 day");
    (lit "сада", lit "0 second ago");
    (lit "јуче", lit "1 day ago")];
    ld_relrx := [(rx "(?i)пре (\d+[.,]?\d*) секунде", lit "$1 second ago");
    (rx "(?i)пре (\d+[.,]?\d*) секунди", lit "$1 second ago");
    (rx "(?i)за (\d+[.,]?\d*) секунди", lit "in $1 second");
    (rx "(?i)за (\d+[.,]?\d*) секунду", lit "in $1 second");
    (rx "(?i)пре (\d+[.,]?\d*) година", lit "$1 year ago");
    (rx "(?i)пре (\d+[.,]?\d*) године", lit "$1 year ago");
    (rx "(?i)пре (\d+[.,]?\d*) месеца", lit "$1 month ago");
    (rx "(?i)пре (\d+[.,]?\d*) месеци", lit "$1 month ago");
    (rx "(?i)пре (\d+[.,]?\d*) минута", lit "$1 minute ago");
    (rx "(?i)пре (\d+[.,]?\d*) недеља", lit "$1 week ago");
    (rx "(?i)пре (\d+[.,]?\d*) недеље", lit "$1 week ago");
    (rx "(?i)за (\d+[.,]?\d*) година", lit "in $1 year");
    (rx "(?i)за (\d+[.,]?\d*) годину", lit "in $1 year");
    (rx "(?i)за (\d+[.,]?\d*) месеци", lit "in $1 month");
    (rx "(?i)за (\d+[.,]?\d*) минута", lit "in $1 minute");
    (rx "(?i)за (\d+[.,]?\d*) недеља", lit "in $1 week");
    (rx "(?i)за (\d+[.,]?\d*) недељу", lit "in $1 week");
    (rx "(?i)за (\d+[.,]?\d*) месец", lit "in $1 month");
    (rx "(?i)за (\d+[.,]?\d*) минут", lit "in $1 minute");
    (rx "(?i)пре (\d+[.,]?\d*) дана", lit "$1 day ago");
    (rx "(?i)пре (\d+[.,]?\d*) сата", lit "$1 hour ago");
    (rx "(?i)пре (\d+[.,]?\d*) сати", lit "$1 hour ago");
    (rx "(?i)за (\d+[.,]?\d*) дана", lit "in $1 day");
    (rx "(?i)за (\d+[.,]?\d*) сати", lit "in $1 hour");
    (rx "(?i)пре (\d+[.,]?\d*) год", lit "$1 year ago");
    (rx "(?i)пре (\d+[.,]?\d*) мес", lit "$1 month ago");
    (rx "(?i)пре (\d+[.,]?\d*) мин", lit "$1 minute ago");
    (rx "(?i)пре (\d+[.,]?\d*) нед", lit "$1 week ago");
    (rx "(?i)пре (\d+[.,]?\d*) сек", lit "$1 second ago");
    (rx "(?i)за (\d+[.,]?\d*) год", lit "in $1 year");
    (rx "(?i)за (\d+[.,]?\d*) дан", lit "in $1 day");
    (rx "(?i)за (\d+[.,]?\d*) мес", lit "in $1 month");
    (rx "(?i)за (\d+[.,]?\d*) мин", lit "in $1 minute");
    (rx "(?i)за (\d+[.,]?\d*) нед", lit "in $1 week");
    (rx "(?i)за (\d+[.,]?\d*) сат", lit "in $1 hour");
    (rx "(?i)за (\d+[.,]?\d*) сек", lit "in $1 second");
    (rx "(?i)пре (\d+[.,]?\d*) г", lit "$1 year ago");
    (rx "(?i)пре (\d+[.,]?\d*) д", lit "$1 day ago");
    (rx "(?i)пре (\d+[.,]?\d*) м", lit "$1 month ago");
    (rx "(?i)пре (\d+[.,]?\d*) н", lit "$1 week ago");
    (rx "(?i)пре (\d+[.,]?\d*) с", lit "$1 second ago");
    (rx "(?i)пре (\d+[.,]?\d*) ч", lit "$1 hour ago");
    (rx "(?i)за (\d+[.,]?\d*) г", lit "in $1 year");
    (rx "(?i)за (\d+[.,]?\d*) д", lit "in $1 day");
    (rx "(?i)за (\d+[.,]?\d*) м", lit "in $1 month");
    (rx "(?i)за (\d+[.,]?\d*) н", lit "in $1 week");
    (rx "(?i)за (\d+[.,]?\d*) с", lit "in $1 second");
    (rx "(?i)за (\d+[.,]?\d*) ч", lit "in $1 hour")];
    ld_rx := Some (rx "(?i)(\A|[^\pL\pM\d]|_)(пре \d+[.,]?\d* секунде|пре \d+[.,]?\d* секунди|за \d+[.,]?\d* секунди|за \d+[.,]?\d* секунду|пре \d+[.,]?\d* година|пре \d+[.,]?\d* године|пре \d+[.,]?\d* месеца|пре \d+[.,]?\d* месеци|пре \d+[.,]?\d* минута|пре \d+[.,]?\d* недеља|пре \d+[.,]?\d* недеље|за \d+[.,]?\d* година|за \d+[.,]?\d* годину|за \d+[.,]?\d* месеци|за \d+[.,]?\d* минута|за \d+[.,]?\d* недеља|за \d+[.,]?\d* недељу|за \d+[.,]?\d* месец|за \d+[.,]?\d* минут|пре \d+[.,]?\d* дана|пре \d+[.,]?\d* сата|пре \d+[.,]?\d* сати|за \d+[.,]?\d* дана|за \d+[.,]?\d* сати|пре \d+[.,]?\d* год|пре \d+[.,]?\d* мес|пре \d+[.,]?\d* мин|пре \d+[.,]?\d* нед|пре \d+[.,]?\d* сек|за \d+[.,]?\d* год|за \d+[.,]?\d* дан|за \d+[.,]?\d* мес|за \d+[.,]?\d* мин|за \d+[.,]?\d* нед|за \d+[.,]?\d* сат|за \d+[.,]?\d* сек|пре \d+[.,]?\d* г|пре \d+[.,]?\d* д|пре \d+[.,]?\d* м|пре \d+[.,]?\d* н|пре \d+[.,]?\d* с|пре \d+[.,]?\d* ч|за \d+[.,]?\d* г|за \d+[.,]?\d* д|за \d+[.,]?\d* м|за \d+[.,]?\d* н|за \d+[.,]?\d* с|за \d+[.,]?\d* ч)(\z|[^\pL\pM\d]|_)");
    ld_rx_exact := Some (rx "(?i)^(пре \d+[.,]?\d* секунде|пре \d+[.,]?\d* секунди|за \d+[.,]?\d* секунди|за \d+[.,]?\d* секунду|пре \d+[.,]?\d* година|пре \d+[.,]?\d* године|пре \d+[.,]?\d* месеца|пре \d+[.,]?\d* месеци|пре \d+[.,]?\d* минута|пре \d+[.,]?\d* недеља|пре \d+[.,]?\d* недеље|за \d+[.,]?\d* година|за \d+[.,]?\d* годину|за \d+[.,]?\d* месеци|за \d+[.,]?\d* минута|за \d+[.,]?\d* недеља|за \d+[.,]?\d* недељу|за \d+[.,]?\d* месец|за \d+[.,]?\d* минут|пре \d+[.,]?\d* дана|пре \d+[.,]?\d* сата|пре \d+[.,]?\d* сати|за \d+[.,]?\d* дана|за \d+[.,]?\d* сати|пре \d+[.,]?\d* год|пре \d+[.,]?\d* мес|пре \d+[.,]?\d* мин|пре \d+[.,]?\d* нед|пре \d+[.,]?\d* сек|за \d+[.,]?\d* год|за \d+[.,]?\d* дан|за \d+[.,]?\d* мес|за \d+[.,]?\d* мин|за \d+[.,]?\d* нед|за \d+[.,]?\d* сат|за \d+[.,]?\d* сек|пре \d+[.,]?\d* г|пре \d+[.,]?\d* д|пре \d+[.,]?\d* м|пре \d+[.,]?\d* н|пре \d+[.,]?\d* с|пре \d+[.,]?\d* ч|за \d+[.,]?\d* г|за \d+[.,]?\d* д|за \d+[.,]?\d* м|за \d+[.,]?\d* н|за \d+[.,]?\d* с|за \d+[.,]?\d* ч)$");
    ld_known := [lit "следећег месеца";
    lit "прошлог месеца";
    lit "следеће године";
    lit "следеће недеље";
    lit "прошле године";
    lit "прошле недеље";
    lit "овог месеца";
    lit "овог минута";
    lit "ове године";
    lit "ове недеље";
    lit "овог сата";
    lit "понедељак";
    lit "пре подне";
    lit "септембар";
    lit "децембар";
    lit "новембар";
    lit "по подне";
    lit "четвртак";
    lit "октобар";
    lit "фебруар";
    lit "август";
    lit "година";
    lit "недеља";
    lit "секунд";
    lit "субота";
    lit "уторак";
    lit "јануар";
    lit "април";
    lit "данас";
    lit "месец";
    lit "минут";
    lit "петак";
    lit "среда";
    lit "сутра";
    lit "март";
    lit "сада";
    lit "јуче";
    lit "gmt";
    lit "utc";
    lit "авг";
    lit "апр";
    lit "год";
    lit "дан";
    lit "дец";
    lit "мар";
    lit "мај";
    lit "мес";
    lit "мин";
    lit "нед";
    lit "нов";
    lit "окт";
    lit "пет";
    lit "пон";
    lit "сат";
    lit "сек";
    lit "сеп";
    lit "сре";
    lit "суб";
    lit "уто";
    lit "феб";
    lit "чет";
    lit "јан";
    lit "јул";
    lit "јун";
    lit "am";
    lit "pm";
    lit " ";
    lit "'";
    lit "+";
    lit ",";
    lit "-";
    lit ".";
    lit "/";
    lit ":";
    lit ";";
    lit "@";
    lit "[";
    lit "]";
    lit "z";
    lit "|";
    lit "г";
    lit "д";
    lit "м";
    lit "н";
    lit "с";
    lit "ч"] |}.

(** sv.go:14-197 *)
Definition loc_sv : locale := Eval vm_compute in
  {| ld_name := lit "sv"; ld_order := lit "YMD"; ld_nospacing := false; ld_splitter := 1;
    ld_charset := runes (lit "bcdefghijklnorstuvzäåö");
    ld_abbr := [];
    ld_simpl := [(rx "(?i)(\A|[^\pL\pM\d_])en(\z|[^\pL\pM\d_])", lit "${1}1${2}");
    (rx "(?i)(\A|[^\pL\pM\d_])tva(\z|[^\pL\pM\d_])", lit "${1}2${2}")];
    ld_trans := [(lit "eftermiddag", [lit "pm"]);
    (lit "formiddag", [lit "am"]);
    (lit "september", [lit "september"]);
    (lit "december", [lit "december"]);
    (lit "februari", [lit "february"]);
    (lit "november", [lit "november"]);
    (lit "sekunder", [lit "second"]);
    (lit "augusti", [lit "august"]);
    (lit "fran nu", [lit "in"]);
    (lit "januari", [lit "january"]);
    (lit "manaden", [lit "month"]);
    (lit "manader", [lit "month"]);
    (lit "minuter", [lit "minute"]);
    (lit "oktober", [lit "october"]);
    (lit "torsdag", [lit "thursday"]);
    (lit "fredag", [lit "friday"]);
    (lit "lordag", [lit "saturday"]);
    (lit "mandag", [lit "monday"]);
    (lit "onsdag", [lit "wednesday"]);
    (lit "sekund", [lit "second"]);
    (lit "sondag", [lit "sunday"]);
    (lit "timmar", [lit "hour"]);
    (lit "tisdag", [lit "tuesday"]);
    (lit "veckor", [lit "week"]);
    (lit "april", [lit "april"]);
    (lit "dagar", [lit "day"]);
    (lit "manad", [lit "month"]);
    (lit "minut", [lit "minute"]);
    (lit "sedan", [lit "ago"]);
    (lit "timme", [lit "hour"]);
    (lit "torsd", [lit "thursday"]);
    (lit "vecka", [lit "week"]);
    (lit "aret", [lit "year"]);
    (lit "fred", [lit "friday"]);
    (lit "juli", [lit "july"]);
    (lit "juni", [lit "june"]);
    (lit "lord", [lit "saturday"]);
    (lit "mand", [lit "monday"]);
    (lit "mars", [lit "march"]);
    (lit "onsd", [lit "wednesday"]);
    (lit "sept", [lit "september"]);
    (lit "sond", [lit "sunday"]);
    (lit "tisd", [lit "tuesday"]);
    (lit "tors", [lit "thursday"]);
    (lit "apr", [lit "april"]);
    (lit "aug", [lit "august"]);
    (lit "dag", [lit "day"]);
    (lit "dec", [lit "december"]);
    (lit "den", [lit ""]);
    (lit "feb", [lit "february"]);
    (lit "fre", [lit "friday"]);
    (lit "gmt", [lit "gmt"]);
    (lit "jan", [lit "january"]);
    (lit "jul", [lit "july"]);
    (lit "jun", [lit "june"]);
    (lit "lor", [lit "saturday"]);
    (lit "maj", [lit "may"]);
    (lit "man", [lit "month"; lit "monday"]);
    (lit "min", [lit "minute"]);
    (lit "nov", [lit "november"]);
    (lit "okt", [lit "october"]);
    (lit "ons", [lit "wednesday"]);
    (lit "sek", [lit "second"]);
    (lit "sep", [lit "september"]);
    (lit "son", [lit "sunday"]);
    (lit "tim", [lit "hour"]);
    (lit "tis", [lit "tuesday"]);
    (lit "utc", [lit "utc"]);
    (lit "am", [lit "am"]);
    (lit "ar", [lit "year"]);
    (lit "em", [lit "pm"]);
    (lit "fm", [lit "am"]);
    (lit "om", [lit "in"]);
    (lit "pa", [lit ""]);
    (lit "pm", [lit "pm"]);
    (lit " ", [lit " "]);
    (lit "'", [lit ""]);
    (lit "+", [lit "+"]);
    (lit ",", [lit ""]);
    (lit "-", [lit "-"]);
    (lit ".", [lit "."]);
    (lit "/", [lit "/"]);
    (lit ":", [lit ":"]);
    (lit ";", [lit ""]);
    (lit "@", [lit ""]);
    (lit "[", [lit ""]);
    (lit "]", [lit ""]);
    (lit "h", [lit "hour"]);
    (lit "m", [lit "month"; lit "minute"]);
    (lit "s", [lit "second"]);
    (lit "t", [lit "hour"]);
    (lit "v", [lit "week"]);
    (lit "z", [lit "z"]);
    (lit "|", [lit ""])];
    ld_reltype := [(lit "forra manaden", lit "1 month ago");
    (lit "forra veckan", lit "1 week ago");
    (lit "denna manad", lit "0 month ago");
    (lit "denna minut", lit "0 minute ago");
    (lit "denna timme", lit "0 hour ago");
    (lit "denna vecka", lit "0 week ago");
    (lit "nasta manad", lit "in 1 month");
    (lit "nasta vecka", lit "in 1 week");
    (lit "forra aret", lit "1 year ago");
    (lit "denna man", lit "0 month ago");
    (lit "forra man", lit "1 month ago");
    (lit "nasta man", lit "in 1 month");
    (lit "i morgon", lit "in 1 day");
    (lit "nasta ar", lit "in 1 year");
    (lit "denna v", lit "0 week ago");
    (lit "forra v", lit "1 week ago");
    (lit "forrgar", lit "2 day ago");
    (lit "imorgon", lit "in 1 day");
    (lit "nasta v", lit "in 1 week");
    (lit "i fjol", lit "1 year ago");
    (lit "i dag", lit "0 day ago");
    (lit "i gar", lit "1 day ago");
    (lit "i ar", lit "0 year ago");
    (lit "idag", lit "0 day ago");
    (lit "igar", lit "1 day ago");
    (lit "nu", lit "0 second ago")];
    ld_relrx := [(rx "(?i)for (\d+[.,]?\d*) sekunder sedan", lit "$1 second ago");
    (rx "(?i)for (\d+[.,]?\d*) manader sedan", lit "$1 month ago");
    (rx "(?i)for (\d+[.,]?\d*) minuter sedan", lit "$1 minute ago");
    (rx "(?i)for (\d+[.,]?\d*) sekund sedan", lit "$1 second ago");
    (rx "(?i)for (\d+[.,]?\d*) timmar sedan", lit "$1 hour ago");
    (rx "(?i)for (\d+[.,]?\d*) veckor sedan", lit "$1 week ago");
    (rx "(?i)for (\d+[.,]?\d*) dagar sedan", lit "$1 day ago");
    (rx "(?i)for (\d+[.,]?\d*) manad sedan", lit "$1 month ago");
    (rx "(?i)for (\d+[.,]?\d*) minut sedan", lit "$1 minute ago");
    (rx "(?i)for (\d+[.,]?\d*) timme sedan", lit "$1 hour ago");
    (rx "(?i)for (\d+[.,]?\d*) vecka sedan", lit "$1 week ago");
    (rx "(?i)for (\d+[.,]?\d*) dag sedan", lit "$1 day ago");
    (rx "(?i)for (\d+[.,]?\d*) man sedan", lit "$1 month ago");
    (rx "(?i)for (\d+[.,]?\d*) min sedan", lit "$1 minute ago");
    (rx "(?i)for (\d+[.,]?\d*) sek sedan", lit "$1 second ago");
    (rx "(?i)for (\d+[.,]?\d*) tim sedan", lit "$1 hour ago");
    (rx "(?i)for (\d+[.,]?\d*) ar sedan", lit "$1 year ago");
    (rx "(?i)for (\d+[.,]?\d*) d sedan", lit "$1 day ago");
    (rx "(?i)for (\d+[.,]?\d*) v sedan", lit "$1 week ago");
    (rx "(?i)om (\d+[.,]?\d*) sekunder", lit "in $1 second");
    (rx "(?i)om (\d+[.,]?\d*) manader", lit "in $1 month");
    (rx "(?i)om (\d+[.,]?\d*) minuter", lit "in $1 minute");
    (rx "(?i)om (\d+[.,]?\d*) sekund", lit "in $1 second");
    (rx "(?i)om (\d+[.,]?\d*) timmar", lit "in $1 hour");
    (rx "(?i)om (\d+[.,]?\d*) veckor", lit "in $1 week");
    (rx "(?i)om (\d+[.,]?\d*) dagar", lit "in $1 day");
    (rx "(?i)om (\d+[.,]?\d*) manad", lit "in $1 month");
    (rx "(?i)om (\d+[.,]?\d*) minut", lit "in $1 minute");
    (rx "(?i)om (\d+[.,]?\d*) timme", lit "in $1 hour");
    (rx "(?i)om (\d+[.,]?\d*) vecka", lit "in $1 week");
    (rx "(?i)om (\d+[.,]?\d*) dag", lit "in $1 day");
    (rx "(?i)om (\d+[.,]?\d*) man", lit "in $1 month");
    (rx "(?i)om (\d+[.,]?\d*) min", lit "in $1 minute");
    (rx "(?i)om (\d+[.,]?\d*) sek", lit "in $1 second");
    (rx "(?i)om (\d+[.,]?\d*) tim", lit "in $1 hour");
    (rx "(?i)om (\d+[.,]?\d*) ar", lit "in $1 year");
    (rx "(?i)om (\d+[.,]?\d*) d", lit "in $1 day");
    (rx "(?i)om (\d+[.,]?\d*) v", lit "in $1 week");
    (rx "(?i)−(\d+[.,]?\d*) man", lit "$1 month ago");
    (rx "(?i)−(\d+[.,]?\d*) min", lit "$1 minute ago");
    (rx "(?i)−(\d+[.,]?\d*) ar", lit "$1 year ago");
    (rx "(?i)−(\d+[.,]?\d*) d", lit "$1 day ago");
    (rx "(?i)−(\d+[.,]?\d*) h", lit "$1 hour ago");
    (rx "(?i)−(\d+[.,]?\d*) s", lit "$1 second ago");
    (rx "(?i)−(\d+[.,]?\d*) v", lit "$1 week ago")];
    ld_rx := Some (rx "(?i)(\A|[^\pL\pM\d]|_)(for \d+[.,]?\d* sekunder sedan|for \d+[.,]?\d* manader sedan|for \d+[.,]?\d* minuter sedan|for \d+[.,]?\d* sekund sedan|for \d+[.,]?\d* timmar sedan|for \d+[.,]?\d* veckor sedan|for \d+[.,]?\d* dagar sedan|for \d+[.,]?\d* manad sedan|for \d+[.,]?\d* minut sedan|for \d+[.,]?\d* timme sedan|for \d+[.,]?\d* vecka sedan|for \d+[.,]?\d* dag sedan|for \d+[.,]?\d* man sedan|for \d+[.,]?\d* min sedan|for \d+[.,]?\d* sek sedan|for \d+[.,]?\d* tim sedan|for \d+[.,]?\d* ar sedan|for \d+[.,]?\d* d sedan|for \d+[.,]?\d* v sedan|om \d+[.,]?\d* sekunder|om \d+[.,]?\d* manader|om \d+[.,]?\d* minuter|om \d+[.,]?\d* sekund|om \d+[.,]?\d* timmar|om \d+[.,]?\d* veckor|om \d+[.,]?\d* dagar|om \d+[.,]?\d* manad|om \d+[.,]?\d* minut|om \d+[.,]?\d* timme|om \d+[.,]?\d* vecka|om \d+[.,]?\d* dag|om \d+[.,]?\d* man|om \d+[.,]?\d* min|om \d+[.,]?\d* sek|om \d+[.,]?\d* tim|om \d+[.,]?\d* ar|om \d+[.,]?\d* d|om \d+[.,]?\d* v|−\d+[.,]?\d* man|−\d+[.,]?\d* min|−\d+[.,]?\d* ar|−\d+[.,]?\d* d|−\d+[.,]?\d* h|−\d+[.,]?\d* s|−\d+[.,]?\d* v)(\z|[^\pL\pM\d]|_)");
    ld_rx_exact := Some (rx "(?i)^(for \d+[.,]?\d* sekunder sedan|for \d+[.,]?\d* manader sedan|for \d+[.,]?\d* minuter sedan|for \d+[.,]?\d* sekund sedan|for \d+[.,]?\d* timmar sedan|for \d+[.,]?\d* veckor sedan|for \d+[.,]?\d* dagar sedan|for \d+[.,]?\d* manad sedan|for \d+[.,]?\d* minut sedan|for \d+[.,]?\d* timme sedan|for \d+[.,]?\d* vecka sedan|for \d+[.,]?\d* dag sedan|for \d+[.,]?\d* man sedan|for \d+[.,]?\d* min sedan|for \d+[.,]?\d* sek sedan|for \d+[.,]?\d* tim sedan|for \d+[.,]?\d* ar sedan|for \d+[.,]?\d* d sedan|for \d+[.,]?\d* v sedan|om \d+[.,]?\d* sekunder|om \d+[.,]?\d* manader|om \d+[.,]?\d* minuter|om \d+[.,]?\d* sekund|om \d+[.,]?\d* timmar|om \d+[.,]?\d* veckor|om \d+[.,]?\d* dagar|om \d+[.,]?\d* manad|om \d+[.,]?\d* minut|om \d+[.,]?\d* timme|om \d+[.,]?\d* vecka|om \d+[.,]?\d* dag|om \d+[.,]?\d* man|om \d+[.,]?\d* min|om \d+[.,]?\d* sek|om \d+[.,]?\d* tim|om \d+[.,]?\d* ar|om \d+[.,]?\d* d|om \d+[.,]?\d* v|−\d+[.,]?\d* man|−\d+[.,]?\d* min|−\d+[.,]?\d* ar|−\d+[.,]?\d* d|−\d+[.,]?\d* h|−\d+[.,]?\d* s|−\d+[.,]?\d* v)$");
    ld_known := [lit "forra manaden";
    lit "forra veckan";
    lit "denna manad";
    lit "denna minut";
    lit "denna timme";
    lit "denna vecka";
    lit "eftermiddag";
    lit "nasta manad";
    lit "nasta vecka";
    lit "forra aret";
    lit "denna man";
    lit "formiddag";
    lit "forra man";
    lit "nasta man";
    lit "september";
    lit "december";
    lit "februari";
    lit "i morgon";
    lit "nasta ar";
    lit "november";
    lit "sekunder";
    lit "augusti";
    lit "denna v";
    lit "forra v";
    lit "forrgar";
    lit "fran nu";
    lit "imorgon";
    lit "januari";
    lit "manaden";
    lit "manader";
    lit "minuter";
    lit "nasta v";
    lit "oktober";
    lit "torsdag";
    lit "fredag";
    lit "i fjol";
    lit "lordag";
    lit "mandag";
    lit "onsdag";
    lit "sekund";
    lit "sondag";
    lit "timmar";
    lit "tisdag";
    lit "veckor";
    lit "april";
    lit "dagar";
    lit "i dag";
    lit "i gar";
    lit "manad";
    lit "minut";
    lit "sedan";
    lit "timme";
    lit "torsd";
    lit "vecka";
    lit "aret";
    lit "fred";
    lit "i ar";
    lit "idag";
    lit "igar";
    lit "juli";
    lit "juni";
    lit "lord";
    lit "mand";
    lit "mars";
    lit "onsd";
    lit "sept";
    lit "sond";
    lit "tisd";
    lit "tors";
    lit "apr";
    lit "aug";
    lit "dag";
    lit "dec";
    lit "den";
    lit "feb";
    lit "fre";
    lit "gmt";
    lit "jan";
    lit "jul";
    lit "jun";
    lit "lor";
    lit "maj";
    lit "man";
    lit "min";
    lit "nov";
    lit "okt";
    lit "ons";
    lit "sek";
    lit "sep";
    lit "son";
    lit "tim";
    lit "tis";
    lit "utc";
    lit "am";
    lit "ar";
    lit "em";
    lit "fm";
    lit "nu";
    lit "om";
    lit "pa";
    lit "pm";
    lit " ";
    lit "'";
    lit "+";
    lit ",";
    lit "-";
    lit ".";
    lit "/";
    lit ":";
    lit ";";
    lit "@";
    lit "[";
    lit "]";
    lit "h";
    lit "m";
    lit "s";
    lit "t";
    lit "v";
    lit "z";
    lit "|"] |}.

(** sv.go:199-202 *)
Definition own_sv_AX : locale := Eval vm_compute in
  {| ld_name := lit "sv-AX"; ld_order := lit "YMD"; ld_nospacing := false; ld_splitter := 0;
    ld_charset := runes (lit "");
    ld_abbr := [];
    ld_simpl := [];
    ld_trans := [];
    ld_reltype := [];
    ld_relrx := [];
    ld_rx := None;
    ld_rx_exact := None;
    ld_known := [] |}.
Definition loc_sv_AX : locale := merge loc_sv own_sv_AX.

(** sv.go:204-207 *)
Definition own_sv_FI : locale := Eval vm_compute in
  {| ld_name := lit "sv-FI"; ld_order := lit "DMY"; ld_nospacing := false; ld_splitter := 0;
    ld_charset := runes (lit "");
    ld_abbr := [];
    ld_simpl := [];
    ld_trans := [];
    ld_reltype := [];
    ld_relrx := [];
    ld_rx := None;
    ld_rx_exact := None;
    ld_known := [] |}.
Definition loc_sv_FI : locale := merge loc_sv own_sv_FI.

(** sw.go:15-125 *)
Definition loc_sw : locale := Eval vm_compute in
  {| ld_name := lit "sw"; ld_order := lit "DMY"; ld_nospacing := false; ld_splitter := 0;
    ld_charset := runes (lit "bcdefghijklnorstuvwyz");
    ld_abbr := [];
    ld_simpl := [];
    ld_trans := [(lit "alhamisi", [lit "thursday"]);
    (lit "februari", [lit "february"]);
    (lit "jumamosi", [lit "saturday"]);
    (lit "jumapili", [lit "sunday"]);
    (lit "jumatano", [lit "wednesday"]);
    (lit "jumatatu", [lit "monday"]);
    (lit "septemba", [lit "september"]);
    (lit "asubuhi", [lit "am"]);
    (lit "desemba", [lit "december"]);
    (lit "januari", [lit "january"]);
    (lit "jumanne", [lit "tuesday"]);
    (lit "novemba", [lit "november"]);
    (lit "sekunde", [lit "second"]);
    (lit "agosti", [lit "august"]);
    (lit "aprili", [lit "april"]);
    (lit "dakika", [lit "minute"]);
    (lit "ijumaa", [lit "friday"]);
    (lit "mchana", [lit "pm"]);
    (lit "oktoba", [lit "october"]);
    (lit "julai", [lit "july"]);
    (lit "machi", [lit "march"]);
    (lit "mwaka", [lit "year"]);
    (lit "mwezi", [lit "month"]);
    (lit "juni", [lit "june"]);
    (lit "siku", [lit "day"]);
    (lit "wiki", [lit "week"]);
    (lit "ago", [lit "august"]);
    (lit "apr", [lit "april"]);
    (lit "dak", [lit "minute"]);
    (lit "des", [lit "december"]);
    (lit "feb", [lit "february"]);
    (lit "gmt", [lit "gmt"]);
    (lit "jan", [lit "january"]);
    (lit "jul", [lit "july"]);
    (lit "jun", [lit "june"]);
    (lit "mac", [lit "march"]);
    (lit "mei", [lit "may"]);
    (lit "nov", [lit "november"]);
    (lit "okt", [lit "october"]);
    (lit "saa", [lit "hour"]);
    (lit "sek", [lit "second"]);
    (lit "sep", [lit "september"]);
    (lit "utc", [lit "utc"]);
    (lit "am", [lit "am"]);
    (lit "pm", [lit "pm"]);
    (lit " ", [lit " "]);
    (lit "'", [lit ""]);
    (lit "+", [lit "+"]);
    (lit ",", [lit ""]);
    (lit "-", [lit "-"]);
    (lit ".", [lit "."]);
    (lit "/", [lit "/"]);
    (lit ":", [lit ":"]);
    (lit ";", [lit ""]);
    (lit "@", [lit ""]);
    (lit "[", [lit ""]);
    (lit "]", [lit ""]);
    (lit "z", [lit "z"]);
    (lit "|", [lit ""])];
    ld_reltype := [(lit "mwaka uliopita", lit "1 year ago");
    (lit "mwezi uliopita", lit "1 month ago");
    (lit "wiki iliyopita", lit "1 week ago");
    (lit "dakika hii", lit "0 minute ago");
    (lit "mwaka ujao", lit "in 1 year");
    (lit "mwezi ujao", lit "in 1 month");
    (lit "wiki ijayo", lit "in 1 week");
    (lit "mwaka huu", lit "0 year ago");
    (lit "mwezi huu", lit "0 month ago");
    (lit "sasa hivi", lit "0 second ago");
    (lit "wiki hii", lit "0 week ago");
    (lit "saa hii", lit "0 hour ago");
    (lit "kesho", lit "in 1 day");
    (lit "jana", lit "1 day ago");
    (lit "leo", lit "0 day ago")];
    ld_relrx := [(rx "(?i)sekunde (\d+[.,]?\d*) zilizopita", lit "$1 second ago");
    (rx "(?i)dakika (\d+[.,]?\d*) zilizopita", lit "$1 minute ago");
    (rx "(?i)sekunde (\d+[.,]?\d*) iliyopita", lit "$1 second ago");
    (rx "(?i)baada ya sekunde (\d+[.,]?\d*)", lit "in $1 second");
    (rx "(?i)dakika (\d+[.,]?\d*) iliyopita", lit "$1 minute ago");
    (rx "(?i)baada ya dakika (\d+[.,]?\d*)", lit "in $1 minute");
    (rx "(?i)miaka (\d+[.,]?\d*) iliyopita", lit "$1 year ago");
    (rx "(?i)miezi (\d+[.,]?\d*) iliyopita", lit "$1 month ago");
    (rx "(?i)siku (\d+[.,]?\d*) zilizopita", lit "$1 day ago");
    (rx "(?i)wiki (\d+[.,]?\d*) zilizopita", lit "$1 week ago");
    (rx "(?i)baada ya miaka (\d+[.,]?\d*)", lit "in $1 year");
    (rx "(?i)baada ya miezi (\d+[.,]?\d*)", lit "in $1 month");
    (rx "(?i)baada ya mwaka (\d+[.,]?\d*)", lit "in $1 year");
    (rx "(?i)baada ya mwezi (\d+[.,]?\d*)", lit "in $1 month");
    (rx "(?i)mwaka (\d+[.,]?\d*) uliopita", lit "$1 year ago");
    (rx "(?i)mwezi (\d+[.,]?\d*) uliopita", lit "$1 month ago");
    (rx "(?i)saa (\d+[.,]?\d*) zilizopita", lit "$1 hour ago");
    (rx "(?i)siku (\d+[.,]?\d*) iliyopita", lit "$1 day ago");
    (rx "(?i)wiki (\d+[.,]?\d*) iliyopita", lit "$1 week ago");
    (rx "(?i)baada ya siku (\d+[.,]?\d*)", lit "in $1 day");
    (rx "(?i)baada ya wiki (\d+[.,]?\d*)", lit "in $1 week");
    (rx "(?i)saa (\d+[.,]?\d*) iliyopita", lit "$1 hour ago");
    (rx "(?i)baada ya saa (\d+[.,]?\d*)", lit "in $1 hour")];
    ld_rx := Some (rx "(?i)(\A|[^\pL\pM\d]|_)(sekunde \d+[.,]?\d* zilizopita|dakika \d+[.,]?\d* zilizopita|sekunde \d+[.,]?\d* iliyopita|baada ya sekunde \d+[.,]?\d*|dakika \d+[.,]?\d* iliyopita|baada ya dakika \d+[.,]?\d*|miaka \d+[.,]?\d* iliyopita|miezi \d+[.,]?\d* iliyopita|siku \d+[.,]?\d* zilizopita|wiki \d+[.,]?\d* zilizopita|baada ya miaka \d+[.,]?\d*|baada ya miezi \d+[.,]?\d*|baada ya mwaka \d+[.,]?\d*|baada ya mwezi \d+[.,]?\d*|mwaka \d+[.,]?\d* uliopita|mwezi \d+[.,]?\d* uliopita|saa \d+[.,]?\d* zilizopita|siku \d+[.,]?\d* iliyopita|wiki \d+[.,]?\d* iliyopita|baada ya siku \d+[.,]?\d*|baada ya wiki \d+[.,]?\d*|saa \d+[.,]?\d* iliyopita|baada ya saa \d+[.,]?\d*)(\z|[^\pL\pM\d]|_)");
    ld_rx_exact := Some (rx "(?i)^(sekunde \d+[.,]?\d* zilizopita|dakika \d+[.,]?\d* zilizopita|sekunde \d+[.,]?\d* iliyopita|baada ya sekunde \d+[.,]?\d*|dakika \d+[.,]?\d* iliyopita|baada ya dakika \d+[.,]?\d*|miaka \d+[.,]?\d* iliyopita|miezi \d+[.,]?\d* iliyopita|siku \d+[.,]?\d* zilizopita|wiki \d+[.,]?\d* zilizopita|baada ya miaka \d+[.,]?\d*|baada ya miezi \d+[.,]?\d*|baada ya mwaka \d+[.,]?\d*|baada ya mwezi \d+[.,]?\d*|mwaka \d+[.,]?\d* uliopita|mwezi \d+[.,]?\d* uliopita|saa \d+[.,]?\d* zilizopita|siku \d+[.,]?\d* iliyopita|wiki \d+[.,]?\d* iliyopita|baada ya siku \d+[.,]?\d*|baada ya wiki \d+[.,]?\d*|saa \d+[.,]?\d* iliyopita|baada ya saa \d+[.,]?\d*)$");
    ld_known := [lit "mwaka uliopita";
    lit "mwezi uliopita";
    lit "wiki iliyopita";
    lit "dakika hii";
    lit "mwaka ujao";
    lit "mwezi ujao";
    lit "wiki ijayo";
    lit "mwaka huu";
    lit "mwezi huu";
    lit "sasa hivi";
    lit "alhamisi";
    lit "februari";
    lit "jumamosi";
    lit "jumapili";
    lit "jumatano";
    lit "jumatatu";
    lit "septemba";
    lit "wiki hii";
    lit "asubuhi";
    lit "desemba";
    lit "januari";
    lit "jumanne";
    lit "novemba";
    lit "saa hii";
    lit "sekunde";
    lit "agosti";
    lit "aprili";
    lit "dakika";
    lit "ijumaa";
    lit "mchana";
    lit "oktoba";
    lit "julai";
    lit "kesho";
    lit "machi";
    lit "mwaka";
    lit "mwezi";
    lit "jana";
    lit "juni";
    lit "siku";
    lit "wiki";
    lit "ago";
    lit "apr";
    lit "dak";
    lit "des";
    lit "feb";
    lit "gmt";
    lit "jan";
    lit "jul";
    lit "jun";
    lit "leo";
    lit "mac";
    lit "mei";
    lit "nov";
    lit "okt";
    lit "saa";
    lit "sek";
    lit "sep";
    lit "utc";
    lit "am";
    lit "pm";
    lit " ";
    lit "'";
    lit "+";
    lit ",";
    lit "-";
    lit ".";
    lit "/";
    lit ":";
    lit ";";
    lit "@";
    lit "[";
    lit "]";
    lit "z";
    lit "|"] |}.

(** sw.go:127-134 *)
Definition own_sw_CD : locale := Eval vm_compute in
  {| ld_name := lit "sw-CD"; ld_order := lit "DMY"; ld_nospacing := false; ld_splitter := 0;
    ld_charset := runes (lit "");
    ld_abbr := [];
    ld_simpl := [];
    ld_trans := [(lit "juma", [lit "week"])];
    ld_reltype := [];
    ld_relrx := [];
    ld_rx := None;
    ld_rx_exact := None;
    ld_known := [lit "mwaka uliopita";
    lit "mwezi uliopita";
    lit "wiki iliyopita";
    lit "dakika hii";
    lit "mwaka ujao";
    lit "mwezi ujao";
    lit "wiki ijayo";
    lit "mwaka huu";
    lit "mwezi huu";
    lit "sasa hivi";
    lit "alhamisi";
    lit "februari";
    lit "jumamosi";
    lit "jumapili";
    lit "jumatano";
    lit "jumatatu";
    lit "septemba";
    lit "wiki hii";
    lit "asubuhi";
    lit "desemba";
    lit "januari";
    lit "jumanne";
    lit "novemba";
    lit "saa hii";
    lit "sekunde";
    lit "agosti";
    lit "aprili";
    lit "dakika";
    lit "ijumaa";
    lit "mchana";
    lit "oktoba";
    lit "julai";
    lit "kesho";
    lit "machi";
    lit "mwaka";
    lit "mwezi";
    lit "jana";
    lit "juma";
    lit "juni";
    lit "siku";
    lit "wiki";
    lit "ago";
    lit "apr";
    lit "dak";
    lit "des";
    lit "feb";
    lit "gmt";
    lit "jan";
    lit "jul";
    lit "jun";
    lit "leo";
    lit "mac";
    lit "mei";
    lit "nov";
    lit "okt";
    lit "saa";
    lit "sek";
    lit "sep";
    lit "utc";
    lit "am";
    lit "pm";
    lit " ";
    lit "'";
    lit "+";
    lit ",";
    lit "-";
    lit ".";
    lit "/";
    lit ":";
    lit ";";
    lit "@";
    lit "[";
    lit "]";
    lit "z";
    lit "|"] |}.
Definition loc_sw_CD : locale := merge loc_sw own_sw_CD.

(** sw.go:136-139 *)
Definition own_sw_KE : locale := Eval vm_compute in
  {| ld_name := lit "sw-KE"; ld_order := lit "DMY"; ld_nospacing := false; ld_splitter := 0;
    ld_charset := runes (lit "");
    ld_abbr := [];
    ld_simpl := [];
    ld_trans := [];
    ld_reltype := [];
    ld_relrx := [];
    ld_rx := None;
    ld_rx_exact := None;
    ld_known := [] |}.
Definition loc_sw_KE : locale := merge loc_sw own_sw_KE.

(** sw.go:141-144 *)
Definition own_sw_UG : locale := Eval vm_compute in
  {| ld_name := lit "sw-UG"; ld_order := lit "DMY"; ld_nospacing := false; ld_splitter := 0;
    ld_charset := runes (lit "");
    ld_abbr := [];
    ld_simpl := [];
    ld_trans := [];
    ld_reltype := [];
    ld_relrx := [];
    ld_rx := None;
    ld_rx_exact := None;
    ld_known := [] |}.
Definition loc_sw_UG : locale := merge loc_sw own_sw_UG.

(** ta.go:15-163 *)
Definition loc_ta : locale := Eval vm_compute in
  {| ld_name := lit "ta"; ld_order := lit "DMY"; ld_nospacing := false; ld_splitter := 0;
    ld_charset := runes (lit "cgtuzஅஆஇஏஒகஙசஜஞடணதநனபமயரறலளழவஸாிுூெேைோ்");
    ld_abbr := [];
    ld_simpl := [];
    ld_trans := [(lit "செபடமபர", [lit "september"]);
    (lit "பிபரவரி", [lit "february"]);
    (lit "அகடோபர", [lit "october"]);
    (lit "செவவாய", [lit "tuesday"]);
    (lit "ஞாயிறு", [lit "sunday"]);
    (lit "டிசமபர", [lit "december"]);
    (lit "நிமிடம", [lit "minute"]);
    (lit "பிறபகல", [lit "pm"]);
    (lit "முறபகல", [lit "am"]);
    (lit "விநாடி", [lit "second"]);
    (lit "வியாழன", [lit "thursday"]);
    (lit "ஜனவரி", [lit "january"]);
    (lit "திஙகள", [lit "monday"]);
    (lit "நவமபர", [lit "november"]);
    (lit "வெளளி", [lit "friday"]);
    (lit "ஆகஸட", [lit "august"]);
    (lit "ஆணடு", [lit "year"]);
    (lit "ஏபரல", [lit "april"]);
    (lit "ஜூலை", [lit "july"]);
    (lit "ஞாயி", [lit "sunday"]);
    (lit "நிமி", [lit "minute"]);
    (lit "புதன", [lit "wednesday"]);
    (lit "மாதம", [lit "month"]);
    (lit "மாரச", [lit "march"]);
    (lit "வாரம", [lit "week"]);
    (lit "விநா", [lit "second"]);
    (lit "வியா", [lit "thursday"]);
    (lit "gmt", [lit "gmt"]);
    (lit "utc", [lit "utc"]);
    (lit "சனி", [lit "saturday"]);
    (lit "செப", [lit "september"]);
    (lit "செவ", [lit "tuesday"]);
    (lit "ஜூன", [lit "june"]);
    (lit "டிச", [lit "december"]);
    (lit "திங", [lit "monday"]);
    (lit "நாள", [lit "day"]);
    (lit "பிப", [lit "february"]);
    (lit "புத", [lit "wednesday"]);
    (lit "மணி", [lit "hour"]);
    (lit "மாத", [lit "month"]);
    (lit "மார", [lit "march"]);
    (lit "வெள", [lit "friday"]);
    (lit "am", [lit "am"]);
    (lit "pm", [lit "pm"]);
    (lit "அக", [lit "october"]);
    (lit "ஆக", [lit "august"]);
    (lit "ஏப", [lit "april"]);
    (lit "ஜன", [lit "january"]);
    (lit "நவ", [lit "november"]);
    (lit "நா", [lit "day"]);
    (lit "மா", [lit "month"]);
    (lit "மே", [lit "may"]);
    (lit "வா", [lit "week"]);
    (lit "வி", [lit "second"]);
    (lit " ", [lit " "]);
    (lit "'", [lit ""]);
    (lit "+", [lit "+"]);
    (lit ",", [lit ""]);
    (lit "-", [lit "-"]);
    (lit ".", [lit "."]);
    (lit "/", [lit "/"]);
    (lit ":", [lit ":"]);
    (lit ";", [lit ""]);
    (lit "@", [lit ""]);
    (lit "[", [lit ""]);
    (lit "]", [lit ""]);
    (lit "z", [lit "z"]);
    (lit "|", [lit ""]);
    (lit "ஆ", [lit "year"]);
    (lit "ம", [lit "hour"])];
    ld_reltype := [(lit "இநத ஒரு மணிநேரததில", lit "0 hour ago");
    (lit "இநத ஒரு நிமிடததில", lit "0 minute ago");
    (lit "அடுதத ஆணடு", lit "in 1 year");
    (lit "அடுதத மாதம", lit "in 1 month");
    (lit "அடுதத வாரம", lit "in 1 week");
    (lit "கடநத ஆணடு", lit "1 year ago");
    (lit "கடநத மாதம", lit "1 month ago");
    (lit "கடநத வாரம", lit "1 week ago");
    (lit "இநத ஆணடு", lit "0 year ago");
    (lit "இநத மாதம", lit "0 month ago");
    (lit "இநத வாரம", lit "0 week ago");
    (lit "இபபோது", lit "0 second ago");
    (lit "நேறறு", lit "1 day ago");
    (lit "இனறு", lit "0 day ago");
    (lit "நாளை", lit "in 1 day")];
    ld_relrx := [(rx "(?i)(\d+[.,]?\d*) நிமிடஙகளுககு முன", lit "$1 minute ago");
    (rx "(?i)(\d+[.,]?\d*) விநாடிகளுககு முன", lit "$1 second ago");
    (rx "(?i)(\d+[.,]?\d*) நிமிடததிறகு முன", lit "$1 minute ago");
    (rx "(?i)(\d+[.,]?\d*) வாரததிறகு முனபு", lit "$1 week ago");
    (rx "(?i)(\d+[.,]?\d*) ஆணடுகளுககு முன", lit "$1 year ago");
    (rx "(?i)(\d+[.,]?\d*) மாதஙகளுககு முன", lit "$1 month ago");
    (rx "(?i)(\d+[.,]?\d*) வாரஙகளுககு முன", lit "$1 week ago");
    (rx "(?i)(\d+[.,]?\d*) நாடகளுககு முன", lit "$1 day ago");
    (rx "(?i)(\d+[.,]?\d*) மாதததுககு முன", lit "$1 month ago");
    (rx "(?i)(\d+[.,]?\d*) விநாடிககு முன", lit "$1 second ago");
    (rx "(?i)(\d+[.,]?\d*) ஆணடிறகு முன", lit "$1 year ago");
    (rx "(?i)(\d+[.,]?\d*) நாளுககு முன", lit "$1 day ago");
    (rx "(?i)(\d+[.,]?\d*) மணிநேரம முன", lit "$1 hour ago");
    (rx "(?i)(\d+[.,]?\d*) நிமிடஙகளில", lit "in $1 minute");
    (rx "(?i)(\d+[.,]?\d*) மணிநேரததில", lit "in $1 hour");
    (rx "(?i)(\d+[.,]?\d*) விநாடிகளில", lit "in $1 second");
    (rx "(?i)(\d+[.,]?\d*) நிமிடததில", lit "in $1 minute");
    (rx "(?i)(\d+[.,]?\d*) விநாடியில", lit "in $1 second");
    (rx "(?i)(\d+[.,]?\d*) ஆணடுகளில", lit "in $1 year");
    (rx "(?i)(\d+[.,]?\d*) நிமி முன", lit "$1 minute ago");
    (rx "(?i)(\d+[.,]?\d*) மாதஙகளில", lit "in $1 month");
    (rx "(?i)(\d+[.,]?\d*) வாரஙகளில", lit "in $1 week");
    (rx "(?i)(\d+[.,]?\d*) விநா முன", lit "$1 second ago");
    (rx "(?i)(\d+[.,]?\d*) நாடகளில", lit "in $1 day");
    (rx "(?i)(\d+[.,]?\d*) மணி முன", lit "$1 hour ago");
    (rx "(?i)(\d+[.,]?\d*) மாத முன", lit "$1 month ago");
    (rx "(?i)(\d+[.,]?\d*) மாதததில", lit "in $1 month");
    (rx "(?i)(\d+[.,]?\d*) வார முன", lit "$1 week ago");
    (rx "(?i)(\d+[.,]?\d*) வாரததில", lit "in $1 week");
    (rx "(?i)(\d+[.,]?\d*) நா முன", lit "$1 day ago");
    (rx "(?i)(\d+[.,]?\d*) நி முன", lit "$1 minute ago");
    (rx "(?i)(\d+[.,]?\d*) மா முன", lit "$1 month ago");
    (rx "(?i)(\d+[.,]?\d*) வா முன", lit "$1 week ago");
    (rx "(?i)(\d+[.,]?\d*) வி முன", lit "$1 second ago");
    (rx "(?i)(\d+[.,]?\d*) ஆ முன", lit "$1 year ago");
    (rx "(?i)(\d+[.,]?\d*) ஆணடில", lit "in $1 year");
    (rx "(?i)(\d+[.,]?\d*) நாளில", lit "in $1 day");
    (rx "(?i)(\d+[.,]?\d*) ம முன", lit "$1 hour ago");
    (rx "(?i)(\d+[.,]?\d*) நிமி", lit "in $1 minute");
    (rx "(?i)(\d+[.,]?\d*) விநா", lit "in $1 second");
    (rx "(?i)(\d+[.,]?\d*) மணி", lit "in $1 hour");
    (rx "(?i)(\d+[.,]?\d*) மாத", lit "in $1 month");
    (rx "(?i)(\d+[.,]?\d*) வார", lit "in $1 week");
    (rx "(?i)(\d+[.,]?\d*) நா", lit "in $1 day");
    (rx "(?i)(\d+[.,]?\d*) நி", lit "in $1 minute");
    (rx "(?i)(\d+[.,]?\d*) மா", lit "in $1 month");
    (rx "(?i)(\d+[.,]?\d*) வா", lit "in $1 week");
    (rx "(?i)(\d+[.,]?\d*) வி", lit "in $1 second");
    (rx "(?i)(\d+[.,]?\d*) ஆ", lit "in $1 year");
    (rx "(?i)(\d+[.,]?\d*) ம", lit "in $1 hour")];
    ld_rx := Some (rx "(?i)(\A|[^\pL\pM\d]|_)(\d+[.,]?\d* நிமிடஙகளுககு முன|\d+[.,]?\d* விநாடிகளுககு முன|\d+[.,]?\d* நிமிடததிறகு முன|\d+[.,]?\d* வாரததிறகு முனபு|\d+[.,]?\d* ஆணடுகளுககு முன|\d+[.,]?\d* மாதஙகளுககு முன|\d+[.,]?\d* வாரஙகளுககு முன|\d+[.,]?\d* நாடகளுககு முன|\d+[.,]?\d* மாதததுககு முன|\d+[.,]?\d* விநாடிககு முன|\d+[.,]?\d* ஆணடிறகு முன|\d+[.,]?\d* நாளுககு முன|\d+[.,]?\d* மணிநேரம முன|\d+[.,]?\d* நிமிடஙகளில|\d+[.,]?\d* மணிநேரததில|\d+[.,]?\d* விநாடிகளில|\d+[.,]?\d* நிமிடததில|\d+[.,]?\d* விநாடியில|\d+[.,]?\d* ஆணடுகளில|\d+[.,]?\d* நிமி முன|\d+[.,]?\d* மாதஙகளில|\d+[.,]?\d* வாரஙகளில|\d+[.,]?\d* விநா முன|\d+[.,]?\d* நாடகளில|\d+[.,]?\d* மணி முன|\d+[.,]?\d* மாத முன|\d+[.,]?\d* மாதததில|\d+[.,]?\d* வார முன|\d+[.,]?\d* வாரததில|\d+[.,]?\d* நா முன|\d+[.,]?\d* நி முன|\d+[.,]?\d* மா முன|\d+[.,]?\d* வா முன|\d+[.,]?\d* வி முன|\d+[.,]?\d* ஆ முன|\d+[.,]?\d* ஆணடில|\d+[.,]?\d* நாளில|\d+[.,]?\d* ம முன|\d+[.,]?\d* நிமி|\d+[.,]?\d* விநா|\d+[.,]?\d* மணி|\d+[.,]?\d* மாத|\d+[.,]?\d* வார|\d+[.,]?\d* நா|\d+[.,]?\d* நி|\d+[.,]?\d* மா|\d+[.,]?\d* வா|\d+[.,]?\d* வி|\d+[.,]?\d* ஆ|\d+[.,]?\d* ம)(\z|[^\pL\pM\d]|_)");
    ld_rx_exact := Some (rx "(?i)^(\d+[.,]?\d* நிமிடஙகளுககு முன|\d+[.,]?\d* விநாடிகளுககு முன|\d+[.,]?\d* நிமிடததிறகு முன|\d+[.,]?\d* வாரததிறகு முனபு|\d+[.,]?\d* ஆணடுகளுககு முன|\d+[.,]?\d* மாதஙகளுககு முன|\d+[.,]?\d* வாரஙகளுககு முன|\d+[.,]?\d* நாடகளுககு முன|\d+[.,]?\d* மாதததுககு முன|\d+[.,]?\d* விநாடிககு முன|\d+[.,]?\d* ஆணடிறகு முன|\d+[.,]?\d* நாளுககு முன|\d+[.,]?\d* மணிநேரம முன|\d+[.,]?\d* நிமிடஙகளில|\d+[.,]?\d* மணிநேரததில|\d+[.,]?\d* விநாடிகளில|\d+[.,]?\d* நிமிடததில|\d+[.,]?\d* விநாடியில|\d+[.,]?\d* ஆணடுகளில|\d+[.,]?\d* நிமி முன|\d+[.,]?\d* மாதஙகளில|\d+[.,]?\d* வாரஙகளில|\d+[.,]?\d* விநா முன|\d+[.,]?\d* நாடகளில|\d+[.,]?\d* மணி முன|\d+[.,]?\d* மாத முன|\d+[.,]?\d* மாதததில|\d+[.,]?\d* வார முன|\d+[.,]?\d* வாரததில|\d+[.,]?\d* நா முன|\d+[.,]?\d* நி முன|\d+[.,]?\d* மா முன|\d+[.,]?\d* வா முன|\d+[.,]?\d* வி முன|\d+[.,]?\d* ஆ முன|\d+[.,]?\d* ஆணடில|\d+[.,]?\d* நாளில|\d+[.,]?\d* ம முன|\d+[.,]?\d* நிமி|\d+[.,]?\d* விநா|\d+[.,]?\d* மணி|\d+[.,]?\d* மாத|\d+[.,]?\d* வார|\d+[.,]?\d* நா|\d+[.,]?\d* நி|\d+[.,]?\d* மா|\d+[.,]?\d* வா|\d+[.,]?\d* வி|\d+[.,]?\d* ஆ|\d+[.,]?\d* ம)$");
    ld_known := [lit "இநத ஒரு மணிநேரததில";
    lit "இநத ஒரு நிமிடததில";
    lit "அடுதத ஆணடு";
    lit "அடுதத மாதம";
    lit "அடுதத வாரம";
    lit "கடநத ஆணடு";
    lit "கடநத மாதம";
    lit "கடநத வாரம";
    lit "இநத ஆணடு";
    lit "இநத மாதம";
    lit "இநத வாரம";
    lit "செபடமபர";
    lit "பிபரவரி";
    lit "அகடோபர";
    lit "இபபோது";
    lit "செவவாய";
    lit "ஞாயிறு";
    lit "டிசமபர";
    lit "நிமிடம";
    lit "பிறபகல";
    lit "முறபகல";
    lit "விநாடி";
    lit "வியாழன";
    lit "ஜனவரி";
    lit "திஙகள";
    lit "நவமபர";
    lit "நேறறு";
    lit "வெளளி";
    lit "ஆகஸட";
    lit "ஆணடு";
    lit "இனறு";
    lit "ஏபரல";
    lit "ஜூலை";
    lit "ஞாயி";
    lit "நாளை";
    lit "நிமி";
    lit "புதன";
    lit "மாதம";
    lit "மாரச";
    lit "வாரம";
    lit "விநா";
    lit "வியா";
    lit "gmt";
    lit "utc";
    lit "சனி";
    lit "செப";
    lit "செவ";
    lit "ஜூன";
    lit "டிச";
    lit "திங";
    lit "நாள";
    lit "பிப";
    lit "புத";
    lit "மணி";
    lit "மாத";
    lit "மார";
    lit "வெள";
    lit "am";
    lit "pm";
    lit "அக";
    lit "ஆக";
    lit "ஏப";
    lit "ஜன";
    lit "நவ";
    lit "நா";
    lit "மா";
    lit "மே";
    lit "வா";
    lit "வி";
    lit " ";
    lit "'";
    lit "+";
    lit ",";
    lit "-";
    lit ".";
    lit "/";
    lit ":";
    lit ";";
    lit "@";
    lit "[";
    lit "]";
    lit "z";
    lit "|";
    lit "ஆ";
    lit "ம"] |}.

(** ta.go:165-168 *)
Definition own_ta_LK : locale := Eval vm_compute in
  {| ld_name := lit "ta-LK"; ld_order := lit "DMY"; ld_nospacing := false; ld_splitter := 0;
    ld_charset := runes (lit "");
    ld_abbr := [];
    ld_simpl := [];
    ld_trans := [];
    ld_reltype := [];
    ld_relrx := [];
    ld_rx := None;
    ld_rx_exact := None;
    ld_known := [] |}.
Definition loc_ta_LK : locale := merge loc_ta own_ta_LK.

(** ta.go:170-173 *)
Definition own_ta_MY : locale := Eval vm_compute in
  {| ld_name := lit "ta-MY"; ld_order := lit "DMY"; ld_nospacing := false; ld_splitter := 0;
    ld_charset := runes (lit "");
    ld_abbr := [];
    ld_simpl := [];
    ld_trans := [];
    ld_reltype := [];
    ld_relrx := [];
    ld_rx := None;
    ld_rx_exact := None;
    ld_known := [] |}.
Definition loc_ta_MY : locale := merge loc_ta own_ta_MY.

(** ta.go:175-178 *)
Definition own_ta_SG : locale := Eval vm_compute in
  {| ld_name := lit "ta-SG"; ld_order := lit "DMY"; ld_nospacing := false; ld_splitter := 0;
    ld_charset := runes (lit "");
    ld_abbr := [];
    ld_simpl := [];
    ld_trans := [];
    ld_reltype := [];
    ld_relrx := [];
    ld_rx := None;
    ld_rx_exact := None;
    ld_known := [] |}.
Definition loc_ta_SG : locale := merge loc_ta own_ta_SG.

(** te.go:12-142 *)
Definition loc_te : locale := Eval vm_compute in
  {| ld_name := lit "te"; ld_order := lit "DMY"; ld_nospacing := false; ld_splitter := 0;
    ld_charset := runes (lit "cgtuzంఅఆఈఏకగచజటడతదధనపఫబమరలళవశషసాిుూెేైో్");
    ld_abbr := [];
    ld_simpl := [];
    ld_trans := [(lit "గురువరం", [lit "thursday"]);
    (lit "మంగళవరం", [lit "tuesday"]);
    (lit "శుకరవరం", [lit "friday"]);
    (lit "సంవతసరం", [lit "year"]);
    (lit "బుధవరం", [lit "wednesday"]);
    (lit "సపటంబర", [lit "september"]);
    (lit "అకటబర", [lit "october"]);
    (lit "ఆగసటు", [lit "august"]);
    (lit "ఆదవరం", [lit "sunday"]);
    (lit "డసంబర", [lit "december"]);
    (lit "నమషము", [lit "minute"]);
    (lit "నవంబర", [lit "november"]);
    (lit "ఫబరవర", [lit "february"]);
    (lit "శనవరం", [lit "saturday"]);
    (lit "సమవరం", [lit "monday"]);
    (lit "ఏపరల", [lit "april"]);
    (lit "గురు", [lit "thursday"]);
    (lit "జనవర", [lit "january"]);
    (lit "మంగళ", [lit "tuesday"]);
    (lit "వరము", [lit "week"]);
    (lit "శుకర", [lit "friday"]);
    (lit "సకను", [lit "second"]);
    (lit "సపటం", [lit "september"]);
    (lit "gmt", [lit "gmt"]);
    (lit "utc", [lit "utc"]);
    (lit "అకట", [lit "october"]);
    (lit "ఏపర", [lit "april"]);
    (lit "గంట", [lit "hour"]);
    (lit "జుల", [lit "july"]);
    (lit "జూన", [lit "june"]);
    (lit "డసం", [lit "december"]);
    (lit "దనం", [lit "day"]);
    (lit "నవం", [lit "november"]);
    (lit "ఫబర", [lit "february"]);
    (lit "బుధ", [lit "wednesday"]);
    (lit "మరచ", [lit "march"]);
    (lit "am", [lit "am"]);
    (lit "pm", [lit "pm"]);
    (lit "ఆగ", [lit "august"]);
    (lit "ఆద", [lit "sunday"]);
    (lit "గం", [lit "hour"]);
    (lit "జన", [lit "january"]);
    (lit "నమ", [lit "minute"]);
    (lit "నల", [lit "month"]);
    (lit "శన", [lit "saturday"]);
    (lit "సం", [lit "year"]);
    (lit "సక", [lit "second"]);
    (lit "సమ", [lit "monday"]);
    (lit " ", [lit " "]);
    (lit "'", [lit ""]);
    (lit "+", [lit "+"]);
    (lit ",", [lit ""]);
    (lit "-", [lit "-"]);
    (lit ".", [lit "."]);
    (lit "/", [lit "/"]);
    (lit ":", [lit ":"]);
    (lit ";", [lit ""]);
    (lit "@", [lit ""]);
    (lit "[", [lit ""]);
    (lit "]", [lit ""]);
    (lit "z", [lit "z"]);
    (lit "|", [lit ""]);
    (lit "ద", [lit "day"]);
    (lit "న", [lit "month"; lit "minute"]);
    (lit "మ", [lit "may"]);
    (lit "వ", [lit "week"])];
    ld_reltype := [(lit "తదుపర సంవతసరం", lit "in 1 year");
    (lit "గత సంవతసరం", lit "1 year ago");
    (lit "ఈ సంవతసరం", lit "0 year ago");
    (lit "తదుపర వరం", lit "in 1 week");
    (lit "తదుపర నల", lit "in 1 month");
    (lit "పరసతుతం", lit "0 second ago");
    (lit "ఈ నమషం", lit "0 minute ago");
    (lit "గత వరం", lit "1 week ago");
    (lit "ఈ గంట", lit "0 hour ago");
    (lit "ఈ రజు", lit "0 day ago");
    (lit "ఈ వరం", lit "0 week ago");
    (lit "గత నల", lit "1 month ago");
    (lit "ఈ నల", lit "0 month ago");
    (lit "ననన", lit "1 day ago");
    (lit "రపు", lit "in 1 day")];
    ld_relrx := [(rx "(?i)(\d+[.,]?\d*) సంవతసరం కరతం", lit "$1 year ago");
    (rx "(?i)(\d+[.,]?\d*) సంవతసరల కరతం", lit "$1 year ago");
    (rx "(?i)(\d+[.,]?\d*) గంటల కరతం", lit "$1 hour ago");
    (rx "(?i)(\d+[.,]?\d*) నమషం కరతం", lit "$1 minute ago");
    (rx "(?i)(\d+[.,]?\d*) నమషల కరతం", lit "$1 minute ago");
    (rx "(?i)(\d+[.,]?\d*) రజుల కరతం", lit "$1 day ago");
    (rx "(?i)(\d+[.,]?\d*) సకనల కరతం", lit "$1 second ago");
    (rx "(?i)(\d+[.,]?\d*) సకను కరతం", lit "$1 second ago");
    (rx "(?i)(\d+[.,]?\d*) గంట కరతం", lit "$1 hour ago");
    (rx "(?i)(\d+[.,]?\d*) నలల కరతం", lit "$1 month ago");
    (rx "(?i)(\d+[.,]?\d*) రజు కరతం", lit "$1 day ago");
    (rx "(?i)(\d+[.,]?\d*) వరం కరతం", lit "$1 week ago");
    (rx "(?i)(\d+[.,]?\d*) వరల కరతం", lit "$1 week ago");
    (rx "(?i)(\d+[.,]?\d*) సంవతసరంల", lit "in $1 year");
    (rx "(?i)(\d+[.,]?\d*) సంవతసరలల", lit "in $1 year");
    (rx "(?i)(\d+[.,]?\d*) గం కరతం", lit "$1 hour ago");
    (rx "(?i)(\d+[.,]?\d*) నమ కరతం", lit "$1 minute ago");
    (rx "(?i)(\d+[.,]?\d*) నల కరతం", lit "$1 month ago");
    (rx "(?i)(\d+[.,]?\d*) సం కరతం", lit "$1 year ago");
    (rx "(?i)(\d+[.,]?\d*) సక కరతం", lit "$1 second ago");
    (rx "(?i)(\d+[.,]?\d*) గంటలల", lit "in $1 hour");
    (rx "(?i)(\d+[.,]?\d*) నమషంల", lit "in $1 minute");
    (rx "(?i)(\d+[.,]?\d*) నమషలల", lit "in $1 minute");
    (rx "(?i)(\d+[.,]?\d*) రజులల", lit "in $1 day");
    (rx "(?i)(\d+[.,]?\d*) సకనలల", lit "in $1 second");
    (rx "(?i)(\d+[.,]?\d*) సకనుల", lit "in $1 second");
    (rx "(?i)(\d+[.,]?\d*) గంటల", lit "in $1 hour");
    (rx "(?i)(\d+[.,]?\d*) నలలల", lit "in $1 month");
    (rx "(?i)(\d+[.,]?\d*) రజుల", lit "in $1 day");
    (rx "(?i)(\d+[.,]?\d*) వరంల", lit "in $1 week");
    (rx "(?i)(\d+[.,]?\d*) వరలల", lit "in $1 week");
    (rx "(?i)(\d+[.,]?\d*) సక ల", lit "in $1 second");
    (rx "(?i)(\d+[.,]?\d*) గంల", lit "in $1 hour");
    (rx "(?i)(\d+[.,]?\d*) నమల", lit "in $1 minute");
    (rx "(?i)(\d+[.,]?\d*) నలల", lit "in $1 month");
    (rx "(?i)(\d+[.,]?\d*) సంల", lit "in $1 year")];
    ld_rx := Some (rx "(?i)(\A|[^\pL\pM\d]|_)(\d+[.,]?\d* సంవతసరం కరతం|\d+[.,]?\d* సంవతసరల కరతం|\d+[.,]?\d* గంటల కరతం|\d+[.,]?\d* నమషం కరతం|\d+[.,]?\d* నమషల కరతం|\d+[.,]?\d* రజుల కరతం|\d+[.,]?\d* సకనల కరతం|\d+[.,]?\d* సకను కరతం|\d+[.,]?\d* గంట కరతం|\d+[.,]?\d* నలల కరతం|\d+[.,]?\d* రజు కరతం|\d+[.,]?\d* వరం కరతం|\d+[.,]?\d* వరల కరతం|\d+[.,]?\d* సంవతసరంల|\d+[.,]?\d* సంవతసరలల|\d+[.,]?\d* గం కరతం|\d+[.,]?\d* నమ కరతం|\d+[.,]?\d* నల కరతం|\d+[.,]?\d* సం కరతం|\d+[.,]?\d* సక కరతం|\d+[.,]?\d* గంటలల|\d+[.,]?\d* నమషంల|\d+[.,]?\d* నమషలల|\d+[.,]?\d* రజులల|\d+[.,]?\d* సకనలల|\d+[.,]?\d* సకనుల|\d+[.,]?\d* గంటల|\d+[.,]?\d* నలలల|\d+[.,]?\d* రజుల|\d+[.,]?\d* వరంల|\d+[.,]?\d* వరలల|\d+[.,]?\d* సక ల|\d+[.,]?\d* గంల|\d+[.,]?\d* నమల|\d+[.,]?\d* నలల|\d+[.,]?\d* సంల)(\z|[^\pL\pM\d]|_)");
    ld_rx_exact := Some (rx "(?i)^(\d+[.,]?\d* సంవతసరం కరతం|\d+[.,]?\d* సంవతసరల కరతం|\d+[.,]?\d* గంటల కరతం|\d+[.,]?\d* నమషం కరతం|\d+[.,]?\d* నమషల కరతం|\d+[.,]?\d* రజుల కరతం|\d+[.,]?\d* సకనల కరతం|\d+[.,]?\d* సకను కరతం|\d+[.,]?\d* గంట కరతం|\d+[.,]?\d* నలల కరతం|\d+[.,]?\d* రజు కరతం|\d+[.,]?\d* వరం కరతం|\d+[.,]?\d* వరల కరతం|\d+[.,]?\d* సంవతసరంల|\d+[.,]?\d* సంవతసరలల|\d+[.,]?\d* గం కరతం|\d+[.,]?\d* నమ కరతం|\d+[.,]?\d* నల కరతం|\d+[.,]?\d* సం కరతం|\d+[.,]?\d* సక కరతం|\d+[.,]?\d* గంటలల|\d+[.,]?\d* నమషంల|\d+[.,]?\d* నమషలల|\d+[.,]?\d* రజులల|\d+[.,]?\d* సకనలల|\d+[.,]?\d* సకనుల|\d+[.,]?\d* గంటల|\d+[.,]?\d* నలలల|\d+[.,]?\d* రజుల|\d+[.,]?\d* వరంల|\d+[.,]?\d* వరలల|\d+[.,]?\d* సక ల|\d+[.,]?\d* గంల|\d+[.,]?\d* నమల|\d+[.,]?\d* నలల|\d+[.,]?\d* సంల)$");
    ld_known := [lit "తదుపర సంవతసరం";
    lit "గత సంవతసరం";
    lit "ఈ సంవతసరం";
    lit "తదుపర వరం";
    lit "తదుపర నల";
    lit "గురువరం";
    lit "పరసతుతం";
    lit "మంగళవరం";
    lit "శుకరవరం";
    lit "సంవతసరం";
    lit "ఈ నమషం";
    lit "గత వరం";
    lit "బుధవరం";
    lit "సపటంబర";
    lit "అకటబర";
    lit "ఆగసటు";
    lit "ఆదవరం";
    lit "ఈ గంట";
    lit "ఈ రజు";
    lit "ఈ వరం";
    lit "గత నల";
    lit "డసంబర";
    lit "నమషము";
    lit "నవంబర";
    lit "ఫబరవర";
    lit "శనవరం";
    lit "సమవరం";
    lit "ఈ నల";
    lit "ఏపరల";
    lit "గురు";
    lit "జనవర";
    lit "మంగళ";
    lit "వరము";
    lit "శుకర";
    lit "సకను";
    lit "సపటం";
    lit "gmt";
    lit "utc";
    lit "అకట";
    lit "ఏపర";
    lit "గంట";
    lit "జుల";
    lit "జూన";
    lit "డసం";
    lit "దనం";
    lit "ననన";
    lit "నవం";
    lit "ఫబర";
    lit "బుధ";
    lit "మరచ";
    lit "రపు";
    lit "am";
    lit "pm";
    lit "ఆగ";
    lit "ఆద";
    lit "గం";
    lit "జన";
    lit "నమ";
    lit "నల";
    lit "శన";
    lit "సం";
    lit "సక";
    lit "సమ";
    lit " ";
    lit "'";
    lit "+";
    lit ",";
    lit "-";
    lit ".";
    lit "/";
    lit ":";
    lit ";";
    lit "@";
    lit "[";
    lit "]";
    lit "z";
    lit "|";
    lit "ద";
    lit "న";
    lit "మ";
    lit "వ"] |}.

(** teo.go:11-100 *)
Definition loc_teo : locale := Eval vm_compute in
  {| ld_name := lit "teo"; ld_order := lit "DMY"; ld_nospacing := false; ld_splitter := 0;
    ld_charset := runes (lit "bcdeghijklnorstuwxyz");
    ld_abbr := [];
    ld_simpl := [];
    ld_trans := [(lit "omodok'king'ol", [lit "june"]);
    (lit "nakaebarasa", [lit "monday"]);
    (lit "osokosokoma", [lit "september"]);
    (lit "nakasabiti", [lit "saturday"]);
    (lit "nakaung'on", [lit "thursday"]);
    (lit "nakaejuma", [lit "sunday"]);
    (lit "taparachu", [lit "am"]);
    (lit "isekonde", [lit "second"]);
    (lit "nakakany", [lit "friday"]);
    (lit "odung'el", [lit "april"]);
    (lit "idakika", [lit "minute"]);
    (lit "nakaare", [lit "tuesday"]);
    (lit "nakauni", [lit "wednesday"]);
    (lit "okwamg'", [lit "march"]);
    (lit "aparan", [lit "day"]);
    (lit "ebongi", [lit "pm"]);
    (lit "olabor", [lit "november"]);
    (lit "omaruk", [lit "may"]);
    (lit "opedel", [lit "august"]);
    (lit "otibar", [lit "october"]);
    (lit "ewiki", [lit "week"]);
    (lit "ojola", [lit "july"]);
    (lit "orara", [lit "january"]);
    (lit "ekan", [lit "year"]);
    (lit "elap", [lit "month"]);
    (lit "esaa", [lit "hour"]);
    (lit "omuk", [lit "february"]);
    (lit "opoo", [lit "december"]);
    (lit "aar", [lit "tuesday"]);
    (lit "bar", [lit "monday"]);
    (lit "dun", [lit "april"]);
    (lit "gmt", [lit "gmt"]);
    (lit "jol", [lit "july"]);
    (lit "jum", [lit "sunday"]);
    (lit "kan", [lit "friday"]);
    (lit "kwa", [lit "march"]);
    (lit "lab", [lit "november"]);
    (lit "mar", [lit "may"]);
    (lit "mod", [lit "june"]);
    (lit "muk", [lit "february"]);
    (lit "ped", [lit "august"]);
    (lit "poo", [lit "december"]);
    (lit "rar", [lit "january"]);
    (lit "sab", [lit "saturday"]);
    (lit "sok", [lit "september"]);
    (lit "tib", [lit "october"]);
    (lit "ung", [lit "thursday"]);
    (lit "uni", [lit "wednesday"]);
    (lit "utc", [lit "utc"]);
    (lit "am", [lit "am"]);
    (lit "pm", [lit "pm"]);
    (lit " ", [lit " "]);
    (lit "'", [lit ""]);
    (lit "+", [lit "+"]);
    (lit ",", [lit ""]);
    (lit "-", [lit "-"]);
    (lit ".", [lit "."]);
    (lit "/", [lit "/"]);
    (lit ":", [lit ":"]);
    (lit ";", [lit ""]);
    (lit "@", [lit ""]);
    (lit "[", [lit ""]);
    (lit "]", [lit ""]);
    (lit "z", [lit "z"]);
    (lit "|", [lit ""])];
    ld_reltype := [(lit "this minute", lit "0 minute ago");
    (lit "last month", lit "1 month ago");
    (lit "next month", lit "in 1 month");
    (lit "this month", lit "0 month ago");
    (lit "last week", lit "1 week ago");
    (lit "last year", lit "1 year ago");
    (lit "next week", lit "in 1 week");
    (lit "next year", lit "in 1 year");
    (lit "this hour", lit "0 hour ago");
    (lit "this week", lit "0 week ago");
    (lit "this year", lit "0 year ago");
    (lit "jaan", lit "1 day ago");
    (lit "lolo", lit "0 day ago");
    (lit "moi", lit "in 1 day");
    (lit "now", lit "0 second ago")];
    ld_relrx := [];
    ld_rx := None;
    ld_rx_exact := None;
    ld_known := [lit "omodok'king'ol";
    lit "nakaebarasa";
    lit "osokosokoma";
    lit "this minute";
    lit "last month";
    lit "nakasabiti";
    lit "nakaung'on";
    lit "next month";
    lit "this month";
    lit "last week";
    lit "last year";
    lit "nakaejuma";
    lit "next week";
    lit "next year";
    lit "taparachu";
    lit "this hour";
    lit "this week";
    lit "this year";
    lit "isekonde";
    lit "nakakany";
    lit "odung'el";
    lit "idakika";
    lit "nakaare";
    lit "nakauni";
    lit "okwamg'";
    lit "aparan";
    lit "ebongi";
    lit "olabor";
    lit "omaruk";
    lit "opedel";
    lit "otibar";
    lit "ewiki";
    lit "ojola";
    lit "orara";
    lit "ekan";
    lit "elap";
    lit "esaa";
    lit "jaan";
    lit "lolo";
    lit "omuk";
    lit "opoo";
    lit "aar";
    lit "bar";
    lit "dun";
    lit "gmt";
    lit "jol";
    lit "jum";
    lit "kan";
    lit "kwa";
    lit "lab";
    lit "mar";
    lit "mod";
    lit "moi";
    lit "muk";
    lit "now";
    lit "ped";
    lit "poo";
    lit "rar";
    lit "sab";
    lit "sok";
    lit "tib";
    lit "ung";
    lit "uni";
    lit "utc";
    lit "am";
    lit "pm";
    lit " ";
    lit "'";
    lit "+";
    lit ",";
    lit "-";
    lit ".";
    lit "/";
    lit ":";
    lit ";";
    lit "@";
    lit "[";
    lit "]";
    lit "z";
    lit "|"] |}.

(** teo.go:102-105 *)
Definition own_teo_KE : locale := Eval vm_compute in
  {| ld_name := lit "teo-KE"; ld_order := lit "DMY"; ld_nospacing := false; ld_splitter := 0;
    ld_charset := runes (lit "");
    ld_abbr := [];
    ld_simpl := [];
    ld_trans := [];
    ld_reltype := [];
    ld_relrx := [];
    ld_rx := None;
    ld_rx_exact := None;
    ld_known := [] |}.
Definition loc_teo_KE : locale := merge loc_teo own_teo_KE.

(** th.go:12-190 *)
Definition loc_th : locale := Eval vm_compute in
  {| ld_name := lit "th"; ld_order := lit "DMY"; ld_nospacing := false; ld_splitter := 5;
    ld_charset := runes (lit "cgtuzกขคงจชฎฏณดตถทธนบปพภมยรฤลวศษสหอะัาิีืุเแโใ่้์");
    ld_abbr := [lit "น"];
    ld_simpl := [(rx "(?i)(\A|[^\pL\pM\d_])วนน(\z|[^\pL\pM\d_])", lit "${1}0 วน${2}");
    (rx "(?i)(\A|[^\pL\pM\d_])เมอวานน(\z|[^\pL\pM\d_])", lit "${1}1 วน${2}");
    (rx "(?i)(\A|[^\pL\pM\d_])1 วนทแลว(\z|[^\pL\pM\d_])", lit "${1}1 วน${2}");
    (rx "(?i)(\A|[^\pL\pM\d_])เมอวานซน(\z|[^\pL\pM\d_])", lit "${1}2 วน${2}");
    (rx "(?i)(\A|[^\pL\pM\d_])2 วนทแลว(\z|[^\pL\pM\d_])", lit "${1}2 วน${2}");
    (rx "(?i)(\A|[^\pL\pM\d_])เมอสกครน(\z|[^\pL\pM\d_])", lit "${1}0 วนาท${2}")];
    ld_trans := [(lit "เดอนพฤศจกายน", [lit "november"]);
    (lit "เดอนกมภาพนธ", [lit "february"]);
    (lit "เดอนกรกฏาคม", [lit "july"]);
    (lit "เดอนพฤษภาคม", [lit "may"]);
    (lit "เดอนกนยายน", [lit "september"]);
    (lit "เดอนธนวาคม", [lit "december"]);
    (lit "เดอนมกราคม", [lit "january"]);
    (lit "เดอนมถนายน", [lit "june"]);
    (lit "เดอนสงหาคม", [lit "august"]);
    (lit "เดอนเมษายน", [lit "april"]);
    (lit "วนพฤหสบดท", [lit "thursday"]);
    (lit "เดอนตลาคม", [lit "october"]);
    (lit "เดอนมนาคม", [lit "march"]);
    (lit "พฤศจกายน", [lit "november"]);
    (lit "วนพฤหสบด", [lit "thursday"]);
    (lit "วนองคารท", [lit "tuesday"]);
    (lit "วนอาทตยท", [lit "sunday"]);
    (lit "กมภาพนธ", [lit "february"]);
    (lit "กรกฎาคม", [lit "july"]);
    (lit "กอนเทยง", [lit "am"]);
    (lit "พฤษภาคม", [lit "may"]);
    (lit "วนจนทรท", [lit "monday"]);
    (lit "วนองคาร", [lit "tuesday"]);
    (lit "วนอาทตย", [lit "sunday"]);
    (lit "วนเสารท", [lit "saturday"]);
    (lit "หลงเทยง", [lit "pm"]);
    (lit "กนยายน", [lit "september"]);
    (lit "ธนวาคม", [lit "december"]);
    (lit "พฤหสบด", [lit "thursday"]);
    (lit "มกราคม", [lit "january"]);
    (lit "มถนายน", [lit "june"]);
    (lit "วนจนทร", [lit "monday"]);
    (lit "วนศกรท", [lit "friday"]);
    (lit "วนเสาร", [lit "saturday"]);
    (lit "สงหาคม", [lit "august"]);
    (lit "เมษายน", [lit "april"]);
    (lit "กรกฎา", [lit "july"]);
    (lit "ชวโมง", [lit "hour"]);
    (lit "ตลาคม", [lit "october"]);
    (lit "พฤษภา", [lit "may"]);
    (lit "มนาคม", [lit "march"]);
    (lit "มาแลว", [lit "ago"]);
    (lit "วนพธท", [lit "wednesday"]);
    (lit "วนศกร", [lit "friday"]);
    (lit "สปดาห", [lit "week"]);
    (lit "องคาร", [lit "tuesday"]);
    (lit "อาทตย", [lit "sunday"]);
    (lit "แตกอน", [lit "ago"]);
    (lit "กนยา", [lit "september"]);
    (lit "กมภา", [lit "february"]);
    (lit "จนทร", [lit "monday"]);
    (lit "ธนวา", [lit "december"]);
    (lit "พฤศจ", [lit "november"]);
    (lit "พฤหส", [lit "thursday"]);
    (lit "มกรา", [lit "january"]);
    (lit "มถนา", [lit "june"]);
    (lit "วนพธ", [lit "wednesday"]);
    (lit "วนาท", [lit "second"]);
    (lit "สงหา", [lit "august"]);
    (lit "เดอน", [lit "month"]);
    (lit "เมษา", [lit "april"]);
    (lit "เวลา", [lit ""]);
    (lit "เสาร", [lit "saturday"]);
    (lit "gmt", [lit "gmt"]);
    (lit "utc", [lit "utc"]);
    (lit "กอน", [lit "ago"]);
    (lit "ตลา", [lit "october"]);
    (lit "นาท", [lit "minute"]);
    (lit "มนา", [lit "march"]);
    (lit "ศกร", [lit "friday"]);
    (lit "เมย", [lit "april"]);
    (lit "เมอ", [lit ""]);
    (lit "am", [lit "am"]);
    (lit "pm", [lit "pm"]);
    (lit "กค", [lit "july"]);
    (lit "กพ", [lit "february"]);
    (lit "กย", [lit "september"]);
    (lit "ชม", [lit "hour"]);
    (lit "ตค", [lit "october"]);
    (lit "ธค", [lit "december"]);
    (lit "น.", [lit ""]);
    (lit "พค", [lit "may"]);
    (lit "พธ", [lit "wednesday"]);
    (lit "พย", [lit "november"]);
    (lit "พฤ", [lit "thursday"]);
    (lit "มค", [lit "march"; lit "january"]);
    (lit "มย", [lit "june"]);
    (lit "วน", [lit "day"]);
    (lit "สค", [lit "august"]);
    (lit "อา", [lit "sunday"]);
    (lit "ใน", [lit "in"]);
    (lit " ", [lit " "]);
    (lit "'", [lit ""]);
    (lit "+", [lit "+"]);
    (lit ",", [lit ""]);
    (lit "-", [lit "-"]);
    (lit ".", [lit "."]);
    (lit "/", [lit "/"]);
    (lit ":", [lit ":"]);
    (lit ";", [lit ""]);
    (lit "@", [lit ""]);
    (lit "[", [lit ""]);
    (lit "]", [lit ""]);
    (lit "z", [lit "z"]);
    (lit "|", [lit ""]);
    (lit "จ", [lit "monday"]);
    (lit "น", [lit "minute"]);
    (lit "ป", [lit "year"]);
    (lit "พ", [lit "wednesday"]);
    (lit "ว", [lit "second"]);
    (lit "ศ", [lit "friday"]);
    (lit "ส", [lit "saturday"]);
    (lit "อ", [lit "tuesday"])];
    ld_reltype := [(lit "สปดาหทแลว", lit "1 week ago");
    (lit "สปดาหหนา", lit "in 1 week");
    (lit "เดอนทแลว", lit "1 month ago");
    (lit "เดอนหนา", lit "in 1 month");
    (lit "ชวโมงน", lit "0 hour ago");
    (lit "สปดาหน", lit "0 week ago");
    (lit "เมอวาน", lit "1 day ago");
    (lit "ปทแลว", lit "1 year ago");
    (lit "เดอนน", lit "0 month ago");
    (lit "ขณะน", lit "0 second ago");
    (lit "นาทน", lit "0 minute ago");
    (lit "ปหนา", lit "in 1 year");
    (lit "พรงน", lit "in 1 day");
    (lit "วนน", lit "0 day ago");
    (lit "ปน", lit "0 year ago")];
    ld_relrx := [(rx "(?i)(\d+[.,]?\d*) ชวโมงทผานมา", lit "$1 hour ago");
    (rx "(?i)(\d+[.,]?\d*) สปดาหทผานมา", lit "$1 week ago");
    (rx "(?i)(\d+[.,]?\d*) วนาททผานมา", lit "$1 second ago");
    (rx "(?i)(\d+[.,]?\d*) เดอนทผานมา", lit "$1 month ago");
    (rx "(?i)ในอก (\d+[.,]?\d*) ชวโมง", lit "in $1 hour");
    (rx "(?i)ในอก (\d+[.,]?\d*) สปดาห", lit "in $1 week");
    (rx "(?i)(\d+[.,]?\d*) นาททผานมา", lit "$1 minute ago");
    (rx "(?i)(\d+[.,]?\d*) สปดาหทแลว", lit "$1 week ago");
    (rx "(?i)ในอก (\d+[.,]?\d*) วนาท", lit "in $1 second");
    (rx "(?i)ในอก (\d+[.,]?\d*) เดอน", lit "in $1 month");
    (rx "(?i)(\d+[.,]?\d*) วนทผานมา", lit "$1 day ago");
    (rx "(?i)(\d+[.,]?\d*) วนาททแลว", lit "$1 second ago");
    (rx "(?i)(\d+[.,]?\d*) เดอนทแลว", lit "$1 month ago");
    (rx "(?i)ใน (\d+[.,]?\d*) สปดาห", lit "in $1 week");
    (rx "(?i)ในอก (\d+[.,]?\d*) นาท", lit "in $1 minute");
    (rx "(?i)(\d+[.,]?\d*) ชม ทแลว", lit "$1 hour ago");
    (rx "(?i)(\d+[.,]?\d*) นาททแลว", lit "$1 minute ago");
    (rx "(?i)ใน (\d+[.,]?\d*) วนาท", lit "in $1 second");
    (rx "(?i)ใน (\d+[.,]?\d*) เดอน", lit "in $1 month");
    (rx "(?i)ในอก (\d+[.,]?\d*) วน", lit "in $1 day");
    (rx "(?i)(\d+[.,]?\d*) วนทแลว", lit "$1 day ago");
    (rx "(?i)ใน (\d+[.,]?\d*) นาท", lit "in $1 minute");
    (rx "(?i)ในอก (\d+[.,]?\d*) ป", lit "in $1 year");
    (rx "(?i)(\d+[.,]?\d*) ปทแลว", lit "$1 year ago");
    (rx "(?i)ใน (\d+[.,]?\d*) ชม", lit "in $1 hour");
    (rx "(?i)ใน (\d+[.,]?\d*) วน", lit "in $1 day");
    (rx "(?i)ใน (\d+[.,]?\d*) ป", lit "in $1 year")];
    ld_rx := Some (rx "(?i)(\A|[^\pL\pM\d]|_)(\d+[.,]?\d* ชวโมงทผานมา|\d+[.,]?\d* สปดาหทผานมา|\d+[.,]?\d* วนาททผานมา|\d+[.,]?\d* เดอนทผานมา|ในอก \d+[.,]?\d* ชวโมง|ในอก \d+[.,]?\d* สปดาห|\d+[.,]?\d* นาททผานมา|\d+[.,]?\d* สปดาหทแลว|ในอก \d+[.,]?\d* วนาท|ในอก \d+[.,]?\d* เดอน|\d+[.,]?\d* วนทผานมา|\d+[.,]?\d* วนาททแลว|\d+[.,]?\d* เดอนทแลว|ใน \d+[.,]?\d* สปดาห|ในอก \d+[.,]?\d* นาท|\d+[.,]?\d* ชม ทแลว|\d+[.,]?\d* นาททแลว|ใน \d+[.,]?\d* วนาท|ใน \d+[.,]?\d* เดอน|ในอก \d+[.,]?\d* วน|\d+[.,]?\d* วนทแลว|ใน \d+[.,]?\d* นาท|ในอก \d+[.,]?\d* ป|\d+[.,]?\d* ปทแลว|ใน \d+[.,]?\d* ชม|ใน \d+[.,]?\d* วน|ใน \d+[.,]?\d* ป)(\z|[^\pL\pM\d]|_)");
    ld_rx_exact := Some (rx "(?i)^(\d+[.,]?\d* ชวโมงทผานมา|\d+[.,]?\d* สปดาหทผานมา|\d+[.,]?\d* วนาททผานมา|\d+[.,]?\d* เดอนทผานมา|ในอก \d+[.,]?\d* ชวโมง|ในอก \d+[.,]?\d* สปดาห|\d+[.,]?\d* นาททผานมา|\d+[.,]?\d* สปดาหทแลว|ในอก \d+[.,]?\d* วนาท|ในอก \d+[.,]?\d* เดอน|\d+[.,]?\d* วนทผานมา|\d+[.,]?\d* วนาททแลว|\d+[.,]?\d* เดอนทแลว|ใน \d+[.,]?\d* สปดาห|ในอก \d+[.,]?\d* นาท|\d+[.,]?\d* ชม ทแลว|\d+[.,]?\d* นาททแลว|ใน \d+[.,]?\d* วนาท|ใน \d+[.,]?\d* เดอน|ในอก \d+[.,]?\d* วน|\d+[.,]?\d* วนทแลว|ใน \d+[.,]?\d* นาท|ในอก \d+[.,]?\d* ป|\d+[.,]?\d* ปทแลว|ใน \d+[.,]?\d* ชม|ใน \d+[.,]?\d* วน|ใน \d+[.,]?\d* ป)$");
    ld_known := [lit "เดอนพฤศจกายน";
    lit "เดอนกมภาพนธ";
    lit "เดอนกรกฏาคม";
    lit "เดอนพฤษภาคม";
    lit "เดอนกนยายน";
    lit "เดอนธนวาคม";
    lit "เดอนมกราคม";
    lit "เดอนมถนายน";
    lit "เดอนสงหาคม";
    lit "เดอนเมษายน";
    lit "วนพฤหสบดท";
    lit "สปดาหทแลว";
    lit "เดอนตลาคม";
    lit "เดอนมนาคม";
    lit "พฤศจกายน";
    lit "วนพฤหสบด";
    lit "วนองคารท";
    lit "วนอาทตยท";
    lit "สปดาหหนา";
    lit "เดอนทแลว";
    lit "กมภาพนธ";
    lit "กรกฎาคม";
    lit "กอนเทยง";
    lit "พฤษภาคม";
    lit "วนจนทรท";
    lit "วนองคาร";
    lit "วนอาทตย";
    lit "วนเสารท";
    lit "หลงเทยง";
    lit "เดอนหนา";
    lit "กนยายน";
    lit "ชวโมงน";
    lit "ธนวาคม";
    lit "พฤหสบด";
    lit "มกราคม";
    lit "มถนายน";
    lit "วนจนทร";
    lit "วนศกรท";
    lit "วนเสาร";
    lit "สงหาคม";
    lit "สปดาหน";
    lit "เมษายน";
    lit "เมอวาน";
    lit "กรกฎา";
    lit "ชวโมง";
    lit "ตลาคม";
    lit "ปทแลว";
    lit "พฤษภา";
    lit "มนาคม";
    lit "มาแลว";
    lit "วนพธท";
    lit "วนศกร";
    lit "สปดาห";
    lit "องคาร";
    lit "อาทตย";
    lit "เดอนน";
    lit "แตกอน";
    lit "กนยา";
    lit "กมภา";
    lit "ขณะน";
    lit "จนทร";
    lit "ธนวา";
    lit "นาทน";
    lit "ปหนา";
    lit "พรงน";
    lit "พฤศจ";
    lit "พฤหส";
    lit "มกรา";
    lit "มถนา";
    lit "วนพธ";
    lit "วนาท";
    lit "สงหา";
    lit "เดอน";
    lit "เมษา";
    lit "เวลา";
    lit "เสาร";
    lit "gmt";
    lit "utc";
    lit "กอน";
    lit "ตลา";
    lit "นาท";
    lit "มนา";
    lit "วนน";
    lit "ศกร";
    lit "เมย";
    lit "เมอ";
    lit "am";
    lit "pm";
    lit "กค";
    lit "กพ";
    lit "กย";
    lit "ชม";
    lit "ตค";
    lit "ธค";
    lit "น.";
    lit "ปน";
    lit "พค";
    lit "พธ";
    lit "พย";
    lit "พฤ";
    lit "มค";
    lit "มย";
    lit "วน";
    lit "สค";
    lit "อา";
    lit "ใน";
    lit " ";
    lit "'";
    lit "+";
    lit ",";
    lit "-";
    lit ".";
    lit "/";
    lit ":";
    lit ";";
    lit "@";
    lit "[";
    lit "]";
    lit "z";
    lit "|";
    lit "จ";
    lit "น";
    lit "ป";
    lit "พ";
    lit "ว";
    lit "ศ";
    lit "ส";
    lit "อ"] |}.

(** ti.go:11-100 *)
Definition loc_ti : locale := Eval vm_compute in
  {| ld_name := lit "ti"; ld_order := lit "DMY"; ld_nospacing := false; ld_splitter := 0;
    ld_charset := runes (lit "cdeghiklnorstuwxyzሆለሉሓሕመሙሚምሠረሪርሰሳስቀቅበቡቢቦተቲታትኃነኑንከካዓዕዝያይዳድጉጋግጥ");
    ld_abbr := [];
    ld_simpl := [];
    ld_trans := [(lit "ንጉሆ ሰዓተ", [lit "am"]);
    (lit "ድሕር ሰዓት", [lit "pm"]);
    (lit "minute", [lit "minute"]);
    (lit "second", [lit "second"]);
    (lit "month", [lit "month"]);
    (lit "መስከረም", [lit "september"]);
    (lit "hour", [lit "hour"]);
    (lit "week", [lit "week"]);
    (lit "year", [lit "year"]);
    (lit "ለካቲት", [lit "february"]);
    (lit "መጋቢት", [lit "march"]);
    (lit "ሚያዝያ", [lit "april"]);
    (lit "ሰንበት", [lit "sunday"]);
    (lit "ታሕሳስ", [lit "december"]);
    (lit "ግንቦት", [lit "may"]);
    (lit "ጥቅምቲ", [lit "october"]);
    (lit "day", [lit "day"]);
    (lit "gmt", [lit "gmt"]);
    (lit "utc", [lit "utc"]);
    (lit "ሓሙስ", [lit "thursday"]);
    (lit "ሓምለ", [lit "july"]);
    (lit "ሕዳር", [lit "november"]);
    (lit "ሠሉስ", [lit "tuesday"]);
    (lit "ረቡዕ", [lit "wednesday"]);
    (lit "ሰሉስ", [lit "tuesday"]);
    (lit "ሰኑይ", [lit "monday"]);
    (lit "ቀዳም", [lit "saturday"]);
    (lit "ኃሙስ", [lit "thursday"]);
    (lit "ነሓሰ", [lit "august"]);
    (lit "ዓርቢ", [lit "friday"]);
    (lit "am", [lit "am"]);
    (lit "pm", [lit "pm"]);
    (lit "ለካ", [lit "february"]);
    (lit "ሓሙ", [lit "thursday"]);
    (lit "ሓም", [lit "july"]);
    (lit "ሕዳ", [lit "november"]);
    (lit "መስ", [lit "september"]);
    (lit "መጋ", [lit "march"]);
    (lit "ሚያ", [lit "april"]);
    (lit "ረቡ", [lit "wednesday"]);
    (lit "ሰሉ", [lit "tuesday"]);
    (lit "ሰነ", [lit "june"]);
    (lit "ሰኑ", [lit "monday"]);
    (lit "ሰን", [lit "sunday"]);
    (lit "ቀዳ", [lit "saturday"]);
    (lit "ታሕ", [lit "december"]);
    (lit "ነሓ", [lit "august"]);
    (lit "ዓር", [lit "friday"]);
    (lit "ግን", [lit "may"]);
    (lit "ጥሪ", [lit "january"]);
    (lit "ጥቅ", [lit "october"]);
    (lit " ", [lit " "]);
    (lit "'", [lit ""]);
    (lit "+", [lit "+"]);
    (lit ",", [lit ""]);
    (lit "-", [lit "-"]);
    (lit ".", [lit "."]);
    (lit "/", [lit "/"]);
    (lit ":", [lit ":"]);
    (lit ";", [lit ""]);
    (lit "@", [lit ""]);
    (lit "[", [lit ""]);
    (lit "]", [lit ""]);
    (lit "z", [lit "z"]);
    (lit "|", [lit ""])];
    ld_reltype := [(lit "this minute", lit "0 minute ago");
    (lit "last month", lit "1 month ago");
    (lit "next month", lit "in 1 month");
    (lit "this month", lit "0 month ago");
    (lit "last week", lit "1 week ago");
    (lit "last year", lit "1 year ago");
    (lit "next week", lit "in 1 week");
    (lit "next year", lit "in 1 year");
    (lit "this hour", lit "0 hour ago");
    (lit "this week", lit "0 week ago");
    (lit "this year", lit "0 year ago");
    (lit "yesterday", lit "1 day ago");
    (lit "tomorrow", lit "in 1 day");
    (lit "today", lit "0 day ago");
    (lit "now", lit "0 second ago")];
    ld_relrx := [];
    ld_rx := None;
    ld_rx_exact := None;
    ld_known := [lit "this minute";
    lit "last month";
    lit "next month";
    lit "this month";
    lit "last week";
    lit "last year";
    lit "next week";
    lit "next year";
    lit "this hour";
    lit "this week";
    lit "this year";
    lit "yesterday";
    lit "tomorrow";
    lit "ንጉሆ ሰዓተ";
    lit "ድሕር ሰዓት";
    lit "minute";
    lit "second";
    lit "month";
    lit "today";
    lit "መስከረም";
    lit "hour";
    lit "week";
    lit "year";
    lit "ለካቲት";
    lit "መጋቢት";
    lit "ሚያዝያ";
    lit "ሰንበት";
    lit "ታሕሳስ";
    lit "ግንቦት";
    lit "ጥቅምቲ";
    lit "day";
    lit "gmt";
    lit "now";
    lit "utc";
    lit "ሓሙስ";
    lit "ሓምለ";
    lit "ሕዳር";
    lit "ሠሉስ";
    lit "ረቡዕ";
    lit "ሰሉስ";
    lit "ሰኑይ";
    lit "ቀዳም";
    lit "ኃሙስ";
    lit "ነሓሰ";
    lit "ዓርቢ";
    lit "am";
    lit "pm";
    lit "ለካ";
    lit "ሓሙ";
    lit "ሓም";
    lit "ሕዳ";
    lit "መስ";
    lit "መጋ";
    lit "ሚያ";
    lit "ረቡ";
    lit "ሰሉ";
    lit "ሰነ";
    lit "ሰኑ";
    lit "ሰን";
    lit "ቀዳ";
    lit "ታሕ";
    lit "ነሓ";
    lit "ዓር";
    lit "ግን";
    lit "ጥሪ";
    lit "ጥቅ";
    lit " ";
    lit "'";
    lit "+";
    lit ",";
    lit "-";
    lit ".";
    lit "/";
    lit ":";
    lit ";";
    lit "@";
    lit "[";
    lit "]";
    lit "z";
    lit "|"] |}.

(** ti.go:102-105 *)
Definition own_ti_ER : locale := Eval vm_compute in
  {| ld_name := lit "ti-ER"; ld_order := lit "DMY"; ld_nospacing := false; ld_splitter := 0;
    ld_charset := runes (lit "");
    ld_abbr := [];
    ld_simpl := [];
    ld_trans := [];
    ld_reltype := [];
    ld_relrx := [];
    ld_rx := None;
    ld_rx_exact := None;
    ld_known := [] |}.
Definition loc_ti_ER : locale := merge loc_ti own_ti_ER.

(** tl.go:12-93 *)
Definition loc_tl : locale := Eval vm_compute in
  {| ld_name := lit "tl"; ld_order := lit ""; ld_nospacing := false; ld_splitter := 1;
    ld_charset := runes (lit "bcdeghiklnorstuwyz");
    ld_abbr := [];
    ld_simpl := [(rx "(?i)(\A|[^\pL\pM\d_])kahapon(\z|[^\pL\pM\d_])", lit "${1}1 araw nakaraan${2}");
    (rx "(?i)(\A|[^\pL\pM\d_])ngayon(\z|[^\pL\pM\d_])", lit "${1}0 segundo nakalipas${2}");
    (rx "(?i)(\A|[^\pL\pM\d_])isang araw(\z|[^\pL\pM\d_])", lit "${1}2 araw${2}")];
    ld_trans := [(lit "miyerkules", [lit "wednesday"]);
    (lit "disyembre", [lit "december"]);
    (lit "nakalipas", [lit "ago"]);
    (lit "nobyembre", [lit "november"]);
    (lit "setyembre", [lit "september"]);
    (lit "biyernes", [lit "friday"]);
    (lit "nakaraan", [lit "ago"]);
    (lit "huwebes", [lit "thursday"]);
    (lit "oktubre", [lit "october"]);
    (lit "pebrero", [lit "february"]);
    (lit "segundo", [lit "second"]);
    (lit "agosto", [lit "august"]);
    (lit "linggo", [lit "week"; lit "sunday"]);
    (lit "martes", [lit "tuesday"]);
    (lit "minuto", [lit "minute"]);
    (lit "sabado", [lit "saturday"]);
    (lit "abril", [lit "april"]);
    (lit "buwan", [lit "month"]);
    (lit "enero", [lit "january"]);
    (lit "ganap", [lit ""]);
    (lit "hulyo", [lit "july"]);
    (lit "hunyo", [lit "june"]);
    (lit "lunes", [lit "monday"]);
    (lit "marso", [lit "march"]);
    (lit "noong", [lit ""]);
    (lit "araw", [lit "day"]);
    (lit "mayo", [lit "may"]);
    (lit "noon", [lit ""]);
    (lit "oras", [lit "hour"]);
    (lit "taon", [lit "year"]);
    (lit "abr", [lit "april"]);
    (lit "ago", [lit "august"]);
    (lit "biy", [lit "friday"]);
    (lit "dis", [lit "december"]);
    (lit "ene", [lit "january"]);
    (lit "gmt", [lit "gmt"]);
    (lit "hul", [lit "july"]);
    (lit "hun", [lit "june"]);
    (lit "huw", [lit "thursday"]);
    (lit "lin", [lit "sunday"]);
    (lit "lun", [lit "monday"]);
    (lit "mar", [lit "march"]);
    (lit "may", [lit "may"]);
    (lit "miy", [lit "wednesday"]);
    (lit "nob", [lit "november"]);
    (lit "okt", [lit "october"]);
    (lit "peb", [lit "february"]);
    (lit "sab", [lit "saturday"]);
    (lit "set", [lit "september"]);
    (lit "utc", [lit "utc"]);
    (lit "am", [lit "am"]);
    (lit "na", [lit ""]);
    (lit "pm", [lit "pm"]);
    (lit "sa", [lit "in"]);
    (lit " ", [lit " "]);
    (lit "'", [lit ""]);
    (lit "+", [lit "+"]);
    (lit ",", [lit ""]);
    (lit "-", [lit "-"]);
    (lit ".", [lit "."]);
    (lit "/", [lit "/"]);
    (lit ":", [lit ":"]);
    (lit ";", [lit ""]);
    (lit "@", [lit ""]);
    (lit "[", [lit ""]);
    (lit "]", [lit ""]);
    (lit "z", [lit "z"]);
    (lit "|", [lit ""])];
    ld_reltype := [];
    ld_relrx := [];
    ld_rx := None;
    ld_rx_exact := None;
    ld_known := [lit "miyerkules";
    lit "disyembre";
    lit "nakalipas";
    lit "nobyembre";
    lit "setyembre";
    lit "biyernes";
    lit "nakaraan";
    lit "huwebes";
    lit "oktubre";
    lit "pebrero";
    lit "segundo";
    lit "agosto";
    lit "linggo";
    lit "martes";
    lit "minuto";
    lit "sabado";
    lit "abril";
    lit "buwan";
    lit "enero";
    lit "ganap";
    lit "hulyo";
    lit "hunyo";
    lit "lunes";
    lit "marso";
    lit "noong";
    lit "araw";
    lit "mayo";
    lit "noon";
    lit "oras";
    lit "taon";
    lit "abr";
    lit "ago";
    lit "biy";
    lit "dis";
    lit "ene";
    lit "gmt";
    lit "hul";
    lit "hun";
    lit "huw";
    lit "lin";
    lit "lun";
    lit "mar";
    lit "may";
    lit "miy";
    lit "nob";
    lit "okt";
    lit "peb";
    lit "sab";
    lit "set";
    lit "utc";
    lit "am";
    lit "na";
    lit "pm";
    lit "sa";
    lit " ";
    lit "'";
    lit "+";
    lit ",";
    lit "-";
    lit ".";
    lit "/";
    lit ":";
    lit ";";
    lit "@";
    lit "[";
    lit "]";
    lit "z";
    lit "|"] |}.

(** to.go:12-120 *)
Definition loc_to : locale := Eval vm_compute in
  {| ld_name := lit "to"; ld_order := lit "DMY"; ld_nospacing := false; ld_splitter := 0;
    ld_charset := runes (lit "cefghiklnorstuvzáéíóúāēīōū");
    ld_abbr := [];
    ld_simpl := [];
    ld_trans := [(lit "tu'apulelulu", [lit "thursday"]);
    (lit "hengihengi", [lit "am"]);
    (lit "'epeleli", [lit "april"]);
    (lit "'okatopa", [lit "october"]);
    (lit "pulelulu", [lit "wednesday"]);
    (lit "sepitema", [lit "september"]);
    (lit "tokonaki", [lit "saturday"]);
    (lit "'aokosi", [lit "august"]);
    (lit "falaite", [lit "friday"]);
    (lit "fepueli", [lit "february"]);
    (lit "sanuali", [lit "january"]);
    (lit "efiafi", [lit "pm"]);
    (lit "ma'asi", [lit "march"]);
    (lit "mahina", [lit "month"]);
    (lit "miniti", [lit "minute"]);
    (lit "monite", [lit "monday"]);
    (lit "novema", [lit "november"]);
    (lit "sapate", [lit "sunday"]);
    (lit "sekoni", [lit "second"]);
    (lit "siulai", [lit "july"]);
    (lit "tisema", [lit "december"]);
    (lit "tusite", [lit "tuesday"]);
    (lit "'aho", [lit "day"]);
    (lit "'aok", [lit "august"]);
    (lit "'epe", [lit "april"]);
    (lit "'oka", [lit "october"]);
    (lit "houa", [lit "hour"]);
    (lit "ma'a", [lit "march"]);
    (lit "sune", [lit "june"]);
    (lit "ta'u", [lit "year"]);
    (lit "tu'a", [lit "thursday"]);
    (lit "uike", [lit "week"]);
    (lit "fal", [lit "friday"]);
    (lit "fep", [lit "february"]);
    (lit "gmt", [lit "gmt"]);
    (lit "mon", [lit "monday"]);
    (lit "nov", [lit "november"]);
    (lit "pul", [lit "wednesday"]);
    (lit "san", [lit "january"]);
    (lit "sap", [lit "sunday"]);
    (lit "sep", [lit "september"]);
    (lit "siu", [lit "july"]);
    (lit "sun", [lit "june"]);
    (lit "tis", [lit "december"]);
    (lit "tok", [lit "saturday"]);
    (lit "tus", [lit "tuesday"]);
    (lit "utc", [lit "utc"]);
    (lit "am", [lit "am"]);
    (lit "ea", [lit "pm"]);
    (lit "hh", [lit "am"]);
    (lit "me", [lit "may"]);
    (lit "pm", [lit "pm"]);
    (lit " ", [lit " "]);
    (lit "'", [lit ""]);
    (lit "+", [lit "+"]);
    (lit ",", [lit ""]);
    (lit "-", [lit "-"]);
    (lit ".", [lit "."]);
    (lit "/", [lit "/"]);
    (lit ":", [lit ":"]);
    (lit ";", [lit ""]);
    (lit "@", [lit ""]);
    (lit "[", [lit ""]);
    (lit "]", [lit ""]);
    (lit "z", [lit "z"]);
    (lit "|", [lit ""])];
    ld_reltype := [(lit "mahina kuo'osi", lit "1 month ago");
    (lit "mahina kaha'u", lit "in 1 month");
    (lit "'apongipongi", lit "in 1 day");
    (lit "ta'u kuo'osi", lit "1 year ago");
    (lit "uike kuo'osi", lit "1 week ago");
    (lit "ta'u kaha'u", lit "in 1 year");
    (lit "this minute", lit "0 minute ago");
    (lit "uike kaha'u", lit "in 1 week");
    (lit "mahina ni", lit "0 month ago");
    (lit "this hour", lit "0 hour ago");
    (lit "taimi ni", lit "0 second ago");
    (lit "'aho ni", lit "0 day ago");
    (lit "'aneafi", lit "1 day ago");
    (lit "ta'u ni", lit "0 year ago");
    (lit "uike ni", lit "0 week ago")];
    ld_relrx := [(rx "(?i)mahina 'e (\d+[.,]?\d*) kuo'osi", lit "$1 month ago");
    (rx "(?i)miniti 'e (\d+[.,]?\d*) kuo'osi", lit "$1 minute ago");
    (rx "(?i)sekoni 'e (\d+[.,]?\d*) kuo'osi", lit "$1 second ago");
    (rx "(?i)'aho 'e (\d+[.,]?\d*) kuo'osi", lit "$1 day ago");
    (rx "(?i)'i he mahina 'e (\d+[.,]?\d*)", lit "in $1 month");
    (rx "(?i)'i he miniti 'e (\d+[.,]?\d*)", lit "in $1 minute");
    (rx "(?i)'i he sekoni 'e (\d+[.,]?\d*)", lit "in $1 second");
    (rx "(?i)houa 'e (\d+[.,]?\d*) kuo'osi", lit "$1 hour ago");
    (rx "(?i)ta'u 'e (\d+[.,]?\d*) kuo'osi", lit "$1 year ago");
    (rx "(?i)uike 'e (\d+[.,]?\d*) kuo'osi", lit "$1 week ago");
    (rx "(?i)'i he 'aho 'e (\d+[.,]?\d*)", lit "in $1 day");
    (rx "(?i)'i he houa 'e (\d+[.,]?\d*)", lit "in $1 hour");
    (rx "(?i)'i he ta'u 'e (\d+[.,]?\d*)", lit "in $1 year");
    (rx "(?i)'i he uike 'e (\d+[.,]?\d*)", lit "in $1 week")];
    ld_rx := Some (rx "(?i)(\A|[^\pL\pM\d]|_)(mahina 'e \d+[.,]?\d* kuo'osi|miniti 'e \d+[.,]?\d* kuo'osi|sekoni 'e \d+[.,]?\d* kuo'osi|'aho 'e \d+[.,]?\d* kuo'osi|'i he mahina 'e \d+[.,]?\d*|'i he miniti 'e \d+[.,]?\d*|'i he sekoni 'e \d+[.,]?\d*|houa 'e \d+[.,]?\d* kuo'osi|ta'u 'e \d+[.,]?\d* kuo'osi|uike 'e \d+[.,]?\d* kuo'osi|'i he 'aho 'e \d+[.,]?\d*|'i he houa 'e \d+[.,]?\d*|'i he ta'u 'e \d+[.,]?\d*|'i he uike 'e \d+[.,]?\d*)(\z|[^\pL\pM\d]|_)");
    ld_rx_exact := Some (rx "(?i)^(mahina 'e \d+[.,]?\d* kuo'osi|miniti 'e \d+[.,]?\d* kuo'osi|sekoni 'e \d+[.,]?\d* kuo'osi|'aho 'e \d+[.,]?\d* kuo'osi|'i he mahina 'e \d+[.,]?\d*|'i he miniti 'e \d+[.,]?\d*|'i he sekoni 'e \d+[.,]?\d*|houa 'e \d+[.,]?\d* kuo'osi|ta'u 'e \d+[.,]?\d* kuo'osi|uike 'e \d+[.,]?\d* kuo'osi|'i he 'aho 'e \d+[.,]?\d*|'i he houa 'e \d+[.,]?\d*|'i he ta'u 'e \d+[.,]?\d*|'i he uike 'e \d+[.,]?\d*)$");
    ld_known := [lit "mahina kuo'osi";
    lit "mahina kaha'u";
    lit "'apongipongi";
    lit "ta'u kuo'osi";
    lit "tu'apulelulu";
    lit "uike kuo'osi";
    lit "ta'u kaha'u";
    lit "this minute";
    lit "uike kaha'u";
    lit "hengihengi";
    lit "mahina ni";
    lit "this hour";
    lit "'epeleli";
    lit "'okatopa";
    lit "pulelulu";
    lit "sepitema";
    lit "taimi ni";
    lit "tokonaki";
    lit "'aho ni";
    lit "'aneafi";
    lit "'aokosi";
    lit "falaite";
    lit "fepueli";
    lit "sanuali";
    lit "ta'u ni";
    lit "uike ni";
    lit "efiafi";
    lit "ma'asi";
    lit "mahina";
    lit "miniti";
    lit "monite";
    lit "novema";
    lit "sapate";
    lit "sekoni";
    lit "siulai";
    lit "tisema";
    lit "tusite";
    lit "'aho";
    lit "'aok";
    lit "'epe";
    lit "'oka";
    lit "houa";
    lit "ma'a";
    lit "sune";
    lit "ta'u";
    lit "tu'a";
    lit "uike";
    lit "fal";
    lit "fep";
    lit "gmt";
    lit "mon";
    lit "nov";
    lit "pul";
    lit "san";
    lit "sap";
    lit "sep";
    lit "siu";
    lit "sun";
    lit "tis";
    lit "tok";
    lit "tus";
    lit "utc";
    lit "am";
    lit "ea";
    lit "hh";
    lit "me";
    lit "pm";
    lit " ";
    lit "'";
    lit "+";
    lit ",";
    lit "-";
    lit ".";
    lit "/";
    lit ":";
    lit ";";
    lit "@";
    lit "[";
    lit "]";
    lit "z";
    lit "|"] |}.

(** all patterns above are accepted by the syntax parser *)
Example patterns_ok : forallb (fun s => match parse_regex s with Some _ => true | None => false end)
  [lit "(?i)'aho 'e (\d+[.,]?\d*) kuo'osi";
  lit "(?i)'i he 'aho 'e (\d+[.,]?\d*)";
  lit "(?i)'i he houa 'e (\d+[.,]?\d*)";
  lit "(?i)'i he mahina 'e (\d+[.,]?\d*)";
  lit "(?i)'i he miniti 'e (\d+[.,]?\d*)";
  lit "(?i)'i he sekoni 'e (\d+[.,]?\d*)";
  lit "(?i)'i he ta'u 'e (\d+[.,]?\d*)";
  lit "(?i)'i he uike 'e (\d+[.,]?\d*)";
  lit "(?i)(\A|[^\pL\pM\d]|_)(\d+[.,]?\d* sekonda me pare|\d+[.,]?\d* sekonde me pare|\d+[.,]?\d* minuta me pare|\d+[.,]?\d* minute me pare|pas \d+[.,]?\d* sekondash|\d+[.,]?\d* dite me pare|\d+[.,]?\d* jave me pare|\d+[.,]?\d* muaj me pare|\d+[.,]?\d* vjet me pare|pas \d+[.,]?\d* minutash|\d+[.,]?\d* min me pare|\d+[.,]?\d* ore me pare|\d+[.,]?\d* sek me pare|\d+[.,]?\d* vit me pare|pas \d+[.,]?\d* sekonde|pas \d+[.,]?\d* vjetesh|pas \d+[.,]?\d* ditesh|pas \d+[.,]?\d* javesh|pas \d+[.,]?\d* minute|pas \d+[.,]?\d* muajsh|pas \d+[.,]?\d* muaji|pas \d+[.,]?\d* oresh|pas \d+[.,]?\d* dite|pas \d+[.,]?\d* jave|pas \d+[.,]?\d* viti|pas \d+[.,]?\d* min|pas \d+[.,]?\d* ore|pas \d+[.,]?\d* sek)(\z|[^\pL\pM\d]|_)";
  lit "(?i)(\A|[^\pL\pM\d]|_)(\d+[.,]?\d* நிமிடஙகளுககு முன|\d+[.,]?\d* விநாடிகளுககு முன|\d+[.,]?\d* நிமிடததிறகு முன|\d+[.,]?\d* வாரததிறகு முனபு|\d+[.,]?\d* ஆணடுகளுககு முன|\d+[.,]?\d* மாதஙகளுககு முன|\d+[.,]?\d* வாரஙகளுககு முன|\d+[.,]?\d* நாடகளுககு முன|\d+[.,]?\d* மாதததுககு முன|\d+[.,]?\d* விநாடிககு முன|\d+[.,]?\d* ஆணடிறகு முன|\d+[.,]?\d* நாளுககு முன|\d+[.,]?\d* மணிநேரம முன|\d+[.,]?\d* நிமிடஙகளில|\d+[.,]?\d* மணிநேரததில|\d+[.,]?\d* விநாடிகளில|\d+[.,]?\d* நிமிடததில|\d+[.,]?\d* விநாடியில|\d+[.,]?\d* ஆணடுகளில|\d+[.,]?\d* நிமி முன|\d+[.,]?\d* மாதஙகளில|\d+[.,]?\d* வாரஙகளில|\d+[.,]?\d* விநா முன|\d+[.,]?\d* நாடகளில|\d+[.,]?\d* மணி முன|\d+[.,]?\d* மாத முன|\d+[.,]?\d* மாதததில|\d+[.,]?\d* வார முன|\d+[.,]?\d* வாரததில|\d+[.,]?\d* நா முன|\d+[.,]?\d* நி முன|\d+[.,]?\d* மா முன|\d+[.,]?\d* வா முன|\d+[.,]?\d* வி முன|\d+[.,]?\d* ஆ முன|\d+[.,]?\d* ஆணடில|\d+[.,]?\d* நாளில|\d+[.,]?\d* ம முன|\d+[.,]?\d* நிமி|\d+[.,]?\d* விநா|\d+[.,]?\d* மணி|\d+[.,]?\d* மாத|\d+[.,]?\d* வார|\d+[.,]?\d* நா|\d+[.,]?\d* நி|\d+[.,]?\d* மா|\d+[.,]?\d* வா|\d+[.,]?\d* வி|\d+[.,]?\d* ஆ|\d+[.,]?\d* ம)(\z|[^\pL\pM\d]|_)";
  lit "(?i)(\A|[^\pL\pM\d]|_)(\d+[.,]?\d* సంవతసరం కరతం|\d+[.,]?\d* సంవతసరల కరతం|\d+[.,]?\d* గంటల కరతం|\d+[.,]?\d* నమషం కరతం|\d+[.,]?\d* నమషల కరతం|\d+[.,]?\d* రజుల కరతం|\d+[.,]?\d* సకనల కరతం|\d+[.,]?\d* సకను కరతం|\d+[.,]?\d* గంట కరతం|\d+[.,]?\d* నలల కరతం|\d+[.,]?\d* రజు కరతం|\d+[.,]?\d* వరం కరతం|\d+[.,]?\d* వరల కరతం|\d+[.,]?\d* సంవతసరంల|\d+[.,]?\d* సంవతసరలల|\d+[.,]?\d* గం కరతం|\d+[.,]?\d* నమ కరతం|\d+[.,]?\d* నల కరతం|\d+[.,]?\d* సం కరతం|\d+[.,]?\d* సక కరతం|\d+[.,]?\d* గంటలల|\d+[.,]?\d* నమషంల|\d+[.,]?\d* నమషలల|\d+[.,]?\d* రజులల|\d+[.,]?\d* సకనలల|\d+[.,]?\d* సకనుల|\d+[.,]?\d* గంటల|\d+[.,]?\d* నలలల|\d+[.,]?\d* రజుల|\d+[.,]?\d* వరంల|\d+[.,]?\d* వరలల|\d+[.,]?\d* సక ల|\d+[.,]?\d* గంల|\d+[.,]?\d* నమల|\d+[.,]?\d* నలల|\d+[.,]?\d* సంల)(\z|[^\pL\pM\d]|_)";
  lit "(?i)(\A|[^\pL\pM\d]|_)(\d+[.,]?\d* ชวโมงทผานมา|\d+[.,]?\d* สปดาหทผานมา|\d+[.,]?\d* วนาททผานมา|\d+[.,]?\d* เดอนทผานมา|ในอก \d+[.,]?\d* ชวโมง|ในอก \d+[.,]?\d* สปดาห|\d+[.,]?\d* นาททผานมา|\d+[.,]?\d* สปดาหทแลว|ในอก \d+[.,]?\d* วนาท|ในอก \d+[.,]?\d* เดอน|\d+[.,]?\d* วนทผานมา|\d+[.,]?\d* วนาททแลว|\d+[.,]?\d* เดอนทแลว|ใน \d+[.,]?\d* สปดาห|ในอก \d+[.,]?\d* นาท|\d+[.,]?\d* ชม ทแลว|\d+[.,]?\d* นาททแลว|ใน \d+[.,]?\d* วนาท|ใน \d+[.,]?\d* เดอน|ในอก \d+[.,]?\d* วน|\d+[.,]?\d* วนทแลว|ใน \d+[.,]?\d* นาท|ในอก \d+[.,]?\d* ป|\d+[.,]?\d* ปทแลว|ใน \d+[.,]?\d* ชม|ใน \d+[.,]?\d* วน|ใน \d+[.,]?\d* ป)(\z|[^\pL\pM\d]|_)";
  lit "(?i)(\A|[^\pL\pM\d]|_)(for \d+[.,]?\d* sekunder sedan|for \d+[.,]?\d* manader sedan|for \d+[.,]?\d* minuter sedan|for \d+[.,]?\d* sekund sedan|for \d+[.,]?\d* timmar sedan|for \d+[.,]?\d* veckor sedan|for \d+[.,]?\d* dagar sedan|for \d+[.,]?\d* manad sedan|for \d+[.,]?\d* minut sedan|for \d+[.,]?\d* timme sedan|for \d+[.,]?\d* vecka sedan|for \d+[.,]?\d* dag sedan|for \d+[.,]?\d* man sedan|for \d+[.,]?\d* min sedan|for \d+[.,]?\d* sek sedan|for \d+[.,]?\d* tim sedan|for \d+[.,]?\d* ar sedan|for \d+[.,]?\d* d sedan|for \d+[.,]?\d* v sedan|om \d+[.,]?\d* sekunder|om \d+[.,]?\d* manader|om \d+[.,]?\d* minuter|om \d+[.,]?\d* sekund|om \d+[.,]?\d* timmar|om \d+[.,]?\d* veckor|om \d+[.,]?\d* dagar|om \d+[.,]?\d* manad|om \d+[.,]?\d* minut|om \d+[.,]?\d* timme|om \d+[.,]?\d* vecka|om \d+[.,]?\d* dag|om \d+[.,]?\d* man|om \d+[.,]?\d* min|om \d+[.,]?\d* sek|om \d+[.,]?\d* tim|om \d+[.,]?\d* ar|om \d+[.,]?\d* d|om \d+[.,]?\d* v|−\d+[.,]?\d* man|−\d+[.,]?\d* min|−\d+[.,]?\d* ar|−\d+[.,]?\d* d|−\d+[.,]?\d* h|−\d+[.,]?\d* s|−\d+[.,]?\d* v)(\z|[^\pL\pM\d]|_)";
  lit "(?i)(\A|[^\pL\pM\d]|_)(mahina 'e \d+[.,]?\d* kuo'osi|miniti 'e \d+[.,]?\d* kuo'osi|sekoni 'e \d+[.,]?\d* kuo'osi|'aho 'e \d+[.,]?\d* kuo'osi|'i he mahina 'e \d+[.,]?\d*|'i he miniti 'e \d+[.,]?\d*|'i he sekoni 'e \d+[.,]?\d*|houa 'e \d+[.,]?\d* kuo'osi|ta'u 'e \d+[.,]?\d* kuo'osi|uike 'e \d+[.,]?\d* kuo'osi|'i he 'aho 'e \d+[.,]?\d*|'i he houa 'e \d+[.,]?\d*|'i he ta'u 'e \d+[.,]?\d*|'i he uike 'e \d+[.,]?\d*)(\z|[^\pL\pM\d]|_)";
  lit "(?i)(\A|[^\pL\pM\d]|_)(pre \d+[.,]?\d* nedelja|pre \d+[.,]?\d* nedelje|pre \d+[.,]?\d* sekunde|pre \d+[.,]?\d* sekundi|pre \d+[.,]?\d* godina|pre \d+[.,]?\d* godine|pre \d+[.,]?\d* meseca|pre \d+[.,]?\d* meseci|pre \d+[.,]?\d* minuta|za \d+[.,]?\d* nedelja|za \d+[.,]?\d* nedelju|za \d+[.,]?\d* sekundi|za \d+[.,]?\d* sekundu|za \d+[.,]?\d* godina|za \d+[.,]?\d* godinu|za \d+[.,]?\d* meseci|za \d+[.,]?\d* minuta|pre \d+[.,]?\d* dana|pre \d+[.,]?\d* sata|pre \d+[.,]?\d* sati|za \d+[.,]?\d* mesec|za \d+[.,]?\d* minut|pre \d+[.,]?\d* god|pre \d+[.,]?\d* mes|pre \d+[.,]?\d* min|pre \d+[.,]?\d* ned|pre \d+[.,]?\d* sek|za \d+[.,]?\d* dana|za \d+[.,]?\d* sati|za \d+[.,]?\d* dan|za \d+[.,]?\d* god|za \d+[.,]?\d* mes|za \d+[.,]?\d* min|za \d+[.,]?\d* ned|za \d+[.,]?\d* sat|za \d+[.,]?\d* sek|pre \d+[.,]?\d* c|pre \d+[.,]?\d* d|pre \d+[.,]?\d* g|pre \d+[.,]?\d* m|pre \d+[.,]?\d* n|pre \d+[.,]?\d* s|za \d+[.,]?\d* c|za \d+[.,]?\d* d|za \d+[.,]?\d* g|za \d+[.,]?\d* m|za \d+[.,]?\d* n|za \d+[.,]?\d* s)(\z|[^\pL\pM\d]|_)";
  lit "(?i)(\A|[^\pL\pM\d]|_)(sekunde \d+[.,]?\d* zilizopita|dakika \d+[.,]?\d* zilizopita|sekunde \d+[.,]?\d* iliyopita|baada ya sekunde \d+[.,]?\d*|dakika \d+[.,]?\d* iliyopita|baada ya dakika \d+[.,]?\d*|miaka \d+[.,]?\d* iliyopita|miezi \d+[.,]?\d* iliyopita|siku \d+[.,]?\d* zilizopita|wiki \d+[.,]?\d* zilizopita|baada ya miaka \d+[.,]?\d*|baada ya miezi \d+[.,]?\d*|baada ya mwaka \d+[.,]?\d*|baada ya mwezi \d+[.,]?\d*|mwaka \d+[.,]?\d* uliopita|mwezi \d+[.,]?\d* uliopita|saa \d+[.,]?\d* zilizopita|siku \d+[.,]?\d* iliyopita|wiki \d+[.,]?\d* iliyopita|baada ya siku \d+[.,]?\d*|baada ya wiki \d+[.,]?\d*|saa \d+[.,]?\d* iliyopita|baada ya saa \d+[.,]?\d*)(\z|[^\pL\pM\d]|_)";
  lit "(?i)(\A|[^\pL\pM\d]|_)(пре \d+[.,]?\d* секунде|пре \d+[.,]?\d* секунди|за \d+[.,]?\d* секунди|за \d+[.,]?\d* секунду|пре \d+[.,]?\d* година|пре \d+[.,]?\d* године|пре \d+[.,]?\d* месеца|пре \d+[.,]?\d* месеци|пре \d+[.,]?\d* минута|пре \d+[.,]?\d* недеља|пре \d+[.,]?\d* недеље|за \d+[.,]?\d* година|за \d+[.,]?\d* годину|за \d+[.,]?\d* месеци|за \d+[.,]?\d* минута|за \d+[.,]?\d* недеља|за \d+[.,]?\d* недељу|за \d+[.,]?\d* месец|за \d+[.,]?\d* минут|пре \d+[.,]?\d* дана|пре \d+[.,]?\d* сата|пре \d+[.,]?\d* сати|за \d+[.,]?\d* дана|за \d+[.,]?\d* сати|пре \d+[.,]?\d* год|пре \d+[.,]?\d* мес|пре \d+[.,]?\d* мин|пре \d+[.,]?\d* нед|пре \d+[.,]?\d* сек|за \d+[.,]?\d* год|за \d+[.,]?\d* дан|за \d+[.,]?\d* мес|за \d+[.,]?\d* мин|за \d+[.,]?\d* нед|за \d+[.,]?\d* сат|за \d+[.,]?\d* сек|пре \d+[.,]?\d* г|пре \d+[.,]?\d* д|пре \d+[.,]?\d* м|пре \d+[.,]?\d* н|пре \d+[.,]?\d* с|пре \d+[.,]?\d* ч|за \d+[.,]?\d* г|за \d+[.,]?\d* д|за \d+[.,]?\d* м|за \d+[.,]?\d* н|за \d+[.,]?\d* с|за \d+[.,]?\d* ч)(\z|[^\pL\pM\d]|_)";
  lit "(?i)(\A|[^\pL\pM\d_])1 วนทแลว(\z|[^\pL\pM\d_])";
  lit "(?i)(\A|[^\pL\pM\d_])2 วนทแลว(\z|[^\pL\pM\d_])";
  lit "(?i)(\A|[^\pL\pM\d_])en(\z|[^\pL\pM\d_])";
  lit "(?i)(\A|[^\pL\pM\d_])isang araw(\z|[^\pL\pM\d_])";
  lit "(?i)(\A|[^\pL\pM\d_])kahapon(\z|[^\pL\pM\d_])";
  lit "(?i)(\A|[^\pL\pM\d_])ngayon(\z|[^\pL\pM\d_])";
  lit "(?i)(\A|[^\pL\pM\d_])tva(\z|[^\pL\pM\d_])";
  lit "(?i)(\A|[^\pL\pM\d_])วนน(\z|[^\pL\pM\d_])";
  lit "(?i)(\A|[^\pL\pM\d_])เมอวานซน(\z|[^\pL\pM\d_])";
  lit "(?i)(\A|[^\pL\pM\d_])เมอวานน(\z|[^\pL\pM\d_])";
  lit "(?i)(\A|[^\pL\pM\d_])เมอสกครน(\z|[^\pL\pM\d_])";
  lit "(?i)(\d+[.,]?\d*) dite me pare";
  lit "(?i)(\d+[.,]?\d*) jave me pare";
  lit "(?i)(\d+[.,]?\d*) min me pare";
  lit "(?i)(\d+[.,]?\d*) minuta me pare";
  lit "(?i)(\d+[.,]?\d*) minute me pare";
  lit "(?i)(\d+[.,]?\d*) muaj me pare";
  lit "(?i)(\d+[.,]?\d*) ore me pare";
  lit "(?i)(\d+[.,]?\d*) sek me pare";
  lit "(?i)(\d+[.,]?\d*) sekonda me pare";
  lit "(?i)(\d+[.,]?\d*) sekonde me pare";
  lit "(?i)(\d+[.,]?\d*) vit me pare";
  lit "(?i)(\d+[.,]?\d*) vjet me pare";
  lit "(?i)(\d+[.,]?\d*) ஆ";
  lit "(?i)(\d+[.,]?\d*) ஆ முன";
  lit "(?i)(\d+[.,]?\d*) ஆணடிறகு முன";
  lit "(?i)(\d+[.,]?\d*) ஆணடில";
  lit "(?i)(\d+[.,]?\d*) ஆணடுகளில";
  lit "(?i)(\d+[.,]?\d*) ஆணடுகளுககு முன";
  lit "(?i)(\d+[.,]?\d*) நா";
  lit "(?i)(\d+[.,]?\d*) நா முன";
  lit "(?i)(\d+[.,]?\d*) நாடகளில";
  lit "(?i)(\d+[.,]?\d*) நாடகளுககு முன";
  lit "(?i)(\d+[.,]?\d*) நாளில";
  lit "(?i)(\d+[.,]?\d*) நாளுககு முன";
  lit "(?i)(\d+[.,]?\d*) நி";
  lit "(?i)(\d+[.,]?\d*) நி முன";
  lit "(?i)(\d+[.,]?\d*) நிமி";
  lit "(?i)(\d+[.,]?\d*) நிமி முன";
  lit "(?i)(\d+[.,]?\d*) நிமிடஙகளில";
  lit "(?i)(\d+[.,]?\d*) நிமிடஙகளுககு முன";
  lit "(?i)(\d+[.,]?\d*) நிமிடததிறகு முன";
  lit "(?i)(\d+[.,]?\d*) நிமிடததில";
  lit "(?i)(\d+[.,]?\d*) ம";
  lit "(?i)(\d+[.,]?\d*) ம முன";
  lit "(?i)(\d+[.,]?\d*) மணி";
  lit "(?i)(\d+[.,]?\d*) மணி முன";
  lit "(?i)(\d+[.,]?\d*) மணிநேரததில";
  lit "(?i)(\d+[.,]?\d*) மணிநேரம முன";
  lit "(?i)(\d+[.,]?\d*) மா";
  lit "(?i)(\d+[.,]?\d*) மா முன";
  lit "(?i)(\d+[.,]?\d*) மாத";
  lit "(?i)(\d+[.,]?\d*) மாத முன";
  lit "(?i)(\d+[.,]?\d*) மாதஙகளில";
  lit "(?i)(\d+[.,]?\d*) மாதஙகளுககு முன";
  lit "(?i)(\d+[.,]?\d*) மாதததில";
  lit "(?i)(\d+[.,]?\d*) மாதததுககு முன";
  lit "(?i)(\d+[.,]?\d*) வா";
  lit "(?i)(\d+[.,]?\d*) வா முன";
  lit "(?i)(\d+[.,]?\d*) வார";
  lit "(?i)(\d+[.,]?\d*) வார முன";
  lit "(?i)(\d+[.,]?\d*) வாரஙகளில";
  lit "(?i)(\d+[.,]?\d*) வாரஙகளுககு முன";
  lit "(?i)(\d+[.,]?\d*) வாரததிறகு முனபு";
  lit "(?i)(\d+[.,]?\d*) வாரததில";
  lit "(?i)(\d+[.,]?\d*) வி";
  lit "(?i)(\d+[.,]?\d*) வி முன";
  lit "(?i)(\d+[.,]?\d*) விநா";
  lit "(?i)(\d+[.,]?\d*) விநா முன";
  lit "(?i)(\d+[.,]?\d*) விநாடிககு முன";
  lit "(?i)(\d+[.,]?\d*) விநாடிகளில";
  lit "(?i)(\d+[.,]?\d*) விநாடிகளுககு முன";
  lit "(?i)(\d+[.,]?\d*) விநாடியில";
  lit "(?i)(\d+[.,]?\d*) గం కరతం";
  lit "(?i)(\d+[.,]?\d*) గంట కరతం";
  lit "(?i)(\d+[.,]?\d*) గంటల";
  lit "(?i)(\d+[.,]?\d*) గంటల కరతం";
  lit "(?i)(\d+[.,]?\d*) గంటలల";
  lit "(?i)(\d+[.,]?\d*) గంల";
  lit "(?i)(\d+[.,]?\d*) నమ కరతం";
  lit "(?i)(\d+[.,]?\d*) నమల";
  lit "(?i)(\d+[.,]?\d*) నమషం కరతం";
  lit "(?i)(\d+[.,]?\d*) నమషంల";
  lit "(?i)(\d+[.,]?\d*) నమషల కరతం";
  lit "(?i)(\d+[.,]?\d*) నమషలల";
  lit "(?i)(\d+[.,]?\d*) నల కరతం";
  lit "(?i)(\d+[.,]?\d*) నలల";
  lit "(?i)(\d+[.,]?\d*) నలల కరతం";
  lit "(?i)(\d+[.,]?\d*) నలలల";
  lit "(?i)(\d+[.,]?\d*) రజు కరతం";
  lit "(?i)(\d+[.,]?\d*) రజుల";
  lit "(?i)(\d+[.,]?\d*) రజుల కరతం";
  lit "(?i)(\d+[.,]?\d*) రజులల";
  lit "(?i)(\d+[.,]?\d*) వరం కరతం";
  lit "(?i)(\d+[.,]?\d*) వరంల";
  lit "(?i)(\d+[.,]?\d*) వరల కరతం";
  lit "(?i)(\d+[.,]?\d*) వరలల";
  lit "(?i)(\d+[.,]?\d*) సం కరతం";
  lit "(?i)(\d+[.,]?\d*) సంల";
  lit "(?i)(\d+[.,]?\d*) సంవతసరం కరతం";
  lit "(?i)(\d+[.,]?\d*) సంవతసరంల";
  lit "(?i)(\d+[.,]?\d*) సంవతసరల కరతం";
  lit "(?i)(\d+[.,]?\d*) సంవతసరలల";
  lit "(?i)(\d+[.,]?\d*) సక కరతం";
  lit "(?i)(\d+[.,]?\d*) సక ల";
  lit "(?i)(\d+[.,]?\d*) సకనల కరతం";
  lit "(?i)(\d+[.,]?\d*) సకనలల";
  lit "(?i)(\d+[.,]?\d*) సకను కరతం";
  lit "(?i)(\d+[.,]?\d*) సకనుల";
  lit "(?i)(\d+[.,]?\d*) ชม ทแลว";
  lit "(?i)(\d+[.,]?\d*) ชวโมงทผานมา";
  lit "(?i)(\d+[.,]?\d*) นาททผานมา";
  lit "(?i)(\d+[.,]?\d*) นาททแลว";
  lit "(?i)(\d+[.,]?\d*) ปทแลว";
  lit "(?i)(\d+[.,]?\d*) วนทผานมา";
  lit "(?i)(\d+[.,]?\d*) วนทแลว";
  lit "(?i)(\d+[.,]?\d*) วนาททผานมา";
  lit "(?i)(\d+[.,]?\d*) วนาททแลว";
  lit "(?i)(\d+[.,]?\d*) สปดาหทผานมา";
  lit "(?i)(\d+[.,]?\d*) สปดาหทแลว";
  lit "(?i)(\d+[.,]?\d*) เดอนทผานมา";
  lit "(?i)(\d+[.,]?\d*) เดอนทแลว";
  lit "(?i)^(\d+[.,]?\d* sekonda me pare|\d+[.,]?\d* sekonde me pare|\d+[.,]?\d* minuta me pare|\d+[.,]?\d* minute me pare|pas \d+[.,]?\d* sekondash|\d+[.,]?\d* dite me pare|\d+[.,]?\d* jave me pare|\d+[.,]?\d* muaj me pare|\d+[.,]?\d* vjet me pare|pas \d+[.,]?\d* minutash|\d+[.,]?\d* min me pare|\d+[.,]?\d* ore me pare|\d+[.,]?\d* sek me pare|\d+[.,]?\d* vit me pare|pas \d+[.,]?\d* sekonde|pas \d+[.,]?\d* vjetesh|pas \d+[.,]?\d* ditesh|pas \d+[.,]?\d* javesh|pas \d+[.,]?\d* minute|pas \d+[.,]?\d* muajsh|pas \d+[.,]?\d* muaji|pas \d+[.,]?\d* oresh|pas \d+[.,]?\d* dite|pas \d+[.,]?\d* jave|pas \d+[.,]?\d* viti|pas \d+[.,]?\d* min|pas \d+[.,]?\d* ore|pas \d+[.,]?\d* sek)$";
  lit "(?i)^(\d+[.,]?\d* நிமிடஙகளுககு முன|\d+[.,]?\d* விநாடிகளுககு முன|\d+[.,]?\d* நிமிடததிறகு முன|\d+[.,]?\d* வாரததிறகு முனபு|\d+[.,]?\d* ஆணடுகளுககு முன|\d+[.,]?\d* மாதஙகளுககு முன|\d+[.,]?\d* வாரஙகளுககு முன|\d+[.,]?\d* நாடகளுககு முன|\d+[.,]?\d* மாதததுககு முன|\d+[.,]?\d* விநாடிககு முன|\d+[.,]?\d* ஆணடிறகு முன|\d+[.,]?\d* நாளுககு முன|\d+[.,]?\d* மணிநேரம முன|\d+[.,]?\d* நிமிடஙகளில|\d+[.,]?\d* மணிநேரததில|\d+[.,]?\d* விநாடிகளில|\d+[.,]?\d* நிமிடததில|\d+[.,]?\d* விநாடியில|\d+[.,]?\d* ஆணடுகளில|\d+[.,]?\d* நிமி முன|\d+[.,]?\d* மாதஙகளில|\d+[.,]?\d* வாரஙகளில|\d+[.,]?\d* விநா முன|\d+[.,]?\d* நாடகளில|\d+[.,]?\d* மணி முன|\d+[.,]?\d* மாத முன|\d+[.,]?\d* மாதததில|\d+[.,]?\d* வார முன|\d+[.,]?\d* வாரததில|\d+[.,]?\d* நா முன|\d+[.,]?\d* நி முன|\d+[.,]?\d* மா முன|\d+[.,]?\d* வா முன|\d+[.,]?\d* வி முன|\d+[.,]?\d* ஆ முன|\d+[.,]?\d* ஆணடில|\d+[.,]?\d* நாளில|\d+[.,]?\d* ம முன|\d+[.,]?\d* நிமி|\d+[.,]?\d* விநா|\d+[.,]?\d* மணி|\d+[.,]?\d* மாத|\d+[.,]?\d* வார|\d+[.,]?\d* நா|\d+[.,]?\d* நி|\d+[.,]?\d* மா|\d+[.,]?\d* வா|\d+[.,]?\d* வி|\d+[.,]?\d* ஆ|\d+[.,]?\d* ம)$";
  lit "(?i)^(\d+[.,]?\d* సంవతసరం కరతం|\d+[.,]?\d* సంవతసరల కరతం|\d+[.,]?\d* గంటల కరతం|\d+[.,]?\d* నమషం కరతం|\d+[.,]?\d* నమషల కరతం|\d+[.,]?\d* రజుల కరతం|\d+[.,]?\d* సకనల కరతం|\d+[.,]?\d* సకను కరతం|\d+[.,]?\d* గంట కరతం|\d+[.,]?\d* నలల కరతం|\d+[.,]?\d* రజు కరతం|\d+[.,]?\d* వరం కరతం|\d+[.,]?\d* వరల కరతం|\d+[.,]?\d* సంవతసరంల|\d+[.,]?\d* సంవతసరలల|\d+[.,]?\d* గం కరతం|\d+[.,]?\d* నమ కరతం|\d+[.,]?\d* నల కరతం|\d+[.,]?\d* సం కరతం|\d+[.,]?\d* సక కరతం|\d+[.,]?\d* గంటలల|\d+[.,]?\d* నమషంల|\d+[.,]?\d* నమషలల|\d+[.,]?\d* రజులల|\d+[.,]?\d* సకనలల|\d+[.,]?\d* సకనుల|\d+[.,]?\d* గంటల|\d+[.,]?\d* నలలల|\d+[.,]?\d* రజుల|\d+[.,]?\d* వరంల|\d+[.,]?\d* వరలల|\d+[.,]?\d* సక ల|\d+[.,]?\d* గంల|\d+[.,]?\d* నమల|\d+[.,]?\d* నలల|\d+[.,]?\d* సంల)$";
  lit "(?i)^(\d+[.,]?\d* ชวโมงทผานมา|\d+[.,]?\d* สปดาหทผานมา|\d+[.,]?\d* วนาททผานมา|\d+[.,]?\d* เดอนทผานมา|ในอก \d+[.,]?\d* ชวโมง|ในอก \d+[.,]?\d* สปดาห|\d+[.,]?\d* นาททผานมา|\d+[.,]?\d* สปดาหทแลว|ในอก \d+[.,]?\d* วนาท|ในอก \d+[.,]?\d* เดอน|\d+[.,]?\d* วนทผานมา|\d+[.,]?\d* วนาททแลว|\d+[.,]?\d* เดอนทแลว|ใน \d+[.,]?\d* สปดาห|ในอก \d+[.,]?\d* นาท|\d+[.,]?\d* ชม ทแลว|\d+[.,]?\d* นาททแลว|ใน \d+[.,]?\d* วนาท|ใน \d+[.,]?\d* เดอน|ในอก \d+[.,]?\d* วน|\d+[.,]?\d* วนทแลว|ใน \d+[.,]?\d* นาท|ในอก \d+[.,]?\d* ป|\d+[.,]?\d* ปทแลว|ใน \d+[.,]?\d* ชม|ใน \d+[.,]?\d* วน|ใน \d+[.,]?\d* ป)$";
  lit "(?i)^(for \d+[.,]?\d* sekunder sedan|for \d+[.,]?\d* manader sedan|for \d+[.,]?\d* minuter sedan|for \d+[.,]?\d* sekund sedan|for \d+[.,]?\d* timmar sedan|for \d+[.,]?\d* veckor sedan|for \d+[.,]?\d* dagar sedan|for \d+[.,]?\d* manad sedan|for \d+[.,]?\d* minut sedan|for \d+[.,]?\d* timme sedan|for \d+[.,]?\d* vecka sedan|for \d+[.,]?\d* dag sedan|for \d+[.,]?\d* man sedan|for \d+[.,]?\d* min sedan|for \d+[.,]?\d* sek sedan|for \d+[.,]?\d* tim sedan|for \d+[.,]?\d* ar sedan|for \d+[.,]?\d* d sedan|for \d+[.,]?\d* v sedan|om \d+[.,]?\d* sekunder|om \d+[.,]?\d* manader|om \d+[.,]?\d* minuter|om \d+[.,]?\d* sekund|om \d+[.,]?\d* timmar|om \d+[.,]?\d* veckor|om \d+[.,]?\d* dagar|om \d+[.,]?\d* manad|om \d+[.,]?\d* minut|om \d+[.,]?\d* timme|om \d+[.,]?\d* vecka|om \d+[.,]?\d* dag|om \d+[.,]?\d* man|om \d+[.,]?\d* min|om \d+[.,]?\d* sek|om \d+[.,]?\d* tim|om \d+[.,]?\d* ar|om \d+[.,]?\d* d|om \d+[.,]?\d* v|−\d+[.,]?\d* man|−\d+[.,]?\d* min|−\d+[.,]?\d* ar|−\d+[.,]?\d* d|−\d+[.,]?\d* h|−\d+[.,]?\d* s|−\d+[.,]?\d* v)$";
  lit "(?i)^(mahina 'e \d+[.,]?\d* kuo'osi|miniti 'e \d+[.,]?\d* kuo'osi|sekoni 'e \d+[.,]?\d* kuo'osi|'aho 'e \d+[.,]?\d* kuo'osi|'i he mahina 'e \d+[.,]?\d*|'i he miniti 'e \d+[.,]?\d*|'i he sekoni 'e \d+[.,]?\d*|houa 'e \d+[.,]?\d* kuo'osi|ta'u 'e \d+[.,]?\d* kuo'osi|uike 'e \d+[.,]?\d* kuo'osi|'i he 'aho 'e \d+[.,]?\d*|'i he houa 'e \d+[.,]?\d*|'i he ta'u 'e \d+[.,]?\d*|'i he uike 'e \d+[.,]?\d*)$";
  lit "(?i)^(pre \d+[.,]?\d* nedelja|pre \d+[.,]?\d* nedelje|pre \d+[.,]?\d* sekunde|pre \d+[.,]?\d* sekundi|pre \d+[.,]?\d* godina|pre \d+[.,]?\d* godine|pre \d+[.,]?\d* meseca|pre \d+[.,]?\d* meseci|pre \d+[.,]?\d* minuta|za \d+[.,]?\d* nedelja|za \d+[.,]?\d* nedelju|za \d+[.,]?\d* sekundi|za \d+[.,]?\d* sekundu|za \d+[.,]?\d* godina|za \d+[.,]?\d* godinu|za \d+[.,]?\d* meseci|za \d+[.,]?\d* minuta|pre \d+[.,]?\d* dana|pre \d+[.,]?\d* sata|pre \d+[.,]?\d* sati|za \d+[.,]?\d* mesec|za \d+[.,]?\d* minut|pre \d+[.,]?\d* god|pre \d+[.,]?\d* mes|pre \d+[.,]?\d* min|pre \d+[.,]?\d* ned|pre \d+[.,]?\d* sek|za \d+[.,]?\d* dana|za \d+[.,]?\d* sati|za \d+[.,]?\d* dan|za \d+[.,]?\d* god|za \d+[.,]?\d* mes|za \d+[.,]?\d* min|za \d+[.,]?\d* ned|za \d+[.,]?\d* sat|za \d+[.,]?\d* sek|pre \d+[.,]?\d* c|pre \d+[.,]?\d* d|pre \d+[.,]?\d* g|pre \d+[.,]?\d* m|pre \d+[.,]?\d* n|pre \d+[.,]?\d* s|za \d+[.,]?\d* c|za \d+[.,]?\d* d|za \d+[.,]?\d* g|za \d+[.,]?\d* m|za \d+[.,]?\d* n|za \d+[.,]?\d* s)$";
  lit "(?i)^(sekunde \d+[.,]?\d* zilizopita|dakika \d+[.,]?\d* zilizopita|sekunde \d+[.,]?\d* iliyopita|baada ya sekunde \d+[.,]?\d*|dakika \d+[.,]?\d* iliyopita|baada ya dakika \d+[.,]?\d*|miaka \d+[.,]?\d* iliyopita|miezi \d+[.,]?\d* iliyopita|siku \d+[.,]?\d* zilizopita|wiki \d+[.,]?\d* zilizopita|baada ya miaka \d+[.,]?\d*|baada ya miezi \d+[.,]?\d*|baada ya mwaka \d+[.,]?\d*|baada ya mwezi \d+[.,]?\d*|mwaka \d+[.,]?\d* uliopita|mwezi \d+[.,]?\d* uliopita|saa \d+[.,]?\d* zilizopita|siku \d+[.,]?\d* iliyopita|wiki \d+[.,]?\d* iliyopita|baada ya siku \d+[.,]?\d*|baada ya wiki \d+[.,]?\d*|saa \d+[.,]?\d* iliyopita|baada ya saa \d+[.,]?\d*)$";
  lit "(?i)^(пре \d+[.,]?\d* секунде|пре \d+[.,]?\d* секунди|за \d+[.,]?\d* секунди|за \d+[.,]?\d* секунду|пре \d+[.,]?\d* година|пре \d+[.,]?\d* године|пре \d+[.,]?\d* месеца|пре \d+[.,]?\d* месеци|пре \d+[.,]?\d* минута|пре \d+[.,]?\d* недеља|пре \d+[.,]?\d* недеље|за \d+[.,]?\d* година|за \d+[.,]?\d* годину|за \d+[.,]?\d* месеци|за \d+[.,]?\d* минута|за \d+[.,]?\d* недеља|за \d+[.,]?\d* недељу|за \d+[.,]?\d* месец|за \d+[.,]?\d* минут|пре \d+[.,]?\d* дана|пре \d+[.,]?\d* сата|пре \d+[.,]?\d* сати|за \d+[.,]?\d* дана|за \d+[.,]?\d* сати|пре \d+[.,]?\d* год|пре \d+[.,]?\d* мес|пре \d+[.,]?\d* мин|пре \d+[.,]?\d* нед|пре \d+[.,]?\d* сек|за \d+[.,]?\d* год|за \d+[.,]?\d* дан|за \d+[.,]?\d* мес|за \d+[.,]?\d* мин|за \d+[.,]?\d* нед|за \d+[.,]?\d* сат|за \d+[.,]?\d* сек|пре \d+[.,]?\d* г|пре \d+[.,]?\d* д|пре \d+[.,]?\d* м|пре \d+[.,]?\d* н|пре \d+[.,]?\d* с|пре \d+[.,]?\d* ч|за \d+[.,]?\d* г|за \d+[.,]?\d* д|за \d+[.,]?\d* м|за \d+[.,]?\d* н|за \d+[.,]?\d* с|за \d+[.,]?\d* ч)$";
  lit "(?i)baada ya dakika (\d+[.,]?\d*)";
  lit "(?i)baada ya miaka (\d+[.,]?\d*)";
  lit "(?i)baada ya miezi (\d+[.,]?\d*)";
  lit "(?i)baada ya mwaka (\d+[.,]?\d*)";
  lit "(?i)baada ya mwezi (\d+[.,]?\d*)";
  lit "(?i)baada ya saa (\d+[.,]?\d*)";
  lit "(?i)baada ya sekunde (\d+[.,]?\d*)";
  lit "(?i)baada ya siku (\d+[.,]?\d*)";
  lit "(?i)baada ya wiki (\d+[.,]?\d*)";
  lit "(?i)dakika (\d+[.,]?\d*) iliyopita";
  lit "(?i)dakika (\d+[.,]?\d*) zilizopita";
  lit "(?i)for (\d+[.,]?\d*) ar sedan";
  lit "(?i)for (\d+[.,]?\d*) d sedan";
  lit "(?i)for (\d+[.,]?\d*) dag sedan";
  lit "(?i)for (\d+[.,]?\d*) dagar sedan";
  lit "(?i)for (\d+[.,]?\d*) man sedan";
  lit "(?i)for (\d+[.,]?\d*) manad sedan";
  lit "(?i)for (\d+[.,]?\d*) manader sedan";
  lit "(?i)for (\d+[.,]?\d*) min sedan";
  lit "(?i)for (\d+[.,]?\d*) minut sedan";
  lit "(?i)for (\d+[.,]?\d*) minuter sedan";
  lit "(?i)for (\d+[.,]?\d*) sek sedan";
  lit "(?i)for (\d+[.,]?\d*) sekund sedan";
  lit "(?i)for (\d+[.,]?\d*) sekunder sedan";
  lit "(?i)for (\d+[.,]?\d*) tim sedan";
  lit "(?i)for (\d+[.,]?\d*) timmar sedan";
  lit "(?i)for (\d+[.,]?\d*) timme sedan";
  lit "(?i)for (\d+[.,]?\d*) v sedan";
  lit "(?i)for (\d+[.,]?\d*) vecka sedan";
  lit "(?i)for (\d+[.,]?\d*) veckor sedan";
  lit "(?i)houa 'e (\d+[.,]?\d*) kuo'osi";
  lit "(?i)mahina 'e (\d+[.,]?\d*) kuo'osi";
  lit "(?i)miaka (\d+[.,]?\d*) iliyopita";
  lit "(?i)miezi (\d+[.,]?\d*) iliyopita";
  lit "(?i)miniti 'e (\d+[.,]?\d*) kuo'osi";
  lit "(?i)mwaka (\d+[.,]?\d*) uliopita";
  lit "(?i)mwezi (\d+[.,]?\d*) uliopita";
  lit "(?i)om (\d+[.,]?\d*) ar";
  lit "(?i)om (\d+[.,]?\d*) d";
  lit "(?i)om (\d+[.,]?\d*) dag";
  lit "(?i)om (\d+[.,]?\d*) dagar";
  lit "(?i)om (\d+[.,]?\d*) man";
  lit "(?i)om (\d+[.,]?\d*) manad";
  lit "(?i)om (\d+[.,]?\d*) manader";
  lit "(?i)om (\d+[.,]?\d*) min";
  lit "(?i)om (\d+[.,]?\d*) minut";
  lit "(?i)om (\d+[.,]?\d*) minuter";
  lit "(?i)om (\d+[.,]?\d*) sek";
  lit "(?i)om (\d+[.,]?\d*) sekund";
  lit "(?i)om (\d+[.,]?\d*) sekunder";
  lit "(?i)om (\d+[.,]?\d*) tim";
  lit "(?i)om (\d+[.,]?\d*) timmar";
  lit "(?i)om (\d+[.,]?\d*) timme";
  lit "(?i)om (\d+[.,]?\d*) v";
  lit "(?i)om (\d+[.,]?\d*) vecka";
  lit "(?i)om (\d+[.,]?\d*) veckor";
  lit "(?i)pas (\d+[.,]?\d*) dite";
  lit "(?i)pas (\d+[.,]?\d*) ditesh";
  lit "(?i)pas (\d+[.,]?\d*) jave";
  lit "(?i)pas (\d+[.,]?\d*) javesh";
  lit "(?i)pas (\d+[.,]?\d*) min";
  lit "(?i)pas (\d+[.,]?\d*) minutash";
  lit "(?i)pas (\d+[.,]?\d*) minute";
  lit "(?i)pas (\d+[.,]?\d*) muaji";
  lit "(?i)pas (\d+[.,]?\d*) muajsh";
  lit "(?i)pas (\d+[.,]?\d*) ore";
  lit "(?i)pas (\d+[.,]?\d*) oresh";
  lit "(?i)pas (\d+[.,]?\d*) sek";
  lit "(?i)pas (\d+[.,]?\d*) sekondash";
  lit "(?i)pas (\d+[.,]?\d*) sekonde";
  lit "(?i)pas (\d+[.,]?\d*) viti";
  lit "(?i)pas (\d+[.,]?\d*) vjetesh";
  lit "(?i)pre (\d+[.,]?\d*) c";
  lit "(?i)pre (\d+[.,]?\d*) d";
  lit "(?i)pre (\d+[.,]?\d*) dana";
  lit "(?i)pre (\d+[.,]?\d*) g";
  lit "(?i)pre (\d+[.,]?\d*) god";
  lit "(?i)pre (\d+[.,]?\d*) godina";
  lit "(?i)pre (\d+[.,]?\d*) godine";
  lit "(?i)pre (\d+[.,]?\d*) m";
  lit "(?i)pre (\d+[.,]?\d*) mes";
  lit "(?i)pre (\d+[.,]?\d*) meseca";
  lit "(?i)pre (\d+[.,]?\d*) meseci";
  lit "(?i)pre (\d+[.,]?\d*) min";
  lit "(?i)pre (\d+[.,]?\d*) minuta";
  lit "(?i)pre (\d+[.,]?\d*) n";
  lit "(?i)pre (\d+[.,]?\d*) ned";
  lit "(?i)pre (\d+[.,]?\d*) nedelja";
  lit "(?i)pre (\d+[.,]?\d*) nedelje";
  lit "(?i)pre (\d+[.,]?\d*) s";
  lit "(?i)pre (\d+[.,]?\d*) sata";
  lit "(?i)pre (\d+[.,]?\d*) sati";
  lit "(?i)pre (\d+[.,]?\d*) sek";
  lit "(?i)pre (\d+[.,]?\d*) sekunde";
  lit "(?i)pre (\d+[.,]?\d*) sekundi";
  lit "(?i)saa (\d+[.,]?\d*) iliyopita";
  lit "(?i)saa (\d+[.,]?\d*) zilizopita";
  lit "(?i)sekoni 'e (\d+[.,]?\d*) kuo'osi";
  lit "(?i)sekunde (\d+[.,]?\d*) iliyopita";
  lit "(?i)sekunde (\d+[.,]?\d*) zilizopita";
  lit "(?i)siku (\d+[.,]?\d*) iliyopita";
  lit "(?i)siku (\d+[.,]?\d*) zilizopita";
  lit "(?i)ta'u 'e (\d+[.,]?\d*) kuo'osi";
  lit "(?i)uike 'e (\d+[.,]?\d*) kuo'osi";
  lit "(?i)wiki (\d+[.,]?\d*) iliyopita";
  lit "(?i)wiki (\d+[.,]?\d*) zilizopita";
  lit "(?i)za (\d+[.,]?\d*) c";
  lit "(?i)za (\d+[.,]?\d*) d";
  lit "(?i)za (\d+[.,]?\d*) dan";
  lit "(?i)za (\d+[.,]?\d*) dana";
  lit "(?i)za (\d+[.,]?\d*) g";
  lit "(?i)za (\d+[.,]?\d*) god";
  lit "(?i)za (\d+[.,]?\d*) godina";
  lit "(?i)za (\d+[.,]?\d*) godinu";
  lit "(?i)za (\d+[.,]?\d*) m";
  lit "(?i)za (\d+[.,]?\d*) mes";
  lit "(?i)za (\d+[.,]?\d*) mesec";
  lit "(?i)za (\d+[.,]?\d*) meseci";
  lit "(?i)za (\d+[.,]?\d*) min";
  lit "(?i)za (\d+[.,]?\d*) minut";
  lit "(?i)za (\d+[.,]?\d*) minuta";
  lit "(?i)za (\d+[.,]?\d*) n";
  lit "(?i)za (\d+[.,]?\d*) ned";
  lit "(?i)za (\d+[.,]?\d*) nedelja";
  lit "(?i)za (\d+[.,]?\d*) nedelju";
  lit "(?i)za (\d+[.,]?\d*) s";
  lit "(?i)za (\d+[.,]?\d*) sat";
  lit "(?i)za (\d+[.,]?\d*) sati";
  lit "(?i)za (\d+[.,]?\d*) sek";
  lit "(?i)za (\d+[.,]?\d*) sekundi";
  lit "(?i)za (\d+[.,]?\d*) sekundu";
  lit "(?i)за (\d+[.,]?\d*) г";
  lit "(?i)за (\d+[.,]?\d*) год";
  lit "(?i)за (\d+[.,]?\d*) година";
  lit "(?i)за (\d+[.,]?\d*) годину";
  lit "(?i)за (\d+[.,]?\d*) д";
  lit "(?i)за (\d+[.,]?\d*) дан";
  lit "(?i)за (\d+[.,]?\d*) дана";
  lit "(?i)за (\d+[.,]?\d*) м";
  lit "(?i)за (\d+[.,]?\d*) мес";
  lit "(?i)за (\d+[.,]?\d*) месец";
  lit "(?i)за (\d+[.,]?\d*) месеци";
  lit "(?i)за (\d+[.,]?\d*) мин";
  lit "(?i)за (\d+[.,]?\d*) минут";
  lit "(?i)за (\d+[.,]?\d*) минута";
  lit "(?i)за (\d+[.,]?\d*) н";
  lit "(?i)за (\d+[.,]?\d*) нед";
  lit "(?i)за (\d+[.,]?\d*) недеља";
  lit "(?i)за (\d+[.,]?\d*) недељу";
  lit "(?i)за (\d+[.,]?\d*) с";
  lit "(?i)за (\d+[.,]?\d*) сат";
  lit "(?i)за (\d+[.,]?\d*) сати";
  lit "(?i)за (\d+[.,]?\d*) сек";
  lit "(?i)за (\d+[.,]?\d*) секунди";
  lit "(?i)за (\d+[.,]?\d*) секунду";
  lit "(?i)за (\d+[.,]?\d*) ч";
  lit "(?i)пре (\d+[.,]?\d*) г";
  lit "(?i)пре (\d+[.,]?\d*) год";
  lit "(?i)пре (\d+[.,]?\d*) година";
  lit "(?i)пре (\d+[.,]?\d*) године";
  lit "(?i)пре (\d+[.,]?\d*) д";
  lit "(?i)пре (\d+[.,]?\d*) дана";
  lit "(?i)пре (\d+[.,]?\d*) м";
  lit "(?i)пре (\d+[.,]?\d*) мес";
  lit "(?i)пре (\d+[.,]?\d*) месеца";
  lit "(?i)пре (\d+[.,]?\d*) месеци";
  lit "(?i)пре (\d+[.,]?\d*) мин";
  lit "(?i)пре (\d+[.,]?\d*) минута";
  lit "(?i)пре (\d+[.,]?\d*) н";
  lit "(?i)пре (\d+[.,]?\d*) нед";
  lit "(?i)пре (\d+[.,]?\d*) недеља";
  lit "(?i)пре (\d+[.,]?\d*) недеље";
  lit "(?i)пре (\d+[.,]?\d*) с";
  lit "(?i)пре (\d+[.,]?\d*) сата";
  lit "(?i)пре (\d+[.,]?\d*) сати";
  lit "(?i)пре (\d+[.,]?\d*) сек";
  lit "(?i)пре (\d+[.,]?\d*) секунде";
  lit "(?i)пре (\d+[.,]?\d*) секунди";
  lit "(?i)пре (\d+[.,]?\d*) ч";
  lit "(?i)ใน (\d+[.,]?\d*) ชม";
  lit "(?i)ใน (\d+[.,]?\d*) นาท";
  lit "(?i)ใน (\d+[.,]?\d*) ป";
  lit "(?i)ใน (\d+[.,]?\d*) วน";
  lit "(?i)ใน (\d+[.,]?\d*) วนาท";
  lit "(?i)ใน (\d+[.,]?\d*) สปดาห";
  lit "(?i)ใน (\d+[.,]?\d*) เดอน";
  lit "(?i)ในอก (\d+[.,]?\d*) ชวโมง";
  lit "(?i)ในอก (\d+[.,]?\d*) นาท";
  lit "(?i)ในอก (\d+[.,]?\d*) ป";
  lit "(?i)ในอก (\d+[.,]?\d*) วน";
  lit "(?i)ในอก (\d+[.,]?\d*) วนาท";
  lit "(?i)ในอก (\d+[.,]?\d*) สปดาห";
  lit "(?i)ในอก (\d+[.,]?\d*) เดอน";
  lit "(?i)−(\d+[.,]?\d*) ar";
  lit "(?i)−(\d+[.,]?\d*) d";
  lit "(?i)−(\d+[.,]?\d*) h";
  lit "(?i)−(\d+[.,]?\d*) man";
  lit "(?i)−(\d+[.,]?\d*) min";
  lit "(?i)−(\d+[.,]?\d*) s";
  lit "(?i)−(\d+[.,]?\d*) v"] = true.
Proof. vm_compute. reflexivity. Qed.

Definition table_11 : list (str * locale) :=
  [(lit "so", loc_so);
   (lit "so-DJ", loc_so_DJ);
   (lit "so-ET", loc_so_ET);
   (lit "so-KE", loc_so_KE);
   (lit "sq", loc_sq);
   (lit "sq-MK", loc_sq_MK);
   (lit "sq-XK", loc_sq_XK);
   (lit "sr-Cyrl", loc_sr_Cyrl);
   (lit "sr-Cyrl-BA", loc_sr_Cyrl_BA);
   (lit "sr-Cyrl-ME", loc_sr_Cyrl_ME);
   (lit "sr-Cyrl-XK", loc_sr_Cyrl_XK);
   (lit "sr-Latn", loc_sr_Latn);
   (lit "sr-Latn-BA", loc_sr_Latn_BA);
   (lit "sr-Latn-ME", loc_sr_Latn_ME);
   (lit "sr-Latn-XK", loc_sr_Latn_XK);
   (lit "sr", loc_sr);
   (lit "sv", loc_sv);
   (lit "sv-AX", loc_sv_AX);
   (lit "sv-FI", loc_sv_FI);
   (lit "sw", loc_sw);
   (lit "sw-CD", loc_sw_CD);
   (lit "sw-KE", loc_sw_KE);
   (lit "sw-UG", loc_sw_UG);
   (lit "ta", loc_ta);
   (lit "ta-LK", loc_ta_LK);
   (lit "ta-MY", loc_ta_MY);
   (lit "ta-SG", loc_ta_SG);
   (lit "te", loc_te);
   (lit "teo", loc_teo);
   (lit "teo-KE", loc_teo_KE);
   (lit "th", loc_th);
   (lit "ti", loc_ti);
   (lit "ti-ER", loc_ti_ER);
   (lit "tl", loc_tl);
   (lit "to", loc_to)].

(** each region with its language *)
Definition regions_11 : list (str * str) :=
  [(lit "so-DJ", lit "so");
   (lit "so-ET", lit "so");
   (lit "so-KE", lit "so");
   (lit "sq-MK", lit "sq");
   (lit "sq-XK", lit "sq");
   (lit "sr-Cyrl-BA", lit "sr-Cyrl");
   (lit "sr-Cyrl-ME", lit "sr-Cyrl");
   (lit "sr-Cyrl-XK", lit "sr-Cyrl");
   (lit "sr-Latn-BA", lit "sr-Latn");
   (lit "sr-Latn-ME", lit "sr-Latn");
   (lit "sr-Latn-XK", lit "sr-Latn");
   (lit "sv-AX", lit "sv");
   (lit "sv-FI", lit "sv");
   (lit "sw-CD", lit "sw");
   (lit "sw-KE", lit "sw");
   (lit "sw-UG", lit "sw");
   (lit "ta-LK", lit "ta");
   (lit "ta-MY", lit "ta");
   (lit "ta-SG", lit "ta");
   (lit "teo-KE", lit "teo");
   (lit "ti-ER", lit "ti")].
