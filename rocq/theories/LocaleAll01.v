(** Generated by tools/gen_all_locales.py from /repo/internal/data. Do not edit. *)
From Verif Require Import GoBase SMap Regex Language LocaleData.

(** af.go:13-143 *)
Definition loc_af : locale := Eval vm_compute in
  {| ld_name := lit "af"; ld_order := lit "YMD"; ld_nospacing := false; ld_splitter := 0;
    ld_charset := runes (lit "bcdefghijklnorstuvwyzô");
    ld_abbr := [];
    ld_simpl := [];
    ld_trans := [(lit "donderdag", [lit "thursday"]);
    (lit "februarie", [lit "february"]);
    (lit "september", [lit "september"]);
    (lit "augustus", [lit "august"]);
    (lit "desember", [lit "december"]);
    (lit "januarie", [lit "january"]);
    (lit "november", [lit "november"]);
    (lit "saterdag", [lit "saturday"]);
    (lit "woensdag", [lit "wednesday"]);
    (lit "dinsdag", [lit "tuesday"]);
    (lit "maandag", [lit "monday"]);
    (lit "oktober", [lit "october"]);
    (lit "sekonde", [lit "second"]);
    (lit "minuut", [lit "minute"]);
    (lit "sondag", [lit "sunday"]);
    (lit "vrydag", [lit "friday"]);
    (lit "april", [lit "april"]);
    (lit "julie", [lit "july"]);
    (lit "junie", [lit "june"]);
    (lit "maand", [lit "month"]);
    (lit "maart", [lit "march"]);
    (lit "jaar", [lit "year"]);
    (lit "week", [lit "week"]);
    (lit "apr", [lit "april"]);
    (lit "aug", [lit "august"]);
    (lit "dag", [lit "day"]);
    (lit "des", [lit "december"]);
    (lit "feb", [lit "february"]);
    (lit "gmt", [lit "gmt"]);
    (lit "jan", [lit "january"]);
    (lit "jul", [lit "july"]);
    (lit "jun", [lit "june"]);
    (lit "mei", [lit "may"]);
    (lit "min", [lit "minute"]);
    (lit "mrt", [lit "march"]);
    (lit "nov", [lit "november"]);
    (lit "okt", [lit "october"]);
    (lit "sek", [lit "second"]);
    (lit "sep", [lit "september"]);
    (lit "utc", [lit "utc"]);
    (lit "uur", [lit "hour"]);
    (lit "am", [lit "am"]);
    (lit "di", [lit "tuesday"]);
    (lit "do", [lit "thursday"]);
    (lit "ma", [lit "monday"]);
    (lit "md", [lit "month"]);
    (lit "nm", [lit "pm"]);
    (lit "pm", [lit "pm"]);
    (lit "sa", [lit "saturday"]);
    (lit "so", [lit "sunday"]);
    (lit "vm", [lit "am"]);
    (lit "vr", [lit "friday"]);
    (lit "wk", [lit "week"]);
    (lit "wo", [lit "wednesday"]);
    (lit " ", [lit " "]);
    (lit "'", [lit ""]);
    (lit "+", [lit "+"]);
    (lit ",", [lit ""]);
    (lit "-", [lit "-"]);
    (lit ".", [lit "."]);
    (lit "/", [lit "/"]);
    (lit ":", [lit ":"]);
    (lit ";", [lit ""]);
    (lit "@", [lit ""]);
    (lit "[", [lit ""]);
    (lit "]", [lit ""]);
    (lit "d", [lit "day"]);
    (lit "j", [lit "year"]);
    (lit "m", [lit "minute"]);
    (lit "s", [lit "second"]);
    (lit "u", [lit "hour"]);
    (lit "z", [lit "z"]);
    (lit "|", [lit ""])];
    ld_reltype := [(lit "hierdie minuut", lit "0 minute ago");
    (lit "volgende maand", lit "in 1 month");
    (lit "verlede maand", lit "1 month ago");
    (lit "volgende jaar", lit "in 1 year");
    (lit "volgende week", lit "in 1 week");
    (lit "hierdie jaar", lit "0 year ago");
    (lit "vandeesmaand", lit "0 month ago");
    (lit "verlede jaar", lit "1 year ago");
    (lit "verlede week", lit "1 week ago");
    (lit "hierdie uur", lit "0 hour ago");
    (lit "vandeesweek", lit "0 week ago");
    (lit "gister", lit "1 day ago");
    (lit "vandag", lit "0 day ago");
    (lit "more", lit "in 1 day");
    (lit "nou", lit "0 second ago")];
    ld_relrx := [(rx "(?i)(\d+[.,]?\d*) sekondes gelede", lit "$1 second ago");
    (rx "(?i)(\d+[.,]?\d*) sekonde gelede", lit "$1 second ago");
    (rx "(?i)(\d+[.,]?\d*) maande gelede", lit "$1 month ago");
    (rx "(?i)(\d+[.,]?\d*) minute gelede", lit "$1 minute ago");
    (rx "(?i)(\d+[.,]?\d*) minuut gelede", lit "$1 minute ago");
    (rx "(?i)(\d+[.,]?\d*) maand gelede", lit "$1 month ago");
    (rx "(?i)oor (\d+[.,]?\d*) sekondes", lit "in $1 second");
    (rx "(?i)(\d+[.,]?\d*) jaar gelede", lit "$1 year ago");
    (rx "(?i)(\d+[.,]?\d*) week gelede", lit "$1 week ago");
    (rx "(?i)(\d+[.,]?\d*) weke gelede", lit "$1 week ago");
    (rx "(?i)oor (\d+[.,]?\d*) sekonde", lit "in $1 second");
    (rx "(?i)(\d+[.,]?\d*) dae gelede", lit "$1 day ago");
    (rx "(?i)(\d+[.,]?\d*) dag gelede", lit "$1 day ago");
    (rx "(?i)(\d+[.,]?\d*) min gelede", lit "$1 minute ago");
    (rx "(?i)(\d+[.,]?\d*) sek gelede", lit "$1 second ago");
    (rx "(?i)(\d+[.,]?\d*) uur gelede", lit "$1 hour ago");
    (rx "(?i)oor (\d+[.,]?\d*) minuut", lit "in $1 month");
    (rx "(?i)(\d+[.,]?\d*) md gelede", lit "$1 month ago");
    (rx "(?i)(\d+[.,]?\d*) w gelede", lit "$1 week ago");
    (rx "(?i)oor (\d+[.,]?\d*) jaar", lit "in $1 year");
    (rx "(?i)oor (\d+[.,]?\d*) week", lit "in $1 week");
    (rx "(?i)oor (\d+[.,]?\d*) weke", lit "in $1 week");
    (rx "(?i)oor (\d+[.,]?\d*) dae", lit "in $1 day");
    (rx "(?i)oor (\d+[.,]?\d*) dag", lit "in $1 day");
    (rx "(?i)oor (\d+[.,]?\d*) min", lit "in $1 minute");
    (rx "(?i)oor (\d+[.,]?\d*) sek", lit "in $1 second");
    (rx "(?i)oor (\d+[.,]?\d*) uur", lit "in $1 hour");
    (rx "(?i)oor (\d+[.,]?\d*) md", lit "in $1 month");
    (rx "(?i)oor (\d+[.,]?\d*) w", lit "in $1 week")];
    ld_rx := Some (rx "(?i)(\A|[^\pL\pM\d]|_)(\d+[.,]?\d* sekondes gelede|\d+[.,]?\d* sekonde gelede|\d+[.,]?\d* maande gelede|\d+[.,]?\d* minute gelede|\d+[.,]?\d* minuut gelede|\d+[.,]?\d* maand gelede|oor \d+[.,]?\d* sekondes|\d+[.,]?\d* jaar gelede|\d+[.,]?\d* week gelede|\d+[.,]?\d* weke gelede|oor \d+[.,]?\d* sekonde|\d+[.,]?\d* dae gelede|\d+[.,]?\d* dag gelede|\d+[.,]?\d* min gelede|\d+[.,]?\d* sek gelede|\d+[.,]?\d* uur gelede|oor \d+[.,]?\d* minuut|\d+[.,]?\d* md gelede|\d+[.,]?\d* w gelede|oor \d+[.,]?\d* jaar|oor \d+[.,]?\d* week|oor \d+[.,]?\d* weke|oor \d+[.,]?\d* dae|oor \d+[.,]?\d* dag|oor \d+[.,]?\d* min|oor \d+[.,]?\d* sek|oor \d+[.,]?\d* uur|oor \d+[.,]?\d* md|oor \d+[.,]?\d* w)(\z|[^\pL\pM\d]|_)");
    ld_rx_exact := Some (rx "(?i)^(\d+[.,]?\d* sekondes gelede|\d+[.,]?\d* sekonde gelede|\d+[.,]?\d* maande gelede|\d+[.,]?\d* minute gelede|\d+[.,]?\d* minuut gelede|\d+[.,]?\d* maand gelede|oor \d+[.,]?\d* sekondes|\d+[.,]?\d* jaar gelede|\d+[.,]?\d* week gelede|\d+[.,]?\d* weke gelede|oor \d+[.,]?\d* sekonde|\d+[.,]?\d* dae gelede|\d+[.,]?\d* dag gelede|\d+[.,]?\d* min gelede|\d+[.,]?\d* sek gelede|\d+[.,]?\d* uur gelede|oor \d+[.,]?\d* minuut|\d+[.,]?\d* md gelede|\d+[.,]?\d* w gelede|oor \d+[.,]?\d* jaar|oor \d+[.,]?\d* week|oor \d+[.,]?\d* weke|oor \d+[.,]?\d* dae|oor \d+[.,]?\d* dag|oor \d+[.,]?\d* min|oor \d+[.,]?\d* sek|oor \d+[.,]?\d* uur|oor \d+[.,]?\d* md|oor \d+[.,]?\d* w)$");
    ld_known := [lit "hierdie minuut";
    lit "volgende maand";
    lit "verlede maand";
    lit "volgende jaar";
    lit "volgende week";
    lit "hierdie jaar";
    lit "vandeesmaand";
    lit "verlede jaar";
    lit "verlede week";
    lit "hierdie uur";
    lit "vandeesweek";
    lit "donderdag";
    lit "februarie";
    lit "september";
    lit "augustus";
    lit "desember";
    lit "januarie";
    lit "november";
    lit "saterdag";
    lit "woensdag";
    lit "dinsdag";
    lit "maandag";
    lit "oktober";
    lit "sekonde";
    lit "gister";
    lit "minuut";
    lit "sondag";
    lit "vandag";
    lit "vrydag";
    lit "april";
    lit "julie";
    lit "junie";
    lit "maand";
    lit "maart";
    lit "jaar";
    lit "more";
    lit "week";
    lit "apr";
    lit "aug";
    lit "dag";
    lit "des";
    lit "feb";
    lit "gmt";
    lit "jan";
    lit "jul";
    lit "jun";
    lit "mei";
    lit "min";
    lit "mrt";
    lit "nou";
    lit "nov";
    lit "okt";
    lit "sek";
    lit "sep";
    lit "utc";
    lit "uur";
    lit "am";
    lit "di";
    lit "do";
    lit "ma";
    lit "md";
    lit "nm";
    lit "pm";
    lit "sa";
    lit "so";
    lit "vm";
    lit "vr";
    lit "wk";
    lit "wo";
    lit " ";
    lit "'";
    lit "+";
    lit ",";
    lit "-";
    lit ".";
    lit "/";
    lit ":";
    lit ";";
    lit "@";
    lit "[";
    lit "]";
    lit "d";
    lit "j";
    lit "m";
    lit "s";
    lit "u";
    lit "z";
    lit "|"] |}.

(** af.go:145-148 *)
Definition own_af_NA : locale := Eval vm_compute in
  {| ld_name := lit "af-NA"; ld_order := lit "YMD"; ld_nospacing := false; ld_splitter := 0;
    ld_charset := runes (lit "");
    ld_abbr := [];
    ld_simpl := [];
    ld_trans := [];
    ld_reltype := [];
    ld_relrx := [];
    ld_rx := None;
    ld_rx_exact := None;
    ld_known := [] |}.
Definition loc_af_NA : locale := merge loc_af own_af_NA.

(** agq.go:10-99 *)
Definition loc_agq : locale := Eval vm_compute in
  {| ld_name := lit "agq"; ld_order := lit "DMY"; ld_nospacing := false; ld_splitter := 0;
    ld_charset := runes (lit "cdefghiklnorstuwxyzàèîòùûāŋūǎǔɔɛɨʉʔ̀̂̄");
    ld_abbr := [];
    ld_simpl := [];
    ld_trans := [(lit "ndzɔŋɔtɨfʉghadzughu", [lit "september"]);
    (lit "ndzɔŋɔchwaʔakaa wo", [lit "november"]);
    (lit "ndzɔŋɔghuuwelɔm", [lit "october"]);
    (lit "ndzɔŋɔtaafʉgha", [lit "april"]);
    (lit "ndzɔŋɔtɨdʉgha", [lit "march"]);
    (lit "ndzɔŋɔkwifɔe", [lit "august"]);
    (lit "ndzɔŋɔnzugho", [lit "june"]);
    (lit "tsuʔndzɨkɔʔɔ", [lit "saturday"]);
    (lit "ndzɔŋɔdumlo", [lit "july"]);
    (lit "ndzɔŋɔkɨzuʔ", [lit "february"]);
    (lit "ndzɔŋefwoo", [lit "december"]);
    (lit "tsuʔutɔmlo", [lit "wednesday"]);
    (lit "ndzɔŋesee", [lit "may"]);
    (lit "ndzɔŋɔnum", [lit "january"]);
    (lit "tsuʔughɔe", [lit "tuesday"]);
    (lit "tsuʔughɨm", [lit "friday"]);
    (lit "tsuʔntsɨ", [lit "sunday"]);
    (lit "tsuʔukpa", [lit "monday"]);
    (lit "tsuʔume", [lit "thursday"]);
    (lit "kɨnum", [lit "year"]);
    (lit "ndzɔŋ", [lit "month"]);
    (lit "sɛkɔn", [lit "second"]);
    (lit "utsuʔ", [lit "day"]);
    (lit "ewɨn", [lit "week"]);
    (lit "mene", [lit "minute"]);
    (lit "dum", [lit "july"]);
    (lit "dzk", [lit "saturday"]);
    (lit "dzu", [lit "september"]);
    (lit "fwo", [lit "december"]);
    (lit "fɔe", [lit "august"]);
    (lit "ghɔ", [lit "tuesday"]);
    (lit "ghɨ", [lit "friday"]);
    (lit "gmt", [lit "gmt"]);
    (lit "kaa", [lit "november"]);
    (lit "kpa", [lit "monday"]);
    (lit "kɨz", [lit "february"]);
    (lit "lɔm", [lit "october"]);
    (lit "nts", [lit "sunday"]);
    (lit "num", [lit "january"]);
    (lit "nzu", [lit "june"]);
    (lit "see", [lit "may"]);
    (lit "taa", [lit "april"]);
    (lit "tam", [lit "hour"]);
    (lit "tɔm", [lit "wednesday"]);
    (lit "tɨd", [lit "march"]);
    (lit "ume", [lit "thursday"]);
    (lit "utc", [lit "utc"]);
    (lit "ag", [lit "am"]);
    (lit "ak", [lit "pm"]);
    (lit "am", [lit "am"]);
    (lit "pm", [lit "pm"]);
    (lit " ", [lit " "]);
    (lit "'", [lit ""]);
    (lit "+", [lit "+"]);
    (lit ",", [lit ""]);
    (lit "-", [lit "-"]);
    (lit ".", [lit "."]);
    (lit "/", [lit "/"]);
    (lit ":", [lit ":"]);
    (lit ";", [lit ""]);
    (lit "@", [lit ""]);
    (lit "[", [lit ""]);
    (lit "]", [lit ""]);
    (lit "z", [lit "z"]);
    (lit "|", [lit ""])];
    ld_reltype := [(lit "this minute", lit "0 minute ago");
    (lit "last month", lit "1 month ago");
    (lit "next month", lit "in 1 month");
    (lit "this month", lit "0 month ago");
    (lit "last week", lit "1 week ago");
    (lit "last year", lit "1 year ago");
    (lit "next week", lit "in 1 week");
    (lit "next year", lit "in 1 year");
    (lit "this hour", lit "0 hour ago");
    (lit "this week", lit "0 week ago");
    (lit "this year", lit "0 year ago");
    (lit "a zuɛɛ", lit "1 day ago");
    (lit "tsʉtsʉ", lit "in 1 day");
    (lit "now", lit "0 second ago");
    (lit "nɛ", lit "0 day ago")];
    ld_relrx := [];
    ld_rx := None;
    ld_rx_exact := None;
    ld_known := [lit "ndzɔŋɔtɨfʉghadzughu";
    lit "ndzɔŋɔchwaʔakaa wo";
    lit "ndzɔŋɔghuuwelɔm";
    lit "ndzɔŋɔtaafʉgha";
    lit "ndzɔŋɔtɨdʉgha";
    lit "ndzɔŋɔkwifɔe";
    lit "ndzɔŋɔnzugho";
    lit "tsuʔndzɨkɔʔɔ";
    lit "ndzɔŋɔdumlo";
    lit "ndzɔŋɔkɨzuʔ";
    lit "this minute";
    lit "last month";
    lit "ndzɔŋefwoo";
    lit "next month";
    lit "this month";
    lit "tsuʔutɔmlo";
    lit "last week";
    lit "last year";
    lit "ndzɔŋesee";
    lit "ndzɔŋɔnum";
    lit "next week";
    lit "next year";
    lit "this hour";
    lit "this week";
    lit "this year";
    lit "tsuʔughɔe";
    lit "tsuʔughɨm";
    lit "tsuʔntsɨ";
    lit "tsuʔukpa";
    lit "tsuʔume";
    lit "a zuɛɛ";
    lit "tsʉtsʉ";
    lit "kɨnum";
    lit "ndzɔŋ";
    lit "sɛkɔn";
    lit "utsuʔ";
    lit "ewɨn";
    lit "mene";
    lit "dum";
    lit "dzk";
    lit "dzu";
    lit "fwo";
    lit "fɔe";
    lit "ghɔ";
    lit "ghɨ";
    lit "gmt";
    lit "kaa";
    lit "kpa";
    lit "kɨz";
    lit "lɔm";
    lit "now";
    lit "nts";
    lit "num";
    lit "nzu";
    lit "see";
    lit "taa";
    lit "tam";
    lit "tɔm";
    lit "tɨd";
    lit "ume";
    lit "utc";
    lit "ag";
    lit "ak";
    lit "am";
    lit "nɛ";
    lit "pm";
    lit " ";
    lit "'";
    lit "+";
    lit ",";
    lit "-";
    lit ".";
    lit "/";
    lit ":";
    lit ";";
    lit "@";
    lit "[";
    lit "]";
    lit "z";
    lit "|"] |}.

(** ak.go:10-99 *)
Definition loc_ak : locale := Eval vm_compute in
  {| ld_name := lit "ak"; ld_order := lit "YMD"; ld_nospacing := false; ld_splitter := 0;
    ld_charset := runes (lit "-bcdefghiklnorstuwxyzɔɛ");
    ld_abbr := [];
    ld_simpl := [];
    ld_trans := [(lit "esusow aketseaba-kɔtɔnimba", [lit "may"]);
    (lit "obirade-ayɛwohomumu", [lit "june"]);
    (lit "ayɛwoho-kitawonsa", [lit "july"]);
    (lit "ebɔbira-oforisuo", [lit "april"]);
    (lit "kwakwar-ɔgyefuo", [lit "february"]);
    (lit "ɔberɛfɛw-obubuo", [lit "november"]);
    (lit "difuu-ɔsandaa", [lit "august"]);
    (lit "mumu-ɔpɛnimba", [lit "december"]);
    (lit "ɔbɛsɛ-ahinime", [lit "october"]);
    (lit "sanda-ɔpɛpɔn", [lit "january"]);
    (lit "ebɔw-ɔbenem", [lit "march"]);
    (lit "fankwa-ɛbɔ", [lit "september"]);
    (lit "memeneda", [lit "saturday"]);
    (lit "dɔnhwer", [lit "hour"]);
    (lit "kwesida", [lit "sunday"]);
    (lit "benada", [lit "tuesday"]);
    (lit "bosome", [lit "month"]);
    (lit "dwowda", [lit "monday"]);
    (lit "sɛkɛnd", [lit "second"]);
    (lit "wukuda", [lit "wednesday"]);
    (lit "dapɛn", [lit "week"]);
    (lit "yawda", [lit "thursday"]);
    (lit "fida", [lit "friday"]);
    (lit "sema", [lit "minute"]);
    (lit "a-k", [lit "july"]);
    (lit "afe", [lit "year"]);
    (lit "ben", [lit "tuesday"]);
    (lit "d-ɔ", [lit "august"]);
    (lit "dwo", [lit "monday"]);
    (lit "e-k", [lit "may"]);
    (lit "e-o", [lit "april"]);
    (lit "e-ɔ", [lit "march"]);
    (lit "f-ɛ", [lit "september"]);
    (lit "fia", [lit "friday"]);
    (lit "gmt", [lit "gmt"]);
    (lit "k-ɔ", [lit "february"]);
    (lit "kwe", [lit "sunday"]);
    (lit "m-ɔ", [lit "december"]);
    (lit "mem", [lit "saturday"]);
    (lit "o-a", [lit "june"]);
    (lit "s-ɔ", [lit "january"]);
    (lit "utc", [lit "utc"]);
    (lit "wuk", [lit "wednesday"]);
    (lit "yaw", [lit "thursday"]);
    (lit "ɔ-a", [lit "october"]);
    (lit "ɔ-o", [lit "november"]);
    (lit "am", [lit "am"]);
    (lit "an", [lit "am"]);
    (lit "da", [lit "day"]);
    (lit "ew", [lit "pm"]);
    (lit "pm", [lit "pm"]);
    (lit " ", [lit " "]);
    (lit "'", [lit ""]);
    (lit "+", [lit "+"]);
    (lit ",", [lit ""]);
    (lit "-", [lit "-"]);
    (lit ".", [lit "."]);
    (lit "/", [lit "/"]);
    (lit ":", [lit ":"]);
    (lit ";", [lit ""]);
    (lit "@", [lit ""]);
    (lit "[", [lit ""]);
    (lit "]", [lit ""]);
    (lit "z", [lit "z"]);
    (lit "|", [lit ""])];
    ld_reltype := [(lit "this minute", lit "0 minute ago");
    (lit "last month", lit "1 month ago");
    (lit "next month", lit "in 1 month");
    (lit "this month", lit "0 month ago");
    (lit "last week", lit "1 week ago");
    (lit "last year", lit "1 year ago");
    (lit "next week", lit "in 1 week");
    (lit "next year", lit "in 1 year");
    (lit "this hour", lit "0 hour ago");
    (lit "this week", lit "0 week ago");
    (lit "this year", lit "0 year ago");
    (lit "ɔkyena", lit "in 1 day");
    (lit "ndeda", lit "1 day ago");
    (lit "ndɛ", lit "0 day ago");
    (lit "now", lit "0 second ago")];
    ld_relrx := [];
    ld_rx := None;
    ld_rx_exact := None;
    ld_known := [lit "esusow aketseaba-kɔtɔnimba";
    lit "obirade-ayɛwohomumu";
    lit "ayɛwoho-kitawonsa";
    lit "ebɔbira-oforisuo";
    lit "kwakwar-ɔgyefuo";
    lit "ɔberɛfɛw-obubuo";
    lit "difuu-ɔsandaa";
    lit "mumu-ɔpɛnimba";
    lit "ɔbɛsɛ-ahinime";
    lit "sanda-ɔpɛpɔn";
    lit "ebɔw-ɔbenem";
    lit "this minute";
    lit "fankwa-ɛbɔ";
    lit "last month";
    lit "next month";
    lit "this month";
    lit "last week";
    lit "last year";
    lit "next week";
    lit "next year";
    lit "this hour";
    lit "this week";
    lit "this year";
    lit "memeneda";
    lit "dɔnhwer";
    lit "kwesida";
    lit "benada";
    lit "bosome";
    lit "dwowda";
    lit "sɛkɛnd";
    lit "wukuda";
    lit "ɔkyena";
    lit "dapɛn";
    lit "ndeda";
    lit "yawda";
    lit "fida";
    lit "sema";
    lit "a-k";
    lit "afe";
    lit "ben";
    lit "d-ɔ";
    lit "dwo";
    lit "e-k";
    lit "e-o";
    lit "e-ɔ";
    lit "f-ɛ";
    lit "fia";
    lit "gmt";
    lit "k-ɔ";
    lit "kwe";
    lit "m-ɔ";
    lit "mem";
    lit "ndɛ";
    lit "now";
    lit "o-a";
    lit "s-ɔ";
    lit "utc";
    lit "wuk";
    lit "yaw";
    lit "ɔ-a";
    lit "ɔ-o";
    lit "am";
    lit "an";
    lit "da";
    lit "ew";
    lit "pm";
    lit " ";
    lit "'";
    lit "+";
    lit ",";
    lit "-";
    lit ".";
    lit "/";
    lit ":";
    lit ";";
    lit "@";
    lit "[";
    lit "]";
    lit "z";
    lit "|"] |}.

(** am.go:12-128 *)
Definition loc_am : locale := Eval vm_compute in
  {| ld_name := lit "am"; ld_order := lit "DMY"; ld_nospacing := false; ld_splitter := 0;
    ld_charset := runes (lit "cgtuzሁህለላልሐሑመሙሚማሜምሣረሩሪሬርሰሳሴስቀቂቃቅበቡባብቬቴትቶችነናንኖኞአኤእኦከክወዋውዓዕዚዛየዩያይደዲዳድጁጃገጥፈፌፕ");
    ld_abbr := [];
    ld_simpl := [];
    ld_trans := [(lit "ሴፕቴምበር", [lit "september"]);
    (lit "ኖቬምበር", [lit "november"]);
    (lit "ኦክቶበር", [lit "october"]);
    (lit "ዲሴምበር", [lit "december"]);
    (lit "ጃንዩወሪ", [lit "january"]);
    (lit "ፌብሩወሪ", [lit "february"]);
    (lit "ማክሰኞ", [lit "tuesday"]);
    (lit "ሰከንድ", [lit "second"]);
    (lit "ሳምንት", [lit "week"]);
    (lit "ኤፕሪል", [lit "april"]);
    (lit "ኦገስት", [lit "august"]);
    (lit "ከሰዓት", [lit "pm"]);
    (lit "gmt", [lit "gmt"]);
    (lit "utc", [lit "utc"]);
    (lit "ሐሙስ", [lit "thursday"]);
    (lit "ማርች", [lit "march"]);
    (lit "ማክሰ", [lit "tuesday"]);
    (lit "ረቡዕ", [lit "wednesday"]);
    (lit "ሰዓት", [lit "hour"]);
    (lit "ሴፕቴ", [lit "september"]);
    (lit "ቅዳሜ", [lit "saturday"]);
    (lit "ኖቬም", [lit "november"]);
    (lit "ኤፕሪ", [lit "april"]);
    (lit "እሑድ", [lit "sunday"]);
    (lit "ኦክቶ", [lit "october"]);
    (lit "ኦገስ", [lit "august"]);
    (lit "ዓመት", [lit "year"]);
    (lit "ዓርብ", [lit "friday"]);
    (lit "ደቂቃ", [lit "minute"]);
    (lit "ዲሴም", [lit "december"]);
    (lit "ጁላይ", [lit "july"]);
    (lit "ጃንዩ", [lit "january"]);
    (lit "ጥዋት", [lit "am"]);
    (lit "ፌብሩ", [lit "february"]);
    (lit "am", [lit "am"]);
    (lit "pm", [lit "pm"]);
    (lit "ሜይ", [lit "may"]);
    (lit "ሰኞ", [lit "monday"]);
    (lit "ቀን", [lit "day"]);
    (lit "ወር", [lit "month"]);
    (lit "ጁን", [lit "june"]);
    (lit " ", [lit " "]);
    (lit "'", [lit ""]);
    (lit "+", [lit "+"]);
    (lit ",", [lit ""]);
    (lit "-", [lit "-"]);
    (lit ".", [lit "."]);
    (lit "/", [lit "/"]);
    (lit ":", [lit ":"]);
    (lit ";", [lit ""]);
    (lit "@", [lit ""]);
    (lit "[", [lit ""]);
    (lit "]", [lit ""]);
    (lit "z", [lit "z"]);
    (lit "|", [lit ""])];
    ld_reltype := [(lit "የሚቀጥለው ሳምንት", lit "in 1 week");
    (lit "የሚቀጥለው ዓመት", lit "in 1 year");
    (lit "ባለፈው ሳምንት", lit "1 week ago");
    (lit "የሚቀጥለው ወር", lit "in 1 month");
    (lit "ያለፈው ሳምንት", lit "1 week ago");
    (lit "በዚህ ሣምንት", lit "0 week ago");
    (lit "በዚህ ሳምንት", lit "0 week ago");
    (lit "ያለፈው ዓመት", lit "1 year ago");
    (lit "በዚህ ዓመት", lit "0 year ago");
    (lit "ያለፈው ወር", lit "1 month ago");
    (lit "በዚህ ወር", lit "0 month ago");
    (lit "ይህ ሰዓት", lit "0 hour ago");
    (lit "ይህ ደቂቃ", lit "0 minute ago");
    (lit "ትላንትና", lit "1 day ago");
    (lit "ትናንት", lit "1 day ago");
    (lit "አሁን", lit "0 second ago");
    (lit "ነገ", lit "in 1 day");
    (lit "ዛሬ", lit "0 day ago")];
    ld_relrx := [(rx "(?i)በ(\d+[.,]?\d*) ሰከንዶች ውስጥ", lit "in $1 second");
    (rx "(?i)በ(\d+[.,]?\d*) ሳምንታት ውስጥ", lit "in $1 week");
    (rx "(?i)በ(\d+[.,]?\d*) ደቂቃዎች ውስጥ", lit "in $1 minute");
    (rx "(?i)ከ(\d+[.,]?\d*) ሰከንዶች በፊት", lit "$1 second ago");
    (rx "(?i)ከ(\d+[.,]?\d*) ሳምንታት በፊት", lit "$1 week ago");
    (rx "(?i)ከ(\d+[.,]?\d*) ደቂቃዎች በፊት", lit "$1 minute ago");
    (rx "(?i)በ(\d+[.,]?\d*) ሰከንድ ውስጥ", lit "in $1 second");
    (rx "(?i)በ(\d+[.,]?\d*) ሰዓቶች ውስጥ", lit "in $1 hour");
    (rx "(?i)በ(\d+[.,]?\d*) ሳምንት ውስጥ", lit "in $1 week");
    (rx "(?i)በ(\d+[.,]?\d*) ዓመታት ውስጥ", lit "in $1 year");
    (rx "(?i)ከ(\d+[.,]?\d*) ሰከንድ በፊት", lit "$1 second ago");
    (rx "(?i)ከ(\d+[.,]?\d*) ሰዓቶች በፊት", lit "$1 hour ago");
    (rx "(?i)ከ(\d+[.,]?\d*) ሳምንት በፊት", lit "$1 week ago");
    (rx "(?i)ከ(\d+[.,]?\d*) ዓመታት በፊት", lit "$1 year ago");
    (rx "(?i)በ(\d+[.,]?\d*) ሰዓት ውስጥ", lit "in $1 hour");
    (rx "(?i)በ(\d+[.,]?\d*) ቀናት ውስጥ", lit "in $1 day");
    (rx "(?i)በ(\d+[.,]?\d*) ቀኖች ውስጥ", lit "in $1 day");
    (rx "(?i)በ(\d+[.,]?\d*) ወራት ውስጥ", lit "in $1 month");
    (rx "(?i)በ(\d+[.,]?\d*) ደቂቃ ውስጥ", lit "in $1 minute");
    (rx "(?i)ከ (\d+[.,]?\d*) ቀን በፊት", lit "$1 day ago");
    (rx "(?i)ከ(\d+[.,]?\d*) ሰዓት በፊት", lit "$1 hour ago");
    (rx "(?i)ከ(\d+[.,]?\d*) ቀናት በፊት", lit "$1 day ago");
    (rx "(?i)ከ(\d+[.,]?\d*) ቀኖች በፊት", lit "$1 day ago");
    (rx "(?i)ከ(\d+[.,]?\d*) ወራት በፊት", lit "$1 month ago");
    (rx "(?i)ከ(\d+[.,]?\d*) ዓመት በፊት", lit "$1 year ago");
    (rx "(?i)ከ(\d+[.,]?\d*) ደቂቃ በፊት", lit "$1 minute ago");
    (rx "(?i)በ(\d+[.,]?\d*) ቀን ውስጥ", lit "in $1 day");
    (rx "(?i)በ(\d+[.,]?\d*) ወር ውስጥ", lit "in $1 month");
    (rx "(?i)ከ(\d+[.,]?\d*) ቀን በፊት", lit "$1 day ago");
    (rx "(?i)ከ(\d+[.,]?\d*) ወር በፊት", lit "$1 month ago")];
    ld_rx := Some (rx "(?i)(\A|[^\pL\pM\d]|_)(በ\d+[.,]?\d* ሰከንዶች ውስጥ|በ\d+[.,]?\d* ሳምንታት ውስጥ|በ\d+[.,]?\d* ደቂቃዎች ውስጥ|ከ\d+[.,]?\d* ሰከንዶች በፊት|ከ\d+[.,]?\d* ሳምንታት በፊት|ከ\d+[.,]?\d* ደቂቃዎች በፊት|በ\d+[.,]?\d* ሰከንድ ውስጥ|በ\d+[.,]?\d* ሰዓቶች ውስጥ|በ\d+[.,]?\d* ሳምንት ውስጥ|በ\d+[.,]?\d* ዓመታት ውስጥ|ከ\d+[.,]?\d* ሰከንድ በፊት|ከ\d+[.,]?\d* ሰዓቶች በፊት|ከ\d+[.,]?\d* ሳምንት በፊት|ከ\d+[.,]?\d* ዓመታት በፊት|በ\d+[.,]?\d* ሰዓት ውስጥ|በ\d+[.,]?\d* ቀናት ውስጥ|በ\d+[.,]?\d* ቀኖች ውስጥ|በ\d+[.,]?\d* ወራት ውስጥ|በ\d+[.,]?\d* ደቂቃ ውስጥ|ከ \d+[.,]?\d* ቀን በፊት|ከ\d+[.,]?\d* ሰዓት በፊት|ከ\d+[.,]?\d* ቀናት በፊት|ከ\d+[.,]?\d* ቀኖች በፊት|ከ\d+[.,]?\d* ወራት በፊት|ከ\d+[.,]?\d* ዓመት በፊት|ከ\d+[.,]?\d* ደቂቃ በፊት|በ\d+[.,]?\d* ቀን ውስጥ|በ\d+[.,]?\d* ወር ውስጥ|ከ\d+[.,]?\d* ቀን በፊት|ከ\d+[.,]?\d* ወር በፊት)(\z|[^\pL\pM\d]|_)");
    ld_rx_exact := Some (rx "(?i)^(በ\d+[.,]?\d* ሰከንዶች ውስጥ|በ\d+[.,]?\d* ሳምንታት ውስጥ|በ\d+[.,]?\d* ደቂቃዎች ውስጥ|ከ\d+[.,]?\d* ሰከንዶች በፊት|ከ\d+[.,]?\d* ሳምንታት በፊት|ከ\d+[.,]?\d* ደቂቃዎች በፊት|በ\d+[.,]?\d* ሰከንድ ውስጥ|በ\d+[.,]?\d* ሰዓቶች ውስጥ|በ\d+[.,]?\d* ሳምንት ውስጥ|በ\d+[.,]?\d* ዓመታት ውስጥ|ከ\d+[.,]?\d* ሰከንድ በፊት|ከ\d+[.,]?\d* ሰዓቶች በፊት|ከ\d+[.,]?\d* ሳምንት በፊት|ከ\d+[.,]?\d* ዓመታት በፊት|በ\d+[.,]?\d* ሰዓት ውስጥ|በ\d+[.,]?\d* ቀናት ውስጥ|በ\d+[.,]?\d* ቀኖች ውስጥ|በ\d+[.,]?\d* ወራት ውስጥ|በ\d+[.,]?\d* ደቂቃ ውስጥ|ከ \d+[.,]?\d* ቀን በፊት|ከ\d+[.,]?\d* ሰዓት በፊት|ከ\d+[.,]?\d* ቀናት በፊት|ከ\d+[.,]?\d* ቀኖች በፊት|ከ\d+[.,]?\d* ወራት በፊት|ከ\d+[.,]?\d* ዓመት በፊት|ከ\d+[.,]?\d* ደቂቃ በፊት|በ\d+[.,]?\d* ቀን ውስጥ|በ\d+[.,]?\d* ወር ውስጥ|ከ\d+[.,]?\d* ቀን በፊት|ከ\d+[.,]?\d* ወር በፊት)$");
    ld_known := [lit "የሚቀጥለው ሳምንት";
    lit "የሚቀጥለው ዓመት";
    lit "ባለፈው ሳምንት";
    lit "የሚቀጥለው ወር";
    lit "ያለፈው ሳምንት";
    lit "በዚህ ሣምንት";
    lit "በዚህ ሳምንት";
    lit "ያለፈው ዓመት";
    lit "በዚህ ዓመት";
    lit "ያለፈው ወር";
    lit "ሴፕቴምበር";
    lit "በዚህ ወር";
    lit "ይህ ሰዓት";
    lit "ይህ ደቂቃ";
    lit "ትላንትና";
    lit "ኖቬምበር";
    lit "ኦክቶበር";
    lit "ዲሴምበር";
    lit "ጃንዩወሪ";
    lit "ፌብሩወሪ";
    lit "ማክሰኞ";
    lit "ሰከንድ";
    lit "ሳምንት";
    lit "ትናንት";
    lit "ኤፕሪል";
    lit "ኦገስት";
    lit "ከሰዓት";
    lit "gmt";
    lit "utc";
    lit "ሐሙስ";
    lit "ማርች";
    lit "ማክሰ";
    lit "ረቡዕ";
    lit "ሰዓት";
    lit "ሴፕቴ";
    lit "ቅዳሜ";
    lit "ኖቬም";
    lit "አሁን";
    lit "ኤፕሪ";
    lit "እሑድ";
    lit "ኦክቶ";
    lit "ኦገስ";
    lit "ዓመት";
    lit "ዓርብ";
    lit "ደቂቃ";
    lit "ዲሴም";
    lit "ጁላይ";
    lit "ጃንዩ";
    lit "ጥዋት";
    lit "ፌብሩ";
    lit "am";
    lit "pm";
    lit "ሜይ";
    lit "ሰኞ";
    lit "ቀን";
    lit "ነገ";
    lit "ወር";
    lit "ዛሬ";
    lit "ጁን";
    lit " ";
    lit "'";
    lit "+";
    lit ",";
    lit "-";
    lit ".";
    lit "/";
    lit ":";
    lit ";";
    lit "@";
    lit "[";
    lit "]";
    lit "z";
    lit "|"] |}.

(** ar.go:39-151 *)
Definition loc_ar : locale := Eval vm_compute in
  {| ld_name := lit "ar"; ld_order := lit "DMY"; ld_nospacing := false; ld_splitter := 6;
    ld_charset := runes (lit "cgtuzءآأإئابةتثجحخدذرسشصضطعغـفقكلمنهويً");
    ld_abbr := [];
    ld_simpl := [];
    ld_trans := [(lit "الاربعاء", [lit "wednesday"]);
    (lit "الثلاثاء", [lit "tuesday"]);
    (lit "الاثنين", [lit "monday"]);
    (lit "الاسبوع", [lit "week"]);
    (lit "الثواني", [lit "second"]);
    (lit "الدقايق", [lit "minute"]);
    (lit "الساعات", [lit "hour"]);
    (lit "اكتوبر", [lit "october"]);
    (lit "الجمعة", [lit "friday"]);
    (lit "الخميس", [lit "thursday"]);
    (lit "الساعة", [lit ""]);
    (lit "ديسمبر", [lit "december"]);
    (lit "سبتمبر", [lit "september"]);
    (lit "فبراير", [lit "february"]);
    (lit "نوفمبر", [lit "november"]);
    (lit "ابريل", [lit "april"]);
    (lit "اسبوع", [lit "week"]);
    (lit "اغسطس", [lit "august"]);
    (lit "الاحد", [lit "sunday"]);
    (lit "السبت", [lit "saturday"]);
    (lit "السنة", [lit "year"]);
    (lit "الشهر", [lit "month"]);
    (lit "ثانية", [lit "second"]);
    (lit "دقايق", [lit "minute"]);
    (lit "دقيقة", [lit "minute"]);
    (lit "ساعات", [lit "hour"]);
    (lit "صباحا", [lit "am"]);
    (lit "يناير", [lit "january"]);
    (lit "يوليو", [lit "july"]);
    (lit "يونيو", [lit "june"]);
    (lit "ايام", [lit "day"]);
    (lit "خلال", [lit "in"]);
    (lit "ساعة", [lit "hour"]);
    (lit "مارس", [lit "march"]);
    (lit "مايو", [lit "may"]);
    (lit "مساء", [lit "pm"]);
    (lit "gmt", [lit "gmt"]);
    (lit "utc", [lit "utc"]);
    (lit "سنة", [lit "year"]);
    (lit "شهر", [lit "month"]);
    (lit "عام", [lit "year"]);
    (lit "مضت", [lit "ago"]);
    (lit "منذ", [lit "ago"]);
    (lit "يوم", [lit "day"]);
    (lit "am", [lit "am"]);
    (lit "pm", [lit "pm"]);
    (lit "في", [lit ""]);
    (lit "هـ", [lit ""]);
    (lit " ", [lit " "]);
    (lit "'", [lit ""]);
    (lit "+", [lit "+"]);
    (lit ",", [lit ""]);
    (lit "-", [lit "-"]);
    (lit ".", [lit "."]);
    (lit "/", [lit "/"]);
    (lit ":", [lit ":"]);
    (lit ";", [lit ""]);
    (lit "@", [lit ""]);
    (lit "[", [lit ""]);
    (lit "]", [lit ""]);
    (lit "z", [lit "z"]);
    (lit "|", [lit ""]);
    (lit "ص", [lit "am"]);
    (lit "م", [lit "pm"])];
    ld_reltype := [(lit "الاسبوع القادم", lit "in 1 week");
    (lit "الاسبوع الماضي", lit "1 week ago");
    (lit "الساعة الحالية", lit "0 hour ago");
    (lit "السنة الحالية", lit "0 year ago");
    (lit "السنة القادمة", lit "in 1 year");
    (lit "السنة الماضية", lit "1 year ago");
    (lit "الشهر القادم", lit "in 1 month");
    (lit "الشهر الماضي", lit "1 month ago");
    (lit "اليوم السابق", lit "1 day ago");
    (lit "هذا الاسبوع", lit "0 week ago");
    (lit "هذه الدقيقة", lit "0 minute ago");
    (lit "ساعة واحدة", lit "1 hour ago");
    (lit "هذا الشهر", lit "0 month ago");
    (lit "ساعتين", lit "2 hour");
    (lit "الامس", lit "1 day ago");
    (lit "اليوم", lit "0 day ago");
    (lit "يومين", lit "2 day");
    (lit "الان", lit "0 second ago");
    (lit "امس", lit "1 day ago");
    (lit "غدا", lit "in 1 day")];
    ld_relrx := [(rx "(?i)خلال (\d+[.,]?\d*) اسبوع", lit "in $1 week");
    (rx "(?i)خلال (\d+[.,]?\d*) ثانية", lit "in $1 second");
    (rx "(?i)خلال (\d+[.,]?\d*) دقيقة", lit "in $1 minute");
    (rx "(?i)خلال (\d+[.,]?\d*) ساعة", lit "in $1 hour");
    (rx "(?i)قبل (\d+[.,]?\d*) اسبوع", lit "$1 week ago");
    (rx "(?i)قبل (\d+[.,]?\d*) ثانية", lit "$1 second ago");
    (rx "(?i)قبل (\d+[.,]?\d*) دقيقة", lit "$1 minute ago");
    (rx "(?i)خلال (\d+[.,]?\d*) سنة", lit "in $1 year");
    (rx "(?i)خلال (\d+[.,]?\d*) شهر", lit "in $1 month");
    (rx "(?i)خلال (\d+[.,]?\d*) يوم", lit "in $1 day");
    (rx "(?i)قبل (\d+[.,]?\d*) ساعة", lit "$1 hour ago");
    (rx "(?i)قبل (\d+[.,]?\d*) سنة", lit "$1 year ago");
    (rx "(?i)قبل (\d+[.,]?\d*) شهر", lit "$1 month ago");
    (rx "(?i)قبل (\d+[.,]?\d*) يوم", lit "$1 day ago")];
    ld_rx := Some (rx "(?i)(\A|[^\pL\pM\d]|_)(خلال \d+[.,]?\d* اسبوع|خلال \d+[.,]?\d* ثانية|خلال \d+[.,]?\d* دقيقة|خلال \d+[.,]?\d* ساعة|قبل \d+[.,]?\d* اسبوع|قبل \d+[.,]?\d* ثانية|قبل \d+[.,]?\d* دقيقة|خلال \d+[.,]?\d* سنة|خلال \d+[.,]?\d* شهر|خلال \d+[.,]?\d* يوم|قبل \d+[.,]?\d* ساعة|قبل \d+[.,]?\d* سنة|قبل \d+[.,]?\d* شهر|قبل \d+[.,]?\d* يوم)(\z|[^\pL\pM\d]|_)");
    ld_rx_exact := Some (rx "(?i)^(خلال \d+[.,]?\d* اسبوع|خلال \d+[.,]?\d* ثانية|خلال \d+[.,]?\d* دقيقة|خلال \d+[.,]?\d* ساعة|قبل \d+[.,]?\d* اسبوع|قبل \d+[.,]?\d* ثانية|قبل \d+[.,]?\d* دقيقة|خلال \d+[.,]?\d* سنة|خلال \d+[.,]?\d* شهر|خلال \d+[.,]?\d* يوم|قبل \d+[.,]?\d* ساعة|قبل \d+[.,]?\d* سنة|قبل \d+[.,]?\d* شهر|قبل \d+[.,]?\d* يوم)$");
    ld_known := [lit "الاسبوع القادم";
    lit "الاسبوع الماضي";
    lit "الساعة الحالية";
    lit "السنة الحالية";
    lit "السنة القادمة";
    lit "السنة الماضية";
    lit "الشهر القادم";
    lit "الشهر الماضي";
    lit "اليوم السابق";
    lit "هذا الاسبوع";
    lit "هذه الدقيقة";
    lit "ساعة واحدة";
    lit "هذا الشهر";
    lit "الاربعاء";
    lit "الثلاثاء";
    lit "الاثنين";
    lit "الاسبوع";
    lit "الثواني";
    lit "الدقايق";
    lit "الساعات";
    lit "اكتوبر";
    lit "الجمعة";
    lit "الخميس";
    lit "الساعة";
    lit "ديسمبر";
    lit "ساعتين";
    lit "سبتمبر";
    lit "فبراير";
    lit "نوفمبر";
    lit "ابريل";
    lit "اسبوع";
    lit "اغسطس";
    lit "الاحد";
    lit "الامس";
    lit "السبت";
    lit "السنة";
    lit "الشهر";
    lit "اليوم";
    lit "ثانية";
    lit "دقايق";
    lit "دقيقة";
    lit "ساعات";
    lit "صباحا";
    lit "يناير";
    lit "يوليو";
    lit "يومين";
    lit "يونيو";
    lit "الان";
    lit "ايام";
    lit "خلال";
    lit "ساعة";
    lit "مارس";
    lit "مايو";
    lit "مساء";
    lit "gmt";
    lit "utc";
    lit "امس";
    lit "سنة";
    lit "شهر";
    lit "عام";
    lit "غدا";
    lit "مضت";
    lit "منذ";
    lit "يوم";
    lit "am";
    lit "pm";
    lit "في";
    lit "هـ";
    lit " ";
    lit "'";
    lit "+";
    lit ",";
    lit "-";
    lit ".";
    lit "/";
    lit ":";
    lit ";";
    lit "@";
    lit "[";
    lit "]";
    lit "z";
    lit "|";
    lit "ص";
    lit "م"] |}.

(** ar.go:153-161 *)
Definition own_ar_AE : locale := Eval vm_compute in
  {| ld_name := lit "ar-AE"; ld_order := lit "DMY"; ld_nospacing := false; ld_splitter := 0;
    ld_charset := runes (lit "");
    ld_abbr := [];
    ld_simpl := [];
    ld_trans := [];
    ld_reltype := [(lit "السنة التالية", lit "in 1 year");
    (lit "هذه السنة", lit "0 year ago")];
    ld_relrx := [];
    ld_rx := None;
    ld_rx_exact := None;
    ld_known := [lit "الاسبوع القادم";
    lit "الاسبوع الماضي";
    lit "الساعة الحالية";
    lit "السنة التالية";
    lit "السنة الحالية";
    lit "السنة القادمة";
    lit "السنة الماضية";
    lit "الشهر القادم";
    lit "الشهر الماضي";
    lit "اليوم السابق";
    lit "هذا الاسبوع";
    lit "هذه الدقيقة";
    lit "ساعة واحدة";
    lit "هذا الشهر";
    lit "هذه السنة";
    lit "الاربعاء";
    lit "الثلاثاء";
    lit "الاثنين";
    lit "الاسبوع";
    lit "الثواني";
    lit "الدقايق";
    lit "الساعات";
    lit "اكتوبر";
    lit "الجمعة";
    lit "الخميس";
    lit "الساعة";
    lit "ديسمبر";
    lit "ساعتين";
    lit "سبتمبر";
    lit "فبراير";
    lit "نوفمبر";
    lit "ابريل";
    lit "اسبوع";
    lit "اغسطس";
    lit "الاحد";
    lit "الامس";
    lit "السبت";
    lit "السنة";
    lit "الشهر";
    lit "اليوم";
    lit "ثانية";
    lit "دقايق";
    lit "دقيقة";
    lit "ساعات";
    lit "صباحا";
    lit "يناير";
    lit "يوليو";
    lit "يومين";
    lit "يونيو";
    lit "الان";
    lit "ايام";
    lit "خلال";
    lit "ساعة";
    lit "مارس";
    lit "مايو";
    lit "مساء";
    lit "gmt";
    lit "utc";
    lit "امس";
    lit "سنة";
    lit "شهر";
    lit "عام";
    lit "غدا";
    lit "مضت";
    lit "منذ";
    lit "يوم";
    lit "am";
    lit "pm";
    lit "في";
    lit "هـ";
    lit " ";
    lit "'";
    lit "+";
    lit ",";
    lit "-";
    lit ".";
    lit "/";
    lit ":";
    lit ";";
    lit "@";
    lit "[";
    lit "]";
    lit "z";
    lit "|";
    lit "ص";
    lit "م"] |}.
Definition loc_ar_AE : locale := merge loc_ar own_ar_AE.

(** ar.go:163-166 *)
Definition own_ar_BH : locale := Eval vm_compute in
  {| ld_name := lit "ar-BH"; ld_order := lit "DMY"; ld_nospacing := false; ld_splitter := 0;
    ld_charset := runes (lit "");
    ld_abbr := [];
    ld_simpl := [];
    ld_trans := [];
    ld_reltype := [];
    ld_relrx := [];
    ld_rx := None;
    ld_rx_exact := None;
    ld_known := [] |}.
Definition loc_ar_BH : locale := merge loc_ar own_ar_BH.

(** ar.go:168-171 *)
Definition own_ar_DJ : locale := Eval vm_compute in
  {| ld_name := lit "ar-DJ"; ld_order := lit "DMY"; ld_nospacing := false; ld_splitter := 0;
    ld_charset := runes (lit "");
    ld_abbr := [];
    ld_simpl := [];
    ld_trans := [];
    ld_reltype := [];
    ld_relrx := [];
    ld_rx := None;
    ld_rx_exact := None;
    ld_known := [] |}.
Definition loc_ar_DJ : locale := merge loc_ar own_ar_DJ.

(** ar.go:173-186 *)
Definition own_ar_DZ : locale := Eval vm_compute in
  {| ld_name := lit "ar-DZ"; ld_order := lit "DMY"; ld_nospacing := false; ld_splitter := 0;
    ld_charset := runes (lit "");
    ld_abbr := [];
    ld_simpl := [];
    ld_trans := [(lit "جويلية", [lit "july"]);
    (lit "افريل", [lit "april"]);
    (lit "جانفي", [lit "january"]);
    (lit "فيفري", [lit "february"]);
    (lit "جوان", [lit "june"]);
    (lit "اوت", [lit "august"]);
    (lit "ماي", [lit "may"])];
    ld_reltype := [];
    ld_relrx := [];
    ld_rx := None;
    ld_rx_exact := None;
    ld_known := [lit "الاسبوع القادم";
    lit "الاسبوع الماضي";
    lit "الساعة الحالية";
    lit "السنة الحالية";
    lit "السنة القادمة";
    lit "السنة الماضية";
    lit "الشهر القادم";
    lit "الشهر الماضي";
    lit "اليوم السابق";
    lit "هذا الاسبوع";
    lit "هذه الدقيقة";
    lit "ساعة واحدة";
    lit "هذا الشهر";
    lit "الاربعاء";
    lit "الثلاثاء";
    lit "الاثنين";
    lit "الاسبوع";
    lit "الثواني";
    lit "الدقايق";
    lit "الساعات";
    lit "اكتوبر";
    lit "الجمعة";
    lit "الخميس";
    lit "الساعة";
    lit "جويلية";
    lit "ديسمبر";
    lit "ساعتين";
    lit "سبتمبر";
    lit "فبراير";
    lit "نوفمبر";
    lit "ابريل";
    lit "اسبوع";
    lit "اغسطس";
    lit "افريل";
    lit "الاحد";
    lit "الامس";
    lit "السبت";
    lit "السنة";
    lit "الشهر";
    lit "اليوم";
    lit "ثانية";
    lit "جانفي";
    lit "دقايق";
    lit "دقيقة";
    lit "ساعات";
    lit "صباحا";
    lit "فيفري";
    lit "يناير";
    lit "يوليو";
    lit "يومين";
    lit "يونيو";
    lit "الان";
    lit "ايام";
    lit "جوان";
    lit "خلال";
    lit "ساعة";
    lit "مارس";
    lit "مايو";
    lit "مساء";
    lit "gmt";
    lit "utc";
    lit "امس";
    lit "اوت";
    lit "سنة";
    lit "شهر";
    lit "عام";
    lit "غدا";
    lit "ماي";
    lit "مضت";
    lit "منذ";
    lit "يوم";
    lit "am";
    lit "pm";
    lit "في";
    lit "هـ";
    lit " ";
    lit "'";
    lit "+";
    lit ",";
    lit "-";
    lit ".";
    lit "/";
    lit ":";
    lit ";";
    lit "@";
    lit "[";
    lit "]";
    lit "z";
    lit "|";
    lit "ص";
    lit "م"] |}.
Definition loc_ar_DZ : locale := merge loc_ar own_ar_DZ.

(** ar.go:188-191 *)
Definition own_ar_EG : locale := Eval vm_compute in
  {| ld_name := lit "ar-EG"; ld_order := lit "DMY"; ld_nospacing := false; ld_splitter := 0;
    ld_charset := runes (lit "");
    ld_abbr := [];
    ld_simpl := [];
    ld_trans := [];
    ld_reltype := [];
    ld_relrx := [];
    ld_rx := None;
    ld_rx_exact := None;
    ld_known := [] |}.
Definition loc_ar_EG : locale := merge loc_ar own_ar_EG.

(** ar.go:193-196 *)
Definition own_ar_EH : locale := Eval vm_compute in
  {| ld_name := lit "ar-EH"; ld_order := lit "DMY"; ld_nospacing := false; ld_splitter := 0;
    ld_charset := runes (lit "");
    ld_abbr := [];
    ld_simpl := [];
    ld_trans := [];
    ld_reltype := [];
    ld_relrx := [];
    ld_rx := None;
    ld_rx_exact := None;
    ld_known := [] |}.
Definition loc_ar_EH : locale := merge loc_ar own_ar_EH.

(** ar.go:198-201 *)
Definition own_ar_ER : locale := Eval vm_compute in
  {| ld_name := lit "ar-ER"; ld_order := lit "DMY"; ld_nospacing := false; ld_splitter := 0;
    ld_charset := runes (lit "");
    ld_abbr := [];
    ld_simpl := [];
    ld_trans := [];
    ld_reltype := [];
    ld_relrx := [];
    ld_rx := None;
    ld_rx_exact := None;
    ld_known := [] |}.
Definition loc_ar_ER : locale := merge loc_ar own_ar_ER.

(** ar.go:203-206 *)
Definition own_ar_IL : locale := Eval vm_compute in
  {| ld_name := lit "ar-IL"; ld_order := lit "DMY"; ld_nospacing := false; ld_splitter := 0;
    ld_charset := runes (lit "");
    ld_abbr := [];
    ld_simpl := [];
    ld_trans := [];
    ld_reltype := [];
    ld_relrx := [];
    ld_rx := None;
    ld_rx_exact := None;
    ld_known := [] |}.
Definition loc_ar_IL : locale := merge loc_ar own_ar_IL.

(** ar.go:208-228 *)
Definition own_ar_IQ : locale := Eval vm_compute in
  {| ld_name := lit "ar-IQ"; ld_order := lit "DMY"; ld_nospacing := false; ld_splitter := 0;
    ld_charset := runes (lit "زی");
    ld_abbr := [];
    ld_simpl := [];
    ld_trans := [(lit "تشرين الثاني", [lit "november"]);
    (lit "كانون الثاني", [lit "january"]);
    (lit "تشرين الاول", [lit "october"]);
    (lit "تشرین الاول", [lit "october"]);
    (lit "كانون الاول", [lit "december"]);
    (lit "حزيران", [lit "june"]);
    (lit "ايلول", [lit "september"]);
    (lit "نيسان", [lit "april"]);
    (lit "اذار", [lit "march"]);
    (lit "ايار", [lit "may"]);
    (lit "تموز", [lit "july"]);
    (lit "شباط", [lit "february"]);
    (lit "اب", [lit "august"])];
    ld_reltype := [];
    ld_relrx := [];
    ld_rx := None;
    ld_rx_exact := None;
    ld_known := [lit "الاسبوع القادم";
    lit "الاسبوع الماضي";
    lit "الساعة الحالية";
    lit "السنة الحالية";
    lit "السنة القادمة";
    lit "السنة الماضية";
    lit "الشهر القادم";
    lit "الشهر الماضي";
    lit "اليوم السابق";
    lit "تشرين الثاني";
    lit "كانون الثاني";
    lit "تشرين الاول";
    lit "تشرین الاول";
    lit "كانون الاول";
    lit "هذا الاسبوع";
    lit "هذه الدقيقة";
    lit "ساعة واحدة";
    lit "هذا الشهر";
    lit "الاربعاء";
    lit "الثلاثاء";
    lit "الاثنين";
    lit "الاسبوع";
    lit "الثواني";
    lit "الدقايق";
    lit "الساعات";
    lit "اكتوبر";
    lit "الجمعة";
    lit "الخميس";
    lit "الساعة";
    lit "حزيران";
    lit "ديسمبر";
    lit "ساعتين";
    lit "سبتمبر";
    lit "فبراير";
    lit "نوفمبر";
    lit "ابريل";
    lit "اسبوع";
    lit "اغسطس";
    lit "الاحد";
    lit "الامس";
    lit "السبت";
    lit "السنة";
    lit "الشهر";
    lit "اليوم";
    lit "ايلول";
    lit "ثانية";
    lit "دقايق";
    lit "دقيقة";
    lit "ساعات";
    lit "صباحا";
    lit "نيسان";
    lit "يناير";
    lit "يوليو";
    lit "يومين";
    lit "يونيو";
    lit "اذار";
    lit "الان";
    lit "ايار";
    lit "ايام";
    lit "تموز";
    lit "خلال";
    lit "ساعة";
    lit "شباط";
    lit "مارس";
    lit "مايو";
    lit "مساء";
    lit "gmt";
    lit "utc";
    lit "امس";
    lit "سنة";
    lit "شهر";
    lit "عام";
    lit "غدا";
    lit "مضت";
    lit "منذ";
    lit "يوم";
    lit "am";
    lit "pm";
    lit "اب";
    lit "في";
    lit "هـ";
    lit " ";
    lit "'";
    lit "+";
    lit ",";
    lit "-";
    lit ".";
    lit "/";
    lit ":";
    lit ";";
    lit "@";
    lit "[";
    lit "]";
    lit "z";
    lit "|";
    lit "ص";
    lit "م"] |}.
Definition loc_ar_IQ : locale := merge loc_ar own_ar_IQ.

(** ar.go:230-249 *)
Definition own_ar_JO : locale := Eval vm_compute in
  {| ld_name := lit "ar-JO"; ld_order := lit "DMY"; ld_nospacing := false; ld_splitter := 0;
    ld_charset := runes (lit "ز");
    ld_abbr := [];
    ld_simpl := [];
    ld_trans := [(lit "تشرين الثاني", [lit "november"]);
    (lit "كانون الثاني", [lit "january"]);
    (lit "تشرين الاول", [lit "october"]);
    (lit "كانون الاول", [lit "december"]);
    (lit "حزيران", [lit "june"]);
    (lit "ايلول", [lit "september"]);
    (lit "نيسان", [lit "april"]);
    (lit "اذار", [lit "march"]);
    (lit "ايار", [lit "may"]);
    (lit "تموز", [lit "july"]);
    (lit "شباط", [lit "february"]);
    (lit "اب", [lit "august"])];
    ld_reltype := [];
    ld_relrx := [];
    ld_rx := None;
    ld_rx_exact := None;
    ld_known := [lit "الاسبوع القادم";
    lit "الاسبوع الماضي";
    lit "الساعة الحالية";
    lit "السنة الحالية";
    lit "السنة القادمة";
    lit "السنة الماضية";
    lit "الشهر القادم";
    lit "الشهر الماضي";
    lit "اليوم السابق";
    lit "تشرين الثاني";
    lit "كانون الثاني";
    lit "تشرين الاول";
    lit "كانون الاول";
    lit "هذا الاسبوع";
    lit "هذه الدقيقة";
    lit "ساعة واحدة";
    lit "هذا الشهر";
    lit "الاربعاء";
    lit "الثلاثاء";
    lit "الاثنين";
    lit "الاسبوع";
    lit "الثواني";
    lit "الدقايق";
    lit "الساعات";
    lit "اكتوبر";
    lit "الجمعة";
    lit "الخميس";
    lit "الساعة";
    lit "حزيران";
    lit "ديسمبر";
    lit "ساعتين";
    lit "سبتمبر";
    lit "فبراير";
    lit "نوفمبر";
    lit "ابريل";
    lit "اسبوع";
    lit "اغسطس";
    lit "الاحد";
    lit "الامس";
    lit "السبت";
    lit "السنة";
    lit "الشهر";
    lit "اليوم";
    lit "ايلول";
    lit "ثانية";
    lit "دقايق";
    lit "دقيقة";
    lit "ساعات";
    lit "صباحا";
    lit "نيسان";
    lit "يناير";
    lit "يوليو";
    lit "يومين";
    lit "يونيو";
    lit "اذار";
    lit "الان";
    lit "ايار";
    lit "ايام";
    lit "تموز";
    lit "خلال";
    lit "ساعة";
    lit "شباط";
    lit "مارس";
    lit "مايو";
    lit "مساء";
    lit "gmt";
    lit "utc";
    lit "امس";
    lit "سنة";
    lit "شهر";
    lit "عام";
    lit "غدا";
    lit "مضت";
    lit "منذ";
    lit "يوم";
    lit "am";
    lit "pm";
    lit "اب";
    lit "في";
    lit "هـ";
    lit " ";
    lit "'";
    lit "+";
    lit ",";
    lit "-";
    lit ".";
    lit "/";
    lit ":";
    lit ";";
    lit "@";
    lit "[";
    lit "]";
    lit "z";
    lit "|";
    lit "ص";
    lit "م"] |}.
Definition loc_ar_JO : locale := merge loc_ar own_ar_JO.

(** ar.go:251-254 *)
Definition own_ar_KM : locale := Eval vm_compute in
  {| ld_name := lit "ar-KM"; ld_order := lit "DMY"; ld_nospacing := false; ld_splitter := 0;
    ld_charset := runes (lit "");
    ld_abbr := [];
    ld_simpl := [];
    ld_trans := [];
    ld_reltype := [];
    ld_relrx := [];
    ld_rx := None;
    ld_rx_exact := None;
    ld_known := [] |}.
Definition loc_ar_KM : locale := merge loc_ar own_ar_KM.

(** ar.go:256-259 *)
Definition own_ar_KW : locale := Eval vm_compute in
  {| ld_name := lit "ar-KW"; ld_order := lit "DMY"; ld_nospacing := false; ld_splitter := 0;
    ld_charset := runes (lit "");
    ld_abbr := [];
    ld_simpl := [];
    ld_trans := [];
    ld_reltype := [];
    ld_relrx := [];
    ld_rx := None;
    ld_rx_exact := None;
    ld_known := [] |}.
Definition loc_ar_KW : locale := merge loc_ar own_ar_KW.

(** ar.go:261-280 *)
Definition own_ar_LB : locale := Eval vm_compute in
  {| ld_name := lit "ar-LB"; ld_order := lit "DMY"; ld_nospacing := false; ld_splitter := 0;
    ld_charset := runes (lit "ز");
    ld_abbr := [];
    ld_simpl := [];
    ld_trans := [(lit "تشرين الثاني", [lit "november"]);
    (lit "كانون الثاني", [lit "january"]);
    (lit "تشرين الاول", [lit "october"]);
    (lit "كانون الاول", [lit "december"]);
    (lit "حزيران", [lit "june"]);
    (lit "ايلول", [lit "september"]);
    (lit "نيسان", [lit "april"]);
    (lit "اذار", [lit "march"]);
    (lit "ايار", [lit "may"]);
    (lit "تموز", [lit "july"]);
    (lit "شباط", [lit "february"]);
    (lit "اب", [lit "august"])];
    ld_reltype := [];
    ld_relrx := [];
    ld_rx := None;
    ld_rx_exact := None;
    ld_known := [lit "الاسبوع القادم";
    lit "الاسبوع الماضي";
    lit "الساعة الحالية";
    lit "السنة الحالية";
    lit "السنة القادمة";
    lit "السنة الماضية";
    lit "الشهر القادم";
    lit "الشهر الماضي";
    lit "اليوم السابق";
    lit "تشرين الثاني";
    lit "كانون الثاني";
    lit "تشرين الاول";
    lit "كانون الاول";
    lit "هذا الاسبوع";
    lit "هذه الدقيقة";
    lit "ساعة واحدة";
    lit "هذا الشهر";
    lit "الاربعاء";
    lit "الثلاثاء";
    lit "الاثنين";
    lit "الاسبوع";
    lit "الثواني";
    lit "الدقايق";
    lit "الساعات";
    lit "اكتوبر";
    lit "الجمعة";
    lit "الخميس";
    lit "الساعة";
    lit "حزيران";
    lit "ديسمبر";
    lit "ساعتين";
    lit "سبتمبر";
    lit "فبراير";
    lit "نوفمبر";
    lit "ابريل";
    lit "اسبوع";
    lit "اغسطس";
    lit "الاحد";
    lit "الامس";
    lit "السبت";
    lit "السنة";
    lit "الشهر";
    lit "اليوم";
    lit "ايلول";
    lit "ثانية";
    lit "دقايق";
    lit "دقيقة";
    lit "ساعات";
    lit "صباحا";
    lit "نيسان";
    lit "يناير";
    lit "يوليو";
    lit "يومين";
    lit "يونيو";
    lit "اذار";
    lit "الان";
    lit "ايار";
    lit "ايام";
    lit "تموز";
    lit "خلال";
    lit "ساعة";
    lit "شباط";
    lit "مارس";
    lit "مايو";
    lit "مساء";
    lit "gmt";
    lit "utc";
    lit "امس";
    lit "سنة";
    lit "شهر";
    lit "عام";
    lit "غدا";
    lit "مضت";
    lit "منذ";
    lit "يوم";
    lit "am";
    lit "pm";
    lit "اب";
    lit "في";
    lit "هـ";
    lit " ";
    lit "'";
    lit "+";
    lit ",";
    lit "-";
    lit ".";
    lit "/";
    lit ":";
    lit ";";
    lit "@";
    lit "[";
    lit "]";
    lit "z";
    lit "|";
    lit "ص";
    lit "م"] |}.
Definition loc_ar_LB : locale := merge loc_ar own_ar_LB.

(** ar.go:282-285 *)
Definition own_ar_LY : locale := Eval vm_compute in
  {| ld_name := lit "ar-LY"; ld_order := lit "DMY"; ld_nospacing := false; ld_splitter := 0;
    ld_charset := runes (lit "");
    ld_abbr := [];
    ld_simpl := [];
    ld_trans := [];
    ld_reltype := [];
    ld_relrx := [];
    ld_rx := None;
    ld_rx_exact := None;
    ld_known := [] |}.
Definition loc_ar_LY : locale := merge loc_ar own_ar_LY.

(** ar.go:287-300 *)
Definition own_ar_MA : locale := Eval vm_compute in
  {| ld_name := lit "ar-MA"; ld_order := lit "DMY"; ld_nospacing := false; ld_splitter := 0;
    ld_charset := runes (lit "ز");
    ld_abbr := [];
    ld_simpl := [];
    ld_trans := [(lit "يوليوز", [lit "july"]);
    (lit "دجنبر", [lit "december"]);
    (lit "شتنبر", [lit "september"]);
    (lit "نونبر", [lit "november"]);
    (lit "غشت", [lit "august"]);
    (lit "ماي", [lit "may"])];
    ld_reltype := [];
    ld_relrx := [];
    ld_rx := None;
    ld_rx_exact := None;
    ld_known := [lit "الاسبوع القادم";
    lit "الاسبوع الماضي";
    lit "الساعة الحالية";
    lit "السنة الحالية";
    lit "السنة القادمة";
    lit "السنة الماضية";
    lit "الشهر القادم";
    lit "الشهر الماضي";
    lit "اليوم السابق";
    lit "هذا الاسبوع";
    lit "هذه الدقيقة";
    lit "ساعة واحدة";
    lit "هذا الشهر";
    lit "الاربعاء";
    lit "الثلاثاء";
    lit "الاثنين";
    lit "الاسبوع";
    lit "الثواني";
    lit "الدقايق";
    lit "الساعات";
    lit "اكتوبر";
    lit "الجمعة";
    lit "الخميس";
    lit "الساعة";
    lit "ديسمبر";
    lit "ساعتين";
    lit "سبتمبر";
    lit "فبراير";
    lit "نوفمبر";
    lit "يوليوز";
    lit "ابريل";
    lit "اسبوع";
    lit "اغسطس";
    lit "الاحد";
    lit "الامس";
    lit "السبت";
    lit "السنة";
    lit "الشهر";
    lit "اليوم";
    lit "ثانية";
    lit "دجنبر";
    lit "دقايق";
    lit "دقيقة";
    lit "ساعات";
    lit "شتنبر";
    lit "صباحا";
    lit "نونبر";
    lit "يناير";
    lit "يوليو";
    lit "يومين";
    lit "يونيو";
    lit "الان";
    lit "ايام";
    lit "خلال";
    lit "ساعة";
    lit "مارس";
    lit "مايو";
    lit "مساء";
    lit "gmt";
    lit "utc";
    lit "امس";
    lit "سنة";
    lit "شهر";
    lit "عام";
    lit "غدا";
    lit "غشت";
    lit "ماي";
    lit "مضت";
    lit "منذ";
    lit "يوم";
    lit "am";
    lit "pm";
    lit "في";
    lit "هـ";
    lit " ";
    lit "'";
    lit "+";
    lit ",";
    lit "-";
    lit ".";
    lit "/";
    lit ":";
    lit ";";
    lit "@";
    lit "[";
    lit "]";
    lit "z";
    lit "|";
    lit "ص";
    lit "م"] |}.
Definition loc_ar_MA : locale := merge loc_ar own_ar_MA.

(** ar.go:302-311 *)
Definition own_ar_MR : locale := Eval vm_compute in
  {| ld_name := lit "ar-MR"; ld_order := lit "DMY"; ld_nospacing := false; ld_splitter := 0;
    ld_charset := runes (lit "");
    ld_abbr := [];
    ld_simpl := [];
    ld_trans := [(lit "دجمبر", [lit "december"]);
    (lit "شتمبر", [lit "september"]);
    (lit "اغشت", [lit "august"])];
    ld_reltype := [];
    ld_relrx := [];
    ld_rx := None;
    ld_rx_exact := None;
    ld_known := [lit "الاسبوع القادم";
    lit "الاسبوع الماضي";
    lit "الساعة الحالية";
    lit "السنة الحالية";
    lit "السنة القادمة";
    lit "السنة الماضية";
    lit "الشهر القادم";
    lit "الشهر الماضي";
    lit "اليوم السابق";
    lit "هذا الاسبوع";
    lit "هذه الدقيقة";
    lit "ساعة واحدة";
    lit "هذا الشهر";
    lit "الاربعاء";
    lit "الثلاثاء";
    lit "الاثنين";
    lit "الاسبوع";
    lit "الثواني";
    lit "الدقايق";
    lit "الساعات";
    lit "اكتوبر";
    lit "الجمعة";
    lit "الخميس";
    lit "الساعة";
    lit "ديسمبر";
    lit "ساعتين";
    lit "سبتمبر";
    lit "فبراير";
    lit "نوفمبر";
    lit "ابريل";
    lit "اسبوع";
    lit "اغسطس";
    lit "الاحد";
    lit "الامس";
    lit "السبت";
    lit "السنة";
    lit "الشهر";
    lit "اليوم";
    lit "ثانية";
    lit "دجمبر";
    lit "دقايق";
    lit "دقيقة";
    lit "ساعات";
    lit "شتمبر";
    lit "صباحا";
    lit "يناير";
    lit "يوليو";
    lit "يومين";
    lit "يونيو";
    lit "اغشت";
    lit "الان";
    lit "ايام";
    lit "خلال";
    lit "ساعة";
    lit "مارس";
    lit "مايو";
    lit "مساء";
    lit "gmt";
    lit "utc";
    lit "امس";
    lit "سنة";
    lit "شهر";
    lit "عام";
    lit "غدا";
    lit "مضت";
    lit "منذ";
    lit "يوم";
    lit "am";
    lit "pm";
    lit "في";
    lit "هـ";
    lit " ";
    lit "'";
    lit "+";
    lit ",";
    lit "-";
    lit ".";
    lit "/";
    lit ":";
    lit ";";
    lit "@";
    lit "[";
    lit "]";
    lit "z";
    lit "|";
    lit "ص";
    lit "م"] |}.
Definition loc_ar_MR : locale := merge loc_ar own_ar_MR.

(** ar.go:313-316 *)
Definition own_ar_OM : locale := Eval vm_compute in
  {| ld_name := lit "ar-OM"; ld_order := lit "DMY"; ld_nospacing := false; ld_splitter := 0;
    ld_charset := runes (lit "");
    ld_abbr := [];
    ld_simpl := [];
    ld_trans := [];
    ld_reltype := [];
    ld_relrx := [];
    ld_rx := None;
    ld_rx_exact := None;
    ld_known := [] |}.
Definition loc_ar_OM : locale := merge loc_ar own_ar_OM.

(** ar.go:318-337 *)
Definition own_ar_PS : locale := Eval vm_compute in
  {| ld_name := lit "ar-PS"; ld_order := lit "DMY"; ld_nospacing := false; ld_splitter := 0;
    ld_charset := runes (lit "ز");
    ld_abbr := [];
    ld_simpl := [];
    ld_trans := [(lit "تشرين الثاني", [lit "november"]);
    (lit "كانون الثاني", [lit "january"]);
    (lit "تشرين الاول", [lit "october"]);
    (lit "كانون الاول", [lit "december"]);
    (lit "حزيران", [lit "june"]);
    (lit "ايلول", [lit "september"]);
    (lit "نيسان", [lit "april"]);
    (lit "اذار", [lit "march"]);
    (lit "ايار", [lit "may"]);
    (lit "تموز", [lit "july"]);
    (lit "شباط", [lit "february"]);
    (lit "اب", [lit "august"])];
    ld_reltype := [];
    ld_relrx := [];
    ld_rx := None;
    ld_rx_exact := None;
    ld_known := [lit "الاسبوع القادم";
    lit "الاسبوع الماضي";
    lit "الساعة الحالية";
    lit "السنة الحالية";
    lit "السنة القادمة";
    lit "السنة الماضية";
    lit "الشهر القادم";
    lit "الشهر الماضي";
    lit "اليوم السابق";
    lit "تشرين الثاني";
    lit "كانون الثاني";
    lit "تشرين الاول";
    lit "كانون الاول";
    lit "هذا الاسبوع";
    lit "هذه الدقيقة";
    lit "ساعة واحدة";
    lit "هذا الشهر";
    lit "الاربعاء";
    lit "الثلاثاء";
    lit "الاثنين";
    lit "الاسبوع";
    lit "الثواني";
    lit "الدقايق";
    lit "الساعات";
    lit "اكتوبر";
    lit "الجمعة";
    lit "الخميس";
    lit "الساعة";
    lit "حزيران";
    lit "ديسمبر";
    lit "ساعتين";
    lit "سبتمبر";
    lit "فبراير";
    lit "نوفمبر";
    lit "ابريل";
    lit "اسبوع";
    lit "اغسطس";
    lit "الاحد";
    lit "الامس";
    lit "السبت";
    lit "السنة";
    lit "الشهر";
    lit "اليوم";
    lit "ايلول";
    lit "ثانية";
    lit "دقايق";
    lit "دقيقة";
    lit "ساعات";
    lit "صباحا";
    lit "نيسان";
    lit "يناير";
    lit "يوليو";
    lit "يومين";
    lit "يونيو";
    lit "اذار";
    lit "الان";
    lit "ايار";
    lit "ايام";
    lit "تموز";
    lit "خلال";
    lit "ساعة";
    lit "شباط";
    lit "مارس";
    lit "مايو";
    lit "مساء";
    lit "gmt";
    lit "utc";
    lit "امس";
    lit "سنة";
    lit "شهر";
    lit "عام";
    lit "غدا";
    lit "مضت";
    lit "منذ";
    lit "يوم";
    lit "am";
    lit "pm";
    lit "اب";
    lit "في";
    lit "هـ";
    lit " ";
    lit "'";
    lit "+";
    lit ",";
    lit "-";
    lit ".";
    lit "/";
    lit ":";
    lit ";";
    lit "@";
    lit "[";
    lit "]";
    lit "z";
    lit "|";
    lit "ص";
    lit "م"] |}.
Definition loc_ar_PS : locale := merge loc_ar own_ar_PS.

(** ar.go:339-342 *)
Definition own_ar_QA : locale := Eval vm_compute in
  {| ld_name := lit "ar-QA"; ld_order := lit "DMY"; ld_nospacing := false; ld_splitter := 0;
    ld_charset := runes (lit "");
    ld_abbr := [];
    ld_simpl := [];
    ld_trans := [];
    ld_reltype := [];
    ld_relrx := [];
    ld_rx := None;
    ld_rx_exact := None;
    ld_known := [] |}.
Definition loc_ar_QA : locale := merge loc_ar own_ar_QA.

(** ar.go:344-347 *)
Definition own_ar_SA : locale := Eval vm_compute in
  {| ld_name := lit "ar-SA"; ld_order := lit "DMY"; ld_nospacing := false; ld_splitter := 0;
    ld_charset := runes (lit "");
    ld_abbr := [];
    ld_simpl := [];
    ld_trans := [];
    ld_reltype := [];
    ld_relrx := [];
    ld_rx := None;
    ld_rx_exact := None;
    ld_known := [] |}.
Definition loc_ar_SA : locale := merge loc_ar own_ar_SA.

(** ar.go:349-352 *)
Definition own_ar_SD : locale := Eval vm_compute in
  {| ld_name := lit "ar-SD"; ld_order := lit "DMY"; ld_nospacing := false; ld_splitter := 0;
    ld_charset := runes (lit "");
    ld_abbr := [];
    ld_simpl := [];
    ld_trans := [];
    ld_reltype := [];
    ld_relrx := [];
    ld_rx := None;
    ld_rx_exact := None;
    ld_known := [] |}.
Definition loc_ar_SD : locale := merge loc_ar own_ar_SD.

(** ar.go:354-357 *)
Definition own_ar_SO : locale := Eval vm_compute in
  {| ld_name := lit "ar-SO"; ld_order := lit "DMY"; ld_nospacing := false; ld_splitter := 0;
    ld_charset := runes (lit "");
    ld_abbr := [];
    ld_simpl := [];
    ld_trans := [];
    ld_reltype := [];
    ld_relrx := [];
    ld_rx := None;
    ld_rx_exact := None;
    ld_known := [] |}.
Definition loc_ar_SO : locale := merge loc_ar own_ar_SO.

(** ar.go:359-362 *)
Definition own_ar_SS : locale := Eval vm_compute in
  {| ld_name := lit "ar-SS"; ld_order := lit "DMY"; ld_nospacing := false; ld_splitter := 0;
    ld_charset := runes (lit "");
    ld_abbr := [];
    ld_simpl := [];
    ld_trans := [];
    ld_reltype := [];
    ld_relrx := [];
    ld_rx := None;
    ld_rx_exact := None;
    ld_known := [] |}.
Definition loc_ar_SS : locale := merge loc_ar own_ar_SS.

(** ar.go:364-383 *)
Definition own_ar_SY : locale := Eval vm_compute in
  {| ld_name := lit "ar-SY"; ld_order := lit "DMY"; ld_nospacing := false; ld_splitter := 0;
    ld_charset := runes (lit "ز");
    ld_abbr := [];
    ld_simpl := [];
    ld_trans := [(lit "تشرين الثاني", [lit "november"]);
    (lit "كانون الثاني", [lit "january"]);
    (lit "تشرين الاول", [lit "october"]);
    (lit "كانون الاول", [lit "december"]);
    (lit "حزيران", [lit "june"]);
    (lit "ايلول", [lit "september"]);
    (lit "نيسان", [lit "april"]);
    (lit "اذار", [lit "march"]);
    (lit "ايار", [lit "may"]);
    (lit "تموز", [lit "july"]);
    (lit "شباط", [lit "february"]);
    (lit "اب", [lit "august"])];
    ld_reltype := [];
    ld_relrx := [];
    ld_rx := None;
    ld_rx_exact := None;
    ld_known := [lit "الاسبوع القادم";
    lit "الاسبوع الماضي";
    lit "الساعة الحالية";
    lit "السنة الحالية";
    lit "السنة القادمة";
    lit "السنة الماضية";
    lit "الشهر القادم";
    lit "الشهر الماضي";
    lit "اليوم السابق";
    lit "تشرين الثاني";
    lit "كانون الثاني";
    lit "تشرين الاول";
    lit "كانون الاول";
    lit "هذا الاسبوع";
    lit "هذه الدقيقة";
    lit "ساعة واحدة";
    lit "هذا الشهر";
    lit "الاربعاء";
    lit "الثلاثاء";
    lit "الاثنين";
    lit "الاسبوع";
    lit "الثواني";
    lit "الدقايق";
    lit "الساعات";
    lit "اكتوبر";
    lit "الجمعة";
    lit "الخميس";
    lit "الساعة";
    lit "حزيران";
    lit "ديسمبر";
    lit "ساعتين";
    lit "سبتمبر";
    lit "فبراير";
    lit "نوفمبر";
    lit "ابريل";
    lit "اسبوع";
    lit "اغسطس";
    lit "الاحد";
    lit "الامس";
    lit "السبت";
    lit "السنة";
    lit "الشهر";
    lit "اليوم";
    lit "ايلول";
    lit "ثانية";
    lit "دقايق";
    lit "دقيقة";
    lit "ساعات";
    lit "صباحا";
    lit "نيسان";
    lit "يناير";
    lit "يوليو";
    lit "يومين";
    lit "يونيو";
    lit "اذار";
    lit "الان";
    lit "ايار";
    lit "ايام";
    lit "تموز";
    lit "خلال";
    lit "ساعة";
    lit "شباط";
    lit "مارس";
    lit "مايو";
    lit "مساء";
    lit "gmt";
    lit "utc";
    lit "امس";
    lit "سنة";
    lit "شهر";
    lit "عام";
    lit "غدا";
    lit "مضت";
    lit "منذ";
    lit "يوم";
    lit "am";
    lit "pm";
    lit "اب";
    lit "في";
    lit "هـ";
    lit " ";
    lit "'";
    lit "+";
    lit ",";
    lit "-";
    lit ".";
    lit "/";
    lit ":";
    lit ";";
    lit "@";
    lit "[";
    lit "]";
    lit "z";
    lit "|";
    lit "ص";
    lit "م"] |}.
Definition loc_ar_SY : locale := merge loc_ar own_ar_SY.

(** ar.go:385-388 *)
Definition own_ar_TD : locale := Eval vm_compute in
  {| ld_name := lit "ar-TD"; ld_order := lit "DMY"; ld_nospacing := false; ld_splitter := 0;
    ld_charset := runes (lit "");
    ld_abbr := [];
    ld_simpl := [];
    ld_trans := [];
    ld_reltype := [];
    ld_relrx := [];
    ld_rx := None;
    ld_rx_exact := None;
    ld_known := [] |}.
Definition loc_ar_TD : locale := merge loc_ar own_ar_TD.

(** ar.go:390-403 *)
Definition own_ar_TN : locale := Eval vm_compute in
  {| ld_name := lit "ar-TN"; ld_order := lit "DMY"; ld_nospacing := false; ld_splitter := 0;
    ld_charset := runes (lit "");
    ld_abbr := [];
    ld_simpl := [];
    ld_trans := [(lit "جويلية", [lit "july"]);
    (lit "افريل", [lit "april"]);
    (lit "جانفي", [lit "january"]);
    (lit "فيفري", [lit "february"]);
    (lit "جوان", [lit "june"]);
    (lit "اوت", [lit "august"]);
    (lit "ماي", [lit "may"])];
    ld_reltype := [];
    ld_relrx := [];
    ld_rx := None;
    ld_rx_exact := None;
    ld_known := [lit "الاسبوع القادم";
    lit "الاسبوع الماضي";
    lit "الساعة الحالية";
    lit "السنة الحالية";
    lit "السنة القادمة";
    lit "السنة الماضية";
    lit "الشهر القادم";
    lit "الشهر الماضي";
    lit "اليوم السابق";
    lit "هذا الاسبوع";
    lit "هذه الدقيقة";
    lit "ساعة واحدة";
    lit "هذا الشهر";
    lit "الاربعاء";
    lit "الثلاثاء";
    lit "الاثنين";
    lit "الاسبوع";
    lit "الثواني";
    lit "الدقايق";
    lit "الساعات";
    lit "اكتوبر";
    lit "الجمعة";
    lit "الخميس";
    lit "الساعة";
    lit "جويلية";
    lit "ديسمبر";
    lit "ساعتين";
    lit "سبتمبر";
    lit "فبراير";
    lit "نوفمبر";
    lit "ابريل";
    lit "اسبوع";
    lit "اغسطس";
    lit "افريل";
    lit "الاحد";
    lit "الامس";
    lit "السبت";
    lit "السنة";
    lit "الشهر";
    lit "اليوم";
    lit "ثانية";
    lit "جانفي";
    lit "دقايق";
    lit "دقيقة";
    lit "ساعات";
    lit "صباحا";
    lit "فيفري";
    lit "يناير";
    lit "يوليو";
    lit "يومين";
    lit "يونيو";
    lit "الان";
    lit "ايام";
    lit "جوان";
    lit "خلال";
    lit "ساعة";
    lit "مارس";
    lit "مايو";
    lit "مساء";
    lit "gmt";
    lit "utc";
    lit "امس";
    lit "اوت";
    lit "سنة";
    lit "شهر";
    lit "عام";
    lit "غدا";
    lit "ماي";
    lit "مضت";
    lit "منذ";
    lit "يوم";
    lit "am";
    lit "pm";
    lit "في";
    lit "هـ";
    lit " ";
    lit "'";
    lit "+";
    lit ",";
    lit "-";
    lit ".";
    lit "/";
    lit ":";
    lit ";";
    lit "@";
    lit "[";
    lit "]";
    lit "z";
    lit "|";
    lit "ص";
    lit "م"] |}.
Definition loc_ar_TN : locale := merge loc_ar own_ar_TN.

(** ar.go:405-408 *)
Definition own_ar_YE : locale := Eval vm_compute in
  {| ld_name := lit "ar-YE"; ld_order := lit "DMY"; ld_nospacing := false; ld_splitter := 0;
    ld_charset := runes (lit "");
    ld_abbr := [];
    ld_simpl := [];
    ld_trans := [];
    ld_reltype := [];
    ld_relrx := [];
    ld_rx := None;
    ld_rx_exact := None;
    ld_known := [] |}.
Definition loc_ar_YE : locale := merge loc_ar own_ar_YE.

(** as.go:10-94 *)
Definition loc_as : locale := Eval vm_compute in
  {| ld_name := lit "as"; ld_order := lit "YMD"; ld_nospacing := false; ld_splitter := 0;
    ld_charset := runes (lit "ceghiklnorstuwxyzঅআইএওকগঘঙচছজটডণতদধনপফবভমলশষসহািীুূৃেৈো্ৰৱ");
    ld_abbr := [];
    ld_simpl := [];
    ld_trans := [(lit "বহষপতিবাৰ", [lit "thursday"]);
    (lit "ছেপতেমবৰ", [lit "september"]);
    (lit "ফেবৰৱাৰী", [lit "february"]);
    (lit "জানৱাৰী", [lit "january"]);
    (lit "ডিচেমবৰ", [lit "december"]);
    (lit "মঙগলবাৰ", [lit "tuesday"]);
    (lit "অকটোবৰ", [lit "october"]);
    (lit "অপৰাহণ", [lit "pm"]);
    (lit "ছেকেণড", [lit "second"]);
    (lit "দেওবাৰ", [lit "sunday"]);
    (lit "নৱেমবৰ", [lit "november"]);
    (lit "পৰবাহণ", [lit "am"]);
    (lit "বহষপতি", [lit "thursday"]);
    (lit "শকৰবাৰ", [lit "friday"]);
    (lit "শনিবাৰ", [lit "saturday"]);
    (lit "সোমবাৰ", [lit "monday"]);
    (lit "এপৰিল", [lit "april"]);
    (lit "বধবাৰ", [lit "wednesday"]);
    (lit "মিনিট", [lit "minute"]);
    (lit "সপতাহ", [lit "week"]);
    (lit "অকটো", [lit "october"]);
    (lit "আগষট", [lit "august"]);
    (lit "ঘণটা", [lit "hour"]);
    (lit "জলাই", [lit "july"]);
    (lit "ডিসে", [lit "december"]);
    (lit "ফেবৰ", [lit "february"]);
    (lit "মঙগল", [lit "tuesday"]);
    (lit "মাৰচ", [lit "march"]);
    (lit "সেপট", [lit "september"]);
    (lit "gmt", [lit "gmt"]);
    (lit "utc", [lit "utc"]);
    (lit "জান", [lit "january"]);
    (lit "দিন", [lit "day"]);
    (lit "নভে", [lit "november"]);
    (lit "বছৰ", [lit "year"]);
    (lit "মাহ", [lit "month"]);
    (lit "শকৰ", [lit "friday"]);
    (lit "শনি", [lit "saturday"]);
    (lit "সোম", [lit "monday"]);
    (lit "ৰবি", [lit "sunday"]);
    (lit "am", [lit "am"]);
    (lit "pm", [lit "pm"]);
    (lit "আগ", [lit "august"]);
    (lit "জন", [lit "june"]);
    (lit "বধ", [lit "wednesday"]);
    (lit "মে", [lit "may"]);
    (lit " ", [lit " "]);
    (lit "'", [lit ""]);
    (lit "+", [lit "+"]);
    (lit ",", [lit ""]);
    (lit "-", [lit "-"]);
    (lit ".", [lit "."]);
    (lit "/", [lit "/"]);
    (lit ":", [lit ":"]);
    (lit ";", [lit ""]);
    (lit "@", [lit ""]);
    (lit "[", [lit ""]);
    (lit "]", [lit ""]);
    (lit "z", [lit "z"]);
    (lit "|", [lit ""])];
    ld_reltype := [(lit "this minute", lit "0 minute ago");
    (lit "last month", lit "1 month ago");
    (lit "next month", lit "in 1 month");
    (lit "this month", lit "0 month ago");
    (lit "last week", lit "1 week ago");
    (lit "last year", lit "1 year ago");
    (lit "next week", lit "in 1 week");
    (lit "next year", lit "in 1 year");
    (lit "this hour", lit "0 hour ago");
    (lit "this week", lit "0 week ago");
    (lit "this year", lit "0 year ago");
    (lit "কাইলৈ", lit "in 1 day");
    (lit "কালি", lit "1 day ago");
    (lit "now", lit "0 second ago");
    (lit "আজি", lit "0 day ago")];
    ld_relrx := [];
    ld_rx := None;
    ld_rx_exact := None;
    ld_known := [lit "this minute";
    lit "last month";
    lit "next month";
    lit "this month";
    lit "last week";
    lit "last year";
    lit "next week";
    lit "next year";
    lit "this hour";
    lit "this week";
    lit "this year";
    lit "বহষপতিবাৰ";
    lit "ছেপতেমবৰ";
    lit "ফেবৰৱাৰী";
    lit "জানৱাৰী";
    lit "ডিচেমবৰ";
    lit "মঙগলবাৰ";
    lit "অকটোবৰ";
    lit "অপৰাহণ";
    lit "ছেকেণড";
    lit "দেওবাৰ";
    lit "নৱেমবৰ";
    lit "পৰবাহণ";
    lit "বহষপতি";
    lit "শকৰবাৰ";
    lit "শনিবাৰ";
    lit "সোমবাৰ";
    lit "এপৰিল";
    lit "কাইলৈ";
    lit "বধবাৰ";
    lit "মিনিট";
    lit "সপতাহ";
    lit "অকটো";
    lit "আগষট";
    lit "কালি";
    lit "ঘণটা";
    lit "জলাই";
    lit "ডিসে";
    lit "ফেবৰ";
    lit "মঙগল";
    lit "মাৰচ";
    lit "সেপট";
    lit "gmt";
    lit "now";
    lit "utc";
    lit "আজি";
    lit "জান";
    lit "দিন";
    lit "নভে";
    lit "বছৰ";
    lit "মাহ";
    lit "শকৰ";
    lit "শনি";
    lit "সোম";
    lit "ৰবি";
    lit "am";
    lit "pm";
    lit "আগ";
    lit "জন";
    lit "বধ";
    lit "মে";
    lit " ";
    lit "'";
    lit "+";
    lit ",";
    lit "-";
    lit ".";
    lit "/";
    lit ":";
    lit ";";
    lit "@";
    lit "[";
    lit "]";
    lit "z";
    lit "|"] |}.

(** asa.go:10-98 *)
Definition loc_asa : locale := Eval vm_compute in
  {| ld_name := lit "asa"; ld_order := lit "DMY"; ld_nospacing := false; ld_splitter := 0;
    ld_charset := runes (lit "bcdefghijklnorstuvwxyz");
    ld_abbr := [];
    ld_simpl := [];
    ld_trans := [(lit "icheheavo", [lit "am"]);
    (lit "alhamisi", [lit "thursday"]);
    (lit "februari", [lit "february"]);
    (lit "ichamthi", [lit "pm"]);
    (lit "jumamosi", [lit "saturday"]);
    (lit "jumapili", [lit "sunday"]);
    (lit "jumatano", [lit "wednesday"]);
    (lit "jumatatu", [lit "monday"]);
    (lit "septemba", [lit "september"]);
    (lit "thekunde", [lit "second"]);
    (lit "desemba", [lit "december"]);
    (lit "januari", [lit "january"]);
    (lit "jumanne", [lit "tuesday"]);
    (lit "novemba", [lit "november"]);
    (lit "agosti", [lit "august"]);
    (lit "aprili", [lit "april"]);
    (lit "dakika", [lit "minute"]);
    (lit "ijumaa", [lit "friday"]);
    (lit "ndisha", [lit "week"]);
    (lit "oktoba", [lit "october"]);
    (lit "julai", [lit "july"]);
    (lit "machi", [lit "march"]);
    (lit "mwaka", [lit "year"]);
    (lit "mweji", [lit "month"]);
    (lit "thiku", [lit "day"]);
    (lit "juni", [lit "june"]);
    (lit "thaa", [lit "hour"]);
    (lit "ago", [lit "august"]);
    (lit "alh", [lit "thursday"]);
    (lit "apr", [lit "april"]);
    (lit "dec", [lit "december"]);
    (lit "feb", [lit "february"]);
    (lit "gmt", [lit "gmt"]);
    (lit "ijm", [lit "friday"]);
    (lit "jan", [lit "january"]);
    (lit "jmo", [lit "saturday"]);
    (lit "jnn", [lit "tuesday"]);
    (lit "jpi", [lit "sunday"]);
    (lit "jtn", [lit "wednesday"]);
    (lit "jtt", [lit "monday"]);
    (lit "jul", [lit "july"]);
    (lit "jun", [lit "june"]);
    (lit "mac", [lit "march"]);
    (lit "mei", [lit "may"]);
    (lit "nov", [lit "november"]);
    (lit "okt", [lit "october"]);
    (lit "sep", [lit "september"]);
    (lit "utc", [lit "utc"]);
    (lit "am", [lit "am"]);
    (lit "pm", [lit "pm"]);
    (lit " ", [lit " "]);
    (lit "'", [lit ""]);
    (lit "+", [lit "+"]);
    (lit ",", [lit ""]);
    (lit "-", [lit "-"]);
    (lit ".", [lit "."]);
    (lit "/", [lit "/"]);
    (lit ":", [lit ":"]);
    (lit ";", [lit ""]);
    (lit "@", [lit ""]);
    (lit "[", [lit ""]);
    (lit "]", [lit ""]);
    (lit "z", [lit "z"]);
    (lit "|", [lit ""])];
    ld_reltype := [(lit "this minute", lit "0 minute ago");
    (lit "last month", lit "1 month ago");
    (lit "next month", lit "in 1 month");
    (lit "this month", lit "0 month ago");
    (lit "last week", lit "1 week ago");
    (lit "last year", lit "1 year ago");
    (lit "next week", lit "in 1 week");
    (lit "next year", lit "in 1 year");
    (lit "this hour", lit "0 hour ago");
    (lit "this week", lit "0 week ago");
    (lit "this year", lit "0 year ago");
    (lit "ighuo", lit "1 day ago");
    (lit "iyoo", lit "0 day ago");
    (lit "yavo", lit "in 1 day");
    (lit "now", lit "0 second ago")];
    ld_relrx := [];
    ld_rx := None;
    ld_rx_exact := None;
    ld_known := [lit "this minute";
    lit "last month";
    lit "next month";
    lit "this month";
    lit "icheheavo";
    lit "last week";
    lit "last year";
    lit "next week";
    lit "next year";
    lit "this hour";
    lit "this week";
    lit "this year";
    lit "alhamisi";
    lit "februari";
    lit "ichamthi";
    lit "jumamosi";
    lit "jumapili";
    lit "jumatano";
    lit "jumatatu";
    lit "septemba";
    lit "thekunde";
    lit "desemba";
    lit "januari";
    lit "jumanne";
    lit "novemba";
    lit "agosti";
    lit "aprili";
    lit "dakika";
    lit "ijumaa";
    lit "ndisha";
    lit "oktoba";
    lit "ighuo";
    lit "julai";
    lit "machi";
    lit "mwaka";
    lit "mweji";
    lit "thiku";
    lit "iyoo";
    lit "juni";
    lit "thaa";
    lit "yavo";
    lit "ago";
    lit "alh";
    lit "apr";
    lit "dec";
    lit "feb";
    lit "gmt";
    lit "ijm";
    lit "jan";
    lit "jmo";
    lit "jnn";
    lit "jpi";
    lit "jtn";
    lit "jtt";
    lit "jul";
    lit "jun";
    lit "mac";
    lit "mei";
    lit "nov";
    lit "now";
    lit "okt";
    lit "sep";
    lit "utc";
    lit "am";
    lit "pm";
    lit " ";
    lit "'";
    lit "+";
    lit ",";
    lit "-";
    lit ".";
    lit "/";
    lit ":";
    lit ";";
    lit "@";
    lit "[";
    lit "]";
    lit "z";
    lit "|"] |}.

(** ast.go:12-183 *)
Definition loc_ast : locale := Eval vm_compute in
  {| ld_name := lit "ast"; ld_order := lit "DMY"; ld_nospacing := false; ld_splitter := 0;
    ld_charset := runes (lit "bcdefghilnorstuvxyzáéíñü");
    ld_abbr := [];
    ld_simpl := [];
    ld_trans := [(lit "de la manana", [lit "am"]);
    (lit "de setiembre", [lit "september"]);
    (lit "de la tarde", [lit "pm"]);
    (lit "de febreru", [lit "february"]);
    (lit "de payares", [lit "november"]);
    (lit "d'avientu", [lit "december"]);
    (lit "d'ochobre", [lit "october"]);
    (lit "de xineru", [lit "january"]);
    (lit "de xunetu", [lit "july"]);
    (lit "miercoles", [lit "wednesday"]);
    (lit "setiembre", [lit "september"]);
    (lit "d'agostu", [lit "august"]);
    (lit "de marzu", [lit "march"]);
    (lit "avientu", [lit "december"]);
    (lit "d'abril", [lit "april"]);
    (lit "de mayu", [lit "may"]);
    (lit "de xunu", [lit "june"]);
    (lit "domingu", [lit "sunday"]);
    (lit "febreru", [lit "february"]);
    (lit "ochobre", [lit "october"]);
    (lit "payares", [lit "november"]);
    (lit "segundu", [lit "second"]);
    (lit "selmana", [lit "week"]);
    (lit "vienres", [lit "friday"]);
    (lit "agostu", [lit "august"]);
    (lit "llunes", [lit "monday"]);
    (lit "manana", [lit "am"]);
    (lit "martes", [lit "tuesday"]);
    (lit "minutu", [lit "minute"]);
    (lit "sabadu", [lit "saturday"]);
    (lit "xineru", [lit "january"]);
    (lit "xueves", [lit "thursday"]);
    (lit "xunetu", [lit "july"]);
    (lit "abril", [lit "april"]);
    (lit "marzu", [lit "march"]);
    (lit "tarde", [lit "pm"]);
    (lit "hora", [lit "hour"]);
    (lit "mayu", [lit "may"]);
    (lit "xunu", [lit "june"]);
    (lit "abr", [lit "april"]);
    (lit "ago", [lit "august"]);
    (lit "anu", [lit "year"]);
    (lit "avi", [lit "december"]);
    (lit "dia", [lit "day"]);
    (lit "dom", [lit "sunday"]);
    (lit "feb", [lit "february"]);
    (lit "gmt", [lit "gmt"]);
    (lit "llu", [lit "monday"]);
    (lit "mar", [lit "march"; lit "tuesday"]);
    (lit "may", [lit "may"]);
    (lit "mes", [lit "month"]);
    (lit "mie", [lit "wednesday"]);
    (lit "min", [lit "minute"]);
    (lit "och", [lit "october"]);
    (lit "pay", [lit "november"]);
    (lit "sab", [lit "saturday"]);
    (lit "sel", [lit "week"]);
    (lit "set", [lit "september"]);
    (lit "utc", [lit "utc"]);
    (lit "vie", [lit "friday"]);
    (lit "xin", [lit "january"]);
    (lit "xnt", [lit "july"]);
    (lit "xue", [lit "thursday"]);
    (lit "xun", [lit "june"]);
    (lit "am", [lit "am"]);
    (lit "pm", [lit "pm"]);
    (lit " ", [lit " "]);
    (lit "'", [lit ""]);
    (lit "+", [lit "+"]);
    (lit ",", [lit ""]);
    (lit "-", [lit "-"]);
    (lit ".", [lit "."]);
    (lit "/", [lit "/"]);
    (lit ":", [lit ":"]);
    (lit ";", [lit ""]);
    (lit "@", [lit ""]);
    (lit "[", [lit ""]);
    (lit "]", [lit ""]);
    (lit "h", [lit "hour"]);
    (lit "m", [lit "minute"]);
    (lit "s", [lit "second"]);
    (lit "z", [lit "z"]);
    (lit "|", [lit ""])];
    ld_reltype := [(lit "la selmana viniente", lit "in 1 week");
    (lit "la selmana pasada", lit "1 week ago");
    (lit "el mes viniente", lit "in 1 month");
    (lit "l'anu viniente", lit "in 1 year");
    (lit "selm viniente", lit "in 1 week");
    (lit "el mes pasau", lit "1 month ago");
    (lit "esta selmana", lit "0 week ago");
    (lit "esti minutu", lit "0 minute ago");
    (lit "l'anu pasau", lit "1 year ago");
    (lit "selm pasada", lit "1 week ago");
    (lit "esta hora", lit "0 hour ago");
    (lit "esta selm", lit "0 week ago");
    (lit "l'anu pas", lit "1 year ago");
    (lit "l'anu vin", lit "in 1 year");
    (lit "esti anu", lit "0 year ago");
    (lit "esti mes", lit "0 month ago");
    (lit "esti min", lit "0 minute ago");
    (lit "selm pas", lit "1 week ago");
    (lit "selm vin", lit "in 1 week");
    (lit "anu pas", lit "1 year ago");
    (lit "anu vin", lit "in 1 year");
    (lit "mes pas", lit "1 month ago");
    (lit "mes vin", lit "in 1 month");
    (lit "esta h", lit "0 hour ago");
    (lit "manana", lit "in 1 day");
    (lit "agora", lit "0 second ago");
    (lit "ayeri", lit "1 day ago");
    (lit "guei", lit "0 day ago");
    (lit "man", lit "in 1 day")];
    ld_relrx := [(rx "(?i)hai (\d+[.,]?\d*) segundos", lit "$1 second ago");
    (rx "(?i)hai (\d+[.,]?\d*) selmanes", lit "$1 week ago");
    (rx "(?i)en (\d+[.,]?\d*) segundos", lit "in $1 second");
    (rx "(?i)en (\d+[.,]?\d*) selmanes", lit "in $1 week");
    (rx "(?i)hai (\d+[.,]?\d*) minutos", lit "$1 minute ago");
    (rx "(?i)hai (\d+[.,]?\d*) segundu", lit "$1 second ago");
    (rx "(?i)hai (\d+[.,]?\d*) selmana", lit "$1 week ago");
    (rx "(?i)en (\d+[.,]?\d*) minutos", lit "in $1 minute");
    (rx "(?i)en (\d+[.,]?\d*) segundu", lit "in $1 second");
    (rx "(?i)en (\d+[.,]?\d*) selmana", lit "in $1 week");
    (rx "(?i)hai (\d+[.,]?\d*) minutu", lit "$1 minute ago");
    (rx "(?i)en (\d+[.,]?\d*) minutu", lit "in $1 minute");
    (rx "(?i)hai (\d+[.,]?\d*) hores", lit "$1 hour ago");
    (rx "(?i)hai (\d+[.,]?\d*) meses", lit "$1 month ago");
    (rx "(?i)en (\d+[.,]?\d*) hores", lit "in $1 hour");
    (rx "(?i)en (\d+[.,]?\d*) meses", lit "in $1 month");
    (rx "(?i)hai (\d+[.,]?\d*) anos", lit "$1 year ago");
    (rx "(?i)hai (\d+[.,]?\d*) dies", lit "$1 day ago");
    (rx "(?i)hai (\d+[.,]?\d*) hora", lit "$1 hour ago");
    (rx "(?i)hai (\d+[.,]?\d*) selm", lit "$1 week ago");
    (rx "(?i)en (\d+[.,]?\d*) anos", lit "in $1 year");
    (rx "(?i)en (\d+[.,]?\d*) dies", lit "in $1 day");
    (rx "(?i)en (\d+[.,]?\d*) hora", lit "in $1 hour");
    (rx "(?i)en (\d+[.,]?\d*) selm", lit "in $1 week");
    (rx "(?i)hai (\d+[.,]?\d*) anu", lit "$1 year ago");
    (rx "(?i)hai (\d+[.,]?\d*) dia", lit "$1 day ago");
    (rx "(?i)hai (\d+[.,]?\d*) mes", lit "$1 month ago");
    (rx "(?i)hai (\d+[.,]?\d*) min", lit "$1 minute ago");
    (rx "(?i)hai (\d+[.,]?\d*) seg", lit "$1 second ago");
    (rx "(?i)en (\d+[.,]?\d*) anu", lit "in $1 year");
    (rx "(?i)en (\d+[.,]?\d*) dia", lit "in $1 day");
    (rx "(?i)en (\d+[.,]?\d*) mes", lit "in $1 month");
    (rx "(?i)en (\d+[.,]?\d*) min", lit "in $1 minute");
    (rx "(?i)en (\d+[.,]?\d*) seg", lit "in $1 second");
    (rx "(?i)hai (\d+[.,]?\d*) se", lit "$1 week ago");
    (rx "(?i)en (\d+[.,]?\d*) se", lit "in $1 week");
    (rx "(?i)hai (\d+[.,]?\d*) a", lit "$1 year ago");
    (rx "(?i)hai (\d+[.,]?\d*) d", lit "$1 day ago");
    (rx "(?i)hai (\d+[.,]?\d*) h", lit "$1 hour ago");
    (rx "(?i)hai (\d+[.,]?\d*) m", lit "$1 month ago");
    (rx "(?i)hai (\d+[.,]?\d*) s", lit "$1 second ago");
    (rx "(?i)en (\d+[.,]?\d*) a", lit "in $1 year");
    (rx "(?i)en (\d+[.,]?\d*) d", lit "in $1 day");
    (rx "(?i)en (\d+[.,]?\d*) h", lit "in $1 hour");
    (rx "(?i)en (\d+[.,]?\d*) m", lit "in $1 month");
    (rx "(?i)en (\d+[.,]?\d*) s", lit "in $1 second")];
    ld_rx := Some (rx "(?i)(\A|[^\pL\pM\d]|_)(hai \d+[.,]?\d* segundos|hai \d+[.,]?\d* selmanes|en \d+[.,]?\d* segundos|en \d+[.,]?\d* selmanes|hai \d+[.,]?\d* minutos|hai \d+[.,]?\d* segundu|hai \d+[.,]?\d* selmana|en \d+[.,]?\d* minutos|en \d+[.,]?\d* segundu|en \d+[.,]?\d* selmana|hai \d+[.,]?\d* minutu|en \d+[.,]?\d* minutu|hai \d+[.,]?\d* hores|hai \d+[.,]?\d* meses|en \d+[.,]?\d* hores|en \d+[.,]?\d* meses|hai \d+[.,]?\d* anos|hai \d+[.,]?\d* dies|hai \d+[.,]?\d* hora|hai \d+[.,]?\d* selm|en \d+[.,]?\d* anos|en \d+[.,]?\d* dies|en \d+[.,]?\d* hora|en \d+[.,]?\d* selm|hai \d+[.,]?\d* anu|hai \d+[.,]?\d* dia|hai \d+[.,]?\d* mes|hai \d+[.,]?\d* min|hai \d+[.,]?\d* seg|en \d+[.,]?\d* anu|en \d+[.,]?\d* dia|en \d+[.,]?\d* mes|en \d+[.,]?\d* min|en \d+[.,]?\d* seg|hai \d+[.,]?\d* se|en \d+[.,]?\d* se|hai \d+[.,]?\d* a|hai \d+[.,]?\d* d|hai \d+[.,]?\d* h|hai \d+[.,]?\d* m|hai \d+[.,]?\d* s|en \d+[.,]?\d* a|en \d+[.,]?\d* d|en \d+[.,]?\d* h|en \d+[.,]?\d* m|en \d+[.,]?\d* s)(\z|[^\pL\pM\d]|_)");
    ld_rx_exact := Some (rx "(?i)^(hai \d+[.,]?\d* segundos|hai \d+[.,]?\d* selmanes|en \d+[.,]?\d* segundos|en \d+[.,]?\d* selmanes|hai \d+[.,]?\d* minutos|hai \d+[.,]?\d* segundu|hai \d+[.,]?\d* selmana|en \d+[.,]?\d* minutos|en \d+[.,]?\d* segundu|en \d+[.,]?\d* selmana|hai \d+[.,]?\d* minutu|en \d+[.,]?\d* minutu|hai \d+[.,]?\d* hores|hai \d+[.,]?\d* meses|en \d+[.,]?\d* hores|en \d+[.,]?\d* meses|hai \d+[.,]?\d* anos|hai \d+[.,]?\d* dies|hai \d+[.,]?\d* hora|hai \d+[.,]?\d* selm|en \d+[.,]?\d* anos|en \d+[.,]?\d* dies|en \d+[.,]?\d* hora|en \d+[.,]?\d* selm|hai \d+[.,]?\d* anu|hai \d+[.,]?\d* dia|hai \d+[.,]?\d* mes|hai \d+[.,]?\d* min|hai \d+[.,]?\d* seg|en \d+[.,]?\d* anu|en \d+[.,]?\d* dia|en \d+[.,]?\d* mes|en \d+[.,]?\d* min|en \d+[.,]?\d* seg|hai \d+[.,]?\d* se|en \d+[.,]?\d* se|hai \d+[.,]?\d* a|hai \d+[.,]?\d* d|hai \d+[.,]?\d* h|hai \d+[.,]?\d* m|hai \d+[.,]?\d* s|en \d+[.,]?\d* a|en \d+[.,]?\d* d|en \d+[.,]?\d* h|en \d+[.,]?\d* m|en \d+[.,]?\d* s)$");
    ld_known := [lit "la selmana viniente";
    lit "la selmana pasada";
    lit "el mes viniente";
    lit "l'anu viniente";
    lit "selm viniente";
    lit "de la manana";
    lit "de setiembre";
    lit "el mes pasau";
    lit "esta selmana";
    lit "de la tarde";
    lit "esti minutu";
    lit "l'anu pasau";
    lit "selm pasada";
    lit "de febreru";
    lit "de payares";
    lit "d'avientu";
    lit "d'ochobre";
    lit "de xineru";
    lit "de xunetu";
    lit "esta hora";
    lit "esta selm";
    lit "l'anu pas";
    lit "l'anu vin";
    lit "miercoles";
    lit "setiembre";
    lit "d'agostu";
    lit "de marzu";
    lit "esti anu";
    lit "esti mes";
    lit "esti min";
    lit "selm pas";
    lit "selm vin";
    lit "anu pas";
    lit "anu vin";
    lit "avientu";
    lit "d'abril";
    lit "de mayu";
    lit "de xunu";
    lit "domingu";
    lit "febreru";
    lit "mes pas";
    lit "mes vin";
    lit "ochobre";
    lit "payares";
    lit "segundu";
    lit "selmana";
    lit "vienres";
    lit "agostu";
    lit "esta h";
    lit "llunes";
    lit "manana";
    lit "martes";
    lit "minutu";
    lit "sabadu";
    lit "xineru";
    lit "xueves";
    lit "xunetu";
    lit "abril";
    lit "agora";
    lit "ayeri";
    lit "marzu";
    lit "tarde";
    lit "guei";
    lit "hora";
    lit "mayu";
    lit "xunu";
    lit "abr";
    lit "ago";
    lit "anu";
    lit "avi";
    lit "dia";
    lit "dom";
    lit "feb";
    lit "gmt";
    lit "llu";
    lit "man";
    lit "mar";
    lit "may";
    lit "mes";
    lit "mie";
    lit "min";
    lit "och";
    lit "pay";
    lit "sab";
    lit "sel";
    lit "set";
    lit "utc";
    lit "vie";
    lit "xin";
    lit "xnt";
    lit "xue";
    lit "xun";
    lit "am";
    lit "pm";
    lit " ";
    lit "'";
    lit "+";
    lit ",";
    lit "-";
    lit ".";
    lit "/";
    lit ":";
    lit ";";
    lit "@";
    lit "[";
    lit "]";
    lit "h";
    lit "m";
    lit "s";
    lit "z";
    lit "|"] |}.

(** az-cyrl.go:10-98 *)
Definition loc_az_Cyrl : locale := Eval vm_compute in
  {| ld_name := lit "az-Cyrl"; ld_order := lit "DMY"; ld_nospacing := false; ld_splitter := 0;
    ld_charset := runes (lit "cdeghiklnorstuwxyzабвгдезийклмнопрстуфхчшыјүҹә");
    ld_abbr := [];
    ld_simpl := [];
    ld_trans := [(lit "чәршәнбә ахшамы", [lit "tuesday"]);
    (lit "базар ертәси", [lit "monday"]);
    (lit "ҹүмә ахшамы", [lit "thursday"]);
    (lit "сентјабр", [lit "september"]);
    (lit "чәршәнбә", [lit "wednesday"]);
    (lit "октјабр", [lit "october"]);
    (lit "minute", [lit "minute"]);
    (lit "second", [lit "second"]);
    (lit "август", [lit "august"]);
    (lit "декабр", [lit "december"]);
    (lit "нојабр", [lit "november"]);
    (lit "феврал", [lit "february"]);
    (lit "јанвар", [lit "january"]);
    (lit "month", [lit "month"]);
    (lit "апрел", [lit "april"]);
    (lit "базар", [lit "sunday"]);
    (lit "шәнбә", [lit "saturday"]);
    (lit "hour", [lit "hour"]);
    (lit "week", [lit "week"]);
    (lit "year", [lit "year"]);
    (lit "ијул", [lit "july"]);
    (lit "ијун", [lit "june"]);
    (lit "март", [lit "march"]);
    (lit "ҹүмә", [lit "friday"]);
    (lit "day", [lit "day"]);
    (lit "gmt", [lit "gmt"]);
    (lit "utc", [lit "utc"]);
    (lit "авг", [lit "august"]);
    (lit "апр", [lit "april"]);
    (lit "дек", [lit "december"]);
    (lit "ијл", [lit "july"]);
    (lit "ијн", [lit "june"]);
    (lit "маи", [lit "may"]);
    (lit "мар", [lit "march"]);
    (lit "ној", [lit "november"]);
    (lit "окт", [lit "october"]);
    (lit "сен", [lit "september"]);
    (lit "фев", [lit "february"]);
    (lit "јан", [lit "january"]);
    (lit "am", [lit "am"]);
    (lit "pm", [lit "pm"]);
    (lit "ам", [lit "am"]);
    (lit "бе", [lit "monday"]);
    (lit "пм", [lit "pm"]);
    (lit "ча", [lit "tuesday"]);
    (lit "ҹа", [lit "thursday"]);
    (lit " ", [lit " "]);
    (lit "'", [lit ""]);
    (lit "+", [lit "+"]);
    (lit ",", [lit ""]);
    (lit "-", [lit "-"]);
    (lit ".", [lit "."]);
    (lit "/", [lit "/"]);
    (lit ":", [lit ":"]);
    (lit ";", [lit ""]);
    (lit "@", [lit ""]);
    (lit "[", [lit ""]);
    (lit "]", [lit ""]);
    (lit "z", [lit "z"]);
    (lit "|", [lit ""]);
    (lit "б", [lit "sunday"]);
    (lit "ч", [lit "wednesday"]);
    (lit "ш", [lit "saturday"]);
    (lit "ҹ", [lit "friday"])];
    ld_reltype := [(lit "this minute", lit "0 minute ago");
    (lit "last month", lit "1 month ago");
    (lit "next month", lit "in 1 month");
    (lit "this month", lit "0 month ago");
    (lit "last week", lit "1 week ago");
    (lit "last year", lit "1 year ago");
    (lit "next week", lit "in 1 week");
    (lit "next year", lit "in 1 year");
    (lit "this hour", lit "0 hour ago");
    (lit "this week", lit "0 week ago");
    (lit "this year", lit "0 year ago");
    (lit "yesterday", lit "1 day ago");
    (lit "tomorrow", lit "in 1 day");
    (lit "today", lit "0 day ago");
    (lit "now", lit "0 second ago")];
    ld_relrx := [];
    ld_rx := None;
    ld_rx_exact := None;
    ld_known := [lit "чәршәнбә ахшамы";
    lit "базар ертәси";
    lit "this minute";
    lit "ҹүмә ахшамы";
    lit "last month";
    lit "next month";
    lit "this month";
    lit "last week";
    lit "last year";
    lit "next week";
    lit "next year";
    lit "this hour";
    lit "this week";
    lit "this year";
    lit "yesterday";
    lit "tomorrow";
    lit "сентјабр";
    lit "чәршәнбә";
    lit "октјабр";
    lit "minute";
    lit "second";
    lit "август";
    lit "декабр";
    lit "нојабр";
    lit "феврал";
    lit "јанвар";
    lit "month";
    lit "today";
    lit "апрел";
    lit "базар";
    lit "шәнбә";
    lit "hour";
    lit "week";
    lit "year";
    lit "ијул";
    lit "ијун";
    lit "март";
    lit "ҹүмә";
    lit "day";
    lit "gmt";
    lit "now";
    lit "utc";
    lit "авг";
    lit "апр";
    lit "дек";
    lit "ијл";
    lit "ијн";
    lit "маи";
    lit "мар";
    lit "ној";
    lit "окт";
    lit "сен";
    lit "фев";
    lit "јан";
    lit "am";
    lit "pm";
    lit "ам";
    lit "бе";
    lit "пм";
    lit "ча";
    lit "ҹа";
    lit " ";
    lit "'";
    lit "+";
    lit ",";
    lit "-";
    lit ".";
    lit "/";
    lit ":";
    lit ";";
    lit "@";
    lit "[";
    lit "]";
    lit "z";
    lit "|";
    lit "б";
    lit "ч";
    lit "ш";
    lit "ҹ"] |}.

(** az-latn.go:12-116 *)
Definition loc_az_Latn : locale := Eval vm_compute in
  {| ld_name := lit "az-Latn"; ld_order := lit "DMY"; ld_nospacing := false; ld_splitter := 0;
    ld_charset := runes (lit "bcdefghiklnorstuvxyzçüışə");
    ld_abbr := [];
    ld_simpl := [];
    ld_trans := [(lit "cərsənbə axsamı", [lit "tuesday"]);
    (lit "bazar ertəsi", [lit "monday"]);
    (lit "cumə axsamı", [lit "thursday"]);
    (lit "cərsənbə", [lit "wednesday"]);
    (lit "sentyabr", [lit "september"]);
    (lit "oktyabr", [lit "october"]);
    (lit "avqust", [lit "august"]);
    (lit "dekabr", [lit "december"]);
    (lit "dəqiqə", [lit "minute"]);
    (lit "fevral", [lit "february"]);
    (lit "noyabr", [lit "november"]);
    (lit "saniyə", [lit "second"]);
    (lit "yanvar", [lit "january"]);
    (lit "aprel", [lit "april"]);
    (lit "bazar", [lit "sunday"]);
    (lit "həftə", [lit "week"]);
    (lit "sənbə", [lit "saturday"]);
    (lit "cumə", [lit "friday"]);
    (lit "iyul", [lit "july"]);
    (lit "iyun", [lit "june"]);
    (lit "mart", [lit "march"]);
    (lit "saat", [lit "hour"]);
    (lit "apr", [lit "april"]);
    (lit "avq", [lit "august"]);
    (lit "dek", [lit "december"]);
    (lit "dəq", [lit "minute"]);
    (lit "fev", [lit "february"]);
    (lit "gmt", [lit "gmt"]);
    (lit "gun", [lit "day"]);
    (lit "iyl", [lit "july"]);
    (lit "iyn", [lit "june"]);
    (lit "mar", [lit "march"]);
    (lit "may", [lit "may"]);
    (lit "noy", [lit "november"]);
    (lit "okt", [lit "october"]);
    (lit "san", [lit "second"]);
    (lit "sen", [lit "september"]);
    (lit "utc", [lit "utc"]);
    (lit "yan", [lit "january"]);
    (lit "am", [lit "am"]);
    (lit "ay", [lit "month"]);
    (lit "be", [lit "monday"]);
    (lit "ca", [lit "tuesday"; lit "thursday"]);
    (lit "il", [lit "year"]);
    (lit "pm", [lit "pm"]);
    (lit " ", [lit " "]);
    (lit "'", [lit ""]);
    (lit "+", [lit "+"]);
    (lit ",", [lit ""]);
    (lit "-", [lit "-"]);
    (lit ".", [lit "."]);
    (lit "/", [lit "/"]);
    (lit ":", [lit ":"]);
    (lit ";", [lit ""]);
    (lit "@", [lit ""]);
    (lit "[", [lit ""]);
    (lit "]", [lit ""]);
    (lit "b", [lit "sunday"]);
    (lit "c", [lit "friday"; lit "wednesday"]);
    (lit "s", [lit "saturday"]);
    (lit "z", [lit "z"]);
    (lit "|", [lit ""])];
    ld_reltype := [(lit "gələn həftə", lit "in 1 week");
    (lit "kecən həftə", lit "1 week ago");
    (lit "bu dəqiqə", lit "0 minute ago");
    (lit "bu həftə", lit "0 week ago");
    (lit "gələn ay", lit "in 1 month");
    (lit "gələn il", lit "in 1 year");
    (lit "kecən ay", lit "1 month ago");
    (lit "kecən il", lit "1 year ago");
    (lit "bu saat", lit "0 hour ago");
    (lit "bu gun", lit "0 day ago");
    (lit "bu ay", lit "0 month ago");
    (lit "bu il", lit "0 year ago");
    (lit "dunən", lit "1 day ago");
    (lit "sabah", lit "in 1 day");
    (lit "indi", lit "0 second ago")];
    ld_relrx := [(rx "(?i)(\d+[.,]?\d*) dəqiqə ərzində", lit "in $1 minute");
    (rx "(?i)(\d+[.,]?\d*) saniyə ərzində", lit "in $1 second");
    (rx "(?i)(\d+[.,]?\d*) həftə ərzində", lit "in $1 week");
    (rx "(?i)(\d+[.,]?\d*) saat ərzində", lit "in $1 hour");
    (rx "(?i)(\d+[.,]?\d*) dəqiqə oncə", lit "$1 minute ago");
    (rx "(?i)(\d+[.,]?\d*) gun ərzində", lit "in $1 day");
    (rx "(?i)(\d+[.,]?\d*) saniyə oncə", lit "$1 second ago");
    (rx "(?i)(\d+[.,]?\d*) ay ərzində", lit "in $1 month");
    (rx "(?i)(\d+[.,]?\d*) həftə oncə", lit "$1 week ago");
    (rx "(?i)(\d+[.,]?\d*) il ərzində", lit "in $1 year");
    (rx "(?i)(\d+[.,]?\d*) saat oncə", lit "$1 hour ago");
    (rx "(?i)(\d+[.,]?\d*) gun oncə", lit "$1 day ago");
    (rx "(?i)(\d+[.,]?\d*) ay oncə", lit "$1 month ago");
    (rx "(?i)(\d+[.,]?\d*) il oncə", lit "$1 year ago")];
    ld_rx := Some (rx "(?i)(\A|[^\pL\pM\d]|_)(\d+[.,]?\d* dəqiqə ərzində|\d+[.,]?\d* saniyə ərzində|\d+[.,]?\d* həftə ərzində|\d+[.,]?\d* saat ərzində|\d+[.,]?\d* dəqiqə oncə|\d+[.,]?\d* gun ərzində|\d+[.,]?\d* saniyə oncə|\d+[.,]?\d* ay ərzində|\d+[.,]?\d* həftə oncə|\d+[.,]?\d* il ərzində|\d+[.,]?\d* saat oncə|\d+[.,]?\d* gun oncə|\d+[.,]?\d* ay oncə|\d+[.,]?\d* il oncə)(\z|[^\pL\pM\d]|_)");
    ld_rx_exact := Some (rx "(?i)^(\d+[.,]?\d* dəqiqə ərzində|\d+[.,]?\d* saniyə ərzində|\d+[.,]?\d* həftə ərzində|\d+[.,]?\d* saat ərzində|\d+[.,]?\d* dəqiqə oncə|\d+[.,]?\d* gun ərzində|\d+[.,]?\d* saniyə oncə|\d+[.,]?\d* ay ərzində|\d+[.,]?\d* həftə oncə|\d+[.,]?\d* il ərzində|\d+[.,]?\d* saat oncə|\d+[.,]?\d* gun oncə|\d+[.,]?\d* ay oncə|\d+[.,]?\d* il oncə)$");
    ld_known := [lit "cərsənbə axsamı";
    lit "bazar ertəsi";
    lit "cumə axsamı";
    lit "gələn həftə";
    lit "kecən həftə";
    lit "bu dəqiqə";
    lit "bu həftə";
    lit "cərsənbə";
    lit "gələn ay";
    lit "gələn il";
    lit "kecən ay";
    lit "kecən il";
    lit "sentyabr";
    lit "bu saat";
    lit "oktyabr";
    lit "avqust";
    lit "bu gun";
    lit "dekabr";
    lit "dəqiqə";
    lit "fevral";
    lit "noyabr";
    lit "saniyə";
    lit "yanvar";
    lit "aprel";
    lit "bazar";
    lit "bu ay";
    lit "bu il";
    lit "dunən";
    lit "həftə";
    lit "sabah";
    lit "sənbə";
    lit "cumə";
    lit "indi";
    lit "iyul";
    lit "iyun";
    lit "mart";
    lit "saat";
    lit "apr";
    lit "avq";
    lit "dek";
    lit "dəq";
    lit "fev";
    lit "gmt";
    lit "gun";
    lit "iyl";
    lit "iyn";
    lit "mar";
    lit "may";
    lit "noy";
    lit "okt";
    lit "san";
    lit "sen";
    lit "utc";
    lit "yan";
    lit "am";
    lit "ay";
    lit "be";
    lit "ca";
    lit "il";
    lit "pm";
    lit " ";
    lit "'";
    lit "+";
    lit ",";
    lit "-";
    lit ".";
    lit "/";
    lit ":";
    lit ";";
    lit "@";
    lit "[";
    lit "]";
    lit "b";
    lit "c";
    lit "s";
    lit "z";
    lit "|"] |}.

(** az.go:12-116 *)
Definition loc_az : locale := Eval vm_compute in
  {| ld_name := lit "az"; ld_order := lit "DMY"; ld_nospacing := false; ld_splitter := 0;
    ld_charset := runes (lit "bcdefghiklnorstuvxyzçüışə");
    ld_abbr := [];
    ld_simpl := [];
    ld_trans := [(lit "cərsənbə axsamı", [lit "tuesday"]);
    (lit "bazar ertəsi", [lit "monday"]);
    (lit "cumə axsamı", [lit "thursday"]);
    (lit "cərsənbə", [lit "wednesday"]);
    (lit "sentyabr", [lit "september"]);
    (lit "oktyabr", [lit "october"]);
    (lit "avqust", [lit "august"]);
    (lit "dekabr", [lit "december"]);
    (lit "dəqiqə", [lit "minute"]);
    (lit "fevral", [lit "february"]);
    (lit "noyabr", [lit "november"]);
    (lit "saniyə", [lit "second"]);
    (lit "yanvar", [lit "january"]);
    (lit "aprel", [lit "april"]);
    (lit "bazar", [lit "sunday"]);
    (lit "həftə", [lit "week"]);
    (lit "sənbə", [lit "saturday"]);
    (lit "cumə", [lit "friday"]);
    (lit "iyul", [lit "july"]);
    (lit "iyun", [lit "june"]);
    (lit "mart", [lit "march"]);
    (lit "saat", [lit "hour"]);
    (lit "apr", [lit "april"]);
    (lit "avq", [lit "august"]);
    (lit "dek", [lit "december"]);
    (lit "dəq", [lit "minute"]);
    (lit "fev", [lit "february"]);
    (lit "gmt", [lit "gmt"]);
    (lit "gun", [lit "day"]);
    (lit "iyl", [lit "july"]);
    (lit "iyn", [lit "june"]);
    (lit "mar", [lit "march"]);
    (lit "may", [lit "may"]);
    (lit "noy", [lit "november"]);
    (lit "okt", [lit "october"]);
    (lit "san", [lit "second"]);
    (lit "sen", [lit "september"]);
    (lit "utc", [lit "utc"]);
    (lit "yan", [lit "january"]);
    (lit "am", [lit "am"]);
    (lit "ay", [lit "month"]);
    (lit "be", [lit "monday"]);
    (lit "ca", [lit "tuesday"; lit "thursday"]);
    (lit "il", [lit "year"]);
    (lit "pm", [lit "pm"]);
    (lit " ", [lit " "]);
    (lit "'", [lit ""]);
    (lit "+", [lit "+"]);
    (lit ",", [lit ""]);
    (lit "-", [lit "-"]);
    (lit ".", [lit "."]);
    (lit "/", [lit "/"]);
    (lit ":", [lit ":"]);
    (lit ";", [lit ""]);
    (lit "@", [lit ""]);
    (lit "[", [lit ""]);
    (lit "]", [lit ""]);
    (lit "b", [lit "sunday"]);
    (lit "c", [lit "friday"; lit "wednesday"]);
    (lit "s", [lit "saturday"]);
    (lit "z", [lit "z"]);
    (lit "|", [lit ""])];
    ld_reltype := [(lit "gələn həftə", lit "in 1 week");
    (lit "kecən həftə", lit "1 week ago");
    (lit "bu dəqiqə", lit "0 minute ago");
    (lit "bu həftə", lit "0 week ago");
    (lit "gələn ay", lit "in 1 month");
    (lit "gələn il", lit "in 1 year");
    (lit "kecən ay", lit "1 month ago");
    (lit "kecən il", lit "1 year ago");
    (lit "bu saat", lit "0 hour ago");
    (lit "bu gun", lit "0 day ago");
    (lit "bu ay", lit "0 month ago");
    (lit "bu il", lit "0 year ago");
    (lit "dunən", lit "1 day ago");
    (lit "sabah", lit "in 1 day");
    (lit "indi", lit "0 second ago")];
    ld_relrx := [(rx "(?i)(\d+[.,]?\d*) dəqiqə ərzində", lit "in $1 minute");
    (rx "(?i)(\d+[.,]?\d*) saniyə ərzində", lit "in $1 second");
    (rx "(?i)(\d+[.,]?\d*) həftə ərzində", lit "in $1 week");
    (rx "(?i)(\d+[.,]?\d*) saat ərzində", lit "in $1 hour");
    (rx "(?i)(\d+[.,]?\d*) dəqiqə oncə", lit "$1 minute ago");
    (rx "(?i)(\d+[.,]?\d*) gun ərzində", lit "in $1 day");
    (rx "(?i)(\d+[.,]?\d*) saniyə oncə", lit "$1 second ago");
    (rx "(?i)(\d+[.,]?\d*) ay ərzində", lit "in $1 month");
    (rx "(?i)(\d+[.,]?\d*) həftə oncə", lit "$1 week ago");
    (rx "(?i)(\d+[.,]?\d*) il ərzində", lit "in $1 year");
    (rx "(?i)(\d+[.,]?\d*) saat oncə", lit "$1 hour ago");
    (rx "(?i)(\d+[.,]?\d*) gun oncə", lit "$1 day ago");
    (rx "(?i)(\d+[.,]?\d*) ay oncə", lit "$1 month ago");
    (rx "(?i)(\d+[.,]?\d*) il oncə", lit "$1 year ago")];
    ld_rx := Some (rx "(?i)(\A|[^\pL\pM\d]|_)(\d+[.,]?\d* dəqiqə ərzində|\d+[.,]?\d* saniyə ərzində|\d+[.,]?\d* həftə ərzində|\d+[.,]?\d* saat ərzində|\d+[.,]?\d* dəqiqə oncə|\d+[.,]?\d* gun ərzində|\d+[.,]?\d* saniyə oncə|\d+[.,]?\d* ay ərzində|\d+[.,]?\d* həftə oncə|\d+[.,]?\d* il ərzində|\d+[.,]?\d* saat oncə|\d+[.,]?\d* gun oncə|\d+[.,]?\d* ay oncə|\d+[.,]?\d* il oncə)(\z|[^\pL\pM\d]|_)");
    ld_rx_exact := Some (rx "(?i)^(\d+[.,]?\d* dəqiqə ərzində|\d+[.,]?\d* saniyə ərzində|\d+[.,]?\d* həftə ərzində|\d+[.,]?\d* saat ərzində|\d+[.,]?\d* dəqiqə oncə|\d+[.,]?\d* gun ərzində|\d+[.,]?\d* saniyə oncə|\d+[.,]?\d* ay ərzində|\d+[.,]?\d* həftə oncə|\d+[.,]?\d* il ərzində|\d+[.,]?\d* saat oncə|\d+[.,]?\d* gun oncə|\d+[.,]?\d* ay oncə|\d+[.,]?\d* il oncə)$");
    ld_known := [lit "cərsənbə axsamı";
    lit "bazar ertəsi";
    lit "cumə axsamı";
    lit "gələn həftə";
    lit "kecən həftə";
    lit "bu dəqiqə";
    lit "bu həftə";
    lit "cərsənbə";
    lit "gələn ay";
    lit "gələn il";
    lit "kecən ay";
    lit "kecən il";
    lit "sentyabr";
    lit "bu saat";
    lit "oktyabr";
    lit "avqust";
    lit "bu gun";
    lit "dekabr";
    lit "dəqiqə";
    lit "fevral";
    lit "noyabr";
    lit "saniyə";
    lit "yanvar";
    lit "aprel";
    lit "bazar";
    lit "bu ay";
    lit "bu il";
    lit "dunən";
    lit "həftə";
    lit "sabah";
    lit "sənbə";
    lit "cumə";
    lit "indi";
    lit "iyul";
    lit "iyun";
    lit "mart";
    lit "saat";
    lit "apr";
    lit "avq";
    lit "dek";
    lit "dəq";
    lit "fev";
    lit "gmt";
    lit "gun";
    lit "iyl";
    lit "iyn";
    lit "mar";
    lit "may";
    lit "noy";
    lit "okt";
    lit "san";
    lit "sen";
    lit "utc";
    lit "yan";
    lit "am";
    lit "ay";
    lit "be";
    lit "ca";
    lit "il";
    lit "pm";
    lit " ";
    lit "'";
    lit "+";
    lit ",";
    lit "-";
    lit ".";
    lit "/";
    lit ":";
    lit ";";
    lit "@";
    lit "[";
    lit "]";
    lit "b";
    lit "c";
    lit "s";
    lit "z";
    lit "|"] |}.

(** bas.go:10-99 *)
Definition loc_bas : locale := Eval vm_compute in
  {| ld_name := lit "bas"; ld_order := lit "DMY"; ld_nospacing := false; ld_splitter := 0;
    ld_charset := runes (lit "bcdeghijklnorstuwxyzàèêìòôùûńŋɓɔɛ̀̂");
    ld_abbr := [];
    ld_simpl := [];
    ld_trans := [(lit "ŋgwa njaŋgumba", [lit "monday"]);
    (lit "libuy li nyee", [lit "december"]);
    (lit "hiŋgeŋget", [lit "second"]);
    (lit "i bikɛgla", [lit "am"]);
    (lit "i ɓugajɔp", [lit "pm"]);
    (lit "ŋgwa mbɔk", [lit "thursday"]);
    (lit "ŋgwa jon", [lit "saturday"]);
    (lit "ŋgwa kɔɔ", [lit "friday"]);
    (lit "ŋgwa nɔy", [lit "sunday"]);
    (lit "ŋgwa ŋge", [lit "wednesday"]);
    (lit "hilondɛ", [lit "june"]);
    (lit "mayɛsep", [lit "november"]);
    (lit "ŋgwa um", [lit "tuesday"]);
    (lit "kɔndɔŋ", [lit "january"]);
    (lit "matumb", [lit "march"]);
    (lit "bioom", [lit "october"]);
    (lit "dipɔs", [lit "september"]);
    (lit "hikaŋ", [lit "august"]);
    (lit "macɛl", [lit "february"]);
    (lit "matop", [lit "april"]);
    (lit "mpuyɛ", [lit "may"]);
    (lit "njeba", [lit "july"]);
    (lit "sɔndɛ", [lit "week"]);
    (lit "ŋget", [lit "minute"]);
    (lit "ŋgɛŋ", [lit "hour"]);
    (lit "ŋwii", [lit "year"]);
    (lit "bio", [lit "october"]);
    (lit "dip", [lit "september"]);
    (lit "gmt", [lit "gmt"]);
    (lit "hik", [lit "august"]);
    (lit "hil", [lit "june"]);
    (lit "jon", [lit "saturday"]);
    (lit "kɔn", [lit "january"]);
    (lit "kɔɔ", [lit "friday"]);
    (lit "kɛl", [lit "day"]);
    (lit "liɓ", [lit "december"]);
    (lit "mac", [lit "february"]);
    (lit "mat", [lit "march"]);
    (lit "may", [lit "november"]);
    (lit "mbɔ", [lit "thursday"]);
    (lit "mpu", [lit "may"]);
    (lit "mto", [lit "april"]);
    (lit "nja", [lit "monday"]);
    (lit "nje", [lit "july"]);
    (lit "nɔy", [lit "sunday"]);
    (lit "soŋ", [lit "month"]);
    (lit "utc", [lit "utc"]);
    (lit "uum", [lit "tuesday"]);
    (lit "ŋge", [lit "wednesday"]);
    (lit "am", [lit "am"]);
    (lit "pm", [lit "pm"]);
    (lit " ", [lit " "]);
    (lit "'", [lit ""]);
    (lit "+", [lit "+"]);
    (lit ",", [lit ""]);
    (lit "-", [lit "-"]);
    (lit ".", [lit "."]);
    (lit "/", [lit "/"]);
    (lit ":", [lit ":"]);
    (lit ";", [lit ""]);
    (lit "@", [lit ""]);
    (lit "[", [lit ""]);
    (lit "]", [lit ""]);
    (lit "z", [lit "z"]);
    (lit "|", [lit ""])];
    ld_reltype := [(lit "this minute", lit "0 minute ago");
    (lit "last month", lit "1 month ago");
    (lit "next month", lit "in 1 month");
    (lit "this month", lit "0 month ago");
    (lit "last week", lit "1 week ago");
    (lit "last year", lit "1 year ago");
    (lit "next week", lit "in 1 week");
    (lit "next year", lit "in 1 year");
    (lit "this hour", lit "0 hour ago");
    (lit "this week", lit "0 week ago");
    (lit "this year", lit "0 year ago");
    (lit "yaani", lit "1 day ago");
    (lit "yani", lit "in 1 day");
    (lit "lɛn", lit "0 day ago");
    (lit "now", lit "0 second ago")];
    ld_relrx := [];
    ld_rx := None;
    ld_rx_exact := None;
    ld_known := [lit "ŋgwa njaŋgumba";
    lit "libuy li nyee";
    lit "this minute";
    lit "last month";
    lit "next month";
    lit "this month";
    lit "hiŋgeŋget";
    lit "i bikɛgla";
    lit "i ɓugajɔp";
    lit "last week";
    lit "last year";
    lit "next week";
    lit "next year";
    lit "this hour";
    lit "this week";
    lit "this year";
    lit "ŋgwa mbɔk";
    lit "ŋgwa jon";
    lit "ŋgwa kɔɔ";
    lit "ŋgwa nɔy";
    lit "ŋgwa ŋge";
    lit "hilondɛ";
    lit "mayɛsep";
    lit "ŋgwa um";
    lit "kɔndɔŋ";
    lit "matumb";
    lit "bioom";
    lit "dipɔs";
    lit "hikaŋ";
    lit "macɛl";
    lit "matop";
    lit "mpuyɛ";
    lit "njeba";
    lit "sɔndɛ";
    lit "yaani";
    lit "yani";
    lit "ŋget";
    lit "ŋgɛŋ";
    lit "ŋwii";
    lit "bio";
    lit "dip";
    lit "gmt";
    lit "hik";
    lit "hil";
    lit "jon";
    lit "kɔn";
    lit "kɔɔ";
    lit "kɛl";
    lit "liɓ";
    lit "lɛn";
    lit "mac";
    lit "mat";
    lit "may";
    lit "mbɔ";
    lit "mpu";
    lit "mto";
    lit "nja";
    lit "nje";
    lit "now";
    lit "nɔy";
    lit "soŋ";
    lit "utc";
    lit "uum";
    lit "ŋge";
    lit "am";
    lit "pm";
    lit " ";
    lit "'";
    lit "+";
    lit ",";
    lit "-";
    lit ".";
    lit "/";
    lit ":";
    lit ";";
    lit "@";
    lit "[";
    lit "]";
    lit "z";
    lit "|"] |}.

(** be.go:12-219 *)
Definition loc_be : locale := Eval vm_compute in
  {| ld_name := lit "be"; ld_order := lit "DMY"; ld_nospacing := false; ld_splitter := 1;
    ld_charset := runes (lit "cgtuzабвгдежзийклмнопрстухцчыьэюяёіў");
    ld_abbr := [];
    ld_simpl := [(rx "(?i)(\A|[^\pL\pM\d_])^гадзіна(\z|[^\pL\pM\d_])", lit "${1}1 гадзіна${2}");
    (rx "(?i)(\A|[^\pL\pM\d_])гадзіну(\z|[^\pL\pM\d_])", lit "${1}1 гадзіну${2}");
    (rx "(?i)(\A|[^\pL\pM\d_])^хвіліну(\z|[^\pL\pM\d_])", lit "${1}1 хвіліну${2}");
    (rx "(?i)(\A|[^\pL\pM\d_])^секунду(\z|[^\pL\pM\d_])", lit "${1}1 секунду${2}");
    (rx "(?i)(\A|[^\pL\pM\d_])некалькі секунд(\z|[^\pL\pM\d_])", lit "${1}44 секунды${2}");
    (rx "(?i)(\A|[^\pL\pM\d_])некалькі хвілін(\z|[^\pL\pM\d_])", lit "${1}2 хвіліны${2}");
    (rx "(?i)(\A|[^\pL\pM\d_])(\d+[.,]?\d*)\s*гадзін\s(\d+[.,]?\d*)\s*хвілін(\z|[^\pL\pM\d_])", lit "${1}${2}:${3}${4}")];
    ld_trans := [(lit "кастрычніка", [lit "october"]);
    (lit "кастрычнік", [lit "october"]);
    (lit "на працягу", [lit "in"]);
    (lit "панядзелак", [lit "monday"]);
    (lit "таму назад", [lit "ago"]);
    (lit "красавіка", [lit "april"]);
    (lit "лістапада", [lit "november"]);
    (lit "верасень", [lit "september"]);
    (lit "красавік", [lit "april"]);
    (lit "лістапад", [lit "november"]);
    (lit "сакавіка", [lit "march"]);
    (lit "студзень", [lit "january"]);
    (lit "студзеня", [lit "january"]);
    (lit "ауторак", [lit "tuesday"]);
    (lit "верасня", [lit "september"]);
    (lit "гадзіна", [lit "hour"]);
    (lit "гадзіну", [lit "hour"]);
    (lit "гадзіны", [lit "hour"]);
    (lit "жнівень", [lit "august"]);
    (lit "жнівеня", [lit "august"]);
    (lit "месяцау", [lit "month"]);
    (lit "нядзеля", [lit "sunday"]);
    (lit "пятніца", [lit "friday"]);
    (lit "сакавік", [lit "march"]);
    (lit "секунда", [lit "second"]);
    (lit "секунду", [lit "second"]);
    (lit "секунды", [lit "second"]);
    (lit "снежань", [lit "december"]);
    (lit "тыдзень", [lit "week"]);
    (lit "хвіліна", [lit "minute"]);
    (lit "хвіліну", [lit "minute"]);
    (lit "хвіліны", [lit "minute"]);
    (lit "чэрвень", [lit "june"]);
    (lit "чэрвеня", [lit "june"]);
    (lit "гадзін", [lit "hour"]);
    (lit "жніуня", [lit "august"]);
    (lit "лютага", [lit "february"]);
    (lit "ліпень", [lit "july"]);
    (lit "ліпеня", [lit "july"]);
    (lit "месяца", [lit "month"]);
    (lit "месяцы", [lit "month"]);
    (lit "секунд", [lit "second"]);
    (lit "серада", [lit "wednesday"]);
    (lit "снежня", [lit "december"]);
    (lit "субота", [lit "saturday"]);
    (lit "трауня", [lit "may"]);
    (lit "тыдняу", [lit "week"]);
    (lit "хвілін", [lit "minute"]);
    (lit "чацвер", [lit "thursday"]);
    (lit "гадоу", [lit "year"]);
    (lit "дзень", [lit "day"]);
    (lit "месяц", [lit "month"]);
    (lit "назад", [lit "ago"]);
    (lit "тыдня", [lit "week"]);
    (lit "тыдні", [lit "week"]);
    (lit "гадз", [lit "hour"]);
    (lit "гады", [lit "year"]);
    (lit "года", [lit "year"]);
    (lit "дзен", [lit "day"]);
    (lit "каля", [lit ""]);
    (lit "люты", [lit "february"]);
    (lit "таму", [lit "ago"]);
    (lit "хвіл", [lit "minute"]);
    (lit "gmt", [lit "gmt"]);
    (lit "utc", [lit "utc"]);
    (lit "аут", [lit "tuesday"]);
    (lit "вер", [lit "september"]);
    (lit "врс", [lit "september"]);
    (lit "год", [lit "year"]);
    (lit "дні", [lit "day"]);
    (lit "жнв", [lit "august"]);
    (lit "жні", [lit "august"]);
    (lit "кас", [lit "october"]);
    (lit "кра", [lit "april"]);
    (lit "крс", [lit "april"]);
    (lit "кст", [lit "october"]);
    (lit "лют", [lit "february"]);
    (lit "ліп", [lit "july"]);
    (lit "ліс", [lit "november"]);
    (lit "маи", [lit "may"]);
    (lit "мая", [lit "may"]);
    (lit "мес", [lit "month"]);
    (lit "няд", [lit "sunday"]);
    (lit "пнд", [lit "monday"]);
    (lit "пят", [lit "friday"]);
    (lit "сак", [lit "march"]);
    (lit "сек", [lit "second"]);
    (lit "сне", [lit "december"]);
    (lit "снж", [lit "december"]);
    (lit "стд", [lit "january"]);
    (lit "сту", [lit "january"]);
    (lit "суб", [lit "saturday"]);
    (lit "тра", [lit "may"]);
    (lit "тыд", [lit "week"]);
    (lit "чцв", [lit "thursday"]);
    (lit "чэр", [lit "june"]);
    (lit "am", [lit "am"]);
    (lit "pm", [lit "pm"]);
    (lit "ау", [lit "tuesday"]);
    (lit "нд", [lit "sunday"]);
    (lit "пн", [lit "monday"]);
    (lit "пт", [lit "friday"]);
    (lit "сб", [lit "saturday"]);
    (lit "ср", [lit "wednesday"]);
    (lit "хв", [lit "minute"]);
    (lit "чв", [lit "thursday"]);
    (lit "чц", [lit "thursday"]);
    (lit " ", [lit " "]);
    (lit "'", [lit ""]);
    (lit "+", [lit "+"]);
    (lit ",", [lit ""]);
    (lit "-", [lit "-"]);
    (lit ".", [lit "."]);
    (lit "/", [lit "/"]);
    (lit ":", [lit ":"]);
    (lit ";", [lit ""]);
    (lit "@", [lit ""]);
    (lit "[", [lit ""]);
    (lit "]", [lit ""]);
    (lit "z", [lit "z"]);
    (lit "|", [lit ""]);
    (lit "г", [lit "year"]);
    (lit "д", [lit "day"]);
    (lit "с", [lit "second"]);
    (lit "у", [lit ""]);
    (lit "і", [lit ""])];
    ld_reltype := [(lit "на наступным тыдні", lit "in 1 week");
    (lit "у наступным месяцы", lit "in 1 month");
    (lit "у наступным годзе", lit "in 1 year");
    (lit "на мінулым тыдні", lit "1 week ago");
    (lit "у мінулым месяцы", lit "1 month ago");
    (lit "у мінулым годзе", lit "1 year ago");
    (lit "на гэтым тыдні", lit "0 week ago");
    (lit "у гэту гадзіну", lit "0 hour ago");
    (lit "у гэту хвіліну", lit "0 minute ago");
    (lit "у гэтым месяцы", lit "0 month ago");
    (lit "у гэтым годзе", lit "0 year ago");
    (lit "пазаучора", lit "2 day ago");
    (lit "заутра", lit "in 1 day");
    (lit "сення", lit "0 day ago");
    (lit "учора", lit "1 day ago");
    (lit "цяпер", lit "0 second ago")];
    ld_relrx := [(rx "(?i)(\d+[.,]?\d*) гадзіну таму", lit "$1 hour ago");
    (rx "(?i)(\d+[.,]?\d*) гадзіны таму", lit "$1 hour ago");
    (rx "(?i)(\d+[.,]?\d*) секунду таму", lit "$1 second ago");
    (rx "(?i)(\d+[.,]?\d*) секунды таму", lit "$1 second ago");
    (rx "(?i)(\d+[.,]?\d*) тыдзень таму", lit "$1 week ago");
    (rx "(?i)(\d+[.,]?\d*) хвіліну таму", lit "$1 minute ago");
    (rx "(?i)(\d+[.,]?\d*) хвіліны таму", lit "$1 minute ago");
    (rx "(?i)праз (\d+[.,]?\d*) гадзіну", lit "in $1 hour");
    (rx "(?i)праз (\d+[.,]?\d*) гадзіны", lit "in $1 hour");
    (rx "(?i)праз (\d+[.,]?\d*) секунду", lit "in $1 second");
    (rx "(?i)праз (\d+[.,]?\d*) секунды", lit "in $1 second");
    (rx "(?i)праз (\d+[.,]?\d*) тыдзень", lit "in $1 week");
    (rx "(?i)праз (\d+[.,]?\d*) хвіліну", lit "in $1 minute");
    (rx "(?i)праз (\d+[.,]?\d*) хвіліны", lit "in $1 minute");
    (rx "(?i)(\d+[.,]?\d*) месяца таму", lit "$1 month ago");
    (rx "(?i)праз (\d+[.,]?\d*) месяца", lit "in $1 month");
    (rx "(?i)(\d+[.,]?\d*) дзень таму", lit "$1 day ago");
    (rx "(?i)(\d+[.,]?\d*) месяц таму", lit "$1 month ago");
    (rx "(?i)(\d+[.,]?\d*) тыдня таму", lit "$1 week ago");
    (rx "(?i)праз (\d+[.,]?\d*) дзень", lit "in $1 day");
    (rx "(?i)праз (\d+[.,]?\d*) месяц", lit "in $1 month");
    (rx "(?i)праз (\d+[.,]?\d*) тыдня", lit "in $1 week");
    (rx "(?i)(\d+[.,]?\d*) гадз таму", lit "$1 hour ago");
    (rx "(?i)(\d+[.,]?\d*) года таму", lit "$1 year ago");
    (rx "(?i)праз (\d+[.,]?\d*) гадз", lit "in $1 hour");
    (rx "(?i)праз (\d+[.,]?\d*) года", lit "in $1 year");
    (rx "(?i)(\d+[.,]?\d*) год таму", lit "$1 year ago");
    (rx "(?i)(\d+[.,]?\d*) дня таму", lit "$1 day ago");
    (rx "(?i)(\d+[.,]?\d*) мес таму", lit "$1 month ago");
    (rx "(?i)(\d+[.,]?\d*) тыд таму", lit "$1 week ago");
    (rx "(?i)праз (\d+[.,]?\d*) год", lit "in $1 year");
    (rx "(?i)праз (\d+[.,]?\d*) дня", lit "in $1 day");
    (rx "(?i)праз (\d+[.,]?\d*) мес", lit "in $1 month");
    (rx "(?i)праз (\d+[.,]?\d*) тыд", lit "in $1 week");
    (rx "(?i)(\d+[.,]?\d*) хв таму", lit "$1 minute ago");
    (rx "(?i)праз (\d+[.,]?\d*) хв", lit "in $1 minute");
    (rx "(?i)(\d+[.,]?\d*) г таму", lit "$1 year ago");
    (rx "(?i)(\d+[.,]?\d*) д таму", lit "$1 day ago");
    (rx "(?i)(\d+[.,]?\d*) с таму", lit "$1 second ago");
    (rx "(?i)праз (\d+[.,]?\d*) г", lit "in $1 year");
    (rx "(?i)праз (\d+[.,]?\d*) д", lit "in $1 day");
    (rx "(?i)праз (\d+[.,]?\d*) с", lit "in $1 second")];
    ld_rx := Some (rx "(?i)(\A|[^\pL\pM\d]|_)(\d+[.,]?\d* гадзіну таму|\d+[.,]?\d* гадзіны таму|\d+[.,]?\d* секунду таму|\d+[.,]?\d* секунды таму|\d+[.,]?\d* тыдзень таму|\d+[.,]?\d* хвіліну таму|\d+[.,]?\d* хвіліны таму|праз \d+[.,]?\d* гадзіну|праз \d+[.,]?\d* гадзіны|праз \d+[.,]?\d* секунду|праз \d+[.,]?\d* секунды|праз \d+[.,]?\d* тыдзень|праз \d+[.,]?\d* хвіліну|праз \d+[.,]?\d* хвіліны|\d+[.,]?\d* месяца таму|праз \d+[.,]?\d* месяца|\d+[.,]?\d* дзень таму|\d+[.,]?\d* месяц таму|\d+[.,]?\d* тыдня таму|праз \d+[.,]?\d* дзень|праз \d+[.,]?\d* месяц|праз \d+[.,]?\d* тыдня|\d+[.,]?\d* гадз таму|\d+[.,]?\d* года таму|праз \d+[.,]?\d* гадз|праз \d+[.,]?\d* года|\d+[.,]?\d* год таму|\d+[.,]?\d* дня таму|\d+[.,]?\d* мес таму|\d+[.,]?\d* тыд таму|праз \d+[.,]?\d* год|праз \d+[.,]?\d* дня|праз \d+[.,]?\d* мес|праз \d+[.,]?\d* тыд|\d+[.,]?\d* хв таму|праз \d+[.,]?\d* хв|\d+[.,]?\d* г таму|\d+[.,]?\d* д таму|\d+[.,]?\d* с таму|праз \d+[.,]?\d* г|праз \d+[.,]?\d* д|праз \d+[.,]?\d* с)(\z|[^\pL\pM\d]|_)");
    ld_rx_exact := Some (rx "(?i)^(\d+[.,]?\d* гадзіну таму|\d+[.,]?\d* гадзіны таму|\d+[.,]?\d* секунду таму|\d+[.,]?\d* секунды таму|\d+[.,]?\d* тыдзень таму|\d+[.,]?\d* хвіліну таму|\d+[.,]?\d* хвіліны таму|праз \d+[.,]?\d* гадзіну|праз \d+[.,]?\d* гадзіны|праз \d+[.,]?\d* секунду|праз \d+[.,]?\d* секунды|праз \d+[.,]?\d* тыдзень|праз \d+[.,]?\d* хвіліну|праз \d+[.,]?\d* хвіліны|\d+[.,]?\d* месяца таму|праз \d+[.,]?\d* месяца|\d+[.,]?\d* дзень таму|\d+[.,]?\d* месяц таму|\d+[.,]?\d* тыдня таму|праз \d+[.,]?\d* дзень|праз \d+[.,]?\d* месяц|праз \d+[.,]?\d* тыдня|\d+[.,]?\d* гадз таму|\d+[.,]?\d* года таму|праз \d+[.,]?\d* гадз|праз \d+[.,]?\d* года|\d+[.,]?\d* год таму|\d+[.,]?\d* дня таму|\d+[.,]?\d* мес таму|\d+[.,]?\d* тыд таму|праз \d+[.,]?\d* год|праз \d+[.,]?\d* дня|праз \d+[.,]?\d* мес|праз \d+[.,]?\d* тыд|\d+[.,]?\d* хв таму|праз \d+[.,]?\d* хв|\d+[.,]?\d* г таму|\d+[.,]?\d* д таму|\d+[.,]?\d* с таму|праз \d+[.,]?\d* г|праз \d+[.,]?\d* д|праз \d+[.,]?\d* с)$");
    ld_known := [lit "на наступным тыдні";
    lit "у наступным месяцы";
    lit "у наступным годзе";
    lit "на мінулым тыдні";
    lit "у мінулым месяцы";
    lit "у мінулым годзе";
    lit "на гэтым тыдні";
    lit "у гэту гадзіну";
    lit "у гэту хвіліну";
    lit "у гэтым месяцы";
    lit "у гэтым годзе";
    lit "кастрычніка";
    lit "кастрычнік";
    lit "на працягу";
    lit "панядзелак";
    lit "таму назад";
    lit "красавіка";
    lit "лістапада";
    lit "пазаучора";
    lit "верасень";
    lit "красавік";
    lit "лістапад";
    lit "сакавіка";
    lit "студзень";
    lit "студзеня";
    lit "ауторак";
    lit "верасня";
    lit "гадзіна";
    lit "гадзіну";
    lit "гадзіны";
    lit "жнівень";
    lit "жнівеня";
    lit "месяцау";
    lit "нядзеля";
    lit "пятніца";
    lit "сакавік";
    lit "секунда";
    lit "секунду";
    lit "секунды";
    lit "снежань";
    lit "тыдзень";
    lit "хвіліна";
    lit "хвіліну";
    lit "хвіліны";
    lit "чэрвень";
    lit "чэрвеня";
    lit "гадзін";
    lit "жніуня";
    lit "заутра";
    lit "лютага";
    lit "ліпень";
    lit "ліпеня";
    lit "месяца";
    lit "месяцы";
    lit "секунд";
    lit "серада";
    lit "снежня";
    lit "субота";
    lit "трауня";
    lit "тыдняу";
    lit "хвілін";
    lit "чацвер";
    lit "гадоу";
    lit "дзень";
    lit "месяц";
    lit "назад";
    lit "сення";
    lit "тыдня";
    lit "тыдні";
    lit "учора";
    lit "цяпер";
    lit "гадз";
    lit "гады";
    lit "года";
    lit "дзен";
    lit "каля";
    lit "люты";
    lit "таму";
    lit "хвіл";
    lit "gmt";
    lit "utc";
    lit "аут";
    lit "вер";
    lit "врс";
    lit "год";
    lit "дні";
    lit "жнв";
    lit "жні";
    lit "кас";
    lit "кра";
    lit "крс";
    lit "кст";
    lit "лют";
    lit "ліп";
    lit "ліс";
    lit "маи";
    lit "мая";
    lit "мес";
    lit "няд";
    lit "пнд";
    lit "пят";
    lit "сак";
    lit "сек";
    lit "сне";
    lit "снж";
    lit "стд";
    lit "сту";
    lit "суб";
    lit "тра";
    lit "тыд";
    lit "чцв";
    lit "чэр";
    lit "am";
    lit "pm";
    lit "ау";
    lit "нд";
    lit "пн";
    lit "пт";
    lit "сб";
    lit "ср";
    lit "хв";
    lit "чв";
    lit "чц";
    lit " ";
    lit "'";
    lit "+";
    lit ",";
    lit "-";
    lit ".";
    lit "/";
    lit ":";
    lit ";";
    lit "@";
    lit "[";
    lit "]";
    lit "z";
    lit "|";
    lit "г";
    lit "д";
    lit "с";
    lit "у";
    lit "і"] |}.

(** bem.go:10-91 *)
Definition loc_bem : locale := Eval vm_compute in
  {| ld_name := lit "bem"; ld_order := lit "DMY"; ld_nospacing := false; ld_splitter := 0;
    ld_charset := runes (lit "bcdefghijklnorstuvwxyz");
    ld_abbr := [];
    ld_simpl := [];
    ld_trans := [(lit "pachibelushi", [lit "saturday"]);
    (lit "palichibuli", [lit "tuesday"]);
    (lit "palichisano", [lit "friday"]);
    (lit "palichitatu", [lit "wednesday"]);
    (lit "pa mulungu", [lit "sunday"]);
    (lit "palichimo", [lit "monday"]);
    (lit "palichine", [lit "thursday"]);
    (lit "februari", [lit "february"]);
    (lit "septemba", [lit "september"]);
    (lit "ubushiku", [lit "day"]);
    (lit "uluchelo", [lit "am"]);
    (lit "umulungu", [lit "week"]);
    (lit "akasuba", [lit "pm"]);
    (lit "disemba", [lit "december"]);
    (lit "januari", [lit "january"]);
    (lit "novemba", [lit "november"]);
    (lit "sekondi", [lit "second"]);
    (lit "umweshi", [lit "month"]);
    (lit "mineti", [lit "minute"]);
    (lit "ogasti", [lit "august"]);
    (lit "oktoba", [lit "october"]);
    (lit "umwaka", [lit "year"]);
    (lit "epreo", [lit "april"]);
    (lit "julai", [lit "july"]);
    (lit "machi", [lit "march"]);
    (lit "insa", [lit "hour"]);
    (lit "juni", [lit "june"]);
    (lit "dis", [lit "december"]);
    (lit "epr", [lit "april"]);
    (lit "feb", [lit "february"]);
    (lit "gmt", [lit "gmt"]);
    (lit "jan", [lit "january"]);
    (lit "jul", [lit "july"]);
    (lit "jun", [lit "june"]);
    (lit "mac", [lit "march"]);
    (lit "mei", [lit "may"]);
    (lit "nov", [lit "november"]);
    (lit "oga", [lit "august"]);
    (lit "okt", [lit "october"]);
    (lit "sep", [lit "september"]);
    (lit "utc", [lit "utc"]);
    (lit "am", [lit "am"]);
    (lit "pm", [lit "pm"]);
    (lit " ", [lit " "]);
    (lit "'", [lit ""]);
    (lit "+", [lit "+"]);
    (lit ",", [lit ""]);
    (lit "-", [lit "-"]);
    (lit ".", [lit "."]);
    (lit "/", [lit "/"]);
    (lit ":", [lit ":"]);
    (lit ";", [lit ""]);
    (lit "@", [lit ""]);
    (lit "[", [lit ""]);
    (lit "]", [lit ""]);
    (lit "z", [lit "z"]);
    (lit "|", [lit ""])];
    ld_reltype := [(lit "this minute", lit "0 minute ago");
    (lit "last month", lit "1 month ago");
    (lit "next month", lit "in 1 month");
    (lit "this month", lit "0 month ago");
    (lit "last week", lit "1 week ago");
    (lit "last year", lit "1 year ago");
    (lit "next week", lit "in 1 week");
    (lit "next year", lit "in 1 year");
    (lit "this hour", lit "0 hour ago");
    (lit "this week", lit "0 week ago");
    (lit "this year", lit "0 year ago");
    (lit "yesterday", lit "1 day ago");
    (lit "tomorrow", lit "in 1 day");
    (lit "lelo", lit "0 day ago");
    (lit "now", lit "0 second ago")];
    ld_relrx := [];
    ld_rx := None;
    ld_rx_exact := None;
    ld_known := [lit "pachibelushi";
    lit "palichibuli";
    lit "palichisano";
    lit "palichitatu";
    lit "this minute";
    lit "last month";
    lit "next month";
    lit "pa mulungu";
    lit "this month";
    lit "last week";
    lit "last year";
    lit "next week";
    lit "next year";
    lit "palichimo";
    lit "palichine";
    lit "this hour";
    lit "this week";
    lit "this year";
    lit "yesterday";
    lit "februari";
    lit "septemba";
    lit "tomorrow";
    lit "ubushiku";
    lit "uluchelo";
    lit "umulungu";
    lit "akasuba";
    lit "disemba";
    lit "januari";
    lit "novemba";
    lit "sekondi";
    lit "umweshi";
    lit "mineti";
    lit "ogasti";
    lit "oktoba";
    lit "umwaka";
    lit "epreo";
    lit "julai";
    lit "machi";
    lit "insa";
    lit "juni";
    lit "lelo";
    lit "dis";
    lit "epr";
    lit "feb";
    lit "gmt";
    lit "jan";
    lit "jul";
    lit "jun";
    lit "mac";
    lit "mei";
    lit "nov";
    lit "now";
    lit "oga";
    lit "okt";
    lit "sep";
    lit "utc";
    lit "am";
    lit "pm";
    lit " ";
    lit "'";
    lit "+";
    lit ",";
    lit "-";
    lit ".";
    lit "/";
    lit ":";
    lit ";";
    lit "@";
    lit "[";
    lit "]";
    lit "z";
    lit "|"] |}.

(** bez.go:10-98 *)
Definition loc_bez : locale := Eval vm_compute in
  {| ld_name := lit "bez"; ld_order := lit "DMY"; ld_nospacing := false; ld_splitter := 0;
    ld_charset := runes (lit "bcdefghijklnorstuvwxyz");
    ld_abbr := [];
    ld_simpl := [];
    ld_trans := [(lit "pa mwedzi gwa kumi na mbili", [lit "december"]);
    (lit "pa mwedzi gwa kumi na moja", [lit "november"]);
    (lit "pa mwedzi gwa hutala", [lit "january"]);
    (lit "pa mwedzi gwa wudatu", [lit "march"]);
    (lit "pa mwedzi gwa wuhanu", [lit "may"]);
    (lit "pa mwedzi gwa wuvili", [lit "february"]);
    (lit "pa mwedzi gwa wutai", [lit "april"]);
    (lit "pa mwedzi gwa kumi", [lit "october"]);
    (lit "pa mwedzi gwa nane", [lit "august"]);
    (lit "pa mwedzi gwa saba", [lit "july"]);
    (lit "pa mwedzi gwa sita", [lit "june"]);
    (lit "pa mwedzi gwa tisa", [lit "september"]);
    (lit "pa shahulembela", [lit "saturday"]);
    (lit "mlungu gumamfu", [lit "week"]);
    (lit "pa shahuviluha", [lit "monday"]);
    (lit "pa mulungu", [lit "sunday"]);
    (lit "pa hidatu", [lit "wednesday"]);
    (lit "pa hihanu", [lit "friday"]);
    (lit "pa hitayi", [lit "thursday"]);
    (lit "pa hivili", [lit "tuesday"]);
    (lit "pamilau", [lit "am"]);
    (lit "pamunyi", [lit "pm"]);
    (lit "sekunde", [lit "second"]);
    (lit "dakika", [lit "minute"]);
    (lit "mwedzi", [lit "month"]);
    (lit "mwaha", [lit "year"]);
    (lit "sihu", [lit "day"]);
    (lit "dat", [lit "march"]);
    (lit "gmt", [lit "gmt"]);
    (lit "han", [lit "may"]);
    (lit "hid", [lit "wednesday"]);
    (lit "hih", [lit "friday"]);
    (lit "hit", [lit "thursday"]);
    (lit "hiv", [lit "tuesday"]);
    (lit "hut", [lit "january"]);
    (lit "kmb", [lit "december"]);
    (lit "kmj", [lit "november"]);
    (lit "kum", [lit "october"]);
    (lit "lem", [lit "saturday"]);
    (lit "mul", [lit "sunday"]);
    (lit "nan", [lit "august"]);
    (lit "saa", [lit "hour"]);
    (lit "sab", [lit "july"]);
    (lit "sit", [lit "june"]);
    (lit "tai", [lit "april"]);
    (lit "tis", [lit "september"]);
    (lit "utc", [lit "utc"]);
    (lit "vil", [lit "monday"; lit "february"]);
    (lit "am", [lit "am"]);
    (lit "pm", [lit "pm"]);
    (lit " ", [lit " "]);
    (lit "'", [lit ""]);
    (lit "+", [lit "+"]);
    (lit ",", [lit ""]);
    (lit "-", [lit "-"]);
    (lit ".", [lit "."]);
    (lit "/", [lit "/"]);
    (lit ":", [lit ":"]);
    (lit ";", [lit ""]);
    (lit "@", [lit ""]);
    (lit "[", [lit ""]);
    (lit "]", [lit ""]);
    (lit "z", [lit "z"]);
    (lit "|", [lit ""])];
    ld_reltype := [(lit "this minute", lit "0 minute ago");
    (lit "last month", lit "1 month ago");
    (lit "next month", lit "in 1 month");
    (lit "this month", lit "0 month ago");
    (lit "last week", lit "1 week ago");
    (lit "last year", lit "1 year ago");
    (lit "neng'u ni", lit "0 day ago");
    (lit "next week", lit "in 1 week");
    (lit "next year", lit "in 1 year");
    (lit "this hour", lit "0 hour ago");
    (lit "this week", lit "0 week ago");
    (lit "this year", lit "0 year ago");
    (lit "hilawu", lit "in 1 day");
    (lit "igolo", lit "1 day ago");
    (lit "now", lit "0 second ago")];
    ld_relrx := [];
    ld_rx := None;
    ld_rx_exact := None;
    ld_known := [lit "pa mwedzi gwa kumi na mbili";
    lit "pa mwedzi gwa kumi na moja";
    lit "pa mwedzi gwa hutala";
    lit "pa mwedzi gwa wudatu";
    lit "pa mwedzi gwa wuhanu";
    lit "pa mwedzi gwa wuvili";
    lit "pa mwedzi gwa wutai";
    lit "pa mwedzi gwa kumi";
    lit "pa mwedzi gwa nane";
    lit "pa mwedzi gwa saba";
    lit "pa mwedzi gwa sita";
    lit "pa mwedzi gwa tisa";
    lit "pa shahulembela";
    lit "mlungu gumamfu";
    lit "pa shahuviluha";
    lit "this minute";
    lit "last month";
    lit "next month";
    lit "pa mulungu";
    lit "this month";
    lit "last week";
    lit "last year";
    lit "neng'u ni";
    lit "next week";
    lit "next year";
    lit "pa hidatu";
    lit "pa hihanu";
    lit "pa hitayi";
    lit "pa hivili";
    lit "this hour";
    lit "this week";
    lit "this year";
    lit "pamilau";
    lit "pamunyi";
    lit "sekunde";
    lit "dakika";
    lit "hilawu";
    lit "mwedzi";
    lit "igolo";
    lit "mwaha";
    lit "sihu";
    lit "dat";
    lit "gmt";
    lit "han";
    lit "hid";
    lit "hih";
    lit "hit";
    lit "hiv";
    lit "hut";
    lit "kmb";
    lit "kmj";
    lit "kum";
    lit "lem";
    lit "mul";
    lit "nan";
    lit "now";
    lit "saa";
    lit "sab";
    lit "sit";
    lit "tai";
    lit "tis";
    lit "utc";
    lit "vil";
    lit "am";
    lit "pm";
    lit " ";
    lit "'";
    lit "+";
    lit ",";
    lit "-";
    lit ".";
    lit "/";
    lit ":";
    lit ";";
    lit "@";
    lit "[";
    lit "]";
    lit "z";
    lit "|"] |}.

(** bg.go:12-226 *)
Definition loc_bg : locale := Eval vm_compute in
  {| ld_name := lit "bg"; ld_order := lit "DMY 'Г'."; ld_nospacing := false; ld_splitter := 1;
    ld_charset := runes (lit "cgtuzабвгдезийклмнопрстуфхцчщъюя");
    ld_abbr := [];
    ld_simpl := [(rx "(?i)(\A|[^\pL\pM\d_])един(\z|[^\pL\pM\d_])", lit "${1}1${2}");
    (rx "(?i)(\A|[^\pL\pM\d_])два(\z|[^\pL\pM\d_])", lit "${1}2${2}");
    (rx "(?i)(\A|[^\pL\pM\d_])три(\z|[^\pL\pM\d_])", lit "${1}3${2}")];
    ld_trans := [(lit "понеделник", [lit "monday"]);
    (lit "септември", [lit "september"]);
    (lit "четвъртък", [lit "thursday"]);
    (lit "декември", [lit "december"]);
    (lit "октомври", [lit "october"]);
    (lit "февруари", [lit "february"]);
    (lit "вторник", [lit "tuesday"]);
    (lit "ноември", [lit "november"]);
    (lit "седмица", [lit "week"]);
    (lit "седмици", [lit "week"]);
    (lit "секунда", [lit "second"]);
    (lit "секунди", [lit "second"]);
    (lit "август", [lit "august"]);
    (lit "година", [lit "year"]);
    (lit "години", [lit "year"]);
    (lit "месеци", [lit "month"]);
    (lit "минута", [lit "minute"]);
    (lit "минути", [lit "minute"]);
    (lit "неделя", [lit "sunday"]);
    (lit "събота", [lit "saturday"]);
    (lit "януари", [lit "january"]);
    (lit "април", [lit "april"]);
    (lit "върху", [lit ""]);
    (lit "месец", [lit "month"]);
    (lit "около", [lit ""]);
    (lit "петък", [lit "friday"]);
    (lit "подир", [lit "in"]);
    (lit "после", [lit "in"]);
    (lit "преди", [lit "ago"]);
    (lit "септм", [lit "september"]);
    (lit "сряда", [lit "wednesday"]);
    (lit "дена", [lit "day"]);
    (lit "март", [lit "march"]);
    (lit "проб", [lit "am"]);
    (lit "седм", [lit "week"]);
    (lit "септ", [lit "september"]);
    (lit "след", [lit "in"]);
    (lit "слоб", [lit "pm"]);
    (lit "часа", [lit "hour"]);
    (lit "gmt", [lit "gmt"]);
    (lit "utc", [lit "utc"]);
    (lit "авг", [lit "august"]);
    (lit "апр", [lit "april"]);
    (lit "вто", [lit "tuesday"]);
    (lit "год", [lit "year"]);
    (lit "дек", [lit "december"]);
    (lit "ден", [lit "day"]);
    (lit "дни", [lit "day"]);
    (lit "маи", [lit "may"]);
    (lit "мес", [lit "month"]);
    (lit "мин", [lit "minute"]);
    (lit "ное", [lit "november"]);
    (lit "окт", [lit "october"]);
    (lit "под", [lit ""]);
    (lit "пон", [lit "monday"]);
    (lit "сед", [lit "week"]);
    (lit "сек", [lit "second"]);
    (lit "сеп", [lit "september"]);
    (lit "сря", [lit "wednesday"]);
    (lit "фев", [lit "february"]);
    (lit "час", [lit "hour"]);
    (lit "юли", [lit "july"]);
    (lit "юни", [lit "june"]);
    (lit "яну", [lit "january"]);
    (lit "am", [lit "am"]);
    (lit "pm", [lit "pm"]);
    (lit "ап", [lit "april"]);
    (lit "вт", [lit "tuesday"]);
    (lit "до", [lit ""]);
    (lit "на", [lit ""]);
    (lit "нд", [lit "sunday"]);
    (lit "от", [lit ""]);
    (lit "пн", [lit "monday"]);
    (lit "пт", [lit "friday"]);
    (lit "сб", [lit "saturday"]);
    (lit "ср", [lit "wednesday"]);
    (lit "фв", [lit "february"]);
    (lit "чт", [lit "thursday"]);
    (lit "юл", [lit "july"]);
    (lit "юн", [lit "june"]);
    (lit "ян", [lit "january"]);
    (lit " ", [lit " "]);
    (lit "'", [lit ""]);
    (lit "+", [lit "+"]);
    (lit ",", [lit ""]);
    (lit "-", [lit "-"]);
    (lit ".", [lit "."]);
    (lit "/", [lit "/"]);
    (lit ":", [lit ":"]);
    (lit ";", [lit ""]);
    (lit "@", [lit ""]);
    (lit "[", [lit ""]);
    (lit "]", [lit ""]);
    (lit "z", [lit "z"]);
    (lit "|", [lit ""]);
    (lit "г", [lit "year"]);
    (lit "д", [lit "day"]);
    (lit "м", [lit "month"]);
    (lit "с", [lit "week"; lit "second"]);
    (lit "ч", [lit "hour"])];
    ld_reltype := [(lit "предходната седмица", lit "1 week ago");
    (lit "след 1 десетилетие", lit "in 10 year");
    (lit "следващата седмица", lit "in 1 week");
    (lit "преди десетилетие", lit "10 year ago");
    (lit "следващата година", lit "in 1 year");
    (lit "миналата седмица", lit "1 week ago");
    (lit "миналата година", lit "1 year ago");
    (lit "предходен месец", lit "1 month ago");
    (lit "в тази минута", lit "0 minute ago");
    (lit "преди седмица", lit "1 week ago");
    (lit "следващ месец", lit "in 1 month");
    (lit "преди година", lit "1 year ago");
    (lit "тази седмица", lit "0 week ago");
    (lit "тази година", lit "0 year ago");
    (lit "в този час", lit "0 hour ago");
    (lit "следв седм", lit "in 1 week");
    (lit "този месец", lit "0 month ago");
    (lit "вдругиден", lit "in 2 day");
    (lit "преди ден", lit "1 day ago");
    (lit "преди час", lit "1 hour ago");
    (lit "следв мес", lit "in 1 month");
    (lit "тази седм", lit "0 week ago");
    (lit "мин седм", lit "1 week ago");
    (lit "онзи ден", lit "2 day ago");
    (lit "след ден", lit "in 1 day");
    (lit "след час", lit "in 1 hour");
    (lit "този мес", lit "0 month ago");
    (lit "мин мес", lit "1 month ago");
    (lit "сл седм", lit "in 1 week");
    (lit "следв г", lit "in 1 year");
    (lit "вчера", lit "1 day ago");
    (lit "мин г", lit "1 year ago");
    (lit "мин м", lit "1 month ago");
    (lit "снощи", lit "1 day ago");
    (lit "днес", lit "0 day ago");
    (lit "сега", lit "0 second ago");
    (lit "сл г", lit "in 1 year");
    (lit "сл м", lit "in 1 month");
    (lit "утре", lit "in 1 day");
    (lit "т г", lit "0 year ago");
    (lit "т м", lit "0 month ago")];
    ld_relrx := [(rx "(?i)преди (\d+[.,]?\d*) седмица", lit "$1 week ago");
    (rx "(?i)преди (\d+[.,]?\d*) седмици", lit "$1 week ago");
    (rx "(?i)преди (\d+[.,]?\d*) секунда", lit "$1 second ago");
    (rx "(?i)преди (\d+[.,]?\d*) секунди", lit "$1 second ago");
    (rx "(?i)преди (\d+[.,]?\d*) година", lit "$1 year ago");
    (rx "(?i)преди (\d+[.,]?\d*) години", lit "$1 year ago");
    (rx "(?i)преди (\d+[.,]?\d*) месеца", lit "$1 month ago");
    (rx "(?i)преди (\d+[.,]?\d*) минута", lit "$1 minute ago");
    (rx "(?i)преди (\d+[.,]?\d*) минути", lit "$1 minute ago");
    (rx "(?i)след (\d+[.,]?\d*) седмица", lit "in $1 week");
    (rx "(?i)след (\d+[.,]?\d*) седмици", lit "in $1 week");
    (rx "(?i)след (\d+[.,]?\d*) секунда", lit "in $1 second");
    (rx "(?i)след (\d+[.,]?\d*) секунди", lit "in $1 second");
    (rx "(?i)преди (\d+[.,]?\d*) месец", lit "$1 month ago");
    (rx "(?i)след (\d+[.,]?\d*) година", lit "in $1 year");
    (rx "(?i)след (\d+[.,]?\d*) години", lit "in $1 year");
    (rx "(?i)след (\d+[.,]?\d*) месеца", lit "in $1 month");
    (rx "(?i)след (\d+[.,]?\d*) минута", lit "in $1 minute");
    (rx "(?i)след (\d+[.,]?\d*) минути", lit "in $1 minute");
    (rx "(?i)преди (\d+[.,]?\d*) седм", lit "$1 week ago");
    (rx "(?i)преди (\d+[.,]?\d*) часа", lit "$1 hour ago");
    (rx "(?i)след (\d+[.,]?\d*) месец", lit "in $1 month");
    (rx "(?i)преди (\d+[.,]?\d*) ден", lit "$1 day ago");
    (rx "(?i)преди (\d+[.,]?\d*) дни", lit "$1 day ago");
    (rx "(?i)преди (\d+[.,]?\d*) мин", lit "$1 minute ago");
    (rx "(?i)преди (\d+[.,]?\d*) сек", lit "$1 second ago");
    (rx "(?i)преди (\d+[.,]?\d*) час", lit "$1 hour ago");
    (rx "(?i)след (\d+[.,]?\d*) седм", lit "in $1 week");
    (rx "(?i)след (\d+[.,]?\d*) часа", lit "in $1 hour");
    (rx "(?i)след (\d+[.,]?\d*) ден", lit "in $1 day");
    (rx "(?i)след (\d+[.,]?\d*) дни", lit "in $1 day");
    (rx "(?i)след (\d+[.,]?\d*) мин", lit "in $1 minute");
    (rx "(?i)след (\d+[.,]?\d*) сек", lit "in $1 second");
    (rx "(?i)след (\d+[.,]?\d*) час", lit "in $1 hour");
    (rx "(?i)пр (\d+[.,]?\d*) седм", lit "$1 week ago");
    (rx "(?i)преди (\d+[.,]?\d*) г", lit "$1 year ago");
    (rx "(?i)преди (\d+[.,]?\d*) м", lit "$1 month ago");
    (rx "(?i)преди (\d+[.,]?\d*) ч", lit "$1 hour ago");
    (rx "(?i)сл (\d+[.,]?\d*) седм", lit "in $1 week");
    (rx "(?i)пр (\d+[.,]?\d*) мин", lit "$1 minute ago");
    (rx "(?i)пр (\d+[.,]?\d*) сек", lit "$1 second ago");
    (rx "(?i)сл (\d+[.,]?\d*) мин", lit "in $1 minute");
    (rx "(?i)сл (\d+[.,]?\d*) сек", lit "in $1 second");
    (rx "(?i)след (\d+[.,]?\d*) г", lit "in $1 year");
    (rx "(?i)след (\d+[.,]?\d*) м", lit "in $1 month");
    (rx "(?i)след (\d+[.,]?\d*) ч", lit "in $1 hour");
    (rx "(?i)пр (\d+[.,]?\d*) г", lit "$1 year ago");
    (rx "(?i)пр (\d+[.,]?\d*) д", lit "$1 day ago");
    (rx "(?i)пр (\d+[.,]?\d*) м", lit "$1 month ago");
    (rx "(?i)пр (\d+[.,]?\d*) ч", lit "$1 hour ago");
    (rx "(?i)сл (\d+[.,]?\d*) г", lit "in $1 year");
    (rx "(?i)сл (\d+[.,]?\d*) д", lit "in $1 day");
    (rx "(?i)сл (\d+[.,]?\d*) м", lit "in $1 month");
    (rx "(?i)сл (\d+[.,]?\d*) ч", lit "in $1 hour")];
    ld_rx := Some (rx "(?i)(\A|[^\pL\pM\d]|_)(преди \d+[.,]?\d* седмица|преди \d+[.,]?\d* седмици|преди \d+[.,]?\d* секунда|преди \d+[.,]?\d* секунди|преди \d+[.,]?\d* година|преди \d+[.,]?\d* години|преди \d+[.,]?\d* месеца|преди \d+[.,]?\d* минута|преди \d+[.,]?\d* минути|след \d+[.,]?\d* седмица|след \d+[.,]?\d* седмици|след \d+[.,]?\d* секунда|след \d+[.,]?\d* секунди|преди \d+[.,]?\d* месец|след \d+[.,]?\d* година|след \d+[.,]?\d* години|след \d+[.,]?\d* месеца|след \d+[.,]?\d* минута|след \d+[.,]?\d* минути|преди \d+[.,]?\d* седм|преди \d+[.,]?\d* часа|след \d+[.,]?\d* месец|преди \d+[.,]?\d* ден|преди \d+[.,]?\d* дни|преди \d+[.,]?\d* мин|преди \d+[.,]?\d* сек|преди \d+[.,]?\d* час|след \d+[.,]?\d* седм|след \d+[.,]?\d* часа|след \d+[.,]?\d* ден|след \d+[.,]?\d* дни|след \d+[.,]?\d* мин|след \d+[.,]?\d* сек|след \d+[.,]?\d* час|пр \d+[.,]?\d* седм|преди \d+[.,]?\d* г|преди \d+[.,]?\d* м|преди \d+[.,]?\d* ч|сл \d+[.,]?\d* седм|пр \d+[.,]?\d* мин|пр \d+[.,]?\d* сек|сл \d+[.,]?\d* мин|сл \d+[.,]?\d* сек|след \d+[.,]?\d* г|след \d+[.,]?\d* м|след \d+[.,]?\d* ч|пр \d+[.,]?\d* г|пр \d+[.,]?\d* д|пр \d+[.,]?\d* м|пр \d+[.,]?\d* ч|сл \d+[.,]?\d* г|сл \d+[.,]?\d* д|сл \d+[.,]?\d* м|сл \d+[.,]?\d* ч)(\z|[^\pL\pM\d]|_)");
    ld_rx_exact := Some (rx "(?i)^(преди \d+[.,]?\d* седмица|преди \d+[.,]?\d* седмици|преди \d+[.,]?\d* секунда|преди \d+[.,]?\d* секунди|преди \d+[.,]?\d* година|преди \d+[.,]?\d* години|преди \d+[.,]?\d* месеца|преди \d+[.,]?\d* минута|преди \d+[.,]?\d* минути|след \d+[.,]?\d* седмица|след \d+[.,]?\d* седмици|след \d+[.,]?\d* секунда|след \d+[.,]?\d* секунди|преди \d+[.,]?\d* месец|след \d+[.,]?\d* година|след \d+[.,]?\d* години|след \d+[.,]?\d* месеца|след \d+[.,]?\d* минута|след \d+[.,]?\d* минути|преди \d+[.,]?\d* седм|преди \d+[.,]?\d* часа|след \d+[.,]?\d* месец|преди \d+[.,]?\d* ден|преди \d+[.,]?\d* дни|преди \d+[.,]?\d* мин|преди \d+[.,]?\d* сек|преди \d+[.,]?\d* час|след \d+[.,]?\d* седм|след \d+[.,]?\d* часа|след \d+[.,]?\d* ден|след \d+[.,]?\d* дни|след \d+[.,]?\d* мин|след \d+[.,]?\d* сек|след \d+[.,]?\d* час|пр \d+[.,]?\d* седм|преди \d+[.,]?\d* г|преди \d+[.,]?\d* м|преди \d+[.,]?\d* ч|сл \d+[.,]?\d* седм|пр \d+[.,]?\d* мин|пр \d+[.,]?\d* сек|сл \d+[.,]?\d* мин|сл \d+[.,]?\d* сек|след \d+[.,]?\d* г|след \d+[.,]?\d* м|след \d+[.,]?\d* ч|пр \d+[.,]?\d* г|пр \d+[.,]?\d* д|пр \d+[.,]?\d* м|пр \d+[.,]?\d* ч|сл \d+[.,]?\d* г|сл \d+[.,]?\d* д|сл \d+[.,]?\d* м|сл \d+[.,]?\d* ч)$");
    ld_known := [lit "предходната седмица";
    lit "след 1 десетилетие";
    lit "следващата седмица";
    lit "преди десетилетие";
    lit "следващата година";
    lit "миналата седмица";
    lit "миналата година";
    lit "предходен месец";
    lit "в тази минута";
    lit "преди седмица";
    lit "следващ месец";
    lit "преди година";
    lit "тази седмица";
    lit "тази година";
    lit "в този час";
    lit "понеделник";
    lit "следв седм";
    lit "този месец";
    lit "вдругиден";
    lit "преди ден";
    lit "преди час";
    lit "септември";
    lit "следв мес";
    lit "тази седм";
    lit "четвъртък";
    lit "декември";
    lit "мин седм";
    lit "октомври";
    lit "онзи ден";
    lit "след ден";
    lit "след час";
    lit "този мес";
    lit "февруари";
    lit "вторник";
    lit "мин мес";
    lit "ноември";
    lit "седмица";
    lit "седмици";
    lit "секунда";
    lit "секунди";
    lit "сл седм";
    lit "следв г";
    lit "август";
    lit "година";
    lit "години";
    lit "месеци";
    lit "минута";
    lit "минути";
    lit "неделя";
    lit "събота";
    lit "януари";
    lit "април";
    lit "вчера";
    lit "върху";
    lit "месец";
    lit "мин г";
    lit "мин м";
    lit "около";
    lit "петък";
    lit "подир";
    lit "после";
    lit "преди";
    lit "септм";
    lit "снощи";
    lit "сряда";
    lit "дена";
    lit "днес";
    lit "март";
    lit "проб";
    lit "сега";
    lit "седм";
    lit "септ";
    lit "сл г";
    lit "сл м";
    lit "след";
    lit "слоб";
    lit "утре";
    lit "часа";
    lit "gmt";
    lit "utc";
    lit "авг";
    lit "апр";
    lit "вто";
    lit "год";
    lit "дек";
    lit "ден";
    lit "дни";
    lit "маи";
    lit "мес";
    lit "мин";
    lit "ное";
    lit "окт";
    lit "под";
    lit "пон";
    lit "сед";
    lit "сек";
    lit "сеп";
    lit "сря";
    lit "т г";
    lit "т м";
    lit "фев";
    lit "час";
    lit "юли";
    lit "юни";
    lit "яну";
    lit "am";
    lit "pm";
    lit "ап";
    lit "вт";
    lit "до";
    lit "на";
    lit "нд";
    lit "от";
    lit "пн";
    lit "пт";
    lit "сб";
    lit "ср";
    lit "фв";
    lit "чт";
    lit "юл";
    lit "юн";
    lit "ян";
    lit " ";
    lit "'";
    lit "+";
    lit ",";
    lit "-";
    lit ".";
    lit "/";
    lit ":";
    lit ";";
    lit "@";
    lit "[";
    lit "]";
    lit "z";
    lit "|";
    lit "г";
    lit "д";
    lit "м";
    lit "с";
    lit "ч"] |}.

(** bm.go:10-95 *)
Definition loc_bm : locale := Eval vm_compute in
  {| ld_name := lit "bm"; ld_order := lit "DMY"; ld_nospacing := false; ld_splitter := 0;
    ld_charset := runes (lit "bcdefghijklnorstuwxyzɔɛ");
    ld_abbr := [];
    ld_simpl := [];
    ld_trans := [(lit "desanburu", [lit "december"]);
    (lit "nowanburu", [lit "november"]);
    (lit "sɛtanburu", [lit "september"]);
    (lit "ɔkutɔburu", [lit "october"]);
    (lit "feburuye", [lit "february"]);
    (lit "alamisa", [lit "thursday"]);
    (lit "awirili", [lit "april"]);
    (lit "dɔgɔkun", [lit "week"]);
    (lit "sekondi", [lit "second"]);
    (lit "zanwuye", [lit "january"]);
    (lit "marisi", [lit "march"]);
    (lit "miniti", [lit "minute"]);
    (lit "sibiri", [lit "saturday"]);
    (lit "tarata", [lit "tuesday"]);
    (lit "zuluye", [lit "july"]);
    (lit "araba", [lit "wednesday"]);
    (lit "ntɛnɛ", [lit "monday"]);
    (lit "zuwɛn", [lit "june"]);
    (lit "juma", [lit "friday"]);
    (lit "kalo", [lit "month"]);
    (lit "kari", [lit "sunday"]);
    (lit "lɛrɛ", [lit "hour"]);
    (lit "ala", [lit "thursday"]);
    (lit "ara", [lit "wednesday"]);
    (lit "awi", [lit "april"]);
    (lit "des", [lit "december"]);
    (lit "don", [lit "day"]);
    (lit "feb", [lit "february"]);
    (lit "gmt", [lit "gmt"]);
    (lit "jum", [lit "friday"]);
    (lit "kar", [lit "sunday"]);
    (lit "mar", [lit "march"]);
    (lit "now", [lit "november"]);
    (lit "ntɛ", [lit "monday"]);
    (lit "san", [lit "year"]);
    (lit "sib", [lit "saturday"]);
    (lit "sɛt", [lit "september"]);
    (lit "tar", [lit "tuesday"]);
    (lit "utc", [lit "utc"]);
    (lit "uti", [lit "august"]);
    (lit "zan", [lit "january"]);
    (lit "zul", [lit "july"]);
    (lit "zuw", [lit "june"]);
    (lit "ɔku", [lit "october"]);
    (lit "am", [lit "am"]);
    (lit "mɛ", [lit "may"]);
    (lit "pm", [lit "pm"]);
    (lit " ", [lit " "]);
    (lit "'", [lit ""]);
    (lit "+", [lit "+"]);
    (lit ",", [lit ""]);
    (lit "-", [lit "-"]);
    (lit ".", [lit "."]);
    (lit "/", [lit "/"]);
    (lit ":", [lit ":"]);
    (lit ";", [lit ""]);
    (lit "@", [lit ""]);
    (lit "[", [lit ""]);
    (lit "]", [lit ""]);
    (lit "z", [lit "z"]);
    (lit "|", [lit ""])];
    ld_reltype := [(lit "this minute", lit "0 minute ago");
    (lit "last month", lit "1 month ago");
    (lit "next month", lit "in 1 month");
    (lit "this month", lit "0 month ago");
    (lit "last week", lit "1 week ago");
    (lit "last year", lit "1 year ago");
    (lit "next week", lit "in 1 week");
    (lit "next year", lit "in 1 year");
    (lit "this hour", lit "0 hour ago");
    (lit "this week", lit "0 week ago");
    (lit "this year", lit "0 year ago");
    (lit "kunu", lit "1 day ago");
    (lit "sini", lit "in 1 day");
    (lit "now", lit "0 second ago");
    (lit "bi", lit "0 day ago")];
    ld_relrx := [];
    ld_rx := None;
    ld_rx_exact := None;
    ld_known := [lit "this minute";
    lit "last month";
    lit "next month";
    lit "this month";
    lit "desanburu";
    lit "last week";
    lit "last year";
    lit "next week";
    lit "next year";
    lit "nowanburu";
    lit "sɛtanburu";
    lit "this hour";
    lit "this week";
    lit "this year";
    lit "ɔkutɔburu";
    lit "feburuye";
    lit "alamisa";
    lit "awirili";
    lit "dɔgɔkun";
    lit "sekondi";
    lit "zanwuye";
    lit "marisi";
    lit "miniti";
    lit "sibiri";
    lit "tarata";
    lit "zuluye";
    lit "araba";
    lit "ntɛnɛ";
    lit "zuwɛn";
    lit "juma";
    lit "kalo";
    lit "kari";
    lit "kunu";
    lit "lɛrɛ";
    lit "sini";
    lit "ala";
    lit "ara";
    lit "awi";
    lit "des";
    lit "don";
    lit "feb";
    lit "gmt";
    lit "jum";
    lit "kar";
    lit "mar";
    lit "now";
    lit "ntɛ";
    lit "san";
    lit "sib";
    lit "sɛt";
    lit "tar";
    lit "utc";
    lit "uti";
    lit "zan";
    lit "zul";
    lit "zuw";
    lit "ɔku";
    lit "am";
    lit "bi";
    lit "mɛ";
    lit "pm";
    lit " ";
    lit "'";
    lit "+";
    lit ",";
    lit "-";
    lit ".";
    lit "/";
    lit ":";
    lit ";";
    lit "@";
    lit "[";
    lit "]";
    lit "z";
    lit "|"] |}.

(** all patterns above are accepted by the syntax parser *)
Example patterns_ok : forallb (fun s => match parse_regex s with Some _ => true | None => false end)
  [lit "(?i)(\A|[^\pL\pM\d]|_)(\d+[.,]?\d* dəqiqə ərzində|\d+[.,]?\d* saniyə ərzində|\d+[.,]?\d* həftə ərzində|\d+[.,]?\d* saat ərzində|\d+[.,]?\d* dəqiqə oncə|\d+[.,]?\d* gun ərzində|\d+[.,]?\d* saniyə oncə|\d+[.,]?\d* ay ərzində|\d+[.,]?\d* həftə oncə|\d+[.,]?\d* il ərzində|\d+[.,]?\d* saat oncə|\d+[.,]?\d* gun oncə|\d+[.,]?\d* ay oncə|\d+[.,]?\d* il oncə)(\z|[^\pL\pM\d]|_)";
  lit "(?i)(\A|[^\pL\pM\d]|_)(\d+[.,]?\d* sekondes gelede|\d+[.,]?\d* sekonde gelede|\d+[.,]?\d* maande gelede|\d+[.,]?\d* minute gelede|\d+[.,]?\d* minuut gelede|\d+[.,]?\d* maand gelede|oor \d+[.,]?\d* sekondes|\d+[.,]?\d* jaar gelede|\d+[.,]?\d* week gelede|\d+[.,]?\d* weke gelede|oor \d+[.,]?\d* sekonde|\d+[.,]?\d* dae gelede|\d+[.,]?\d* dag gelede|\d+[.,]?\d* min gelede|\d+[.,]?\d* sek gelede|\d+[.,]?\d* uur gelede|oor \d+[.,]?\d* minuut|\d+[.,]?\d* md gelede|\d+[.,]?\d* w gelede|oor \d+[.,]?\d* jaar|oor \d+[.,]?\d* week|oor \d+[.,]?\d* weke|oor \d+[.,]?\d* dae|oor \d+[.,]?\d* dag|oor \d+[.,]?\d* min|oor \d+[.,]?\d* sek|oor \d+[.,]?\d* uur|oor \d+[.,]?\d* md|oor \d+[.,]?\d* w)(\z|[^\pL\pM\d]|_)";
  lit "(?i)(\A|[^\pL\pM\d]|_)(\d+[.,]?\d* гадзіну таму|\d+[.,]?\d* гадзіны таму|\d+[.,]?\d* секунду таму|\d+[.,]?\d* секунды таму|\d+[.,]?\d* тыдзень таму|\d+[.,]?\d* хвіліну таму|\d+[.,]?\d* хвіліны таму|праз \d+[.,]?\d* гадзіну|праз \d+[.,]?\d* гадзіны|праз \d+[.,]?\d* секунду|праз \d+[.,]?\d* секунды|праз \d+[.,]?\d* тыдзень|праз \d+[.,]?\d* хвіліну|праз \d+[.,]?\d* хвіліны|\d+[.,]?\d* месяца таму|праз \d+[.,]?\d* месяца|\d+[.,]?\d* дзень таму|\d+[.,]?\d* месяц таму|\d+[.,]?\d* тыдня таму|праз \d+[.,]?\d* дзень|праз \d+[.,]?\d* месяц|праз \d+[.,]?\d* тыдня|\d+[.,]?\d* гадз таму|\d+[.,]?\d* года таму|праз \d+[.,]?\d* гадз|праз \d+[.,]?\d* года|\d+[.,]?\d* год таму|\d+[.,]?\d* дня таму|\d+[.,]?\d* мес таму|\d+[.,]?\d* тыд таму|праз \d+[.,]?\d* год|праз \d+[.,]?\d* дня|праз \d+[.,]?\d* мес|праз \d+[.,]?\d* тыд|\d+[.,]?\d* хв таму|праз \d+[.,]?\d* хв|\d+[.,]?\d* г таму|\d+[.,]?\d* д таму|\d+[.,]?\d* с таму|праз \d+[.,]?\d* г|праз \d+[.,]?\d* д|праз \d+[.,]?\d* с)(\z|[^\pL\pM\d]|_)";
  lit "(?i)(\A|[^\pL\pM\d]|_)(hai \d+[.,]?\d* segundos|hai \d+[.,]?\d* selmanes|en \d+[.,]?\d* segundos|en \d+[.,]?\d* selmanes|hai \d+[.,]?\d* minutos|hai \d+[.,]?\d* segundu|hai \d+[.,]?\d* selmana|en \d+[.,]?\d* minutos|en \d+[.,]?\d* segundu|en \d+[.,]?\d* selmana|hai \d+[.,]?\d* minutu|en \d+[.,]?\d* minutu|hai \d+[.,]?\d* hores|hai \d+[.,]?\d* meses|en \d+[.,]?\d* hores|en \d+[.,]?\d* meses|hai \d+[.,]?\d* anos|hai \d+[.,]?\d* dies|hai \d+[.,]?\d* hora|hai \d+[.,]?\d* selm|en \d+[.,]?\d* anos|en \d+[.,]?\d* dies|en \d+[.,]?\d* hora|en \d+[.,]?\d* selm|hai \d+[.,]?\d* anu|hai \d+[.,]?\d* dia|hai \d+[.,]?\d* mes|hai \d+[.,]?\d* min|hai \d+[.,]?\d* seg|en \d+[.,]?\d* anu|en \d+[.,]?\d* dia|en \d+[.,]?\d* mes|en \d+[.,]?\d* min|en \d+[.,]?\d* seg|hai \d+[.,]?\d* se|en \d+[.,]?\d* se|hai \d+[.,]?\d* a|hai \d+[.,]?\d* d|hai \d+[.,]?\d* h|hai \d+[.,]?\d* m|hai \d+[.,]?\d* s|en \d+[.,]?\d* a|en \d+[.,]?\d* d|en \d+[.,]?\d* h|en \d+[.,]?\d* m|en \d+[.,]?\d* s)(\z|[^\pL\pM\d]|_)";
  lit "(?i)(\A|[^\pL\pM\d]|_)(преди \d+[.,]?\d* седмица|преди \d+[.,]?\d* седмици|преди \d+[.,]?\d* секунда|преди \d+[.,]?\d* секунди|преди \d+[.,]?\d* година|преди \d+[.,]?\d* години|преди \d+[.,]?\d* месеца|преди \d+[.,]?\d* минута|преди \d+[.,]?\d* минути|след \d+[.,]?\d* седмица|след \d+[.,]?\d* седмици|след \d+[.,]?\d* секунда|след \d+[.,]?\d* секунди|преди \d+[.,]?\d* месец|след \d+[.,]?\d* година|след \d+[.,]?\d* години|след \d+[.,]?\d* месеца|след \d+[.,]?\d* минута|след \d+[.,]?\d* минути|преди \d+[.,]?\d* седм|преди \d+[.,]?\d* часа|след \d+[.,]?\d* месец|преди \d+[.,]?\d* ден|преди \d+[.,]?\d* дни|преди \d+[.,]?\d* мин|преди \d+[.,]?\d* сек|преди \d+[.,]?\d* час|след \d+[.,]?\d* седм|след \d+[.,]?\d* часа|след \d+[.,]?\d* ден|след \d+[.,]?\d* дни|след \d+[.,]?\d* мин|след \d+[.,]?\d* сек|след \d+[.,]?\d* час|пр \d+[.,]?\d* седм|преди \d+[.,]?\d* г|преди \d+[.,]?\d* м|преди \d+[.,]?\d* ч|сл \d+[.,]?\d* седм|пр \d+[.,]?\d* мин|пр \d+[.,]?\d* сек|сл \d+[.,]?\d* мин|сл \d+[.,]?\d* сек|след \d+[.,]?\d* г|след \d+[.,]?\d* м|след \d+[.,]?\d* ч|пр \d+[.,]?\d* г|пр \d+[.,]?\d* д|пр \d+[.,]?\d* м|пр \d+[.,]?\d* ч|сл \d+[.,]?\d* г|сл \d+[.,]?\d* д|сл \d+[.,]?\d* м|сл \d+[.,]?\d* ч)(\z|[^\pL\pM\d]|_)";
  lit "(?i)(\A|[^\pL\pM\d]|_)(خلال \d+[.,]?\d* اسبوع|خلال \d+[.,]?\d* ثانية|خلال \d+[.,]?\d* دقيقة|خلال \d+[.,]?\d* ساعة|قبل \d+[.,]?\d* اسبوع|قبل \d+[.,]?\d* ثانية|قبل \d+[.,]?\d* دقيقة|خلال \d+[.,]?\d* سنة|خلال \d+[.,]?\d* شهر|خلال \d+[.,]?\d* يوم|قبل \d+[.,]?\d* ساعة|قبل \d+[.,]?\d* سنة|قبل \d+[.,]?\d* شهر|قبل \d+[.,]?\d* يوم)(\z|[^\pL\pM\d]|_)";
  lit "(?i)(\A|[^\pL\pM\d]|_)(በ\d+[.,]?\d* ሰከንዶች ውስጥ|በ\d+[.,]?\d* ሳምንታት ውስጥ|በ\d+[.,]?\d* ደቂቃዎች ውስጥ|ከ\d+[.,]?\d* ሰከንዶች በፊት|ከ\d+[.,]?\d* ሳምንታት በፊት|ከ\d+[.,]?\d* ደቂቃዎች በፊት|በ\d+[.,]?\d* ሰከንድ ውስጥ|በ\d+[.,]?\d* ሰዓቶች ውስጥ|በ\d+[.,]?\d* ሳምንት ውስጥ|በ\d+[.,]?\d* ዓመታት ውስጥ|ከ\d+[.,]?\d* ሰከንድ በፊት|ከ\d+[.,]?\d* ሰዓቶች በፊት|ከ\d+[.,]?\d* ሳምንት በፊት|ከ\d+[.,]?\d* ዓመታት በፊት|በ\d+[.,]?\d* ሰዓት ውስጥ|በ\d+[.,]?\d* ቀናት ውስጥ|በ\d+[.,]?\d* ቀኖች ውስጥ|በ\d+[.,]?\d* ወራት ውስጥ|በ\d+[.,]?\d* ደቂቃ ውስጥ|ከ \d+[.,]?\d* ቀን በፊት|ከ\d+[.,]?\d* ሰዓት በፊት|ከ\d+[.,]?\d* ቀናት በፊት|ከ\d+[.,]?\d* ቀኖች በፊት|ከ\d+[.,]?\d* ወራት በፊት|ከ\d+[.,]?\d* ዓመት በፊት|ከ\d+[.,]?\d* ደቂቃ በፊት|በ\d+[.,]?\d* ቀን ውስጥ|በ\d+[.,]?\d* ወር ውስጥ|ከ\d+[.,]?\d* ቀን በፊት|ከ\d+[.,]?\d* ወር በፊት)(\z|[^\pL\pM\d]|_)";
  lit "(?i)(\A|[^\pL\pM\d_])(\d+[.,]?\d*)\s*гадзін\s(\d+[.,]?\d*)\s*хвілін(\z|[^\pL\pM\d_])";
  lit "(?i)(\A|[^\pL\pM\d_])^гадзіна(\z|[^\pL\pM\d_])";
  lit "(?i)(\A|[^\pL\pM\d_])^секунду(\z|[^\pL\pM\d_])";
  lit "(?i)(\A|[^\pL\pM\d_])^хвіліну(\z|[^\pL\pM\d_])";
  lit "(?i)(\A|[^\pL\pM\d_])гадзіну(\z|[^\pL\pM\d_])";
  lit "(?i)(\A|[^\pL\pM\d_])два(\z|[^\pL\pM\d_])";
  lit "(?i)(\A|[^\pL\pM\d_])един(\z|[^\pL\pM\d_])";
  lit "(?i)(\A|[^\pL\pM\d_])некалькі секунд(\z|[^\pL\pM\d_])";
  lit "(?i)(\A|[^\pL\pM\d_])некалькі хвілін(\z|[^\pL\pM\d_])";
  lit "(?i)(\A|[^\pL\pM\d_])три(\z|[^\pL\pM\d_])";
  lit "(?i)(\d+[.,]?\d*) ay oncə";
  lit "(?i)(\d+[.,]?\d*) ay ərzində";
  lit "(?i)(\d+[.,]?\d*) dae gelede";
  lit "(?i)(\d+[.,]?\d*) dag gelede";
  lit "(?i)(\d+[.,]?\d*) dəqiqə oncə";
  lit "(?i)(\d+[.,]?\d*) dəqiqə ərzində";
  lit "(?i)(\d+[.,]?\d*) gun oncə";
  lit "(?i)(\d+[.,]?\d*) gun ərzində";
  lit "(?i)(\d+[.,]?\d*) həftə oncə";
  lit "(?i)(\d+[.,]?\d*) həftə ərzində";
  lit "(?i)(\d+[.,]?\d*) il oncə";
  lit "(?i)(\d+[.,]?\d*) il ərzində";
  lit "(?i)(\d+[.,]?\d*) jaar gelede";
  lit "(?i)(\d+[.,]?\d*) maand gelede";
  lit "(?i)(\d+[.,]?\d*) maande gelede";
  lit "(?i)(\d+[.,]?\d*) md gelede";
  lit "(?i)(\d+[.,]?\d*) min gelede";
  lit "(?i)(\d+[.,]?\d*) minute gelede";
  lit "(?i)(\d+[.,]?\d*) minuut gelede";
  lit "(?i)(\d+[.,]?\d*) saat oncə";
  lit "(?i)(\d+[.,]?\d*) saat ərzində";
  lit "(?i)(\d+[.,]?\d*) saniyə oncə";
  lit "(?i)(\d+[.,]?\d*) saniyə ərzində";
  lit "(?i)(\d+[.,]?\d*) sek gelede";
  lit "(?i)(\d+[.,]?\d*) sekonde gelede";
  lit "(?i)(\d+[.,]?\d*) sekondes gelede";
  lit "(?i)(\d+[.,]?\d*) uur gelede";
  lit "(?i)(\d+[.,]?\d*) w gelede";
  lit "(?i)(\d+[.,]?\d*) week gelede";
  lit "(?i)(\d+[.,]?\d*) weke gelede";
  lit "(?i)(\d+[.,]?\d*) г таму";
  lit "(?i)(\d+[.,]?\d*) гадз таму";
  lit "(?i)(\d+[.,]?\d*) гадзіну таму";
  lit "(?i)(\d+[.,]?\d*) гадзіны таму";
  lit "(?i)(\d+[.,]?\d*) год таму";
  lit "(?i)(\d+[.,]?\d*) года таму";
  lit "(?i)(\d+[.,]?\d*) д таму";
  lit "(?i)(\d+[.,]?\d*) дзень таму";
  lit "(?i)(\d+[.,]?\d*) дня таму";
  lit "(?i)(\d+[.,]?\d*) мес таму";
  lit "(?i)(\d+[.,]?\d*) месяц таму";
  lit "(?i)(\d+[.,]?\d*) месяца таму";
  lit "(?i)(\d+[.,]?\d*) с таму";
  lit "(?i)(\d+[.,]?\d*) секунду таму";
  lit "(?i)(\d+[.,]?\d*) секунды таму";
  lit "(?i)(\d+[.,]?\d*) тыд таму";
  lit "(?i)(\d+[.,]?\d*) тыдзень таму";
  lit "(?i)(\d+[.,]?\d*) тыдня таму";
  lit "(?i)(\d+[.,]?\d*) хв таму";
  lit "(?i)(\d+[.,]?\d*) хвіліну таму";
  lit "(?i)(\d+[.,]?\d*) хвіліны таму";
  lit "(?i)^(\d+[.,]?\d* dəqiqə ərzində|\d+[.,]?\d* saniyə ərzində|\d+[.,]?\d* həftə ərzində|\d+[.,]?\d* saat ərzində|\d+[.,]?\d* dəqiqə oncə|\d+[.,]?\d* gun ərzində|\d+[.,]?\d* saniyə oncə|\d+[.,]?\d* ay ərzində|\d+[.,]?\d* həftə oncə|\d+[.,]?\d* il ərzində|\d+[.,]?\d* saat oncə|\d+[.,]?\d* gun oncə|\d+[.,]?\d* ay oncə|\d+[.,]?\d* il oncə)$";
  lit "(?i)^(\d+[.,]?\d* sekondes gelede|\d+[.,]?\d* sekonde gelede|\d+[.,]?\d* maande gelede|\d+[.,]?\d* minute gelede|\d+[.,]?\d* minuut gelede|\d+[.,]?\d* maand gelede|oor \d+[.,]?\d* sekondes|\d+[.,]?\d* jaar gelede|\d+[.,]?\d* week gelede|\d+[.,]?\d* weke gelede|oor \d+[.,]?\d* sekonde|\d+[.,]?\d* dae gelede|\d+[.,]?\d* dag gelede|\d+[.,]?\d* min gelede|\d+[.,]?\d* sek gelede|\d+[.,]?\d* uur gelede|oor \d+[.,]?\d* minuut|\d+[.,]?\d* md gelede|\d+[.,]?\d* w gelede|oor \d+[.,]?\d* jaar|oor \d+[.,]?\d* week|oor \d+[.,]?\d* weke|oor \d+[.,]?\d* dae|oor \d+[.,]?\d* dag|oor \d+[.,]?\d* min|oor \d+[.,]?\d* sek|oor \d+[.,]?\d* uur|oor \d+[.,]?\d* md|oor \d+[.,]?\d* w)$";
  lit "(?i)^(\d+[.,]?\d* гадзіну таму|\d+[.,]?\d* гадзіны таму|\d+[.,]?\d* секунду таму|\d+[.,]?\d* секунды таму|\d+[.,]?\d* тыдзень таму|\d+[.,]?\d* хвіліну таму|\d+[.,]?\d* хвіліны таму|праз \d+[.,]?\d* гадзіну|праз \d+[.,]?\d* гадзіны|праз \d+[.,]?\d* секунду|праз \d+[.,]?\d* секунды|праз \d+[.,]?\d* тыдзень|праз \d+[.,]?\d* хвіліну|праз \d+[.,]?\d* хвіліны|\d+[.,]?\d* месяца таму|праз \d+[.,]?\d* месяца|\d+[.,]?\d* дзень таму|\d+[.,]?\d* месяц таму|\d+[.,]?\d* тыдня таму|праз \d+[.,]?\d* дзень|праз \d+[.,]?\d* месяц|праз \d+[.,]?\d* тыдня|\d+[.,]?\d* гадз таму|\d+[.,]?\d* года таму|праз \d+[.,]?\d* гадз|праз \d+[.,]?\d* года|\d+[.,]?\d* год таму|\d+[.,]?\d* дня таму|\d+[.,]?\d* мес таму|\d+[.,]?\d* тыд таму|праз \d+[.,]?\d* год|праз \d+[.,]?\d* дня|праз \d+[.,]?\d* мес|праз \d+[.,]?\d* тыд|\d+[.,]?\d* хв таму|праз \d+[.,]?\d* хв|\d+[.,]?\d* г таму|\d+[.,]?\d* д таму|\d+[.,]?\d* с таму|праз \d+[.,]?\d* г|праз \d+[.,]?\d* д|праз \d+[.,]?\d* с)$";
  lit "(?i)^(hai \d+[.,]?\d* segundos|hai \d+[.,]?\d* selmanes|en \d+[.,]?\d* segundos|en \d+[.,]?\d* selmanes|hai \d+[.,]?\d* minutos|hai \d+[.,]?\d* segundu|hai \d+[.,]?\d* selmana|en \d+[.,]?\d* minutos|en \d+[.,]?\d* segundu|en \d+[.,]?\d* selmana|hai \d+[.,]?\d* minutu|en \d+[.,]?\d* minutu|hai \d+[.,]?\d* hores|hai \d+[.,]?\d* meses|en \d+[.,]?\d* hores|en \d+[.,]?\d* meses|hai \d+[.,]?\d* anos|hai \d+[.,]?\d* dies|hai \d+[.,]?\d* hora|hai \d+[.,]?\d* selm|en \d+[.,]?\d* anos|en \d+[.,]?\d* dies|en \d+[.,]?\d* hora|en \d+[.,]?\d* selm|hai \d+[.,]?\d* anu|hai \d+[.,]?\d* dia|hai \d+[.,]?\d* mes|hai \d+[.,]?\d* min|hai \d+[.,]?\d* seg|en \d+[.,]?\d* anu|en \d+[.,]?\d* dia|en \d+[.,]?\d* mes|en \d+[.,]?\d* min|en \d+[.,]?\d* seg|hai \d+[.,]?\d* se|en \d+[.,]?\d* se|hai \d+[.,]?\d* a|hai \d+[.,]?\d* d|hai \d+[.,]?\d* h|hai \d+[.,]?\d* m|hai \d+[.,]?\d* s|en \d+[.,]?\d* a|en \d+[.,]?\d* d|en \d+[.,]?\d* h|en \d+[.,]?\d* m|en \d+[.,]?\d* s)$";
  lit "(?i)^(преди \d+[.,]?\d* седмица|преди \d+[.,]?\d* седмици|преди \d+[.,]?\d* секунда|преди \d+[.,]?\d* секунди|преди \d+[.,]?\d* година|преди \d+[.,]?\d* години|преди \d+[.,]?\d* месеца|преди \d+[.,]?\d* минута|преди \d+[.,]?\d* минути|след \d+[.,]?\d* седмица|след \d+[.,]?\d* седмици|след \d+[.,]?\d* секунда|след \d+[.,]?\d* секунди|преди \d+[.,]?\d* месец|след \d+[.,]?\d* година|след \d+[.,]?\d* години|след \d+[.,]?\d* месеца|след \d+[.,]?\d* минута|след \d+[.,]?\d* минути|преди \d+[.,]?\d* седм|преди \d+[.,]?\d* часа|след \d+[.,]?\d* месец|преди \d+[.,]?\d* ден|преди \d+[.,]?\d* дни|преди \d+[.,]?\d* мин|преди \d+[.,]?\d* сек|преди \d+[.,]?\d* час|след \d+[.,]?\d* седм|след \d+[.,]?\d* часа|след \d+[.,]?\d* ден|след \d+[.,]?\d* дни|след \d+[.,]?\d* мин|след \d+[.,]?\d* сек|след \d+[.,]?\d* час|пр \d+[.,]?\d* седм|преди \d+[.,]?\d* г|преди \d+[.,]?\d* м|преди \d+[.,]?\d* ч|сл \d+[.,]?\d* седм|пр \d+[.,]?\d* мин|пр \d+[.,]?\d* сек|сл \d+[.,]?\d* мин|сл \d+[.,]?\d* сек|след \d+[.,]?\d* г|след \d+[.,]?\d* м|след \d+[.,]?\d* ч|пр \d+[.,]?\d* г|пр \d+[.,]?\d* д|пр \d+[.,]?\d* м|пр \d+[.,]?\d* ч|сл \d+[.,]?\d* г|сл \d+[.,]?\d* д|сл \d+[.,]?\d* м|сл \d+[.,]?\d* ч)$";
  lit "(?i)^(خلال \d+[.,]?\d* اسبوع|خلال \d+[.,]?\d* ثانية|خلال \d+[.,]?\d* دقيقة|خلال \d+[.,]?\d* ساعة|قبل \d+[.,]?\d* اسبوع|قبل \d+[.,]?\d* ثانية|قبل \d+[.,]?\d* دقيقة|خلال \d+[.,]?\d* سنة|خلال \d+[.,]?\d* شهر|خلال \d+[.,]?\d* يوم|قبل \d+[.,]?\d* ساعة|قبل \d+[.,]?\d* سنة|قبل \d+[.,]?\d* شهر|قبل \d+[.,]?\d* يوم)$";
  lit "(?i)^(በ\d+[.,]?\d* ሰከንዶች ውስጥ|በ\d+[.,]?\d* ሳምንታት ውስጥ|በ\d+[.,]?\d* ደቂቃዎች ውስጥ|ከ\d+[.,]?\d* ሰከንዶች በፊት|ከ\d+[.,]?\d* ሳምንታት በፊት|ከ\d+[.,]?\d* ደቂቃዎች በፊት|በ\d+[.,]?\d* ሰከንድ ውስጥ|በ\d+[.,]?\d* ሰዓቶች ውስጥ|በ\d+[.,]?\d* ሳምንት ውስጥ|በ\d+[.,]?\d* ዓመታት ውስጥ|ከ\d+[.,]?\d* ሰከንድ በፊት|ከ\d+[.,]?\d* ሰዓቶች በፊት|ከ\d+[.,]?\d* ሳምንት በፊት|ከ\d+[.,]?\d* ዓመታት በፊት|በ\d+[.,]?\d* ሰዓት ውስጥ|በ\d+[.,]?\d* ቀናት ውስጥ|በ\d+[.,]?\d* ቀኖች ውስጥ|በ\d+[.,]?\d* ወራት ውስጥ|በ\d+[.,]?\d* ደቂቃ ውስጥ|ከ \d+[.,]?\d* ቀን በፊት|ከ\d+[.,]?\d* ሰዓት በፊት|ከ\d+[.,]?\d* ቀናት በፊት|ከ\d+[.,]?\d* ቀኖች በፊት|ከ\d+[.,]?\d* ወራት በፊት|ከ\d+[.,]?\d* ዓመት በፊት|ከ\d+[.,]?\d* ደቂቃ በፊት|በ\d+[.,]?\d* ቀን ውስጥ|በ\d+[.,]?\d* ወር ውስጥ|ከ\d+[.,]?\d* ቀን በፊት|ከ\d+[.,]?\d* ወር በፊት)$";
  lit "(?i)en (\d+[.,]?\d*) a";
  lit "(?i)en (\d+[.,]?\d*) anos";
  lit "(?i)en (\d+[.,]?\d*) anu";
  lit "(?i)en (\d+[.,]?\d*) d";
  lit "(?i)en (\d+[.,]?\d*) dia";
  lit "(?i)en (\d+[.,]?\d*) dies";
  lit "(?i)en (\d+[.,]?\d*) h";
  lit "(?i)en (\d+[.,]?\d*) hora";
  lit "(?i)en (\d+[.,]?\d*) hores";
  lit "(?i)en (\d+[.,]?\d*) m";
  lit "(?i)en (\d+[.,]?\d*) mes";
  lit "(?i)en (\d+[.,]?\d*) meses";
  lit "(?i)en (\d+[.,]?\d*) min";
  lit "(?i)en (\d+[.,]?\d*) minutos";
  lit "(?i)en (\d+[.,]?\d*) minutu";
  lit "(?i)en (\d+[.,]?\d*) s";
  lit "(?i)en (\d+[.,]?\d*) se";
  lit "(?i)en (\d+[.,]?\d*) seg";
  lit "(?i)en (\d+[.,]?\d*) segundos";
  lit "(?i)en (\d+[.,]?\d*) segundu";
  lit "(?i)en (\d+[.,]?\d*) selm";
  lit "(?i)en (\d+[.,]?\d*) selmana";
  lit "(?i)en (\d+[.,]?\d*) selmanes";
  lit "(?i)hai (\d+[.,]?\d*) a";
  lit "(?i)hai (\d+[.,]?\d*) anos";
  lit "(?i)hai (\d+[.,]?\d*) anu";
  lit "(?i)hai (\d+[.,]?\d*) d";
  lit "(?i)hai (\d+[.,]?\d*) dia";
  lit "(?i)hai (\d+[.,]?\d*) dies";
  lit "(?i)hai (\d+[.,]?\d*) h";
  lit "(?i)hai (\d+[.,]?\d*) hora";
  lit "(?i)hai (\d+[.,]?\d*) hores";
  lit "(?i)hai (\d+[.,]?\d*) m";
  lit "(?i)hai (\d+[.,]?\d*) mes";
  lit "(?i)hai (\d+[.,]?\d*) meses";
  lit "(?i)hai (\d+[.,]?\d*) min";
  lit "(?i)hai (\d+[.,]?\d*) minutos";
  lit "(?i)hai (\d+[.,]?\d*) minutu";
  lit "(?i)hai (\d+[.,]?\d*) s";
  lit "(?i)hai (\d+[.,]?\d*) se";
  lit "(?i)hai (\d+[.,]?\d*) seg";
  lit "(?i)hai (\d+[.,]?\d*) segundos";
  lit "(?i)hai (\d+[.,]?\d*) segundu";
  lit "(?i)hai (\d+[.,]?\d*) selm";
  lit "(?i)hai (\d+[.,]?\d*) selmana";
  lit "(?i)hai (\d+[.,]?\d*) selmanes";
  lit "(?i)oor (\d+[.,]?\d*) dae";
  lit "(?i)oor (\d+[.,]?\d*) dag";
  lit "(?i)oor (\d+[.,]?\d*) jaar";
  lit "(?i)oor (\d+[.,]?\d*) md";
  lit "(?i)oor (\d+[.,]?\d*) min";
  lit "(?i)oor (\d+[.,]?\d*) minuut";
  lit "(?i)oor (\d+[.,]?\d*) sek";
  lit "(?i)oor (\d+[.,]?\d*) sekonde";
  lit "(?i)oor (\d+[.,]?\d*) sekondes";
  lit "(?i)oor (\d+[.,]?\d*) uur";
  lit "(?i)oor (\d+[.,]?\d*) w";
  lit "(?i)oor (\d+[.,]?\d*) week";
  lit "(?i)oor (\d+[.,]?\d*) weke";
  lit "(?i)пр (\d+[.,]?\d*) г";
  lit "(?i)пр (\d+[.,]?\d*) д";
  lit "(?i)пр (\d+[.,]?\d*) м";
  lit "(?i)пр (\d+[.,]?\d*) мин";
  lit "(?i)пр (\d+[.,]?\d*) седм";
  lit "(?i)пр (\d+[.,]?\d*) сек";
  lit "(?i)пр (\d+[.,]?\d*) ч";
  lit "(?i)праз (\d+[.,]?\d*) г";
  lit "(?i)праз (\d+[.,]?\d*) гадз";
  lit "(?i)праз (\d+[.,]?\d*) гадзіну";
  lit "(?i)праз (\d+[.,]?\d*) гадзіны";
  lit "(?i)праз (\d+[.,]?\d*) год";
  lit "(?i)праз (\d+[.,]?\d*) года";
  lit "(?i)праз (\d+[.,]?\d*) д";
  lit "(?i)праз (\d+[.,]?\d*) дзень";
  lit "(?i)праз (\d+[.,]?\d*) дня";
  lit "(?i)праз (\d+[.,]?\d*) мес";
  lit "(?i)праз (\d+[.,]?\d*) месяц";
  lit "(?i)праз (\d+[.,]?\d*) месяца";
  lit "(?i)праз (\d+[.,]?\d*) с";
  lit "(?i)праз (\d+[.,]?\d*) секунду";
  lit "(?i)праз (\d+[.,]?\d*) секунды";
  lit "(?i)праз (\d+[.,]?\d*) тыд";
  lit "(?i)праз (\d+[.,]?\d*) тыдзень";
  lit "(?i)праз (\d+[.,]?\d*) тыдня";
  lit "(?i)праз (\d+[.,]?\d*) хв";
  lit "(?i)праз (\d+[.,]?\d*) хвіліну";
  lit "(?i)праз (\d+[.,]?\d*) хвіліны";
  lit "(?i)преди (\d+[.,]?\d*) г";
  lit "(?i)преди (\d+[.,]?\d*) година";
  lit "(?i)преди (\d+[.,]?\d*) години";
  lit "(?i)преди (\d+[.,]?\d*) ден";
  lit "(?i)преди (\d+[.,]?\d*) дни";
  lit "(?i)преди (\d+[.,]?\d*) м";
  lit "(?i)преди (\d+[.,]?\d*) месец";
  lit "(?i)преди (\d+[.,]?\d*) месеца";
  lit "(?i)преди (\d+[.,]?\d*) мин";
  lit "(?i)преди (\d+[.,]?\d*) минута";
  lit "(?i)преди (\d+[.,]?\d*) минути";
  lit "(?i)преди (\d+[.,]?\d*) седм";
  lit "(?i)преди (\d+[.,]?\d*) седмица";
  lit "(?i)преди (\d+[.,]?\d*) седмици";
  lit "(?i)преди (\d+[.,]?\d*) сек";
  lit "(?i)преди (\d+[.,]?\d*) секунда";
  lit "(?i)преди (\d+[.,]?\d*) секунди";
  lit "(?i)преди (\d+[.,]?\d*) ч";
  lit "(?i)преди (\d+[.,]?\d*) час";
  lit "(?i)преди (\d+[.,]?\d*) часа";
  lit "(?i)сл (\d+[.,]?\d*) г";
  lit "(?i)сл (\d+[.,]?\d*) д";
  lit "(?i)сл (\d+[.,]?\d*) м";
  lit "(?i)сл (\d+[.,]?\d*) мин";
  lit "(?i)сл (\d+[.,]?\d*) седм";
  lit "(?i)сл (\d+[.,]?\d*) сек";
  lit "(?i)сл (\d+[.,]?\d*) ч";
  lit "(?i)след (\d+[.,]?\d*) г";
  lit "(?i)след (\d+[.,]?\d*) година";
  lit "(?i)след (\d+[.,]?\d*) години";
  lit "(?i)след (\d+[.,]?\d*) ден";
  lit "(?i)след (\d+[.,]?\d*) дни";
  lit "(?i)след (\d+[.,]?\d*) м";
  lit "(?i)след (\d+[.,]?\d*) месец";
  lit "(?i)след (\d+[.,]?\d*) месеца";
  lit "(?i)след (\d+[.,]?\d*) мин";
  lit "(?i)след (\d+[.,]?\d*) минута";
  lit "(?i)след (\d+[.,]?\d*) минути";
  lit "(?i)след (\d+[.,]?\d*) седм";
  lit "(?i)след (\d+[.,]?\d*) седмица";
  lit "(?i)след (\d+[.,]?\d*) седмици";
  lit "(?i)след (\d+[.,]?\d*) сек";
  lit "(?i)след (\d+[.,]?\d*) секунда";
  lit "(?i)след (\d+[.,]?\d*) секунди";
  lit "(?i)след (\d+[.,]?\d*) ч";
  lit "(?i)след (\d+[.,]?\d*) час";
  lit "(?i)след (\d+[.,]?\d*) часа";
  lit "(?i)خلال (\d+[.,]?\d*) اسبوع";
  lit "(?i)خلال (\d+[.,]?\d*) ثانية";
  lit "(?i)خلال (\d+[.,]?\d*) دقيقة";
  lit "(?i)خلال (\d+[.,]?\d*) ساعة";
  lit "(?i)خلال (\d+[.,]?\d*) سنة";
  lit "(?i)خلال (\d+[.,]?\d*) شهر";
  lit "(?i)خلال (\d+[.,]?\d*) يوم";
  lit "(?i)قبل (\d+[.,]?\d*) اسبوع";
  lit "(?i)قبل (\d+[.,]?\d*) ثانية";
  lit "(?i)قبل (\d+[.,]?\d*) دقيقة";
  lit "(?i)قبل (\d+[.,]?\d*) ساعة";
  lit "(?i)قبل (\d+[.,]?\d*) سنة";
  lit "(?i)قبل (\d+[.,]?\d*) شهر";
  lit "(?i)قبل (\d+[.,]?\d*) يوم";
  lit "(?i)በ(\d+[.,]?\d*) ሰከንድ ውስጥ";
  lit "(?i)በ(\d+[.,]?\d*) ሰከንዶች ውስጥ";
  lit "(?i)በ(\d+[.,]?\d*) ሰዓት ውስጥ";
  lit "(?i)በ(\d+[.,]?\d*) ሰዓቶች ውስጥ";
  lit "(?i)በ(\d+[.,]?\d*) ሳምንታት ውስጥ";
  lit "(?i)በ(\d+[.,]?\d*) ሳምንት ውስጥ";
  lit "(?i)በ(\d+[.,]?\d*) ቀናት ውስጥ";
  lit "(?i)በ(\d+[.,]?\d*) ቀን ውስጥ";
  lit "(?i)በ(\d+[.,]?\d*) ቀኖች ውስጥ";
  lit "(?i)በ(\d+[.,]?\d*) ወራት ውስጥ";
  lit "(?i)በ(\d+[.,]?\d*) ወር ውስጥ";
  lit "(?i)በ(\d+[.,]?\d*) ዓመታት ውስጥ";
  lit "(?i)በ(\d+[.,]?\d*) ደቂቃ ውስጥ";
  lit "(?i)በ(\d+[.,]?\d*) ደቂቃዎች ውስጥ";
  lit "(?i)ከ (\d+[.,]?\d*) ቀን በፊት";
  lit "(?i)ከ(\d+[.,]?\d*) ሰከንድ በፊት";
  lit "(?i)ከ(\d+[.,]?\d*) ሰከንዶች በፊት";
  lit "(?i)ከ(\d+[.,]?\d*) ሰዓት በፊት";
  lit "(?i)ከ(\d+[.,]?\d*) ሰዓቶች በፊት";
  lit "(?i)ከ(\d+[.,]?\d*) ሳምንታት በፊት";
  lit "(?i)ከ(\d+[.,]?\d*) ሳምንት በፊት";
  lit "(?i)ከ(\d+[.,]?\d*) ቀናት በፊት";
  lit "(?i)ከ(\d+[.,]?\d*) ቀን በፊት";
  lit "(?i)ከ(\d+[.,]?\d*) ቀኖች በፊት";
  lit "(?i)ከ(\d+[.,]?\d*) ወራት በፊት";
  lit "(?i)ከ(\d+[.,]?\d*) ወር በፊት";
  lit "(?i)ከ(\d+[.,]?\d*) ዓመታት በፊት";
  lit "(?i)ከ(\d+[.,]?\d*) ዓመት በፊት";
  lit "(?i)ከ(\d+[.,]?\d*) ደቂቃ በፊት";
  lit "(?i)ከ(\d+[.,]?\d*) ደቂቃዎች በፊት"] = true.
Proof. vm_compute. reflexivity. Qed.

Definition table_01 : list (str * locale) :=
  [(lit "af", loc_af);
   (lit "af-NA", loc_af_NA);
   (lit "agq", loc_agq);
   (lit "ak", loc_ak);
   (lit "am", loc_am);
   (lit "ar", loc_ar);
   (lit "ar-AE", loc_ar_AE);
   (lit "ar-BH", loc_ar_BH);
   (lit "ar-DJ", loc_ar_DJ);
   (lit "ar-DZ", loc_ar_DZ);
   (lit "ar-EG", loc_ar_EG);
   (lit "ar-EH", loc_ar_EH);
   (lit "ar-ER", loc_ar_ER);
   (lit "ar-IL", loc_ar_IL);
   (lit "ar-IQ", loc_ar_IQ);
   (lit "ar-JO", loc_ar_JO);
   (lit "ar-KM", loc_ar_KM);
   (lit "ar-KW", loc_ar_KW);
   (lit "ar-LB", loc_ar_LB);
   (lit "ar-LY", loc_ar_LY);
   (lit "ar-MA", loc_ar_MA);
   (lit "ar-MR", loc_ar_MR);
   (lit "ar-OM", loc_ar_OM);
   (lit "ar-PS", loc_ar_PS);
   (lit "ar-QA", loc_ar_QA);
   (lit "ar-SA", loc_ar_SA);
   (lit "ar-SD", loc_ar_SD);
   (lit "ar-SO", loc_ar_SO);
   (lit "ar-SS", loc_ar_SS);
   (lit "ar-SY", loc_ar_SY);
   (lit "ar-TD", loc_ar_TD);
   (lit "ar-TN", loc_ar_TN);
   (lit "ar-YE", loc_ar_YE);
   (lit "as", loc_as);
   (lit "asa", loc_asa);
   (lit "ast", loc_ast);
   (lit "az-Cyrl", loc_az_Cyrl);
   (lit "az-Latn", loc_az_Latn);
   (lit "az", loc_az);
   (lit "bas", loc_bas);
   (lit "be", loc_be);
   (lit "bem", loc_bem);
   (lit "bez", loc_bez);
   (lit "bg", loc_bg);
   (lit "bm", loc_bm)].

(** each region with its language *)
Definition regions_01 : list (str * str) :=
  [(lit "af-NA", lit "af");
   (lit "ar-AE", lit "ar");
   (lit "ar-BH", lit "ar");
   (lit "ar-DJ", lit "ar");
   (lit "ar-DZ", lit "ar");
   (lit "ar-EG", lit "ar");
   (lit "ar-EH", lit "ar");
   (lit "ar-ER", lit "ar");
   (lit "ar-IL", lit "ar");
   (lit "ar-IQ", lit "ar");
   (lit "ar-JO", lit "ar");
   (lit "ar-KM", lit "ar");
   (lit "ar-KW", lit "ar");
   (lit "ar-LB", lit "ar");
   (lit "ar-LY", lit "ar");
   (lit "ar-MA", lit "ar");
   (lit "ar-MR", lit "ar");
   (lit "ar-OM", lit "ar");
   (lit "ar-PS", lit "ar");
   (lit "ar-QA", lit "ar");
   (lit "ar-SA", lit "ar");
   (lit "ar-SD", lit "ar");
   (lit "ar-SO", lit "ar");
   (lit "ar-SS", lit "ar");
   (lit "ar-SY", lit "ar");
   (lit "ar-TD", lit "ar");
   (lit "ar-TN", lit "ar");
   (lit "ar-YE", lit "ar")].
