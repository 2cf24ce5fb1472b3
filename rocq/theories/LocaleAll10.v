(** Generated by tools/gen_all_locales.py from /repo/internal/data. Do not edit. *)
From Verif Require Import GoBase SMap Regex Language LocaleData.

(** ro.go:13-164 *)
Definition loc_ro : locale := Eval vm_compute in
  {| ld_name := lit "ro"; ld_order := lit "DMY"; ld_nospacing := false; ld_splitter := 1;
    ld_charset := runes (lit "bcdefghijlnorstuvzâîăț");
    ld_abbr := [];
    ld_simpl := [];
    ld_trans := [(lit "septembrie", [lit "september"]);
    (lit "decembrie", [lit "december"]);
    (lit "februarie", [lit "february"]);
    (lit "noiembrie", [lit "november"]);
    (lit "octombrie", [lit "october"]);
    (lit "saptamana", [lit "week"]);
    (lit "saptamani", [lit "week"]);
    (lit "duminica", [lit "sunday"]);
    (lit "ianuarie", [lit "january"]);
    (lit "miercuri", [lit "wednesday"]);
    (lit "aprilie", [lit "april"]);
    (lit "in urma", [lit "ago"]);
    (lit "sambata", [lit "saturday"]);
    (lit "secunda", [lit "second"]);
    (lit "secunde", [lit "second"]);
    (lit "august", [lit "august"]);
    (lit "martie", [lit "march"]);
    (lit "minute", [lit "minute"]);
    (lit "vineri", [lit "friday"]);
    (lit "iulie", [lit "july"]);
    (lit "iunie", [lit "june"]);
    (lit "marti", [lit "tuesday"]);
    (lit "minut", [lit "minute"]);
    (lit "noiem", [lit "november"]);
    (lit "febr", [lit "february"]);
    (lit "luna", [lit "month"]);
    (lit "luni", [lit "month"; lit "monday"]);
    (lit "mart", [lit "march"]);
    (lit "sapt", [lit "week"]);
    (lit "sept", [lit "september"]);
    (lit "zile", [lit "day"]);
    (lit "ani", [lit "year"]);
    (lit "apr", [lit "april"]);
    (lit "aug", [lit "august"]);
    (lit "dec", [lit "december"]);
    (lit "dum", [lit "sunday"]);
    (lit "feb", [lit "february"]);
    (lit "gmt", [lit "gmt"]);
    (lit "ian", [lit "january"]);
    (lit "iul", [lit "july"]);
    (lit "iun", [lit "june"]);
    (lit "joi", [lit "thursday"]);
    (lit "lun", [lit "monday"]);
    (lit "mai", [lit "may"]);
    (lit "mar", [lit "march"; lit "tuesday"]);
    (lit "mie", [lit "wednesday"]);
    (lit "min", [lit "minute"]);
    (lit "nov", [lit "november"]);
    (lit "oct", [lit "october"]);
    (lit "ora", [lit "hour"]);
    (lit "ore", [lit "hour"]);
    (lit "sam", [lit "saturday"]);
    (lit "sec", [lit "second"]);
    (lit "sep", [lit "september"]);
    (lit "utc", [lit "utc"]);
    (lit "vin", [lit "friday"]);
    (lit "am", [lit "am"]);
    (lit "an", [lit "year"]);
    (lit "de", [lit ""]);
    (lit "in", [lit "in"]);
    (lit "la", [lit ""]);
    (lit "mi", [lit "wednesday"]);
    (lit "pm", [lit "pm"]);
    (lit "zi", [lit "day"]);
    (lit " ", [lit " "]);
    (lit "'", [lit ""]);
    (lit "+", [lit "+"]);
    (lit ",", [lit ""]);
    (lit "-", [lit "-"]);
    (lit ".", [lit "."]);
    (lit "/", [lit "/"]);
    (lit ":", [lit ":"]);
    (lit ";", [lit ""]);
    (lit "@", [lit ""]);
    (lit "[", [lit ""]);
    (lit "]", [lit ""]);
    (lit "h", [lit "hour"]);
    (lit "m", [lit "minute"]);
    (lit "s", [lit "second"]);
    (lit "z", [lit "z"]);
    (lit "|", [lit ""])];
    ld_reltype := [(lit "saptamana viitoare", lit "in 1 week");
    (lit "saptamana aceasta", lit "0 week ago");
    (lit "saptamana trecuta", lit "1 week ago");
    (lit "minutul acesta", lit "0 minute ago");
    (lit "luna viitoare", lit "in 1 month");
    (lit "luna aceasta", lit "0 month ago");
    (lit "luna trecuta", lit "1 month ago");
    (lit "anul acesta", lit "0 year ago");
    (lit "anul trecut", lit "1 year ago");
    (lit "anul viitor", lit "in 1 year");
    (lit "ora aceasta", lit "0 hour ago");
    (lit "maine", lit "in 1 day");
    (lit "acum", lit "0 second ago");
    (lit "ieri", lit "1 day ago");
    (lit "azi", lit "0 day ago")];
    ld_relrx := [(rx "(?i)peste (\d+[.,]?\d*) de saptamani", lit "in $1 week");
    (rx "(?i)acum (\d+[.,]?\d*) de saptamani", lit "$1 week ago");
    (rx "(?i)peste (\d+[.,]?\d*) de secunde", lit "in $1 second");
    (rx "(?i)acum (\d+[.,]?\d*) de secunde", lit "$1 second ago");
    (rx "(?i)peste (\d+[.,]?\d*) de minute", lit "in $1 minute");
    (rx "(?i)peste (\d+[.,]?\d*) saptamana", lit "in $1 week");
    (rx "(?i)acum (\d+[.,]?\d*) de minute", lit "$1 minute ago");
    (rx "(?i)acum (\d+[.,]?\d*) saptamana", lit "$1 week ago");
    (rx "(?i)peste (\d+[.,]?\d*) de luni", lit "in $1 month");
    (rx "(?i)peste (\d+[.,]?\d*) de zile", lit "in $1 day");
    (rx "(?i)peste (\d+[.,]?\d*) secunda", lit "in $1 second");
    (rx "(?i)acum (\d+[.,]?\d*) de luni", lit "$1 month ago");
    (rx "(?i)acum (\d+[.,]?\d*) de zile", lit "$1 day ago");
    (rx "(?i)acum (\d+[.,]?\d*) secunda", lit "$1 second ago");
    (rx "(?i)peste (\d+[.,]?\d*) de ani", lit "in $1 year");
    (rx "(?i)peste (\d+[.,]?\d*) de ore", lit "in $1 hour");
    (rx "(?i)acum (\d+[.,]?\d*) de ani", lit "$1 year ago");
    (rx "(?i)acum (\d+[.,]?\d*) de ore", lit "$1 hour ago");
    (rx "(?i)peste (\d+[.,]?\d*) minut", lit "in $1 minute");
    (rx "(?i)acum (\d+[.,]?\d*) minut", lit "$1 minute ago");
    (rx "(?i)peste (\d+[.,]?\d*) luna", lit "in $1 month");
    (rx "(?i)peste (\d+[.,]?\d*) luni", lit "in $1 month");
    (rx "(?i)peste (\d+[.,]?\d*) sapt", lit "in $1 week");
    (rx "(?i)peste (\d+[.,]?\d*) zile", lit "in $1 day");
    (rx "(?i)acum (\d+[.,]?\d*) luna", lit "$1 month ago");
    (rx "(?i)acum (\d+[.,]?\d*) luni", lit "$1 month ago");
    (rx "(?i)acum (\d+[.,]?\d*) sapt", lit "$1 week ago");
    (rx "(?i)acum (\d+[.,]?\d*) zile", lit "$1 day ago");
    (rx "(?i)peste (\d+[.,]?\d*) ani", lit "in $1 year");
    (rx "(?i)peste (\d+[.,]?\d*) min", lit "in $1 minute");
    (rx "(?i)peste (\d+[.,]?\d*) ora", lit "in $1 hour");
    (rx "(?i)peste (\d+[.,]?\d*) sec", lit "in $1 second");
    (rx "(?i)acum (\d+[.,]?\d*) min", lit "$1 minute ago");
    (rx "(?i)acum (\d+[.,]?\d*) ora", lit "$1 hour ago");
    (rx "(?i)acum (\d+[.,]?\d*) sec", lit "$1 second ago");
    (rx "(?i)peste (\d+[.,]?\d*) an", lit "in $1 year");
    (rx "(?i)peste (\d+[.,]?\d*) zi", lit "in $1 day");
    (rx "(?i)acum (\d+[.,]?\d*) an", lit "$1 year ago");
    (rx "(?i)acum (\d+[.,]?\d*) zi", lit "$1 day ago");
    (rx "(?i)peste (\d+[.,]?\d*) h", lit "in $1 hour");
    (rx "(?i)acum (\d+[.,]?\d*) h", lit "$1 hour ago")];
    ld_rx := Some (rx "(?i)(\A|[^\pL\pM\d]|_)(peste \d+[.,]?\d* de saptamani|acum \d+[.,]?\d* de saptamani|peste \d+[.,]?\d* de secunde|acum \d+[.,]?\d* de secunde|peste \d+[.,]?\d* de minute|peste \d+[.,]?\d* saptamana|acum \d+[.,]?\d* de minute|acum \d+[.,]?\d* saptamana|peste \d+[.,]?\d* de luni|peste \d+[.,]?\d* de zile|peste \d+[.,]?\d* secunda|acum \d+[.,]?\d* de luni|acum \d+[.,]?\d* de zile|acum \d+[.,]?\d* secunda|peste \d+[.,]?\d* de ani|peste \d+[.,]?\d* de ore|acum \d+[.,]?\d* de ani|acum \d+[.,]?\d* de ore|peste \d+[.,]?\d* minut|acum \d+[.,]?\d* minut|peste \d+[.,]?\d* luna|peste \d+[.,]?\d* luni|peste \d+[.,]?\d* sapt|peste \d+[.,]?\d* zile|acum \d+[.,]?\d* luna|acum \d+[.,]?\d* luni|acum \d+[.,]?\d* sapt|acum \d+[.,]?\d* zile|peste \d+[.,]?\d* ani|peste \d+[.,]?\d* min|peste \d+[.,]?\d* ora|peste \d+[.,]?\d* sec|acum \d+[.,]?\d* min|acum \d+[.,]?\d* ora|acum \d+[.,]?\d* sec|peste \d+[.,]?\d* an|peste \d+[.,]?\d* zi|acum \d+[.,]?\d* an|acum \d+[.,]?\d* zi|peste \d+[.,]?\d* h|acum \d+[.,]?\d* h)(\z|[^\pL\pM\d]|_)");
    ld_rx_exact := Some (rx "(?i)^(peste \d+[.,]?\d* de saptamani|acum \d+[.,]?\d* de saptamani|peste \d+[.,]?\d* de secunde|acum \d+[.,]?\d* de secunde|peste \d+[.,]?\d* de minute|peste \d+[.,]?\d* saptamana|acum \d+[.,]?\d* de minute|acum \d+[.,]?\d* saptamana|peste \d+[.,]?\d* de luni|peste \d+[.,]?\d* de zile|peste \d+[.,]?\d* secunda|acum \d+[.,]?\d* de luni|acum \d+[.,]?\d* de zile|acum \d+[.,]?\d* secunda|peste \d+[.,]?\d* de ani|peste \d+[.,]?\d* de ore|acum \d+[.,]?\d* de ani|acum \d+[.,]?\d* de ore|peste \d+[.,]?\d* minut|acum \d+[.,]?\d* minut|peste \d+[.,]?\d* luna|peste \d+[.,]?\d* luni|peste \d+[.,]?\d* sapt|peste \d+[.,]?\d* zile|acum \d+[.,]?\d* luna|acum \d+[.,]?\d* luni|acum \d+[.,]?\d* sapt|acum \d+[.,]?\d* zile|peste \d+[.,]?\d* ani|peste \d+[.,]?\d* min|peste \d+[.,]?\d* ora|peste \d+[.,]?\d* sec|acum \d+[.,]?\d* min|acum \d+[.,]?\d* ora|acum \d+[.,]?\d* sec|peste \d+[.,]?\d* an|peste \d+[.,]?\d* zi|acum \d+[.,]?\d* an|acum \d+[.,]?\d* zi|peste \d+[.,]?\d* h|acum \d+[.,]?\d* h)$");
    ld_known := [lit "saptamana viitoare";
    lit "saptamana aceasta";
    lit "saptamana trecuta";
    lit "minutul acesta";
    lit "luna viitoare";
    lit "luna aceasta";
    lit "luna trecuta";
    lit "anul acesta";
    lit "anul trecut";
    lit "anul viitor";
    lit "ora aceasta";
    lit "septembrie";
    lit "decembrie";
    lit "februarie";
    lit "noiembrie";
    lit "octombrie";
    lit "saptamana";
    lit "saptamani";
    lit "duminica";
    lit "ianuarie";
    lit "miercuri";
    lit "aprilie";
    lit "in urma";
    lit "sambata";
    lit "secunda";
    lit "secunde";
    lit "august";
    lit "martie";
    lit "minute";
    lit "vineri";
    lit "iulie";
    lit "iunie";
    lit "maine";
    lit "marti";
    lit "minut";
    lit "noiem";
    lit "acum";
    lit "febr";
    lit "ieri";
    lit "luna";
    lit "luni";
    lit "mart";
    lit "sapt";
    lit "sept";
    lit "zile";
    lit "ani";
    lit "apr";
    lit "aug";
    lit "azi";
    lit "dec";
    lit "dum";
    lit "feb";
    lit "gmt";
    lit "ian";
    lit "iul";
    lit "iun";
    lit "joi";
    lit "lun";
    lit "mai";
    lit "mar";
    lit "mie";
    lit "min";
    lit "nov";
    lit "oct";
    lit "ora";
    lit "ore";
    lit "sam";
    lit "sec";
    lit "sep";
    lit "utc";
    lit "vin";
    lit "am";
    lit "an";
    lit "de";
    lit "in";
    lit "la";
    lit "mi";
    lit "pm";
    lit "zi";
    lit " ";
    lit "'";
    lit "+";
    lit ",";
    lit "-";
    lit ".";
    lit "/";
    lit ":";
    lit ";";
    lit "@";
    lit "[";
    lit "]";
    lit "h";
    lit "m";
    lit "s";
    lit "z";
    lit "|"] |}.

(** ro.go:166-169 *)
Definition own_ro_MD : locale := Eval vm_compute in
  {| ld_name := lit "ro-MD"; ld_order := lit "DMY"; ld_nospacing := false; ld_splitter := 0;
    ld_charset := runes (lit "");
    ld_abbr := [];
    ld_simpl := [];
    ld_trans := [];
    ld_reltype := [];
    ld_relrx := [];
    ld_rx := None;
    ld_rx_exact := None;
    ld_known := [] |}.
Definition loc_ro_MD : locale := merge loc_ro own_ro_MD.

(** rof.go:10-99 *)
Definition loc_rof : locale := Eval vm_compute in
  {| ld_name := lit "rof"; ld_order := lit "DMY"; ld_nospacing := false; ld_splitter := 0;
    ld_charset := runes (lit "bcdefghijklnorstuwxyz");
    ld_abbr := [];
    ld_simpl := [];
    ld_trans := [(lit "mweri wa ikumi na mbili", [lit "december"]);
    (lit "mweri wa ikumi na moja", [lit "november"]);
    (lit "mweri wa katatu", [lit "march"]);
    (lit "mweri wa kwanza", [lit "january"]);
    (lit "mweri wa ikumi", [lit "october"]);
    (lit "mweri wa kaana", [lit "april"]);
    (lit "mweri wa kaili", [lit "february"]);
    (lit "mweri wa nane", [lit "august"]);
    (lit "mweri wa saba", [lit "july"]);
    (lit "mweri wa sita", [lit "june"]);
    (lit "mweri wa tanu", [lit "may"]);
    (lit "mweri wa tisa", [lit "september"]);
    (lit "ijumamosi", [lit "saturday"]);
    (lit "ijumapili", [lit "sunday"]);
    (lit "ijumatano", [lit "wednesday"]);
    (lit "ijumatatu", [lit "monday"]);
    (lit "alhamisi", [lit "thursday"]);
    (lit "ijumanne", [lit "tuesday"]);
    (lit "kang'ama", [lit "am"]);
    (lit "kingoto", [lit "pm"]);
    (lit "sekunde", [lit "second"]);
    (lit "dakika", [lit "minute"]);
    (lit "ijumaa", [lit "friday"]);
    (lit "iwiki", [lit "week"]);
    (lit "mfiri", [lit "day"]);
    (lit "muaka", [lit "year"]);
    (lit "mweri", [lit "month"]);
    (lit "ijtn", [lit "wednesday"]);
    (lit "isaa", [lit "hour"]);
    (lit "alh", [lit "thursday"]);
    (lit "gmt", [lit "gmt"]);
    (lit "ijm", [lit "saturday"]);
    (lit "ijn", [lit "tuesday"]);
    (lit "ijp", [lit "sunday"]);
    (lit "ijt", [lit "monday"]);
    (lit "iju", [lit "friday"]);
    (lit "m10", [lit "october"]);
    (lit "m11", [lit "november"]);
    (lit "m12", [lit "december"]);
    (lit "utc", [lit "utc"]);
    (lit "am", [lit "am"]);
    (lit "m1", [lit "january"]);
    (lit "m2", [lit "february"]);
    (lit "m3", [lit "march"]);
    (lit "m4", [lit "april"]);
    (lit "m5", [lit "may"]);
    (lit "m6", [lit "june"]);
    (lit "m7", [lit "july"]);
    (lit "m8", [lit "august"]);
    (lit "m9", [lit "september"]);
    (lit "pm", [lit "pm"]);
    (lit " ", [lit " "]);
    (lit "'", [lit ""]);
    (lit "+", [lit "+"]);
    (lit ",", [lit ""]);
    (lit "-", [lit "-"]);
    (lit ".", [lit "."]);
    (lit "/", [lit "/"]);
    (lit ":", [lit ":"]);
    (lit ";", [lit ""]);
    (lit "@", [lit ""]);
    (lit "[", [lit ""]);
    (lit "]", [lit ""]);
    (lit "z", [lit "z"]);
    (lit "|", [lit ""])];
    ld_reltype := [(lit "this minute", lit "0 minute ago");
    (lit "last month", lit "1 month ago");
    (lit "next month", lit "in 1 month");
    (lit "this month", lit "0 month ago");
    (lit "last week", lit "1 week ago");
    (lit "last year", lit "1 year ago");
    (lit "next week", lit "in 1 week");
    (lit "next year", lit "in 1 year");
    (lit "this hour", lit "0 hour ago");
    (lit "this week", lit "0 week ago");
    (lit "this year", lit "0 year ago");
    (lit "ng'ama", lit "in 1 day");
    (lit "hiyo", lit "1 day ago");
    (lit "linu", lit "0 day ago");
    (lit "now", lit "0 second ago")];
    ld_relrx := [];
    ld_rx := None;
    ld_rx_exact := None;
    ld_known := [lit "mweri wa ikumi na mbili";
    lit "mweri wa ikumi na moja";
    lit "mweri wa katatu";
    lit "mweri wa kwanza";
    lit "mweri wa ikumi";
    lit "mweri wa kaana";
    lit "mweri wa kaili";
    lit "mweri wa nane";
    lit "mweri wa saba";
    lit "mweri wa sita";
    lit "mweri wa tanu";
    lit "mweri wa tisa";
    lit "this minute";
    lit "last month";
    lit "next month";
    lit "this month";
    lit "ijumamosi";
    lit "ijumapili";
    lit "ijumatano";
    lit "ijumatatu";
    lit "last week";
    lit "last year";
    lit "next week";
    lit "next year";
    lit "this hour";
    lit "this week";
    lit "this year";
    lit "alhamisi";
    lit "ijumanne";
    lit "kang'ama";
    lit "kingoto";
    lit "sekunde";
    lit "dakika";
    lit "ijumaa";
    lit "ng'ama";
    lit "iwiki";
    lit "mfiri";
    lit "muaka";
    lit "mweri";
    lit "hiyo";
    lit "ijtn";
    lit "isaa";
    lit "linu";
    lit "alh";
    lit "gmt";
    lit "ijm";
    lit "ijn";
    lit "ijp";
    lit "ijt";
    lit "iju";
    lit "m10";
    lit "m11";
    lit "m12";
    lit "now";
    lit "utc";
    lit "am";
    lit "m1";
    lit "m2";
    lit "m3";
    lit "m4";
    lit "m5";
    lit "m6";
    lit "m7";
    lit "m8";
    lit "m9";
    lit "pm";
    lit " ";
    lit "'";
    lit "+";
    lit ",";
    lit "-";
    lit ".";
    lit "/";
    lit ":";
    lit ";";
    lit "@";
    lit "[";
    lit "]";
    lit "z";
    lit "|"] |}.

(** ru.go:17-263 *)
Definition loc_ru : locale := Eval vm_compute in
  {| ld_name := lit "ru"; ld_order := lit "DMY"; ld_nospacing := false; ld_splitter := 1;
    ld_charset := runes (lit "cgtuzабвгдезийклмнопрстуфцчшщыьэюя");
    ld_abbr := [];
    ld_simpl := [(rx "(?i)(\A|[^\pL\pM\d_])од(?:на|ну|ни|нои|ин)(\z|[^\pL\pM\d_])", lit "${1}1${2}");
    (rx "(?i)(\A|[^\pL\pM\d_])дв(?:а|е|ое|ух)(\z|[^\pL\pM\d_])", lit "${1}2${2}");
    (rx "(?i)(\A|[^\pL\pM\d_])пар[ауы](\z|[^\pL\pM\d_])", lit "${1}2${2}");
    (rx "(?i)(\A|[^\pL\pM\d_])три(\z|[^\pL\pM\d_])", lit "${1}3${2}");
    (rx "(?i)(\A|[^\pL\pM\d_])четыре(\z|[^\pL\pM\d_])", lit "${1}4${2}");
    (rx "(?i)(\A|[^\pL\pM\d_])пять(\z|[^\pL\pM\d_])", lit "${1}5${2}");
    (rx "(?i)(\A|[^\pL\pM\d_])шесть(\z|[^\pL\pM\d_])", lit "${1}6${2}");
    (rx "(?i)(\A|[^\pL\pM\d_])семь(\z|[^\pL\pM\d_])", lit "${1}7${2}");
    (rx "(?i)(\A|[^\pL\pM\d_])восемь(\z|[^\pL\pM\d_])", lit "${1}8${2}");
    (rx "(?i)(\A|[^\pL\pM\d_])девять(\z|[^\pL\pM\d_])", lit "${1}9${2}");
    (rx "(?i)(\A|[^\pL\pM\d_])десять(\z|[^\pL\pM\d_])", lit "${1}10${2}");
    (rx "(?i)(\A|[^\pL\pM\d_])одиннадцать(\z|[^\pL\pM\d_])", lit "${1}11${2}");
    (rx "(?i)(\A|[^\pL\pM\d_])двенадцать(\z|[^\pL\pM\d_])", lit "${1}12${2}");
    (rx "(?i)(\A|[^\pL\pM\d_])пятнадцать(\z|[^\pL\pM\d_])", lit "${1}15${2}");
    (rx "(?i)(\A|[^\pL\pM\d_])двадцать(\z|[^\pL\pM\d_])", lit "${1}20${2}");
    (rx "(?i)(\A|[^\pL\pM\d_])тридцать(\z|[^\pL\pM\d_])", lit "${1}30${2}");
    (rx "(?i)(\A|[^\pL\pM\d_])сорок(\z|[^\pL\pM\d_])", lit "${1}40${2}");
    (rx "(?i)(\A|[^\pL\pM\d_])пятьдесят(\z|[^\pL\pM\d_])", lit "${1}50${2}");
    (rx "(?i)(\A|[^\pL\pM\d_])несколько секунд(\z|[^\pL\pM\d_])", lit "${1}44 секунды${2}");
    (rx "(?i)(\A|[^\pL\pM\d_])полчаса(\z|[^\pL\pM\d_])", lit "${1}30 минут${2}");
    (rx "(?i)(\A|[^\pL\pM\d_])полгода(\z|[^\pL\pM\d_])", lit "${1}6 месяцев${2}");
    (rx "(?i)(\A|[^\pL\pM\d_])полтора часа(\z|[^\pL\pM\d_])", lit "${1}90 минут${2}");
    (rx "(?i)(\A|[^\pL\pM\d_])полтора года(\z|[^\pL\pM\d_])", lit "${1}18 месяцев${2}");
    (rx "(?i)(\A|[^\pL\pM\d_])((?:через|спустя|в течение)\s+)секунд[уы](\z|[^\pL\pM\d_])", lit "${1}${2}1 секунду${3}");
    (rx "(?i)(\A|[^\pL\pM\d_])((?:через|спустя|в течение)\s+)минут[уы](\z|[^\pL\pM\d_])", lit "${1}${2}1 минуту${3}");
    (rx "(?i)(\A|[^\pL\pM\d_])((?:через|спустя|в течение)\s+)часа?(\z|[^\pL\pM\d_])", lit "${1}${2}1 час${3}");
    (rx "(?i)(\A|[^\pL\pM\d_])((?:через|спустя|в течение)\s+)(?:день|дня)(\z|[^\pL\pM\d_])", lit "${1}${2}1 день${3}");
    (rx "(?i)(\A|[^\pL\pM\d_])((?:через|спустя|в течение)\s+)сут(?:ки|ок)(\z|[^\pL\pM\d_])", lit "${1}${2}1 сутки${3}");
    (rx "(?i)(\A|[^\pL\pM\d_])((?:через|спустя|в течение)\s+)недел[юи](\z|[^\pL\pM\d_])", lit "${1}${2}1 неделю${3}");
    (rx "(?i)(\A|[^\pL\pM\d_])((?:через|спустя|в течение)\s+)месяца?(\z|[^\pL\pM\d_])", lit "${1}${2}1 месяц${3}");
    (rx "(?i)(\A|[^\pL\pM\d_])((?:через|спустя|в течение)\s+)года?(\z|[^\pL\pM\d_])", lit "${1}${2}1 год${3}");
    (rx "(?i)(\A|[^\pL\pM\d_])([^\d]\s+|^)секунду(\s+назад)(\z|[^\pL\pM\d_])", lit "${1}${2}1 секунду${3}${4}");
    (rx "(?i)(\A|[^\pL\pM\d_])([^\d]\s+|^)минуту(\s+назад)(\z|[^\pL\pM\d_])", lit "${1}${2}1 минуту${3}${4}");
    (rx "(?i)(\A|[^\pL\pM\d_])([^\d]\s+|^)час(\s+назад)(\z|[^\pL\pM\d_])", lit "${1}${2}1 час${3}${4}");
    (rx "(?i)(\A|[^\pL\pM\d_])([^\d]\s+|^)день(\s+назад)(\z|[^\pL\pM\d_])", lit "${1}${2}1 день${3}${4}");
    (rx "(?i)(\A|[^\pL\pM\d_])([^\d]\s+|^)сутки(\s+назад)(\z|[^\pL\pM\d_])", lit "${1}${2}1 сутки${3}${4}");
    (rx "(?i)(\A|[^\pL\pM\d_])([^\d]\s+|^)неделю(\s+назад)(\z|[^\pL\pM\d_])", lit "${1}${2}1 неделю${3}${4}");
    (rx "(?i)(\A|[^\pL\pM\d_])([^\d]\s+|^)месяц(\s+назад)(\z|[^\pL\pM\d_])", lit "${1}${2}1 месяц${3}${4}");
    (rx "(?i)(\A|[^\pL\pM\d_])([^\d]\s+|^)год(\s+назад)(\z|[^\pL\pM\d_])", lit "${1}${2}1 год${3}${4}");
    (rx "(?i)(\A|[^\pL\pM\d_])(\d{3,}1)\s*год\s*$(\z|[^\pL\pM\d_])", lit "${1}${2}${3}");
    (rx "(?i)(\A|[^\pL\pM\d_])(\d*[02-9])\s*год(?:\z|[^\pL\pM\d_])(\z|[^\pL\pM\d_])", lit "${1}${2}${3}")];
    ld_trans := [(lit "воскресение", [lit "sunday"]);
    (lit "воскресенье", [lit "sunday"]);
    (lit "понедельник", [lit "monday"]);
    (lit "в течение", [lit "in"]);
    (lit "примерно", [lit ""]);
    (lit "сентябрь", [lit "september"]);
    (lit "сентября", [lit "september"]);
    (lit "августа", [lit "august"]);
    (lit "вторник", [lit "tuesday"]);
    (lit "декабрь", [lit "december"]);
    (lit "декабря", [lit "december"]);
    (lit "месяцев", [lit "month"]);
    (lit "октябрь", [lit "october"]);
    (lit "октября", [lit "october"]);
    (lit "пятница", [lit "friday"]);
    (lit "пятницу", [lit "friday"]);
    (lit "секунда", [lit "second"]);
    (lit "секунду", [lit "second"]);
    (lit "секунды", [lit "second"]);
    (lit "суббота", [lit "saturday"]);
    (lit "субботу", [lit "saturday"]);
    (lit "февраль", [lit "february"]);
    (lit "февраля", [lit "february"]);
    (lit "четверг", [lit "thursday"]);
    (lit "август", [lit "august"]);
    (lit "апрель", [lit "april"]);
    (lit "апреля", [lit "april"]);
    (lit "месяца", [lit "month"]);
    (lit "минута", [lit "minute"]);
    (lit "минуту", [lit "minute"]);
    (lit "минуты", [lit "minute"]);
    (lit "недели", [lit "week"]);
    (lit "недель", [lit "week"]);
    (lit "неделю", [lit "week"]);
    (lit "неделя", [lit "week"]);
    (lit "ноябрь", [lit "november"]);
    (lit "ноября", [lit "november"]);
    (lit "секунд", [lit "second"]);
    (lit "спустя", [lit "in"]);
    (lit "январь", [lit "january"]);
    (lit "января", [lit "january"]);
    (lit "марта", [lit "march"]);
    (lit "месяц", [lit "month"]);
    (lit "минут", [lit "minute"]);
    (lit "назад", [lit "ago"]);
    (lit "около", [lit ""]);
    (lit "среда", [lit "wednesday"]);
    (lit "среду", [lit "wednesday"]);
    (lit "сутки", [lit "day"]);
    (lit "суток", [lit "day"]);
    (lit "часов", [lit "hour"]);
    (lit "через", [lit "in"]);
    (lit "года", [lit "year"]);
    (lit "году", [lit "year"]);
    (lit "день", [lit "day"]);
    (lit "днеи", [lit "day"]);
    (lit "июль", [lit "july"]);
    (lit "июля", [lit "july"]);
    (lit "июнь", [lit "june"]);
    (lit "июня", [lit "june"]);
    (lit "март", [lit "march"]);
    (lit "нояб", [lit "november"]);
    (lit "сент", [lit "september"]);
    (lit "февр", [lit "february"]);
    (lit "часа", [lit "hour"]);
    (lit "gmt", [lit "gmt"]);
    (lit "utc", [lit "utc"]);
    (lit "авг", [lit "august"]);
    (lit "апр", [lit "april"]);
    (lit "вск", [lit "sunday"]);
    (lit "втр", [lit "tuesday"]);
    (lit "год", [lit "year"]);
    (lit "дек", [lit "december"]);
    (lit "дня", [lit "day"]);
    (lit "июл", [lit "july"]);
    (lit "июн", [lit "june"]);
    (lit "лет", [lit "year"]);
    (lit "маи", [lit "may"]);
    (lit "мар", [lit "march"]);
    (lit "мая", [lit "may"]);
    (lit "мес", [lit "month"]);
    (lit "мин", [lit "minute"]);
    (lit "нед", [lit "week"]);
    (lit "ноя", [lit "november"]);
    (lit "окт", [lit "october"]);
    (lit "пнд", [lit "monday"]);
    (lit "птн", [lit "friday"]);
    (lit "сбт", [lit "saturday"]);
    (lit "сек", [lit "second"]);
    (lit "сен", [lit "september"]);
    (lit "срд", [lit "wednesday"]);
    (lit "фев", [lit "february"]);
    (lit "час", [lit "hour"]);
    (lit "чтв", [lit "thursday"]);
    (lit "янв", [lit "january"]);
    (lit "am", [lit "am"]);
    (lit "pm", [lit "pm"]);
    (lit "во", [lit ""]);
    (lit "вс", [lit "sunday"]);
    (lit "вт", [lit "tuesday"]);
    (lit "дн", [lit "day"]);
    (lit "дп", [lit "am"]);
    (lit "пн", [lit "monday"]);
    (lit "пп", [lit "pm"]);
    (lit "пт", [lit "friday"]);
    (lit "сб", [lit "saturday"]);
    (lit "ср", [lit "wednesday"]);
    (lit "чт", [lit "thursday"]);
    (lit " ", [lit " "]);
    (lit "'", [lit ""]);
    (lit "+", [lit "+"]);
    (lit ",", [lit ""]);
    (lit "-", [lit "-"]);
    (lit ".", [lit "."]);
    (lit "/", [lit "/"]);
    (lit ":", [lit ":"]);
    (lit ";", [lit ""]);
    (lit "@", [lit ""]);
    (lit "[", [lit ""]);
    (lit "]", [lit ""]);
    (lit "z", [lit "z"]);
    (lit "|", [lit ""]);
    (lit "в", [lit ""]);
    (lit "г", [lit "year"]);
    (lit "и", [lit ""]);
    (lit "с", [lit "second"]);
    (lit "ч", [lit "hour"])];
    ld_reltype := [(lit "на следующеи неделе", lit "in 1 week");
    (lit "в следующем месяце", lit "in 1 month");
    (lit "на прошлои неделе", lit "1 week ago");
    (lit "в прошлом месяце", lit "1 month ago");
    (lit "в следующем году", lit "in 1 year");
    (lit "послепослезавтра", lit "in 3 day");
    (lit "в прошлом году", lit "1 year ago");
    (lit "на этои неделе", lit "0 week ago");
    (lit "в этом месяце", lit "0 month ago");
    (lit "в эту минуту", lit "0 minute ago");
    (lit "в этом году", lit "0 year ago");
    (lit "в этом часе", lit "0 hour ago");
    (lit "послезавтра", lit "in 2 day");
    (lit "позавчера", lit "2 day ago");
    (lit "сегодня", lit "0 day ago");
    (lit "завтра", lit "in 1 day");
    (lit "сеичас", lit "0 second ago");
    (lit "вчера", lit "1 day ago")];
    ld_relrx := [(rx "(?i)(\d+[.,]?\d*) секунду назад", lit "$1 second ago");
    (rx "(?i)(\d+[.,]?\d*) секунды назад", lit "$1 second ago");
    (rx "(?i)через (\d+[.,]?\d*) секунду", lit "in $1 second");
    (rx "(?i)через (\d+[.,]?\d*) секунды", lit "in $1 second");
    (rx "(?i)(\d+[.,]?\d*) месяца назад", lit "$1 month ago");
    (rx "(?i)(\d+[.,]?\d*) минуту назад", lit "$1 minute ago");
    (rx "(?i)(\d+[.,]?\d*) минуты назад", lit "$1 minute ago");
    (rx "(?i)(\d+[.,]?\d*) недели назад", lit "$1 week ago");
    (rx "(?i)(\d+[.,]?\d*) неделю назад", lit "$1 week ago");
    (rx "(?i)через (\d+[.,]?\d*) месяца", lit "in $1 month");
    (rx "(?i)через (\d+[.,]?\d*) минуту", lit "in $1 minute");
    (rx "(?i)через (\d+[.,]?\d*) минуты", lit "in $1 minute");
    (rx "(?i)через (\d+[.,]?\d*) недели", lit "in $1 week");
    (rx "(?i)через (\d+[.,]?\d*) неделю", lit "in $1 week");
    (rx "(?i)(\d+[.,]?\d*) месяц назад", lit "$1 month ago");
    (rx "(?i)через (\d+[.,]?\d*) месяц", lit "in $1 month");
    (rx "(?i)(\d+[.,]?\d*) года назад", lit "$1 year ago");
    (rx "(?i)(\d+[.,]?\d*) день назад", lit "$1 day ago");
    (rx "(?i)(\d+[.,]?\d*) часа назад", lit "$1 hour ago");
    (rx "(?i)через (\d+[.,]?\d*) года", lit "in $1 year");
    (rx "(?i)через (\d+[.,]?\d*) день", lit "in $1 day");
    (rx "(?i)через (\d+[.,]?\d*) часа", lit "in $1 hour");
    (rx "(?i)(\d+[.,]?\d*) год назад", lit "$1 year ago");
    (rx "(?i)(\d+[.,]?\d*) дня назад", lit "$1 day ago");
    (rx "(?i)(\d+[.,]?\d*) мес назад", lit "$1 month ago");
    (rx "(?i)(\d+[.,]?\d*) мин назад", lit "$1 minute ago");
    (rx "(?i)(\d+[.,]?\d*) нед назад", lit "$1 week ago");
    (rx "(?i)(\d+[.,]?\d*) сек назад", lit "$1 second ago");
    (rx "(?i)(\d+[.,]?\d*) час назад", lit "$1 hour ago");
    (rx "(?i)через (\d+[.,]?\d*) год", lit "in $1 year");
    (rx "(?i)через (\d+[.,]?\d*) дня", lit "in $1 day");
    (rx "(?i)через (\d+[.,]?\d*) мес", lit "in $1 month");
    (rx "(?i)через (\d+[.,]?\d*) мин", lit "in $1 minute");
    (rx "(?i)через (\d+[.,]?\d*) нед", lit "in $1 week");
    (rx "(?i)через (\d+[.,]?\d*) сек", lit "in $1 second");
    (rx "(?i)через (\d+[.,]?\d*) час", lit "in $1 hour");
    (rx "(?i)(\d+[.,]?\d*) дн назад", lit "$1 day ago");
    (rx "(?i)через (\d+[.,]?\d*) дн", lit "in $1 day");
    (rx "(?i)(\d+[.,]?\d*) г назад", lit "$1 year ago");
    (rx "(?i)(\d+[.,]?\d*) д назад", lit "$1 day ago");
    (rx "(?i)(\d+[.,]?\d*) ч назад", lit "$1 hour ago");
    (rx "(?i)через (\d+[.,]?\d*) г", lit "in $1 year");
    (rx "(?i)через (\d+[.,]?\d*) д", lit "in $1 day");
    (rx "(?i)через (\d+[.,]?\d*) ч", lit "in $1 hour")];
    ld_rx := Some (rx "(?i)(\A|[^\pL\pM\d]|_)(\d+[.,]?\d* секунду назад|\d+[.,]?\d* секунды назад|через \d+[.,]?\d* секунду|через \d+[.,]?\d* секунды|\d+[.,]?\d* месяца назад|\d+[.,]?\d* минуту назад|\d+[.,]?\d* минуты назад|\d+[.,]?\d* недели назад|\d+[.,]?\d* неделю назад|через \d+[.,]?\d* месяца|через \d+[.,]?\d* минуту|через \d+[.,]?\d* минуты|через \d+[.,]?\d* недели|через \d+[.,]?\d* неделю|\d+[.,]?\d* месяц назад|через \d+[.,]?\d* месяц|\d+[.,]?\d* года назад|\d+[.,]?\d* день назад|\d+[.,]?\d* часа назад|через \d+[.,]?\d* года|через \d+[.,]?\d* день|через \d+[.,]?\d* часа|\d+[.,]?\d* год назад|\d+[.,]?\d* дня назад|\d+[.,]?\d* мес назад|\d+[.,]?\d* мин назад|\d+[.,]?\d* нед назад|\d+[.,]?\d* сек назад|\d+[.,]?\d* час назад|через \d+[.,]?\d* год|через \d+[.,]?\d* дня|через \d+[.,]?\d* мес|через \d+[.,]?\d* мин|через \d+[.,]?\d* нед|через \d+[.,]?\d* сек|через \d+[.,]?\d* час|\d+[.,]?\d* дн назад|через \d+[.,]?\d* дн|\d+[.,]?\d* г назад|\d+[.,]?\d* д назад|\d+[.,]?\d* ч назад|через \d+[.,]?\d* г|через \d+[.,]?\d* д|через \d+[.,]?\d* ч)(\z|[^\pL\pM\d]|_)");
    ld_rx_exact := Some (rx "(?i)^(\d+[.,]?\d* секунду назад|\d+[.,]?\d* секунды назад|через \d+[.,]?\d* секунду|через \d+[.,]?\d* секунды|\d+[.,]?\d* месяца назад|\d+[.,]?\d* минуту назад|\d+[.,]?\d* минуты назад|\d+[.,]?\d* недели назад|\d+[.,]?\d* неделю назад|через \d+[.,]?\d* месяца|через \d+[.,]?\d* минуту|через \d+[.,]?\d* минуты|через \d+[.,]?\d* недели|через \d+[.,]?\d* неделю|\d+[.,]?\d* месяц назад|через \d+[.,]?\d* месяц|\d+[.,]?\d* года назад|\d+[.,]?\d* день назад|\d+[.,]?\d* часа назад|через \d+[.,]?\d* года|через \d+[.,]?\d* день|через \d+[.,]?\d* часа|\d+[.,]?\d* год назад|\d+[.,]?\d* дня назад|\d+[.,]?\d* мес назад|\d+[.,]?\d* мин назад|\d+[.,]?\d* нед назад|\d+[.,]?\d* сек назад|\d+[.,]?\d* час назад|через \d+[.,]?\d* год|через \d+[.,]?\d* дня|через \d+[.,]?\d* мес|через \d+[.,]?\d* мин|через \d+[.,]?\d* нед|через \d+[.,]?\d* сек|через \d+[.,]?\d* час|\d+[.,]?\d* дн назад|через \d+[.,]?\d* дн|\d+[.,]?\d* г назад|\d+[.,]?\d* д назад|\d+[.,]?\d* ч назад|через \d+[.,]?\d* г|через \d+[.,]?\d* д|через \d+[.,]?\d* ч)$");
    ld_known := [lit "на следующеи неделе";
    lit "в следующем месяце";
    lit "на прошлои неделе";
    lit "в прошлом месяце";
    lit "в следующем году";
    lit "послепослезавтра";
    lit "в прошлом году";
    lit "на этои неделе";
    lit "в этом месяце";
    lit "в эту минуту";
    lit "в этом году";
    lit "в этом часе";
    lit "воскресение";
    lit "воскресенье";
    lit "понедельник";
    lit "послезавтра";
    lit "в течение";
    lit "позавчера";
    lit "примерно";
    lit "сентябрь";
    lit "сентября";
    lit "августа";
    lit "вторник";
    lit "декабрь";
    lit "декабря";
    lit "месяцев";
    lit "октябрь";
    lit "октября";
    lit "пятница";
    lit "пятницу";
    lit "сегодня";
    lit "секунда";
    lit "секунду";
    lit "секунды";
    lit "суббота";
    lit "субботу";
    lit "февраль";
    lit "февраля";
    lit "четверг";
    lit "август";
    lit "апрель";
    lit "апреля";
    lit "завтра";
    lit "месяца";
    lit "минута";
    lit "минуту";
    lit "минуты";
    lit "недели";
    lit "недель";
    lit "неделю";
    lit "неделя";
    lit "ноябрь";
    lit "ноября";
    lit "сеичас";
    lit "секунд";
    lit "спустя";
    lit "январь";
    lit "января";
    lit "вчера";
    lit "марта";
    lit "месяц";
    lit "минут";
    lit "назад";
    lit "около";
    lit "среда";
    lit "среду";
    lit "сутки";
    lit "суток";
    lit "часов";
    lit "через";
    lit "года";
    lit "году";
    lit "день";
    lit "днеи";
    lit "июль";
    lit "июля";
    lit "июнь";
    lit "июня";
    lit "март";
    lit "нояб";
    lit "сент";
    lit "февр";
    lit "часа";
    lit "gmt";
    lit "utc";
    lit "авг";
    lit "апр";
    lit "вск";
    lit "втр";
    lit "год";
    lit "дек";
    lit "дня";
    lit "июл";
    lit "июн";
    lit "лет";
    lit "маи";
    lit "мар";
    lit "мая";
    lit "мес";
    lit "мин";
    lit "нед";
    lit "ноя";
    lit "окт";
    lit "пнд";
    lit "птн";
    lit "сбт";
    lit "сек";
    lit "сен";
    lit "срд";
    lit "фев";
    lit "час";
    lit "чтв";
    lit "янв";
    lit "am";
    lit "pm";
    lit "во";
    lit "вс";
    lit "вт";
    lit "дн";
    lit "дп";
    lit "пн";
    lit "пп";
    lit "пт";
    lit "сб";
    lit "ср";
    lit "чт";
    lit " ";
    lit "'";
    lit "+";
    lit ",";
    lit "-";
    lit ".";
    lit "/";
    lit ":";
    lit ";";
    lit "@";
    lit "[";
    lit "]";
    lit "z";
    lit "|";
    lit "в";
    lit "г";
    lit "и";
    lit "с";
    lit "ч"] |}.

(** ru.go:265-268 *)
Definition own_ru_BY : locale := Eval vm_compute in
  {| ld_name := lit "ru-BY"; ld_order := lit "DMY"; ld_nospacing := false; ld_splitter := 0;
    ld_charset := runes (lit "");
    ld_abbr := [];
    ld_simpl := [];
    ld_trans := [];
    ld_reltype := [];
    ld_relrx := [];
    ld_rx := None;
    ld_rx_exact := None;
    ld_known := [] |}.
Definition loc_ru_BY : locale := merge loc_ru own_ru_BY.

(** ru.go:270-273 *)
Definition own_ru_KG : locale := Eval vm_compute in
  {| ld_name := lit "ru-KG"; ld_order := lit "DMY"; ld_nospacing := false; ld_splitter := 0;
    ld_charset := runes (lit "");
    ld_abbr := [];
    ld_simpl := [];
    ld_trans := [];
    ld_reltype := [];
    ld_relrx := [];
    ld_rx := None;
    ld_rx_exact := None;
    ld_known := [] |}.
Definition loc_ru_KG : locale := merge loc_ru own_ru_KG.

(** ru.go:275-278 *)
Definition own_ru_KZ : locale := Eval vm_compute in
  {| ld_name := lit "ru-KZ"; ld_order := lit "DMY"; ld_nospacing := false; ld_splitter := 0;
    ld_charset := runes (lit "");
    ld_abbr := [];
    ld_simpl := [];
    ld_trans := [];
    ld_reltype := [];
    ld_relrx := [];
    ld_rx := None;
    ld_rx_exact := None;
    ld_known := [] |}.
Definition loc_ru_KZ : locale := merge loc_ru own_ru_KZ.

(** ru.go:280-283 *)
Definition own_ru_MD : locale := Eval vm_compute in
  {| ld_name := lit "ru-MD"; ld_order := lit "DMY"; ld_nospacing := false; ld_splitter := 0;
    ld_charset := runes (lit "");
    ld_abbr := [];
    ld_simpl := [];
    ld_trans := [];
    ld_reltype := [];
    ld_relrx := [];
    ld_rx := None;
    ld_rx_exact := None;
    ld_known := [] |}.
Definition loc_ru_MD : locale := merge loc_ru own_ru_MD.

(** ru.go:285-288 *)
Definition own_ru_UA : locale := Eval vm_compute in
  {| ld_name := lit "ru-UA"; ld_order := lit "DMY"; ld_nospacing := false; ld_splitter := 0;
    ld_charset := runes (lit "");
    ld_abbr := [];
    ld_simpl := [];
    ld_trans := [];
    ld_reltype := [];
    ld_relrx := [];
    ld_rx := None;
    ld_rx_exact := None;
    ld_known := [] |}.
Definition loc_ru_UA : locale := merge loc_ru own_ru_UA.

(** rw.go:10-96 *)
Definition loc_rw : locale := Eval vm_compute in
  {| ld_name := lit "rw"; ld_order := lit "YMD"; ld_nospacing := false; ld_splitter := 0;
    ld_charset := runes (lit "bcdeghiklnorstuwxyz");
    ld_abbr := [];
    ld_simpl := [];
    ld_trans := [(lit "kuwa gatandatu", [lit "saturday"]);
    (lit "gashyantare", [lit "february"]);
    (lit "ku cyumweru", [lit "sunday"]);
    (lit "kuwa gatanu", [lit "friday"]);
    (lit "kuwa gatatu", [lit "wednesday"]);
    (lit "kuwa kabiri", [lit "tuesday"]);
    (lit "kuwa mbere", [lit "monday"]);
    (lit "ugushyingo", [lit "november"]);
    (lit "gicuransi", [lit "may"]);
    (lit "kuwa kane", [lit "thursday"]);
    (lit "mutarama", [lit "january"]);
    (lit "nyakanga", [lit "july"]);
    (lit "ukwakira", [lit "october"]);
    (lit "ukuboza", [lit "december"]);
    (lit "werurwe", [lit "march"]);
    (lit "kamena", [lit "june"]);
    (lit "kanama", [lit "august"]);
    (lit "minute", [lit "minute"]);
    (lit "second", [lit "second"]);
    (lit "month", [lit "month"]);
    (lit "nzeli", [lit "september"]);
    (lit "hour", [lit "hour"]);
    (lit "mata", [lit "april"]);
    (lit "week", [lit "week"]);
    (lit "year", [lit "year"]);
    (lit "cyu", [lit "sunday"]);
    (lit "day", [lit "day"]);
    (lit "gas", [lit "february"]);
    (lit "gic", [lit "may"]);
    (lit "gmt", [lit "gmt"]);
    (lit "gnd", [lit "saturday"]);
    (lit "gnu", [lit "friday"]);
    (lit "gtu", [lit "wednesday"]);
    (lit "kab", [lit "tuesday"]);
    (lit "kam", [lit "june"]);
    (lit "kan", [lit "august"; lit "thursday"]);
    (lit "mat", [lit "april"]);
    (lit "mbe", [lit "monday"]);
    (lit "mut", [lit "january"]);
    (lit "nya", [lit "july"]);
    (lit "nze", [lit "september"]);
    (lit "ugu", [lit "november"]);
    (lit "uku", [lit "december"]);
    (lit "ukw", [lit "october"]);
    (lit "utc", [lit "utc"]);
    (lit "wer", [lit "march"]);
    (lit "am", [lit "am"]);
    (lit "pm", [lit "pm"]);
    (lit " ", [lit " "]);
    (lit "'", [lit ""]);
    (lit "+", [lit "+"]);
    (lit ",", [lit ""]);
    (lit "-", [lit "-"]);
    (lit ".", [lit "."]);
    (lit "/", [lit "/"]);
    (lit ":", [lit ":"]);
    (lit ";", [lit ""]);
    (lit "@", [lit ""]);
    (lit "[", [lit ""]);
    (lit "]", [lit ""]);
    (lit "z", [lit "z"]);
    (lit "|", [lit ""])];
    ld_reltype := [(lit "this minute", lit "0 minute ago");
    (lit "last month", lit "1 month ago");
    (lit "next month", lit "in 1 month");
    (lit "this month", lit "0 month ago");
    (lit "last week", lit "1 week ago");
    (lit "last year", lit "1 year ago");
    (lit "next week", lit "in 1 week");
    (lit "next year", lit "in 1 year");
    (lit "this hour", lit "0 hour ago");
    (lit "this week", lit "0 week ago");
    (lit "this year", lit "0 year ago");
    (lit "yesterday", lit "1 day ago");
    (lit "tomorrow", lit "in 1 day");
    (lit "today", lit "0 day ago");
    (lit "now", lit "0 second ago")];
    ld_relrx := [];
    ld_rx := None;
    ld_rx_exact := None;
    ld_known := [lit "kuwa gatandatu";
    lit "gashyantare";
    lit "ku cyumweru";
    lit "kuwa gatanu";
    lit "kuwa gatatu";
    lit "kuwa kabiri";
    lit "this minute";
    lit "kuwa mbere";
    lit "last month";
    lit "next month";
    lit "this month";
    lit "ugushyingo";
    lit "gicuransi";
    lit "kuwa kane";
    lit "last week";
    lit "last year";
    lit "next week";
    lit "next year";
    lit "this hour";
    lit "this week";
    lit "this year";
    lit "yesterday";
    lit "mutarama";
    lit "nyakanga";
    lit "tomorrow";
    lit "ukwakira";
    lit "ukuboza";
    lit "werurwe";
    lit "kamena";
    lit "kanama";
    lit "minute";
    lit "second";
    lit "month";
    lit "nzeli";
    lit "today";
    lit "hour";
    lit "mata";
    lit "week";
    lit "year";
    lit "cyu";
    lit "day";
    lit "gas";
    lit "gic";
    lit "gmt";
    lit "gnd";
    lit "gnu";
    lit "gtu";
    lit "kab";
    lit "kam";
    lit "kan";
    lit "mat";
    lit "mbe";
    lit "mut";
    lit "now";
    lit "nya";
    lit "nze";
    lit "ugu";
    lit "uku";
    lit "ukw";
    lit "utc";
    lit "wer";
    lit "am";
    lit "pm";
    lit " ";
    lit "'";
    lit "+";
    lit ",";
    lit "-";
    lit ".";
    lit "/";
    lit ":";
    lit ";";
    lit "@";
    lit "[";
    lit "]";
    lit "z";
    lit "|"] |}.

(** rwk.go:10-98 *)
Definition loc_rwk : locale := Eval vm_compute in
  {| ld_name := lit "rwk"; ld_order := lit "DMY"; ld_nospacing := false; ld_splitter := 0;
    ld_charset := runes (lit "bcdefghijklnorstuvwxyz");
    ld_abbr := [];
    ld_simpl := [];
    ld_trans := [(lit "jumapilyi", [lit "sunday"]);
    (lit "jumatatuu", [lit "monday"]);
    (lit "kyiukonyi", [lit "pm"]);
    (lit "alhamisi", [lit "thursday"]);
    (lit "februari", [lit "february"]);
    (lit "jumamosi", [lit "saturday"]);
    (lit "jumatanu", [lit "wednesday"]);
    (lit "septemba", [lit "september"]);
    (lit "aprilyi", [lit "april"]);
    (lit "dakyika", [lit "minute"]);
    (lit "desemba", [lit "december"]);
    (lit "januari", [lit "january"]);
    (lit "jumanne", [lit "tuesday"]);
    (lit "novemba", [lit "november"]);
    (lit "sekunde", [lit "second"]);
    (lit "agusti", [lit "august"]);
    (lit "ijumaa", [lit "friday"]);
    (lit "julyai", [lit "july"]);
    (lit "oktoba", [lit "october"]);
    (lit "wiikyi", [lit "week"]);
    (lit "junyi", [lit "june"]);
    (lit "machi", [lit "march"]);
    (lit "mfiri", [lit "day"]);
    (lit "utuko", [lit "am"]);
    (lit "maka", [lit "year"]);
    (lit "mori", [lit "month"]);
    (lit "ago", [lit "august"]);
    (lit "alh", [lit "thursday"]);
    (lit "apr", [lit "april"]);
    (lit "des", [lit "december"]);
    (lit "feb", [lit "february"]);
    (lit "gmt", [lit "gmt"]);
    (lit "iju", [lit "friday"]);
    (lit "jan", [lit "january"]);
    (lit "jmo", [lit "saturday"]);
    (lit "jnn", [lit "tuesday"]);
    (lit "jpi", [lit "sunday"]);
    (lit "jtn", [lit "wednesday"]);
    (lit "jtt", [lit "monday"]);
    (lit "jul", [lit "july"]);
    (lit "jun", [lit "june"]);
    (lit "mac", [lit "march"]);
    (lit "mei", [lit "may"]);
    (lit "nov", [lit "november"]);
    (lit "okt", [lit "october"]);
    (lit "saa", [lit "hour"]);
    (lit "sep", [lit "september"]);
    (lit "utc", [lit "utc"]);
    (lit "am", [lit "am"]);
    (lit "pm", [lit "pm"]);
    (lit " ", [lit " "]);
    (lit "'", [lit ""]);
    (lit "+", [lit "+"]);
    (lit ",", [lit ""]);
    (lit "-", [lit "-"]);
    (lit ".", [lit "."]);
    (lit "/", [lit "/"]);
    (lit ":", [lit ":"]);
    (lit ";", [lit ""]);
    (lit "@", [lit ""]);
    (lit "[", [lit ""]);
    (lit "]", [lit ""]);
    (lit "z", [lit "z"]);
    (lit "|", [lit ""])];
    ld_reltype := [(lit "this minute", lit "0 minute ago");
    (lit "last month", lit "1 month ago");
    (lit "next month", lit "in 1 month");
    (lit "this month", lit "0 month ago");
    (lit "last week", lit "1 week ago");
    (lit "last year", lit "1 year ago");
    (lit "next week", lit "in 1 week");
    (lit "next year", lit "in 1 year");
    (lit "this hour", lit "0 hour ago");
    (lit "this week", lit "0 week ago");
    (lit "this year", lit "0 year ago");
    (lit "ngama", lit "in 1 day");
    (lit "ukou", lit "1 day ago");
    (lit "inu", lit "0 day ago");
    (lit "now", lit "0 second ago")];
    ld_relrx := [];
    ld_rx := None;
    ld_rx_exact := None;
    ld_known := [lit "this minute";
    lit "last month";
    lit "next month";
    lit "this month";
    lit "jumapilyi";
    lit "jumatatuu";
    lit "kyiukonyi";
    lit "last week";
    lit "last year";
    lit "next week";
    lit "next year";
    lit "this hour";
    lit "this week";
    lit "this year";
    lit "alhamisi";
    lit "februari";
    lit "jumamosi";
    lit "jumatanu";
    lit "septemba";
    lit "aprilyi";
    lit "dakyika";
    lit "desemba";
    lit "januari";
    lit "jumanne";
    lit "novemba";
    lit "sekunde";
    lit "agusti";
    lit "ijumaa";
    lit "julyai";
    lit "oktoba";
    lit "wiikyi";
    lit "junyi";
    lit "machi";
    lit "mfiri";
    lit "ngama";
    lit "utuko";
    lit "maka";
    lit "mori";
    lit "ukou";
    lit "ago";
    lit "alh";
    lit "apr";
    lit "des";
    lit "feb";
    lit "gmt";
    lit "iju";
    lit "inu";
    lit "jan";
    lit "jmo";
    lit "jnn";
    lit "jpi";
    lit "jtn";
    lit "jtt";
    lit "jul";
    lit "jun";
    lit "mac";
    lit "mei";
    lit "nov";
    lit "now";
    lit "okt";
    lit "saa";
    lit "sep";
    lit "utc";
    lit "am";
    lit "pm";
    lit " ";
    lit "'";
    lit "+";
    lit ",";
    lit "-";
    lit ".";
    lit "/";
    lit ":";
    lit ";";
    lit "@";
    lit "[";
    lit "]";
    lit "z";
    lit "|"] |}.

(** sah.go:12-125 *)
Definition loc_sah : locale := Eval vm_compute in
  {| ld_name := lit "sah"; ld_order := lit "YMD"; ld_nospacing := false; ld_splitter := 0;
    ld_charset := runes (lit "ceghinorstuzабгдийклмнопрстухчыьэҕҥүһө");
    ld_abbr := [];
    ld_simpl := [];
    ld_trans := [(lit "атырдьых ыиын", [lit "august"]);
    (lit "атырдьых ыиа", [lit "august"]);
    (lit "балаҕан ыиын", [lit "september"]);
    (lit "баскыһыанньа", [lit "sunday"]);
    (lit "бэнидиэнньик", [lit "monday"]);
    (lit "оптуорунньук", [lit "tuesday"]);
    (lit "балаҕан ыиа", [lit "september"]);
    (lit "кулун тутар", [lit "march"]);
    (lit "муус устар", [lit "april"]);
    (lit "тохсунньу", [lit "january"]);
    (lit "алтынньы", [lit "october"]);
    (lit "ахсынньы", [lit "december"]);
    (lit "бэс ыиын", [lit "june"]);
    (lit "бээтиҥсэ", [lit "friday"]);
    (lit "сэтинньи", [lit "november"]);
    (lit "сөкүүндэ", [lit "second"]);
    (lit "ыам ыиын", [lit "may"]);
    (lit "бэс ыиа", [lit "june"]);
    (lit "мүнүүтэ", [lit "minute"]);
    (lit "нэдиэлэ", [lit "week"]);
    (lit "олунньу", [lit "february"]);
    (lit "от ыиын", [lit "july"]);
    (lit "субуота", [lit "saturday"]);
    (lit "чэппиэр", [lit "thursday"]);
    (lit "ыам ыиа", [lit "may"]);
    (lit "от ыиа", [lit "july"]);
    (lit "сэрэдэ", [lit "wednesday"]);
    (lit "олун", [lit "february"]);
    (lit "тохс", [lit "january"]);
    (lit "чаас", [lit "hour"]);
    (lit "gmt", [lit "gmt"]);
    (lit "utc", [lit "utc"]);
    (lit "алт", [lit "october"]);
    (lit "атр", [lit "august"]);
    (lit "ахс", [lit "december"]);
    (lit "блҕ", [lit "september"]);
    (lit "бэс", [lit "june"]);
    (lit "клн", [lit "march"]);
    (lit "күн", [lit "day"]);
    (lit "мсу", [lit "april"]);
    (lit "оти", [lit "july"]);
    (lit "сыл", [lit "year"]);
    (lit "сэт", [lit "november"]);
    (lit "ыам", [lit "may"]);
    (lit "am", [lit "am"]);
    (lit "pm", [lit "pm"]);
    (lit "бн", [lit "monday"]);
    (lit "бс", [lit "sunday"]);
    (lit "бэ", [lit "friday"]);
    (lit "оп", [lit "tuesday"]);
    (lit "сб", [lit "saturday"]);
    (lit "сэ", [lit "wednesday"]);
    (lit "чп", [lit "thursday"]);
    (lit "ыи", [lit "month"]);
    (lit "эи", [lit "am"]);
    (lit "эк", [lit "pm"]);
    (lit " ", [lit " "]);
    (lit "'", [lit ""]);
    (lit "+", [lit "+"]);
    (lit ",", [lit ""]);
    (lit "-", [lit "-"]);
    (lit ".", [lit "."]);
    (lit "/", [lit "/"]);
    (lit ":", [lit ":"]);
    (lit ";", [lit ""]);
    (lit "@", [lit ""]);
    (lit "[", [lit ""]);
    (lit "]", [lit ""]);
    (lit "z", [lit "z"]);
    (lit "|", [lit ""])];
    ld_reltype := [(lit "ааспыт нэдиэлэ", lit "1 week ago");
    (lit "кэлэр нэдиэлэ", lit "in 1 week");
    (lit "this minute", lit "0 minute ago");
    (lit "аныгыскы ыи", lit "in 1 month");
    (lit "бу нэдиэлэ", lit "0 week ago");
    (lit "this hour", lit "0 hour ago");
    (lit "ааспыт ыи", lit "1 month ago");
    (lit "былырыын", lit "1 year ago");
    (lit "билигин", lit "0 second ago");
    (lit "бэҕэһээ", lit "1 day ago");
    (lit "сарсын", lit "in 1 day");
    (lit "бу ыи", lit "0 month ago");
    (lit "быиыл", lit "0 year ago");
    (lit "бүгүн", lit "0 day ago");
    (lit "эһиил", lit "in 1 year")];
    ld_relrx := [(rx "(?i)(\d+[.,]?\d*) сөкүүндэ ынараа өттүгэр", lit "$1 second ago");
    (rx "(?i)(\d+[.,]?\d*) мүнүүтэ ынараа өттүгэр", lit "$1 minute ago");
    (rx "(?i)(\d+[.,]?\d*) нэдиэлэ анараа өттүгэр", lit "$1 week ago");
    (rx "(?i)(\d+[.,]?\d*) чаас ынараа өттүгэр", lit "$1 hour ago");
    (rx "(?i)(\d+[.,]?\d*) күн ынараа өттүгэр", lit "$1 day ago");
    (rx "(?i)(\d+[.,]?\d*) сыл ынараа өттүгэр", lit "$1 year ago");
    (rx "(?i)(\d+[.,]?\d*) сөк анараа өттүгэр", lit "$1 second ago");
    (rx "(?i)(\d+[.,]?\d*) ыи ынараа өттүгэр", lit "$1 month ago");
    (rx "(?i)(\d+[.,]?\d*) сөкүүндэннэн", lit "in $1 second");
    (rx "(?i)(\d+[.,]?\d*) мүнүүтэннэн", lit "in $1 minute");
    (rx "(?i)(\d+[.,]?\d*) нэдиэлэннэн", lit "in $1 week");
    (rx "(?i)(\d+[.,]?\d*) чааһынан", lit "in $1 hour");
    (rx "(?i)(\d+[.,]?\d*) күнүнэн", lit "in $1 day");
    (rx "(?i)(\d+[.,]?\d*) сылынан", lit "in $1 year");
    (rx "(?i)(\d+[.,]?\d*) ыиынан", lit "in $1 month")];
    ld_rx := Some (rx "(?i)(\A|[^\pL\pM\d]|_)(\d+[.,]?\d* сөкүүндэ ынараа өттүгэр|\d+[.,]?\d* мүнүүтэ ынараа өттүгэр|\d+[.,]?\d* нэдиэлэ анараа өттүгэр|\d+[.,]?\d* чаас ынараа өттүгэр|\d+[.,]?\d* күн ынараа өттүгэр|\d+[.,]?\d* сыл ынараа өттүгэр|\d+[.,]?\d* сөк анараа өттүгэр|\d+[.,]?\d* ыи ынараа өттүгэр|\d+[.,]?\d* сөкүүндэннэн|\d+[.,]?\d* мүнүүтэннэн|\d+[.,]?\d* нэдиэлэннэн|\d+[.,]?\d* чааһынан|\d+[.,]?\d* күнүнэн|\d+[.,]?\d* сылынан|\d+[.,]?\d* ыиынан)(\z|[^\pL\pM\d]|_)");
    ld_rx_exact := Some (rx "(?i)^(\d+[.,]?\d* сөкүүндэ ынараа өттүгэр|\d+[.,]?\d* мүнүүтэ ынараа өттүгэр|\d+[.,]?\d* нэдиэлэ анараа өттүгэр|\d+[.,]?\d* чаас ынараа өттүгэр|\d+[.,]?\d* күн ынараа өттүгэр|\d+[.,]?\d* сыл ынараа өттүгэр|\d+[.,]?\d* сөк анараа өттүгэр|\d+[.,]?\d* ыи ынараа өттүгэр|\d+[.,]?\d* сөкүүндэннэн|\d+[.,]?\d* мүнүүтэннэн|\d+[.,]?\d* нэдиэлэннэн|\d+[.,]?\d* чааһынан|\d+[.,]?\d* күнүнэн|\d+[.,]?\d* сылынан|\d+[.,]?\d* ыиынан)$");
    ld_known := [lit "ааспыт нэдиэлэ";
    lit "атырдьых ыиын";
    lit "кэлэр нэдиэлэ";
    lit "атырдьых ыиа";
    lit "балаҕан ыиын";
    lit "баскыһыанньа";
    lit "бэнидиэнньик";
    lit "оптуорунньук";
    lit "this minute";
    lit "аныгыскы ыи";
    lit "балаҕан ыиа";
    lit "кулун тутар";
    lit "бу нэдиэлэ";
    lit "муус устар";
    lit "this hour";
    lit "ааспыт ыи";
    lit "тохсунньу";
    lit "алтынньы";
    lit "ахсынньы";
    lit "былырыын";
    lit "бэс ыиын";
    lit "бээтиҥсэ";
    lit "сэтинньи";
    lit "сөкүүндэ";
    lit "ыам ыиын";
    lit "билигин";
    lit "бэс ыиа";
    lit "бэҕэһээ";
    lit "мүнүүтэ";
    lit "нэдиэлэ";
    lit "олунньу";
    lit "от ыиын";
    lit "субуота";
    lit "чэппиэр";
    lit "ыам ыиа";
    lit "от ыиа";
    lit "сарсын";
    lit "сэрэдэ";
    lit "бу ыи";
    lit "быиыл";
    lit "бүгүн";
    lit "эһиил";
    lit "олун";
    lit "тохс";
    lit "чаас";
    lit "gmt";
    lit "utc";
    lit "алт";
    lit "атр";
    lit "ахс";
    lit "блҕ";
    lit "бэс";
    lit "клн";
    lit "күн";
    lit "мсу";
    lit "оти";
    lit "сыл";
    lit "сэт";
    lit "ыам";
    lit "am";
    lit "pm";
    lit "бн";
    lit "бс";
    lit "бэ";
    lit "оп";
    lit "сб";
    lit "сэ";
    lit "чп";
    lit "ыи";
    lit "эи";
    lit "эк";
    lit " ";
    lit "'";
    lit "+";
    lit ",";
    lit "-";
    lit ".";
    lit "/";
    lit ":";
    lit ";";
    lit "@";
    lit "[";
    lit "]";
    lit "z";
    lit "|"] |}.

(** saq.go:10-96 *)
Definition loc_saq : locale := Eval vm_compute in
  {| ld_name := lit "saq"; ld_order := lit "DMY"; ld_nospacing := false; ld_splitter := 0;
    ld_charset := runes (lit "bcdeghiklnorstuwxyz");
    ld_abbr := [];
    ld_simpl := [];
    ld_trans := [(lit "lapa le tomon waare", [lit "december"]);
    (lit "lapa le tomon obo", [lit "november"]);
    (lit "mderot ee ong'wan", [lit "tuesday"]);
    (lit "lapa le ong'wan", [lit "april"]);
    (lit "mderot ee inet", [lit "wednesday"]);
    (lit "mderot ee kuni", [lit "monday"]);
    (lit "mderot ee sapa", [lit "friday"]);
    (lit "lapa le isiet", [lit "august"]);
    (lit "lapa le okuni", [lit "march"]);
    (lit "lapa le tomon", [lit "october"]);
    (lit "lapa le waare", [lit "february"]);
    (lit "mderot ee are", [lit "sunday"]);
    (lit "mderot ee ile", [lit "thursday"]);
    (lit "mderot ee kwe", [lit "saturday"]);
    (lit "lapa le imet", [lit "may"]);
    (lit "lapa le saal", [lit "september"]);
    (lit "lapa le sapa", [lit "july"]);
    (lit "lapa le ile", [lit "june"]);
    (lit "lapa le obo", [lit "january"]);
    (lit "saipa napo", [lit "week"]);
    (lit "isekondi", [lit "second"]);
    (lit "idakika", [lit "minute"]);
    (lit "tesiran", [lit "am"]);
    (lit "mpari", [lit "day"]);
    (lit "teipa", [lit "pm"]);
    (lit "lapa", [lit "month"]);
    (lit "lari", [lit "year"]);
    (lit "saai", [lit "hour"]);
    (lit "are", [lit "sunday"]);
    (lit "gmt", [lit "gmt"]);
    (lit "ile", [lit "june"; lit "thursday"]);
    (lit "ime", [lit "may"]);
    (lit "ine", [lit "wednesday"]);
    (lit "isi", [lit "august"]);
    (lit "kun", [lit "monday"]);
    (lit "kwe", [lit "saturday"]);
    (lit "obo", [lit "january"]);
    (lit "oku", [lit "march"]);
    (lit "ong", [lit "april"; lit "tuesday"]);
    (lit "saa", [lit "september"]);
    (lit "sap", [lit "july"; lit "friday"]);
    (lit "tob", [lit "november"]);
    (lit "tom", [lit "october"]);
    (lit "tow", [lit "december"]);
    (lit "utc", [lit "utc"]);
    (lit "waa", [lit "february"]);
    (lit "am", [lit "am"]);
    (lit "pm", [lit "pm"]);
    (lit " ", [lit " "]);
    (lit "'", [lit ""]);
    (lit "+", [lit "+"]);
    (lit ",", [lit ""]);
    (lit "-", [lit "-"]);
    (lit ".", [lit "."]);
    (lit "/", [lit "/"]);
    (lit ":", [lit ":"]);
    (lit ";", [lit ""]);
    (lit "@", [lit ""]);
    (lit "[", [lit ""]);
    (lit "]", [lit ""]);
    (lit "z", [lit "z"]);
    (lit "|", [lit ""])];
    ld_reltype := [(lit "this minute", lit "0 minute ago");
    (lit "last month", lit "1 month ago");
    (lit "next month", lit "in 1 month");
    (lit "this month", lit "0 month ago");
    (lit "last week", lit "1 week ago");
    (lit "last year", lit "1 year ago");
    (lit "next week", lit "in 1 week");
    (lit "next year", lit "in 1 year");
    (lit "this hour", lit "0 hour ago");
    (lit "this week", lit "0 week ago");
    (lit "this year", lit "0 year ago");
    (lit "taisere", lit "in 1 day");
    (lit "ng'ole", lit "1 day ago");
    (lit "duo", lit "0 day ago");
    (lit "now", lit "0 second ago")];
    ld_relrx := [];
    ld_rx := None;
    ld_rx_exact := None;
    ld_known := [lit "lapa le tomon waare";
    lit "lapa le tomon obo";
    lit "mderot ee ong'wan";
    lit "lapa le ong'wan";
    lit "mderot ee inet";
    lit "mderot ee kuni";
    lit "mderot ee sapa";
    lit "lapa le isiet";
    lit "lapa le okuni";
    lit "lapa le tomon";
    lit "lapa le waare";
    lit "mderot ee are";
    lit "mderot ee ile";
    lit "mderot ee kwe";
    lit "lapa le imet";
    lit "lapa le saal";
    lit "lapa le sapa";
    lit "lapa le ile";
    lit "lapa le obo";
    lit "this minute";
    lit "last month";
    lit "next month";
    lit "saipa napo";
    lit "this month";
    lit "last week";
    lit "last year";
    lit "next week";
    lit "next year";
    lit "this hour";
    lit "this week";
    lit "this year";
    lit "isekondi";
    lit "idakika";
    lit "taisere";
    lit "tesiran";
    lit "ng'ole";
    lit "mpari";
    lit "teipa";
    lit "lapa";
    lit "lari";
    lit "saai";
    lit "are";
    lit "duo";
    lit "gmt";
    lit "ile";
    lit "ime";
    lit "ine";
    lit "isi";
    lit "kun";
    lit "kwe";
    lit "now";
    lit "obo";
    lit "oku";
    lit "ong";
    lit "saa";
    lit "sap";
    lit "tob";
    lit "tom";
    lit "tow";
    lit "utc";
    lit "waa";
    lit "am";
    lit "pm";
    lit " ";
    lit "'";
    lit "+";
    lit ",";
    lit "-";
    lit ".";
    lit "/";
    lit ":";
    lit ";";
    lit "@";
    lit "[";
    lit "]";
    lit "z";
    lit "|"] |}.

(** sbp.go:10-99 *)
Definition loc_sbp : locale := Eval vm_compute in
  {| ld_name := lit "sbp"; ld_order := lit "DMY"; ld_nospacing := false; ld_splitter := 0;
    ld_charset := runes (lit "bcdeghijklnorstuwxyz");
    ld_abbr := [];
    ld_simpl := [];
    ld_trans := [(lit "mushende magali", [lit "may"]);
    (lit "musongandembwe", [lit "november"]);
    (lit "mupalangulwa", [lit "january"]);
    (lit "alahamisi", [lit "thursday"]);
    (lit "lwamilawu", [lit "am"]);
    (lit "mushipepo", [lit "july"]);
    (lit "pashamihe", [lit "pm"]);
    (lit "isekunde", [lit "second"]);
    (lit "jumamosi", [lit "saturday"]);
    (lit "jumatano", [lit "wednesday"]);
    (lit "jumatatu", [lit "monday"]);
    (lit "munyense", [lit "september"]);
    (lit "mupuguto", [lit "august"]);
    (lit "mushende", [lit "march"]);
    (lit "idakika", [lit "minute"]);
    (lit "ilijuma", [lit "week"]);
    (lit "ilisala", [lit "hour"]);
    (lit "jumanne", [lit "tuesday"]);
    (lit "muhaano", [lit "december"]);
    (lit "mujimbi", [lit "june"]);
    (lit "mulungu", [lit "sunday"]);
    (lit "mwitope", [lit "february"]);
    (lit "ijumaa", [lit "friday"]);
    (lit "lusiku", [lit "day"]);
    (lit "mwakha", [lit "year"]);
    (lit "mokhu", [lit "october"]);
    (lit "munyi", [lit "april"]);
    (lit "mwesi", [lit "month"]);
    (lit "alh", [lit "thursday"]);
    (lit "gmt", [lit "gmt"]);
    (lit "iju", [lit "friday"]);
    (lit "jmo", [lit "saturday"]);
    (lit "jnn", [lit "tuesday"]);
    (lit "jtn", [lit "wednesday"]);
    (lit "jtt", [lit "monday"]);
    (lit "mag", [lit "may"]);
    (lit "mok", [lit "october"]);
    (lit "mpg", [lit "august"]);
    (lit "msh", [lit "march"]);
    (lit "msp", [lit "july"]);
    (lit "muh", [lit "december"]);
    (lit "muj", [lit "june"]);
    (lit "mul", [lit "sunday"]);
    (lit "mun", [lit "april"]);
    (lit "mup", [lit "january"]);
    (lit "mus", [lit "november"]);
    (lit "mwi", [lit "february"]);
    (lit "mye", [lit "september"]);
    (lit "utc", [lit "utc"]);
    (lit "am", [lit "am"]);
    (lit "pm", [lit "pm"]);
    (lit " ", [lit " "]);
    (lit "'", [lit ""]);
    (lit "+", [lit "+"]);
    (lit ",", [lit ""]);
    (lit "-", [lit "-"]);
    (lit ".", [lit "."]);
    (lit "/", [lit "/"]);
    (lit ":", [lit ":"]);
    (lit ";", [lit ""]);
    (lit "@", [lit ""]);
    (lit "[", [lit ""]);
    (lit "]", [lit ""]);
    (lit "z", [lit "z"]);
    (lit "|", [lit ""])];
    ld_reltype := [(lit "this minute", lit "0 minute ago");
    (lit "last month", lit "1 month ago");
    (lit "next month", lit "in 1 month");
    (lit "this month", lit "0 month ago");
    (lit "ineng'uni", lit "0 day ago");
    (lit "last week", lit "1 week ago");
    (lit "last year", lit "1 year ago");
    (lit "next week", lit "in 1 week");
    (lit "next year", lit "in 1 year");
    (lit "pamulaawu", lit "in 1 day");
    (lit "this hour", lit "0 hour ago");
    (lit "this week", lit "0 week ago");
    (lit "this year", lit "0 year ago");
    (lit "imehe", lit "1 day ago");
    (lit "now", lit "0 second ago")];
    ld_relrx := [];
    ld_rx := None;
    ld_rx_exact := None;
    ld_known := [lit "mushende magali";
    lit "musongandembwe";
    lit "mupalangulwa";
    lit "this minute";
    lit "last month";
    lit "next month";
    lit "this month";
    lit "alahamisi";
    lit "ineng'uni";
    lit "last week";
    lit "last year";
    lit "lwamilawu";
    lit "mushipepo";
    lit "next week";
    lit "next year";
    lit "pamulaawu";
    lit "pashamihe";
    lit "this hour";
    lit "this week";
    lit "this year";
    lit "isekunde";
    lit "jumamosi";
    lit "jumatano";
    lit "jumatatu";
    lit "munyense";
    lit "mupuguto";
    lit "mushende";
    lit "idakika";
    lit "ilijuma";
    lit "ilisala";
    lit "jumanne";
    lit "muhaano";
    lit "mujimbi";
    lit "mulungu";
    lit "mwitope";
    lit "ijumaa";
    lit "lusiku";
    lit "mwakha";
    lit "imehe";
    lit "mokhu";
    lit "munyi";
    lit "mwesi";
    lit "alh";
    lit "gmt";
    lit "iju";
    lit "jmo";
    lit "jnn";
    lit "jtn";
    lit "jtt";
    lit "mag";
    lit "mok";
    lit "mpg";
    lit "msh";
    lit "msp";
    lit "muh";
    lit "muj";
    lit "mul";
    lit "mun";
    lit "mup";
    lit "mus";
    lit "mwi";
    lit "mye";
    lit "now";
    lit "utc";
    lit "am";
    lit "pm";
    lit " ";
    lit "'";
    lit "+";
    lit ",";
    lit "-";
    lit ".";
    lit "/";
    lit ":";
    lit ";";
    lit "@";
    lit "[";
    lit "]";
    lit "z";
    lit "|"] |}.

(** se.go:14-137 *)
Definition loc_se : locale := Eval vm_compute in
  {| ld_name := lit "se"; ld_order := lit "YMD"; ld_nospacing := false; ld_splitter := 0;
    ld_charset := runes (lit "bcdeghijklnorstuvwxyzáčđŋ");
    ld_abbr := [];
    ld_simpl := [];
    ld_trans := [(lit "eahketbeaivet", [lit "pm"]);
    (lit "ođđajagemannu", [lit "january"]);
    (lit "eahketbeaivi", [lit "pm"]);
    (lit "golggotmannu", [lit "october"]);
    (lit "suoidnemannu", [lit "july"]);
    (lit "gaskavahkku", [lit "wednesday"]);
    (lit "geassemannu", [lit "june"]);
    (lit "guovvamannu", [lit "february"]);
    (lit "iđitbeaivet", [lit "am"]);
    (lit "juovlamannu", [lit "december"]);
    (lit "miessemannu", [lit "may"]);
    (lit "njukcamannu", [lit "march"]);
    (lit "skabmamannu", [lit "november"]);
    (lit "sotnabeaivi", [lit "sunday"]);
    (lit "borgemannu", [lit "august"]);
    (lit "cakcamannu", [lit "september"]);
    (lit "cuoŋomannu", [lit "april"]);
    (lit "iđitbeaivi", [lit "am"]);
    (lit "maŋŋebarga", [lit "tuesday"]);
    (lit "bearjadat", [lit "friday"]);
    (lit "duorasdat", [lit "thursday"]);
    (lit "lavvardat", [lit "saturday"]);
    (lit "vuossarga", [lit "monday"]);
    (lit "minuhtta", [lit "minute"]);
    (lit "sekunda", [lit "second"]);
    (lit "beaivi", [lit "day"]);
    (lit "diibmu", [lit "hour"]);
    (lit "vahkku", [lit "week"]);
    (lit "jahki", [lit "year"]);
    (lit "mannu", [lit "month"]);
    (lit "bear", [lit "friday"]);
    (lit "borg", [lit "august"]);
    (lit "cakc", [lit "september"]);
    (lit "duor", [lit "thursday"]);
    (lit "gask", [lit "wednesday"]);
    (lit "geas", [lit "june"]);
    (lit "golg", [lit "october"]);
    (lit "guov", [lit "february"]);
    (lit "juov", [lit "december"]);
    (lit "mies", [lit "may"]);
    (lit "njuk", [lit "march"]);
    (lit "ođđj", [lit "january"]);
    (lit "skab", [lit "november"]);
    (lit "sotn", [lit "sunday"]);
    (lit "suoi", [lit "july"]);
    (lit "vuos", [lit "monday"]);
    (lit "cuo", [lit "april"]);
    (lit "gmt", [lit "gmt"]);
    (lit "lav", [lit "saturday"]);
    (lit "maŋ", [lit "tuesday"]);
    (lit "utc", [lit "utc"]);
    (lit "am", [lit "am"]);
    (lit "eb", [lit "pm"]);
    (lit "ib", [lit "am"]);
    (lit "pm", [lit "pm"]);
    (lit " ", [lit " "]);
    (lit "'", [lit ""]);
    (lit "+", [lit "+"]);
    (lit ",", [lit ""]);
    (lit "-", [lit "-"]);
    (lit ".", [lit "."]);
    (lit "/", [lit "/"]);
    (lit ":", [lit ":"]);
    (lit ";", [lit ""]);
    (lit "@", [lit ""]);
    (lit "[", [lit ""]);
    (lit "]", [lit ""]);
    (lit "z", [lit "z"]);
    (lit "|", [lit ""])];
    ld_reltype := [(lit "this minute", lit "0 minute ago");
    (lit "last month", lit "1 month ago");
    (lit "next month", lit "in 1 month");
    (lit "this month", lit "0 month ago");
    (lit "last week", lit "1 week ago");
    (lit "last year", lit "1 year ago");
    (lit "next week", lit "in 1 week");
    (lit "next year", lit "in 1 year");
    (lit "this hour", lit "0 hour ago");
    (lit "this week", lit "0 week ago");
    (lit "this year", lit "0 year ago");
    (lit "ihttin", lit "in 1 day");
    (lit "ikte", lit "1 day ago");
    (lit "odne", lit "0 day ago");
    (lit "now", lit "0 second ago")];
    ld_relrx := [(rx "(?i)(\d+[.,]?\d*) manotbadji maŋŋilit", lit "in $1 month");
    (rx "(?i)(\d+[.,]?\d*) minuhtta maŋŋilit", lit "in $1 minute");
    (rx "(?i)(\d+[.,]?\d*) sekundda maŋŋilit", lit "in $1 second");
    (rx "(?i)(\d+[.,]?\d*) diibmur maŋŋilit", lit "in $1 hour");
    (rx "(?i)(\d+[.,]?\d*) jandora maŋŋilit", lit "in $1 day");
    (rx "(?i)(\d+[.,]?\d*) minuhta maŋŋilit", lit "in $1 minute");
    (rx "(?i)(\d+[.,]?\d*) sekunda maŋŋilit", lit "in $1 second");
    (rx "(?i)(\d+[.,]?\d*) diibmu maŋŋilit", lit "in $1 hour");
    (rx "(?i)(\d+[.,]?\d*) jahkki maŋŋilit", lit "in $1 year");
    (rx "(?i)(\d+[.,]?\d*) jandor maŋŋilit", lit "in $1 day");
    (rx "(?i)(\d+[.,]?\d*) manotbadji arat", lit "$1 month ago");
    (rx "(?i)(\d+[.,]?\d*) vahkku maŋŋilit", lit "in $1 week");
    (rx "(?i)(\d+[.,]?\d*) jahki maŋŋilit", lit "in $1 year");
    (rx "(?i)(\d+[.,]?\d*) vahku maŋŋilit", lit "in $1 week");
    (rx "(?i)(\d+[.,]?\d*) minuhtta arat", lit "$1 minute ago");
    (rx "(?i)(\d+[.,]?\d*) sekundda arat", lit "$1 second ago");
    (rx "(?i)(\d+[.,]?\d*) diibmur arat", lit "$1 hour ago");
    (rx "(?i)(\d+[.,]?\d*) jandora arat", lit "$1 day ago");
    (rx "(?i)(\d+[.,]?\d*) minuhta arat", lit "$1 minute ago");
    (rx "(?i)(\d+[.,]?\d*) sekunda arat", lit "$1 second ago");
    (rx "(?i)(\d+[.,]?\d*) diibmu arat", lit "$1 hour ago");
    (rx "(?i)(\d+[.,]?\d*) jahkki arat", lit "$1 year ago");
    (rx "(?i)(\d+[.,]?\d*) jandor arat", lit "$1 day ago");
    (rx "(?i)(\d+[.,]?\d*) vahkku arat", lit "$1 week ago");
    (rx "(?i)(\d+[.,]?\d*) jahki arat", lit "$1 year ago");
    (rx "(?i)(\d+[.,]?\d*) vahku arat", lit "$1 week ago")];
    ld_rx := Some (rx "(?i)(\A|[^\pL\pM\d]|_)(\d+[.,]?\d* manotbadji maŋŋilit|\d+[.,]?\d* minuhtta maŋŋilit|\d+[.,]?\d* sekundda maŋŋilit|\d+[.,]?\d* diibmur maŋŋilit|\d+[.,]?\d* jandora maŋŋilit|\d+[.,]?\d* minuhta maŋŋilit|\d+[.,]?\d* sekunda maŋŋilit|\d+[.,]?\d* diibmu maŋŋilit|\d+[.,]?\d* jahkki maŋŋilit|\d+[.,]?\d* jandor maŋŋilit|\d+[.,]?\d* manotbadji arat|\d+[.,]?\d* vahkku maŋŋilit|\d+[.,]?\d* jahki maŋŋilit|\d+[.,]?\d* vahku maŋŋilit|\d+[.,]?\d* minuhtta arat|\d+[.,]?\d* sekundda arat|\d+[.,]?\d* diibmur arat|\d+[.,]?\d* jandora arat|\d+[.,]?\d* minuhta arat|\d+[.,]?\d* sekunda arat|\d+[.,]?\d* diibmu arat|\d+[.,]?\d* jahkki arat|\d+[.,]?\d* jandor arat|\d+[.,]?\d* vahkku arat|\d+[.,]?\d* jahki arat|\d+[.,]?\d* vahku arat)(\z|[^\pL\pM\d]|_)");
    ld_rx_exact := Some (rx "(?i)^(\d+[.,]?\d* manotbadji maŋŋilit|\d+[.,]?\d* minuhtta maŋŋilit|\d+[.,]?\d* sekundda maŋŋilit|\d+[.,]?\d* diibmur maŋŋilit|\d+[.,]?\d* jandora maŋŋilit|\d+[.,]?\d* minuhta maŋŋilit|\d+[.,]?\d* sekunda maŋŋilit|\d+[.,]?\d* diibmu maŋŋilit|\d+[.,]?\d* jahkki maŋŋilit|\d+[.,]?\d* jandor maŋŋilit|\d+[.,]?\d* manotbadji arat|\d+[.,]?\d* vahkku maŋŋilit|\d+[.,]?\d* jahki maŋŋilit|\d+[.,]?\d* vahku maŋŋilit|\d+[.,]?\d* minuhtta arat|\d+[.,]?\d* sekundda arat|\d+[.,]?\d* diibmur arat|\d+[.,]?\d* jandora arat|\d+[.,]?\d* minuhta arat|\d+[.,]?\d* sekunda arat|\d+[.,]?\d* diibmu arat|\d+[.,]?\d* jahkki arat|\d+[.,]?\d* jandor arat|\d+[.,]?\d* vahkku arat|\d+[.,]?\d* jahki arat|\d+[.,]?\d* vahku arat)$");
    ld_known := [lit "eahketbeaivet";
    lit "ođđajagemannu";
    lit "eahketbeaivi";
    lit "golggotmannu";
    lit "suoidnemannu";
    lit "gaskavahkku";
    lit "geassemannu";
    lit "guovvamannu";
    lit "iđitbeaivet";
    lit "juovlamannu";
    lit "miessemannu";
    lit "njukcamannu";
    lit "skabmamannu";
    lit "sotnabeaivi";
    lit "this minute";
    lit "borgemannu";
    lit "cakcamannu";
    lit "cuoŋomannu";
    lit "iđitbeaivi";
    lit "last month";
    lit "maŋŋebarga";
    lit "next month";
    lit "this month";
    lit "bearjadat";
    lit "duorasdat";
    lit "last week";
    lit "last year";
    lit "lavvardat";
    lit "next week";
    lit "next year";
    lit "this hour";
    lit "this week";
    lit "this year";
    lit "vuossarga";
    lit "minuhtta";
    lit "sekunda";
    lit "beaivi";
    lit "diibmu";
    lit "ihttin";
    lit "vahkku";
    lit "jahki";
    lit "mannu";
    lit "bear";
    lit "borg";
    lit "cakc";
    lit "duor";
    lit "gask";
    lit "geas";
    lit "golg";
    lit "guov";
    lit "ikte";
    lit "juov";
    lit "mies";
    lit "njuk";
    lit "odne";
    lit "ođđj";
    lit "skab";
    lit "sotn";
    lit "suoi";
    lit "vuos";
    lit "cuo";
    lit "gmt";
    lit "lav";
    lit "maŋ";
    lit "now";
    lit "utc";
    lit "am";
    lit "eb";
    lit "ib";
    lit "pm";
    lit " ";
    lit "'";
    lit "+";
    lit ",";
    lit "-";
    lit ".";
    lit "/";
    lit ":";
    lit ";";
    lit "@";
    lit "[";
    lit "]";
    lit "z";
    lit "|"] |}.

(** se.go:139-163 *)
Definition own_se_FI : locale := Eval vm_compute in
  {| ld_name := lit "se-FI"; ld_order := lit "YMD"; ld_nospacing := false; ld_splitter := 0;
    ld_charset := runes (lit "");
    ld_abbr := [];
    ld_simpl := [];
    ld_trans := [(lit "maŋŋebargga", [lit "tuesday"]);
    (lit "bearjadaga", [lit "friday"]);
    (lit "duorastaga", [lit "thursday"]);
    (lit "gaskavahku", [lit "wednesday"]);
    (lit "lavvardaga", [lit "saturday"]);
    (lit "vuossargga", [lit "monday"]);
    (lit "j", [lit "year"])];
    ld_reltype := [(lit "boahtte jagi", lit "in 1 year");
    (lit "mannan jagi", lit "1 year ago");
    (lit "dan jagi", lit "0 year ago")];
    ld_relrx := [(rx "(?i)(\d+[.,]?\d*) jagi siste", lit "in $1 year");
    (rx "(?i)(\d+[.,]?\d*) jagi arat", lit "$1 year ago")];
    ld_rx := Some (rx "(?i)(\A|[^\pL\pM\d]|_)(\d+[.,]?\d* manotbadji maŋŋilit|\d+[.,]?\d* minuhtta maŋŋilit|\d+[.,]?\d* sekundda maŋŋilit|\d+[.,]?\d* diibmur maŋŋilit|\d+[.,]?\d* jandora maŋŋilit|\d+[.,]?\d* minuhta maŋŋilit|\d+[.,]?\d* sekunda maŋŋilit|\d+[.,]?\d* diibmu maŋŋilit|\d+[.,]?\d* jahkki maŋŋilit|\d+[.,]?\d* jandor maŋŋilit|\d+[.,]?\d* manotbadji arat|\d+[.,]?\d* vahkku maŋŋilit|\d+[.,]?\d* jahki maŋŋilit|\d+[.,]?\d* vahku maŋŋilit|\d+[.,]?\d* minuhtta arat|\d+[.,]?\d* sekundda arat|\d+[.,]?\d* diibmur arat|\d+[.,]?\d* jandora arat|\d+[.,]?\d* minuhta arat|\d+[.,]?\d* sekunda arat|\d+[.,]?\d* diibmu arat|\d+[.,]?\d* jahkki arat|\d+[.,]?\d* jandor arat|\d+[.,]?\d* vahkku arat|\d+[.,]?\d* jagi siste|\d+[.,]?\d* jahki arat|\d+[.,]?\d* vahku arat|\d+[.,]?\d* jagi arat)(\z|[^\pL\pM\d]|_)");
    ld_rx_exact := Some (rx "(?i)^(\d+[.,]?\d* manotbadji maŋŋilit|\d+[.,]?\d* minuhtta maŋŋilit|\d+[.,]?\d* sekundda maŋŋilit|\d+[.,]?\d* diibmur maŋŋilit|\d+[.,]?\d* jandora maŋŋilit|\d+[.,]?\d* minuhta maŋŋilit|\d+[.,]?\d* sekunda maŋŋilit|\d+[.,]?\d* diibmu maŋŋilit|\d+[.,]?\d* jahkki maŋŋilit|\d+[.,]?\d* jandor maŋŋilit|\d+[.,]?\d* manotbadji arat|\d+[.,]?\d* vahkku maŋŋilit|\d+[.,]?\d* jahki maŋŋilit|\d+[.,]?\d* vahku maŋŋilit|\d+[.,]?\d* minuhtta arat|\d+[.,]?\d* sekundda arat|\d+[.,]?\d* diibmur arat|\d+[.,]?\d* jandora arat|\d+[.,]?\d* minuhta arat|\d+[.,]?\d* sekunda arat|\d+[.,]?\d* diibmu arat|\d+[.,]?\d* jahkki arat|\d+[.,]?\d* jandor arat|\d+[.,]?\d* vahkku arat|\d+[.,]?\d* jagi siste|\d+[.,]?\d* jahki arat|\d+[.,]?\d* vahku arat|\d+[.,]?\d* jagi arat)$");
    ld_known := [lit "eahketbeaivet";
    lit "ođđajagemannu";
    lit "boahtte jagi";
    lit "eahketbeaivi";
    lit "golggotmannu";
    lit "suoidnemannu";
    lit "gaskavahkku";
    lit "geassemannu";
    lit "guovvamannu";
    lit "iđitbeaivet";
    lit "juovlamannu";
    lit "mannan jagi";
    lit "maŋŋebargga";
    lit "miessemannu";
    lit "njukcamannu";
    lit "skabmamannu";
    lit "sotnabeaivi";
    lit "this minute";
    lit "bearjadaga";
    lit "borgemannu";
    lit "cakcamannu";
    lit "cuoŋomannu";
    lit "duorastaga";
    lit "gaskavahku";
    lit "iđitbeaivi";
    lit "last month";
    lit "lavvardaga";
    lit "maŋŋebarga";
    lit "next month";
    lit "this month";
    lit "vuossargga";
    lit "bearjadat";
    lit "duorasdat";
    lit "last week";
    lit "last year";
    lit "lavvardat";
    lit "next week";
    lit "next year";
    lit "this hour";
    lit "this week";
    lit "this year";
    lit "vuossarga";
    lit "dan jagi";
    lit "minuhtta";
    lit "sekunda";
    lit "beaivi";
    lit "diibmu";
    lit "ihttin";
    lit "vahkku";
    lit "jahki";
    lit "mannu";
    lit "bear";
    lit "borg";
    lit "cakc";
    lit "duor";
    lit "gask";
    lit "geas";
    lit "golg";
    lit "guov";
    lit "ikte";
    lit "juov";
    lit "mies";
    lit "njuk";
    lit "odne";
    lit "ođđj";
    lit "skab";
    lit "sotn";
    lit "suoi";
    lit "vuos";
    lit "cuo";
    lit "gmt";
    lit "lav";
    lit "maŋ";
    lit "now";
    lit "utc";
    lit "am";
    lit "eb";
    lit "ib";
    lit "pm";
    lit " ";
    lit "'";
    lit "+";
    lit ",";
    lit "-";
    lit ".";
    lit "/";
    lit ":";
    lit ";";
    lit "@";
    lit "[";
    lit "]";
    lit "j";
    lit "z";
    lit "|"] |}.
Definition loc_se_FI : locale := merge loc_se own_se_FI.

(** se.go:165-168 *)
Definition own_se_SE : locale := Eval vm_compute in
  {| ld_name := lit "se-SE"; ld_order := lit "YMD"; ld_nospacing := false; ld_splitter := 0;
    ld_charset := runes (lit "");
    ld_abbr := [];
    ld_simpl := [];
    ld_trans := [];
    ld_reltype := [];
    ld_relrx := [];
    ld_rx := None;
    ld_rx_exact := None;
    ld_known := [] |}.
Definition loc_se_SE : locale := merge loc_se own_se_SE.

(** seh.go:10-97 *)
Definition loc_seh : locale := Eval vm_compute in
  {| ld_name := lit "seh"; ld_order := lit "DMY"; ld_nospacing := false; ld_splitter := 0;
    ld_charset := runes (lit "bcdefghijklnorstuvwxyz");
    ld_abbr := [];
    ld_simpl := [];
    ld_trans := [(lit "chishanu", [lit "friday"]);
    (lit "decembro", [lit "december"]);
    (lit "fevreiro", [lit "february"]);
    (lit "novembro", [lit "november"]);
    (lit "setembro", [lit "september"]);
    (lit "augusto", [lit "august"]);
    (lit "chipiri", [lit "tuesday"]);
    (lit "chiposi", [lit "monday"]);
    (lit "chitatu", [lit "wednesday"]);
    (lit "dimingu", [lit "sunday"]);
    (lit "janeiro", [lit "january"]);
    (lit "segundo", [lit "second"]);
    (lit "chinai", [lit "thursday"]);
    (lit "minuto", [lit "minute"]);
    (lit "ntsiku", [lit "day"]);
    (lit "otubro", [lit "october"]);
    (lit "sabudu", [lit "saturday"]);
    (lit "abril", [lit "april"]);
    (lit "chaka", [lit "year"]);
    (lit "julho", [lit "july"]);
    (lit "junho", [lit "june"]);
    (lit "marco", [lit "march"]);
    (lit "mwezi", [lit "month"]);
    (lit "hora", [lit "hour"]);
    (lit "maio", [lit "may"]);
    (lit "week", [lit "week"]);
    (lit "abr", [lit "april"]);
    (lit "aug", [lit "august"]);
    (lit "dec", [lit "december"]);
    (lit "dim", [lit "sunday"]);
    (lit "fev", [lit "february"]);
    (lit "gmt", [lit "gmt"]);
    (lit "jan", [lit "january"]);
    (lit "jul", [lit "july"]);
    (lit "jun", [lit "june"]);
    (lit "mai", [lit "may"]);
    (lit "mar", [lit "march"]);
    (lit "nai", [lit "thursday"]);
    (lit "nov", [lit "november"]);
    (lit "otu", [lit "october"]);
    (lit "pir", [lit "tuesday"]);
    (lit "pos", [lit "monday"]);
    (lit "sab", [lit "saturday"]);
    (lit "set", [lit "september"]);
    (lit "sha", [lit "friday"]);
    (lit "tat", [lit "wednesday"]);
    (lit "utc", [lit "utc"]);
    (lit "am", [lit "am"]);
    (lit "pm", [lit "pm"]);
    (lit " ", [lit " "]);
    (lit "'", [lit ""]);
    (lit "+", [lit "+"]);
    (lit ",", [lit ""]);
    (lit "-", [lit "-"]);
    (lit ".", [lit "."]);
    (lit "/", [lit "/"]);
    (lit ":", [lit ":"]);
    (lit ";", [lit ""]);
    (lit "@", [lit ""]);
    (lit "[", [lit ""]);
    (lit "]", [lit ""]);
    (lit "z", [lit "z"]);
    (lit "|", [lit ""])];
    ld_reltype := [(lit "this minute", lit "0 minute ago");
    (lit "last month", lit "1 month ago");
    (lit "next month", lit "in 1 month");
    (lit "this month", lit "0 month ago");
    (lit "last week", lit "1 week ago");
    (lit "last year", lit "1 year ago");
    (lit "next week", lit "in 1 week");
    (lit "next year", lit "in 1 year");
    (lit "this hour", lit "0 hour ago");
    (lit "this week", lit "0 week ago");
    (lit "this year", lit "0 year ago");
    (lit "manguana", lit "in 1 day");
    (lit "lero", lit "0 day ago");
    (lit "zuro", lit "1 day ago");
    (lit "now", lit "0 second ago")];
    ld_relrx := [];
    ld_rx := None;
    ld_rx_exact := None;
    ld_known := [lit "this minute";
    lit "last month";
    lit "next month";
    lit "this month";
    lit "last week";
    lit "last year";
    lit "next week";
    lit "next year";
    lit "this hour";
    lit "this week";
    lit "this year";
    lit "chishanu";
    lit "decembro";
    lit "fevreiro";
    lit "manguana";
    lit "novembro";
    lit "setembro";
    lit "augusto";
    lit "chipiri";
    lit "chiposi";
    lit "chitatu";
    lit "dimingu";
    lit "janeiro";
    lit "segundo";
    lit "chinai";
    lit "minuto";
    lit "ntsiku";
    lit "otubro";
    lit "sabudu";
    lit "abril";
    lit "chaka";
    lit "julho";
    lit "junho";
    lit "marco";
    lit "mwezi";
    lit "hora";
    lit "lero";
    lit "maio";
    lit "week";
    lit "zuro";
    lit "abr";
    lit "aug";
    lit "dec";
    lit "dim";
    lit "fev";
    lit "gmt";
    lit "jan";
    lit "jul";
    lit "jun";
    lit "mai";
    lit "mar";
    lit "nai";
    lit "nov";
    lit "now";
    lit "otu";
    lit "pir";
    lit "pos";
    lit "sab";
    lit "set";
    lit "sha";
    lit "tat";
    lit "utc";
    lit "am";
    lit "pm";
    lit " ";
    lit "'";
    lit "+";
    lit ",";
    lit "-";
    lit ".";
    lit "/";
    lit ":";
    lit ";";
    lit "@";
    lit "[";
    lit "]";
    lit "z";
    lit "|"] |}.

(** ses.go:10-97 *)
Definition loc_ses : locale := Eval vm_compute in
  {| ld_name := lit "ses"; ld_order := lit "DMY"; ld_nospacing := false; ld_splitter := 0;
    ld_charset := runes (lit "bcdefghijklnorstuwxyzõŋž");
    ld_abbr := [];
    ld_simpl := [];
    ld_trans := [(lit "alhamiisa", [lit "thursday"]);
    (lit "deesanbur", [lit "december"]);
    (lit "feewiriye", [lit "february"]);
    (lit "noowanbur", [lit "november"]);
    (lit "sektanbur", [lit "september"]);
    (lit "atalaata", [lit "tuesday"]);
    (lit "oktoobur", [lit "october"]);
    (lit "zanwiye", [lit "january"]);
    (lit "adduha", [lit "am"]);
    (lit "alarba", [lit "wednesday"]);
    (lit "alhadi", [lit "sunday"]);
    (lit "aluula", [lit "pm"]);
    (lit "alzuma", [lit "friday"]);
    (lit "asibti", [lit "saturday"]);
    (lit "atinni", [lit "monday"]);
    (lit "awiril", [lit "april"]);
    (lit "miniti", [lit "minute"]);
    (lit "guuru", [lit "hour"]);
    (lit "handu", [lit "month"]);
    (lit "jiiri", [lit "year"]);
    (lit "marsi", [lit "march"]);
    (lit "zaari", [lit "day"]);
    (lit "zuweŋ", [lit "june"]);
    (lit "zuyye", [lit "july"]);
    (lit "hebu", [lit "week"]);
    (lit "miti", [lit "second"]);
    (lit "ala", [lit "wednesday"]);
    (lit "alh", [lit "sunday"]);
    (lit "alm", [lit "thursday"]);
    (lit "alz", [lit "friday"]);
    (lit "asi", [lit "saturday"]);
    (lit "ata", [lit "tuesday"]);
    (lit "ati", [lit "monday"]);
    (lit "awi", [lit "april"]);
    (lit "dee", [lit "december"]);
    (lit "fee", [lit "february"]);
    (lit "gmt", [lit "gmt"]);
    (lit "mar", [lit "march"]);
    (lit "noo", [lit "november"]);
    (lit "okt", [lit "october"]);
    (lit "sek", [lit "september"]);
    (lit "utc", [lit "utc"]);
    (lit "zan", [lit "january"]);
    (lit "zuw", [lit "june"]);
    (lit "zuy", [lit "july"]);
    (lit "am", [lit "am"]);
    (lit "me", [lit "may"]);
    (lit "pm", [lit "pm"]);
    (lit "ut", [lit "august"]);
    (lit " ", [lit " "]);
    (lit "'", [lit ""]);
    (lit "+", [lit "+"]);
    (lit ",", [lit ""]);
    (lit "-", [lit "-"]);
    (lit ".", [lit "."]);
    (lit "/", [lit "/"]);
    (lit ":", [lit ":"]);
    (lit ";", [lit ""]);
    (lit "@", [lit ""]);
    (lit "[", [lit ""]);
    (lit "]", [lit ""]);
    (lit "z", [lit "z"]);
    (lit "|", [lit ""])];
    ld_reltype := [(lit "this minute", lit "0 minute ago");
    (lit "last month", lit "1 month ago");
    (lit "next month", lit "in 1 month");
    (lit "this month", lit "0 month ago");
    (lit "last week", lit "1 week ago");
    (lit "last year", lit "1 year ago");
    (lit "next week", lit "in 1 week");
    (lit "next year", lit "in 1 year");
    (lit "this hour", lit "0 hour ago");
    (lit "this week", lit "0 week ago");
    (lit "this year", lit "0 year ago");
    (lit "suba", lit "in 1 day");
    (lit "hoo", lit "0 day ago");
    (lit "now", lit "0 second ago");
    (lit "bi", lit "1 day ago")];
    ld_relrx := [];
    ld_rx := None;
    ld_rx_exact := None;
    ld_known := [lit "this minute";
    lit "last month";
    lit "next month";
    lit "this month";
    lit "alhamiisa";
    lit "deesanbur";
    lit "feewiriye";
    lit "last week";
    lit "last year";
    lit "next week";
    lit "next year";
    lit "noowanbur";
    lit "sektanbur";
    lit "this hour";
    lit "this week";
    lit "this year";
    lit "atalaata";
    lit "oktoobur";
    lit "zanwiye";
    lit "adduha";
    lit "alarba";
    lit "alhadi";
    lit "aluula";
    lit "alzuma";
    lit "asibti";
    lit "atinni";
    lit "awiril";
    lit "miniti";
    lit "guuru";
    lit "handu";
    lit "jiiri";
    lit "marsi";
    lit "zaari";
    lit "zuweŋ";
    lit "zuyye";
    lit "hebu";
    lit "miti";
    lit "suba";
    lit "ala";
    lit "alh";
    lit "alm";
    lit "alz";
    lit "asi";
    lit "ata";
    lit "ati";
    lit "awi";
    lit "dee";
    lit "fee";
    lit "gmt";
    lit "hoo";
    lit "mar";
    lit "noo";
    lit "now";
    lit "okt";
    lit "sek";
    lit "utc";
    lit "zan";
    lit "zuw";
    lit "zuy";
    lit "am";
    lit "bi";
    lit "me";
    lit "pm";
    lit "ut";
    lit " ";
    lit "'";
    lit "+";
    lit ",";
    lit "-";
    lit ".";
    lit "/";
    lit ":";
    lit ";";
    lit "@";
    lit "[";
    lit "]";
    lit "z";
    lit "|"] |}.

(** sg.go:10-98 *)
Definition loc_sg : locale := Eval vm_compute in
  {| ld_name := lit "sg"; ld_order := lit "DMY"; ld_nospacing := false; ld_splitter := 0;
    ld_charset := runes (lit "-bcdefghiklnorstuvwxyzâäêîïôöùûü");
    ld_abbr := [];
    ld_simpl := [];
    ld_trans := [(lit "nduru ngbonga", [lit "minute"]);
    (lit "nzina ngbonga", [lit "second"]);
    (lit "bikua-usio", [lit "wednesday"]);
    (lit "bikua-oko", [lit "sunday"]);
    (lit "bikua-oku", [lit "thursday"]);
    (lit "bikua-pta", [lit "tuesday"]);
    (lit "bikua-use", [lit "monday"]);
    (lit "fulundigi", [lit "february"]);
    (lit "nabanduru", [lit "november"]);
    (lit "ngberere", [lit "october"]);
    (lit "kakauka", [lit "december"]);
    (lit "layenga", [lit "saturday"]);
    (lit "ngbonga", [lit "hour"]);
    (lit "belawu", [lit "may"]);
    (lit "dimasi", [lit "week"]);
    (lit "kukuru", [lit "august"]);
    (lit "laposo", [lit "friday"]);
    (lit "lengua", [lit "july"]);
    (lit "mbangu", [lit "march"]);
    (lit "ngubue", [lit "april"]);
    (lit "nyenye", [lit "january"]);
    (lit "fondo", [lit "june"]);
    (lit "mvuka", [lit "september"]);
    (lit "bel", [lit "may"]);
    (lit "bk1", [lit "sunday"]);
    (lit "bk2", [lit "monday"]);
    (lit "bk3", [lit "tuesday"]);
    (lit "bk4", [lit "wednesday"]);
    (lit "bk5", [lit "thursday"]);
    (lit "fon", [lit "june"]);
    (lit "ful", [lit "february"]);
    (lit "gmt", [lit "gmt"]);
    (lit "kak", [lit "december"]);
    (lit "kuk", [lit "august"]);
    (lit "lap", [lit "friday"]);
    (lit "lay", [lit "saturday"]);
    (lit "len", [lit "july"]);
    (lit "mba", [lit "march"]);
    (lit "mvu", [lit "september"]);
    (lit "nab", [lit "november"]);
    (lit "ngb", [lit "october"]);
    (lit "ngu", [lit "year"; lit "april"]);
    (lit "nye", [lit "january"]);
    (lit "nze", [lit "month"]);
    (lit "utc", [lit "utc"]);
    (lit "am", [lit "am"]);
    (lit "la", [lit "day"]);
    (lit "lk", [lit "pm"]);
    (lit "nd", [lit "am"]);
    (lit "pm", [lit "pm"]);
    (lit " ", [lit " "]);
    (lit "'", [lit ""]);
    (lit "+", [lit "+"]);
    (lit ",", [lit ""]);
    (lit "-", [lit "-"]);
    (lit ".", [lit "."]);
    (lit "/", [lit "/"]);
    (lit ":", [lit ":"]);
    (lit ";", [lit ""]);
    (lit "@", [lit ""]);
    (lit "[", [lit ""]);
    (lit "]", [lit ""]);
    (lit "z", [lit "z"]);
    (lit "|", [lit ""])];
    ld_reltype := [(lit "this minute", lit "0 minute ago");
    (lit "last month", lit "1 month ago");
    (lit "next month", lit "in 1 month");
    (lit "this month", lit "0 month ago");
    (lit "last week", lit "1 week ago");
    (lit "last year", lit "1 year ago");
    (lit "next week", lit "in 1 week");
    (lit "next year", lit "in 1 year");
    (lit "this hour", lit "0 hour ago");
    (lit "this week", lit "0 week ago");
    (lit "this year", lit "0 year ago");
    (lit "kekereke", lit "in 1 day");
    (lit "biri", lit "1 day ago");
    (lit "laso", lit "0 day ago");
    (lit "now", lit "0 second ago")];
    ld_relrx := [];
    ld_rx := None;
    ld_rx_exact := None;
    ld_known := [lit "nduru ngbonga";
    lit "nzina ngbonga";
    lit "this minute";
    lit "bikua-usio";
    lit "last month";
    lit "next month";
    lit "this month";
    lit "bikua-oko";
    lit "bikua-oku";
    lit "bikua-pta";
    lit "bikua-use";
    lit "fulundigi";
    lit "last week";
    lit "last year";
    lit "nabanduru";
    lit "next week";
    lit "next year";
    lit "this hour";
    lit "this week";
    lit "this year";
    lit "kekereke";
    lit "ngberere";
    lit "kakauka";
    lit "layenga";
    lit "ngbonga";
    lit "belawu";
    lit "dimasi";
    lit "kukuru";
    lit "laposo";
    lit "lengua";
    lit "mbangu";
    lit "ngubue";
    lit "nyenye";
    lit "fondo";
    lit "mvuka";
    lit "biri";
    lit "laso";
    lit "bel";
    lit "bk1";
    lit "bk2";
    lit "bk3";
    lit "bk4";
    lit "bk5";
    lit "fon";
    lit "ful";
    lit "gmt";
    lit "kak";
    lit "kuk";
    lit "lap";
    lit "lay";
    lit "len";
    lit "mba";
    lit "mvu";
    lit "nab";
    lit "ngb";
    lit "ngu";
    lit "now";
    lit "nye";
    lit "nze";
    lit "utc";
    lit "am";
    lit "la";
    lit "lk";
    lit "nd";
    lit "pm";
    lit " ";
    lit "'";
    lit "+";
    lit ",";
    lit "-";
    lit ".";
    lit "/";
    lit ":";
    lit ";";
    lit "@";
    lit "[";
    lit "]";
    lit "z";
    lit "|"] |}.

(** shi-latn.go:10-99 *)
Definition loc_shi_Latn : locale := Eval vm_compute in
  {| ld_name := lit "shi-Latn"; ld_order := lit "DMY"; ld_nospacing := false; ld_splitter := 0;
    ld_charset := runes (lit "bcdefghijklnorstuwxyzɣḍṛṣ");
    ld_abbr := [];
    ld_simpl := [];
    ld_trans := [(lit "cutanbir", [lit "september"]);
    (lit "dujanbir", [lit "december"]);
    (lit "nuwanbir", [lit "november"]);
    (lit "tadggwat", [lit "pm"]);
    (lit "asggwas", [lit "year"]);
    (lit "asidyas", [lit "saturday"]);
    (lit "asimwas", [lit "friday"]);
    (lit "imalass", [lit "week"]);
    (lit "tasragt", [lit "hour"]);
    (lit "tusdidt", [lit "minute"]);
    (lit "asamas", [lit "sunday"]);
    (lit "asinas", [lit "tuesday"]);
    (lit "innayr", [lit "january"]);
    (lit "tasint", [lit "second"]);
    (lit "tifawt", [lit "am"]);
    (lit "yulyuz", [lit "july"]);
    (lit "akras", [lit "wednesday"]);
    (lit "akwas", [lit "thursday"]);
    (lit "aynas", [lit "monday"]);
    (lit "ayyur", [lit "month"]);
    (lit "brayr", [lit "february"]);
    (lit "ibrir", [lit "april"]);
    (lit "ktubr", [lit "october"]);
    (lit "mayyu", [lit "may"]);
    (lit "yunyu", [lit "june"]);
    (lit "asid", [lit "saturday"]);
    (lit "asim", [lit "friday"]);
    (lit "mars", [lit "march"]);
    (lit "ɣuct", [lit "august"]);
    (lit "akr", [lit "wednesday"]);
    (lit "akw", [lit "thursday"]);
    (lit "asa", [lit "sunday"]);
    (lit "asi", [lit "tuesday"]);
    (lit "ass", [lit "day"]);
    (lit "ayn", [lit "monday"]);
    (lit "bra", [lit "february"]);
    (lit "cut", [lit "september"]);
    (lit "duj", [lit "december"]);
    (lit "gmt", [lit "gmt"]);
    (lit "ibr", [lit "april"]);
    (lit "inn", [lit "january"]);
    (lit "ktu", [lit "october"]);
    (lit "mar", [lit "march"]);
    (lit "may", [lit "may"]);
    (lit "nuw", [lit "november"]);
    (lit "utc", [lit "utc"]);
    (lit "yul", [lit "july"]);
    (lit "yun", [lit "june"]);
    (lit "ɣuc", [lit "august"]);
    (lit "am", [lit "am"]);
    (lit "pm", [lit "pm"]);
    (lit " ", [lit " "]);
    (lit "'", [lit ""]);
    (lit "+", [lit "+"]);
    (lit ",", [lit ""]);
    (lit "-", [lit "-"]);
    (lit ".", [lit "."]);
    (lit "/", [lit "/"]);
    (lit ":", [lit ":"]);
    (lit ";", [lit ""]);
    (lit "@", [lit ""]);
    (lit "[", [lit ""]);
    (lit "]", [lit ""]);
    (lit "z", [lit "z"]);
    (lit "|", [lit ""])];
    ld_reltype := [(lit "this minute", lit "0 minute ago");
    (lit "last month", lit "1 month ago");
    (lit "next month", lit "in 1 month");
    (lit "this month", lit "0 month ago");
    (lit "last week", lit "1 week ago");
    (lit "last year", lit "1 year ago");
    (lit "next week", lit "in 1 week");
    (lit "next year", lit "in 1 year");
    (lit "this hour", lit "0 hour ago");
    (lit "this week", lit "0 week ago");
    (lit "this year", lit "0 year ago");
    (lit "askka", lit "in 1 day");
    (lit "idlli", lit "1 day ago");
    (lit "assa", lit "0 day ago");
    (lit "now", lit "0 second ago")];
    ld_relrx := [];
    ld_rx := None;
    ld_rx_exact := None;
    ld_known := [lit "this minute";
    lit "last month";
    lit "next month";
    lit "this month";
    lit "last week";
    lit "last year";
    lit "next week";
    lit "next year";
    lit "this hour";
    lit "this week";
    lit "this year";
    lit "cutanbir";
    lit "dujanbir";
    lit "nuwanbir";
    lit "tadggwat";
    lit "asggwas";
    lit "asidyas";
    lit "asimwas";
    lit "imalass";
    lit "tasragt";
    lit "tusdidt";
    lit "asamas";
    lit "asinas";
    lit "innayr";
    lit "tasint";
    lit "tifawt";
    lit "yulyuz";
    lit "akras";
    lit "akwas";
    lit "askka";
    lit "aynas";
    lit "ayyur";
    lit "brayr";
    lit "ibrir";
    lit "idlli";
    lit "ktubr";
    lit "mayyu";
    lit "yunyu";
    lit "asid";
    lit "asim";
    lit "assa";
    lit "mars";
    lit "ɣuct";
    lit "akr";
    lit "akw";
    lit "asa";
    lit "asi";
    lit "ass";
    lit "ayn";
    lit "bra";
    lit "cut";
    lit "duj";
    lit "gmt";
    lit "ibr";
    lit "inn";
    lit "ktu";
    lit "mar";
    lit "may";
    lit "now";
    lit "nuw";
    lit "utc";
    lit "yul";
    lit "yun";
    lit "ɣuc";
    lit "am";
    lit "pm";
    lit " ";
    lit "'";
    lit "+";
    lit ",";
    lit "-";
    lit ".";
    lit "/";
    lit ":";
    lit ";";
    lit "@";
    lit "[";
    lit "]";
    lit "z";
    lit "|"] |}.

(** shi-tfng.go:10-99 *)
Definition loc_shi_Tfng : locale := Eval vm_compute in
  {| ld_name := lit "shi-Tfng"; ld_order := lit "DMY"; ld_nospacing := false; ld_splitter := 0;
    ld_charset := runes (lit "ceghiklnorstuwxyzⴰⴱⴳⴷⴹⴼⴽⵉⵊⵍⵎⵏⵓⵔⵕⵖⵙⵚⵛⵜⵡⵢⵣ");
    ld_abbr := [];
    ld_simpl := [];
    ld_trans := [(lit "ⴷⵓⵊⴰⵏⴱⵉⵔ", [lit "december"]);
    (lit "ⵏⵓⵡⴰⵏⴱⵉⵔ", [lit "november"]);
    (lit "ⵛⵓⵜⴰⵏⴱⵉⵔ", [lit "september"]);
    (lit "ⵜⴰⴷⴳⴳⵡⴰⵜ", [lit "pm"]);
    (lit "ⴰⵙⴳⴳⵡⴰⵙ", [lit "year"]);
    (lit "ⴰⵙⵉⴹⵢⴰⵙ", [lit "saturday"]);
    (lit "ⵉⵎⴰⵍⴰⵙⵙ", [lit "week"]);
    (lit "ⵜⴰⵙⵔⴰⴳⵜ", [lit "hour"]);
    (lit "ⵜⵓⵙⴷⵉⴷⵜ", [lit "minute"]);
    (lit "ⴰⵙⴰⵎⴰⵙ", [lit "sunday"]);
    (lit "ⴰⵙⵉⵏⴰⵙ", [lit "tuesday"]);
    (lit "ⵉⵏⵏⴰⵢⵔ", [lit "january"]);
    (lit "ⵙⵉⵎⵡⴰⵙ", [lit "friday"]);
    (lit "ⵜⴰⵙⵉⵏⵜ", [lit "second"]);
    (lit "ⵜⵉⴼⴰⵡⵜ", [lit "am"]);
    (lit "ⵢⵓⵍⵢⵓⵣ", [lit "july"]);
    (lit "ⴰⴽⵕⴰⵙ", [lit "wednesday"]);
    (lit "ⴰⴽⵡⴰⵙ", [lit "thursday"]);
    (lit "ⴰⵢⵏⴰⵙ", [lit "monday"]);
    (lit "ⴰⵢⵢⵓⵔ", [lit "month"]);
    (lit "ⴱⵕⴰⵢⵕ", [lit "february"]);
    (lit "ⴽⵜⵓⴱⵔ", [lit "october"]);
    (lit "ⵉⴱⵔⵉⵔ", [lit "april"]);
    (lit "ⵎⴰⵢⵢⵓ", [lit "may"]);
    (lit "ⵢⵓⵏⵢⵓ", [lit "june"]);
    (lit "ⴰⵙⵉⴹ", [lit "saturday"]);
    (lit "ⴰⵙⵉⵎ", [lit "friday"]);
    (lit "ⵎⴰⵕⵚ", [lit "march"]);
    (lit "ⵖⵓⵛⵜ", [lit "august"]);
    (lit "gmt", [lit "gmt"]);
    (lit "utc", [lit "utc"]);
    (lit "ⴰⴽⵕ", [lit "wednesday"]);
    (lit "ⴰⴽⵡ", [lit "thursday"]);
    (lit "ⴰⵙⴰ", [lit "sunday"]);
    (lit "ⴰⵙⵉ", [lit "tuesday"]);
    (lit "ⴰⵙⵙ", [lit "day"]);
    (lit "ⴰⵢⵏ", [lit "monday"]);
    (lit "ⴱⵕⴰ", [lit "february"]);
    (lit "ⴷⵓⵊ", [lit "december"]);
    (lit "ⴽⵜⵓ", [lit "october"]);
    (lit "ⵉⴱⵔ", [lit "april"]);
    (lit "ⵉⵏⵏ", [lit "january"]);
    (lit "ⵎⴰⵕ", [lit "march"]);
    (lit "ⵎⴰⵢ", [lit "may"]);
    (lit "ⵏⵓⵡ", [lit "november"]);
    (lit "ⵖⵓⵛ", [lit "august"]);
    (lit "ⵛⵓⵜ", [lit "september"]);
    (lit "ⵢⵓⵍ", [lit "july"]);
    (lit "ⵢⵓⵏ", [lit "june"]);
    (lit "am", [lit "am"]);
    (lit "pm", [lit "pm"]);
    (lit " ", [lit " "]);
    (lit "'", [lit ""]);
    (lit "+", [lit "+"]);
    (lit ",", [lit ""]);
    (lit "-", [lit "-"]);
    (lit ".", [lit "."]);
    (lit "/", [lit "/"]);
    (lit ":", [lit ":"]);
    (lit ";", [lit ""]);
    (lit "@", [lit ""]);
    (lit "[", [lit ""]);
    (lit "]", [lit ""]);
    (lit "z", [lit "z"]);
    (lit "|", [lit ""])];
    ld_reltype := [(lit "this minute", lit "0 minute ago");
    (lit "last month", lit "1 month ago");
    (lit "next month", lit "in 1 month");
    (lit "this month", lit "0 month ago");
    (lit "last week", lit "1 week ago");
    (lit "last year", lit "1 year ago");
    (lit "next week", lit "in 1 week");
    (lit "next year", lit "in 1 year");
    (lit "this hour", lit "0 hour ago");
    (lit "this week", lit "0 week ago");
    (lit "this year", lit "0 year ago");
    (lit "ⴰⵙⴽⴽⴰ", lit "in 1 day");
    (lit "ⵉⴹⵍⵍⵉ", lit "1 day ago");
    (lit "ⴰⵙⵙⴰ", lit "0 day ago");
    (lit "now", lit "0 second ago")];
    ld_relrx := [];
    ld_rx := None;
    ld_rx_exact := None;
    ld_known := [lit "this minute";
    lit "last month";
    lit "next month";
    lit "this month";
    lit "last week";
    lit "last year";
    lit "next week";
    lit "next year";
    lit "this hour";
    lit "this week";
    lit "this year";
    lit "ⴷⵓⵊⴰⵏⴱⵉⵔ";
    lit "ⵏⵓⵡⴰⵏⴱⵉⵔ";
    lit "ⵛⵓⵜⴰⵏⴱⵉⵔ";
    lit "ⵜⴰⴷⴳⴳⵡⴰⵜ";
    lit "ⴰⵙⴳⴳⵡⴰⵙ";
    lit "ⴰⵙⵉⴹⵢⴰⵙ";
    lit "ⵉⵎⴰⵍⴰⵙⵙ";
    lit "ⵜⴰⵙⵔⴰⴳⵜ";
    lit "ⵜⵓⵙⴷⵉⴷⵜ";
    lit "ⴰⵙⴰⵎⴰⵙ";
    lit "ⴰⵙⵉⵏⴰⵙ";
    lit "ⵉⵏⵏⴰⵢⵔ";
    lit "ⵙⵉⵎⵡⴰⵙ";
    lit "ⵜⴰⵙⵉⵏⵜ";
    lit "ⵜⵉⴼⴰⵡⵜ";
    lit "ⵢⵓⵍⵢⵓⵣ";
    lit "ⴰⴽⵕⴰⵙ";
    lit "ⴰⴽⵡⴰⵙ";
    lit "ⴰⵙⴽⴽⴰ";
    lit "ⴰⵢⵏⴰⵙ";
    lit "ⴰⵢⵢⵓⵔ";
    lit "ⴱⵕⴰⵢⵕ";
    lit "ⴽⵜⵓⴱⵔ";
    lit "ⵉⴱⵔⵉⵔ";
    lit "ⵉⴹⵍⵍⵉ";
    lit "ⵎⴰⵢⵢⵓ";
    lit "ⵢⵓⵏⵢⵓ";
    lit "ⴰⵙⵉⴹ";
    lit "ⴰⵙⵉⵎ";
    lit "ⴰⵙⵙⴰ";
    lit "ⵎⴰⵕⵚ";
    lit "ⵖⵓⵛⵜ";
    lit "gmt";
    lit "now";
    lit "utc";
    lit "ⴰⴽⵕ";
    lit "ⴰⴽⵡ";
    lit "ⴰⵙⴰ";
    lit "ⴰⵙⵉ";
    lit "ⴰⵙⵙ";
    lit "ⴰⵢⵏ";
    lit "ⴱⵕⴰ";
    lit "ⴷⵓⵊ";
    lit "ⴽⵜⵓ";
    lit "ⵉⴱⵔ";
    lit "ⵉⵏⵏ";
    lit "ⵎⴰⵕ";
    lit "ⵎⴰⵢ";
    lit "ⵏⵓⵡ";
    lit "ⵖⵓⵛ";
    lit "ⵛⵓⵜ";
    lit "ⵢⵓⵍ";
    lit "ⵢⵓⵏ";
    lit "am";
    lit "pm";
    lit " ";
    lit "'";
    lit "+";
    lit ",";
    lit "-";
    lit ".";
    lit "/";
    lit ":";
    lit ";";
    lit "@";
    lit "[";
    lit "]";
    lit "z";
    lit "|"] |}.

(** shi.go:10-99 *)
Definition loc_shi : locale := Eval vm_compute in
  {| ld_name := lit "shi"; ld_order := lit "DMY"; ld_nospacing := false; ld_splitter := 0;
    ld_charset := runes (lit "ceghiklnorstuwxyzⴰⴱⴳⴷⴹⴼⴽⵉⵊⵍⵎⵏⵓⵔⵕⵖⵙⵚⵛⵜⵡⵢⵣ");
    ld_abbr := [];
    ld_simpl := [];
    ld_trans := [(lit "ⴷⵓⵊⴰⵏⴱⵉⵔ", [lit "december"]);
    (lit "ⵏⵓⵡⴰⵏⴱⵉⵔ", [lit "november"]);
    (lit "ⵛⵓⵜⴰⵏⴱⵉⵔ", [lit "september"]);
    (lit "ⵜⴰⴷⴳⴳⵡⴰⵜ", [lit "pm"]);
    (lit "ⴰⵙⴳⴳⵡⴰⵙ", [lit "year"]);
    (lit "ⴰⵙⵉⴹⵢⴰⵙ", [lit "saturday"]);
    (lit "ⵉⵎⴰⵍⴰⵙⵙ", [lit "week"]);
    (lit "ⵜⴰⵙⵔⴰⴳⵜ", [lit "hour"]);
    (lit "ⵜⵓⵙⴷⵉⴷⵜ", [lit "minute"]);
    (lit "ⴰⵙⴰⵎⴰⵙ", [lit "sunday"]);
    (lit "ⴰⵙⵉⵏⴰⵙ", [lit "tuesday"]);
    (lit "ⵉⵏⵏⴰⵢⵔ", [lit "january"]);
    (lit "ⵙⵉⵎⵡⴰⵙ", [lit "friday"]);
    (lit "ⵜⴰⵙⵉⵏⵜ", [lit "second"]);
    (lit "ⵜⵉⴼⴰⵡⵜ", [lit "am"]);
    (lit "ⵢⵓⵍⵢⵓⵣ", [lit "july"]);
    (lit "ⴰⴽⵕⴰⵙ", [lit "wednesday"]);
    (lit "ⴰⴽⵡⴰⵙ", [lit "thursday"]);
    (lit "ⴰⵢⵏⴰⵙ", [lit "monday"]);
    (lit "ⴰⵢⵢⵓⵔ", [lit "month"]);
    (lit "ⴱⵕⴰⵢⵕ", [lit "february"]);
    (lit "ⴽⵜⵓⴱⵔ", [lit "october"]);
    (lit "ⵉⴱⵔⵉⵔ", [lit "april"]);
    (lit "ⵎⴰⵢⵢⵓ", [lit "may"]);
    (lit "ⵢⵓⵏⵢⵓ", [lit "june"]);
    (lit "ⴰⵙⵉⴹ", [lit "saturday"]);
    (lit "ⴰⵙⵉⵎ", [lit "friday"]);
    (lit "ⵎⴰⵕⵚ", [lit "march"]);
    (lit "ⵖⵓⵛⵜ", [lit "august"]);
    (lit "gmt", [lit "gmt"]);
    (lit "utc", [lit "utc"]);
    (lit "ⴰⴽⵕ", [lit "wednesday"]);
    (lit "ⴰⴽⵡ", [lit "thursday"]);
    (lit "ⴰⵙⴰ", [lit "sunday"]);
    (lit "ⴰⵙⵉ", [lit "tuesday"]);
    (lit "ⴰⵙⵙ", [lit "day"]);
    (lit "ⴰⵢⵏ", [lit "monday"]);
    (lit "ⴱⵕⴰ", [lit "february"]);
    (lit "ⴷⵓⵊ", [lit "december"]);
    (lit "ⴽⵜⵓ", [lit "october"]);
    (lit "ⵉⴱⵔ", [lit "april"]);
    (lit "ⵉⵏⵏ", [lit "january"]);
    (lit "ⵎⴰⵕ", [lit "march"]);
    (lit "ⵎⴰⵢ", [lit "may"]);
    (lit "ⵏⵓⵡ", [lit "november"]);
    (lit "ⵖⵓⵛ", [lit "august"]);
    (lit "ⵛⵓⵜ", [lit "september"]);
    (lit "ⵢⵓⵍ", [lit "july"]);
    (lit "ⵢⵓⵏ", [lit "june"]);
    (lit "am", [lit "am"]);
    (lit "pm", [lit "pm"]);
    (lit " ", [lit " "]);
    (lit "'", [lit ""]);
    (lit "+", [lit "+"]);
    (lit ",", [lit ""]);
    (lit "-", [lit "-"]);
    (lit ".", [lit "."]);
    (lit "/", [lit "/"]);
    (lit ":", [lit ":"]);
    (lit ";", [lit ""]);
    (lit "@", [lit ""]);
    (lit "[", [lit ""]);
    (lit "]", [lit ""]);
    (lit "z", [lit "z"]);
    (lit "|", [lit ""])];
    ld_reltype := [(lit "this minute", lit "0 minute ago");
    (lit "last month", lit "1 month ago");
    (lit "next month", lit "in 1 month");
    (lit "this month", lit "0 month ago");
    (lit "last week", lit "1 week ago");
    (lit "last year", lit "1 year ago");
    (lit "next week", lit "in 1 week");
    (lit "next year", lit "in 1 year");
    (lit "this hour", lit "0 hour ago");
    (lit "this week", lit "0 week ago");
    (lit "this year", lit "0 year ago");
    (lit "ⴰⵙⴽⴽⴰ", lit "in 1 day");
    (lit "ⵉⴹⵍⵍⵉ", lit "1 day ago");
    (lit "ⴰⵙⵙⴰ", lit "0 day ago");
    (lit "now", lit "0 second ago")];
    ld_relrx := [];
    ld_rx := None;
    ld_rx_exact := None;
    ld_known := [lit "this minute";
    lit "last month";
    lit "next month";
    lit "this month";
    lit "last week";
    lit "last year";
    lit "next week";
    lit "next year";
    lit "this hour";
    lit "this week";
    lit "this year";
    lit "ⴷⵓⵊⴰⵏⴱⵉⵔ";
    lit "ⵏⵓⵡⴰⵏⴱⵉⵔ";
    lit "ⵛⵓⵜⴰⵏⴱⵉⵔ";
    lit "ⵜⴰⴷⴳⴳⵡⴰⵜ";
    lit "ⴰⵙⴳⴳⵡⴰⵙ";
    lit "ⴰⵙⵉⴹⵢⴰⵙ";
    lit "ⵉⵎⴰⵍⴰⵙⵙ";
    lit "ⵜⴰⵙⵔⴰⴳⵜ";
    lit "ⵜⵓⵙⴷⵉⴷⵜ";
    lit "ⴰⵙⴰⵎⴰⵙ";
    lit "ⴰⵙⵉⵏⴰⵙ";
    lit "ⵉⵏⵏⴰⵢⵔ";
    lit "ⵙⵉⵎⵡⴰⵙ";
    lit "ⵜⴰⵙⵉⵏⵜ";
    lit "ⵜⵉⴼⴰⵡⵜ";
    lit "ⵢⵓⵍⵢⵓⵣ";
    lit "ⴰⴽⵕⴰⵙ";
    lit "ⴰⴽⵡⴰⵙ";
    lit "ⴰⵙⴽⴽⴰ";
    lit "ⴰⵢⵏⴰⵙ";
    lit "ⴰⵢⵢⵓⵔ";
    lit "ⴱⵕⴰⵢⵕ";
    lit "ⴽⵜⵓⴱⵔ";
    lit "ⵉⴱⵔⵉⵔ";
    lit "ⵉⴹⵍⵍⵉ";
    lit "ⵎⴰⵢⵢⵓ";
    lit "ⵢⵓⵏⵢⵓ";
    lit "ⴰⵙⵉⴹ";
    lit "ⴰⵙⵉⵎ";
    lit "ⴰⵙⵙⴰ";
    lit "ⵎⴰⵕⵚ";
    lit "ⵖⵓⵛⵜ";
    lit "gmt";
    lit "now";
    lit "utc";
    lit "ⴰⴽⵕ";
    lit "ⴰⴽⵡ";
    lit "ⴰⵙⴰ";
    lit "ⴰⵙⵉ";
    lit "ⴰⵙⵙ";
    lit "ⴰⵢⵏ";
    lit "ⴱⵕⴰ";
    lit "ⴷⵓⵊ";
    lit "ⴽⵜⵓ";
    lit "ⵉⴱⵔ";
    lit "ⵉⵏⵏ";
    lit "ⵎⴰⵕ";
    lit "ⵎⴰⵢ";
    lit "ⵏⵓⵡ";
    lit "ⵖⵓⵛ";
    lit "ⵛⵓⵜ";
    lit "ⵢⵓⵍ";
    lit "ⵢⵓⵏ";
    lit "am";
    lit "pm";
    lit " ";
    lit "'";
    lit "+";
    lit ",";
    lit "-";
    lit ".";
    lit "/";
    lit ":";
    lit ";";
    lit "@";
    lit "[";
    lit "]";
    lit "z";
    lit "|"] |}.

(** si.go:12-125 *)
Definition loc_si : locale := Eval vm_compute in
  {| ld_name := lit "si"; ld_order := lit "YMD"; ld_nospacing := false; ld_splitter := 0;
    ld_charset := runes (lit "cgtuzඅඉඊඔකගඟජටතදනඳපබමයරලවෂසහළ්ාැිුූෙේොෝ‍");
    ld_abbr := [];
    ld_simpl := [];
    ld_trans := [(lit "බ‍රහසපතනදා", [lit "thursday"]);
    (lit "අඟහරවාදා", [lit "tuesday"]);
    (lit "සැපතැමබර", [lit "september"]);
    (lit "සෙනසරාදා", [lit "saturday"]);
    (lit "දෙසැමබර", [lit "december"]);
    (lit "නොවැමබර", [lit "november"]);
    (lit "පෙබරවාර", [lit "february"]);
    (lit "අප‍රෙල", [lit "april"]);
    (lit "ඔකතොබර", [lit "october"]);
    (lit "සකරාදා", [lit "friday"]);
    (lit "අගොසත", [lit "august"]);
    (lit "ජනවාර", [lit "january"]);
    (lit "තතපරය", [lit "second"]);
    (lit "බදාදා", [lit "wednesday"]);
    (lit "බ‍රහස", [lit "thursday"]);
    (lit "මනතතව", [lit "minute"]);
    (lit "ඉරදා", [lit "sunday"]);
    (lit "දෙසැ", [lit "december"]);
    (lit "නොවැ", [lit "november"]);
    (lit "මාරත", [lit "march"]);
    (lit "මාසය", [lit "month"]);
    (lit "වරෂය", [lit "year"]);
    (lit "සඳදා", [lit "monday"]);
    (lit "gmt", [lit "gmt"]);
    (lit "utc", [lit "utc"]);
    (lit "අගො", [lit "august"]);
    (lit "අඟහ", [lit "tuesday"]);
    (lit "දනය", [lit "day"]);
    (lit "පැය", [lit "hour"]);
    (lit "පෙබ", [lit "february"]);
    (lit "පෙව", [lit "am"]);
    (lit "මාර", [lit "march"]);
    (lit "මාස", [lit "month"]);
    (lit "මැය", [lit "may"]);
    (lit "සතය", [lit "week"]);
    (lit "සැප", [lit "september"]);
    (lit "සෙන", [lit "saturday"]);
    (lit "am", [lit "am"]);
    (lit "pm", [lit "pm"]);
    (lit "ඔක", [lit "october"]);
    (lit "ජන", [lit "june"; lit "january"]);
    (lit "ජල", [lit "july"]);
    (lit "තත", [lit "second"]);
    (lit "පව", [lit "pm"]);
    (lit "පැ", [lit "hour"]);
    (lit "මන", [lit "minute"]);
    (lit "වර", [lit "year"]);
    (lit "සක", [lit "friday"]);
    (lit "සත", [lit "week"]);
    (lit " ", [lit " "]);
    (lit "'", [lit ""]);
    (lit "+", [lit "+"]);
    (lit ",", [lit ""]);
    (lit "-", [lit "-"]);
    (lit ".", [lit "."]);
    (lit "/", [lit "/"]);
    (lit ":", [lit ":"]);
    (lit ";", [lit ""]);
    (lit "@", [lit ""]);
    (lit "[", [lit ""]);
    (lit "]", [lit ""]);
    (lit "z", [lit "z"]);
    (lit "|", [lit ""]);
    (lit "ත", [lit "second"]);
    (lit "ම", [lit "minute"])];
    ld_reltype := [(lit "පසගය මාසය", lit "1 month ago");
    (lit "මෙම මනතතව", lit "0 minute ago");
    (lit "ඊළඟ මාසය", lit "in 1 month");
    (lit "පසගය මාස", lit "1 month ago");
    (lit "පසගය වසර", lit "1 year ago");
    (lit "පසගය සතය", lit "1 week ago");
    (lit "මෙම මාසය", lit "0 month ago");
    (lit "ඊළඟ මාස", lit "in 1 month");
    (lit "ඊළඟ වසර", lit "in 1 year");
    (lit "ඊළඟ සතය", lit "in 1 week");
    (lit "පසගය සත", lit "1 week ago");
    (lit "මෙම පැය", lit "0 hour ago");
    (lit "මෙම මාස", lit "0 month ago");
    (lit "මෙම වසර", lit "0 year ago");
    (lit "මෙම සතය", lit "0 week ago");
    (lit "ඊළඟ සත", lit "in 1 week");
    (lit "මෙම සත", lit "0 week ago");
    (lit "ඊයෙ", lit "1 day ago");
    (lit "දැන", lit "0 second ago");
    (lit "හෙට", lit "in 1 day");
    (lit "අද", lit "0 day ago")];
    ld_relrx := [(rx "(?i)තතපර (\d+[.,]?\d*)කට පෙර", lit "$1 second ago");
    (rx "(?i)මනතත (\d+[.,]?\d*)කට පෙර", lit "$1 minute ago");
    (rx "(?i)පැය (\d+[.,]?\d*)කට පෙර", lit "$1 hour ago");
    (rx "(?i)මාස (\d+[.,]?\d*)කට පෙර", lit "$1 month ago");
    (rx "(?i)වසර (\d+[.,]?\d*)කට පෙර", lit "$1 year ago");
    (rx "(?i)දන (\d+[.,]?\d*)කට පෙර", lit "$1 day ago");
    (rx "(?i)සත (\d+[.,]?\d*)කට පෙර", lit "$1 week ago");
    (rx "(?i)තතපර (\d+[.,]?\d*)කන", lit "in $1 second");
    (rx "(?i)මනතත (\d+[.,]?\d*)කන", lit "in $1 minute");
    (rx "(?i)පැය (\d+[.,]?\d*)කන", lit "in $1 hour");
    (rx "(?i)මාස (\d+[.,]?\d*)කන", lit "in $1 month");
    (rx "(?i)වසර (\d+[.,]?\d*)කන", lit "in $1 year");
    (rx "(?i)සත (\d+[.,]?\d*)කන", lit "in $1 week");
    (rx "(?i)දන (\d+[.,]?\d*)න", lit "in $1 day")];
    ld_rx := Some (rx "(?i)(\A|[^\pL\pM\d]|_)(තතපර \d+[.,]?\d*කට පෙර|මනතත \d+[.,]?\d*කට පෙර|පැය \d+[.,]?\d*කට පෙර|මාස \d+[.,]?\d*කට පෙර|වසර \d+[.,]?\d*කට පෙර|දන \d+[.,]?\d*කට පෙර|සත \d+[.,]?\d*කට පෙර|තතපර \d+[.,]?\d*කන|මනතත \d+[.,]?\d*කන|පැය \d+[.,]?\d*කන|මාස \d+[.,]?\d*කන|වසර \d+[.,]?\d*කන|සත \d+[.,]?\d*කන|දන \d+[.,]?\d*න)(\z|[^\pL\pM\d]|_)");
    ld_rx_exact := Some (rx "(?i)^(තතපර \d+[.,]?\d*කට පෙර|මනතත \d+[.,]?\d*කට පෙර|පැය \d+[.,]?\d*කට පෙර|මාස \d+[.,]?\d*කට පෙර|වසර \d+[.,]?\d*කට පෙර|දන \d+[.,]?\d*කට පෙර|සත \d+[.,]?\d*කට පෙර|තතපර \d+[.,]?\d*කන|මනතත \d+[.,]?\d*කන|පැය \d+[.,]?\d*කන|මාස \d+[.,]?\d*කන|වසර \d+[.,]?\d*කන|සත \d+[.,]?\d*කන|දන \d+[.,]?\d*න)$");
    ld_known := [lit "බ‍රහසපතනදා";
    lit "පසගය මාසය";
    lit "මෙම මනතතව";
    lit "අඟහරවාදා";
    lit "ඊළඟ මාසය";
    lit "පසගය මාස";
    lit "පසගය වසර";
    lit "පසගය සතය";
    lit "මෙම මාසය";
    lit "සැපතැමබර";
    lit "සෙනසරාදා";
    lit "ඊළඟ මාස";
    lit "ඊළඟ වසර";
    lit "ඊළඟ සතය";
    lit "දෙසැමබර";
    lit "නොවැමබර";
    lit "පසගය සත";
    lit "පෙබරවාර";
    lit "මෙම පැය";
    lit "මෙම මාස";
    lit "මෙම වසර";
    lit "මෙම සතය";
    lit "අප‍රෙල";
    lit "ඊළඟ සත";
    lit "ඔකතොබර";
    lit "මෙම සත";
    lit "සකරාදා";
    lit "අගොසත";
    lit "ජනවාර";
    lit "තතපරය";
    lit "බදාදා";
    lit "බ‍රහස";
    lit "මනතතව";
    lit "ඉරදා";
    lit "දෙසැ";
    lit "නොවැ";
    lit "මාරත";
    lit "මාසය";
    lit "වරෂය";
    lit "සඳදා";
    lit "gmt";
    lit "utc";
    lit "අගො";
    lit "අඟහ";
    lit "ඊයෙ";
    lit "දනය";
    lit "දැන";
    lit "පැය";
    lit "පෙබ";
    lit "පෙව";
    lit "මාර";
    lit "මාස";
    lit "මැය";
    lit "සතය";
    lit "සැප";
    lit "සෙන";
    lit "හෙට";
    lit "am";
    lit "pm";
    lit "අද";
    lit "ඔක";
    lit "ජන";
    lit "ජල";
    lit "තත";
    lit "පව";
    lit "පැ";
    lit "මන";
    lit "වර";
    lit "සක";
    lit "සත";
    lit " ";
    lit "'";
    lit "+";
    lit ",";
    lit "-";
    lit ".";
    lit "/";
    lit ":";
    lit ";";
    lit "@";
    lit "[";
    lit "]";
    lit "z";
    lit "|";
    lit "ත";
    lit "ම"] |}.

(** sk.go:12-193 *)
Definition loc_sk : locale := Eval vm_compute in
  {| ld_name := lit "sk"; ld_order := lit "DMY"; ld_nospacing := false; ld_splitter := 1;
    ld_charset := runes (lit "bcdefghijklnorstuvyzáíóúýčľňšž");
    ld_abbr := [];
    ld_simpl := [(rx "(?i)(\A|[^\pL\pM\d_])pred sekundou(\z|[^\pL\pM\d_])", lit "${1}pred 1 sekundou${2}");
    (rx "(?i)(\A|[^\pL\pM\d_])pred minutou(\z|[^\pL\pM\d_])", lit "${1}pred 1 minutou${2}");
    (rx "(?i)(\A|[^\pL\pM\d_])pred hodinou(\z|[^\pL\pM\d_])", lit "${1}pred 1 hodinou${2}");
    (rx "(?i)(\A|[^\pL\pM\d_])pred tyzdnom(\z|[^\pL\pM\d_])", lit "${1}pred 1 tyzdnom${2}");
    (rx "(?i)(\A|[^\pL\pM\d_])pred mesiacom(\z|[^\pL\pM\d_])", lit "${1}pred 1 mesiacom${2}");
    (rx "(?i)(\A|[^\pL\pM\d_])pred rokom(\z|[^\pL\pM\d_])", lit "${1}pred 1 rokom${2}");
    (rx "(?i)(\A|[^\pL\pM\d_])pred pol rokom(\z|[^\pL\pM\d_])", lit "${1}pred 6 mesiacmi${2}");
    (rx "(?i)(\A|[^\pL\pM\d_])o sekundu(\z|[^\pL\pM\d_])", lit "${1}o 1 sekundu${2}");
    (rx "(?i)(\A|[^\pL\pM\d_])o minutu(\z|[^\pL\pM\d_])", lit "${1}o 1 minutu${2}");
    (rx "(?i)(\A|[^\pL\pM\d_])o hodinu(\z|[^\pL\pM\d_])", lit "${1}o 1 hodinu${2}");
    (rx "(?i)(\A|[^\pL\pM\d_])o tyzden(\z|[^\pL\pM\d_])", lit "${1}o 1 tyzden${2}");
    (rx "(?i)(\A|[^\pL\pM\d_])o mesiac(\z|[^\pL\pM\d_])", lit "${1}o 1 mesiac${2}");
    (rx "(?i)(\A|[^\pL\pM\d_])o rok(\z|[^\pL\pM\d_])", lit "${1}o 1 rok${2}");
    (rx "(?i)(\A|[^\pL\pM\d_])o pol roka(\z|[^\pL\pM\d_])", lit "${1}o 6 mesiacov${2}")];
    ld_trans := [(lit "september", [lit "september"]);
    (lit "septembra", [lit "september"]);
    (lit "december", [lit "december"]);
    (lit "decembra", [lit "december"]);
    (lit "februara", [lit "february"]);
    (lit "november", [lit "november"]);
    (lit "novembra", [lit "november"]);
    (lit "pondelok", [lit "monday"]);
    (lit "augusta", [lit "august"]);
    (lit "februar", [lit "february"]);
    (lit "januara", [lit "january"]);
    (lit "oktober", [lit "october"]);
    (lit "oktobra", [lit "october"]);
    (lit "sekunda", [lit "second"]);
    (lit "stvrtok", [lit "thursday"]);
    (lit "aprila", [lit "april"]);
    (lit "august", [lit "august"]);
    (lit "hodina", [lit "hour"]);
    (lit "januar", [lit "january"]);
    (lit "mesiac", [lit "month"]);
    (lit "minuta", [lit "minute"]);
    (lit "nedela", [lit "sunday"]);
    (lit "nedelu", [lit "sunday"]);
    (lit "piatok", [lit "friday"]);
    (lit "sobota", [lit "saturday"]);
    (lit "sobotu", [lit "saturday"]);
    (lit "streda", [lit "wednesday"]);
    (lit "stredu", [lit "wednesday"]);
    (lit "tyzden", [lit "week"]);
    (lit "utorok", [lit "tuesday"]);
    (lit "april", [lit "april"]);
    (lit "marca", [lit "march"]);
    (lit "marec", [lit "march"]);
    (lit "jula", [lit "july"]);
    (lit "juna", [lit "june"]);
    (lit "maja", [lit "may"]);
    (lit "pred", [lit "ago"]);
    (lit "apr", [lit "april"]);
    (lit "aug", [lit "august"]);
    (lit "dec", [lit "december"]);
    (lit "den", [lit "day"]);
    (lit "feb", [lit "february"]);
    (lit "gmt", [lit "gmt"]);
    (lit "jan", [lit "january"]);
    (lit "jul", [lit "july"]);
    (lit "jun", [lit "june"]);
    (lit "maj", [lit "may"]);
    (lit "mar", [lit "march"]);
    (lit "mes", [lit "month"]);
    (lit "min", [lit "minute"]);
    (lit "nov", [lit "november"]);
    (lit "okt", [lit "october"]);
    (lit "rok", [lit "year"]);
    (lit "sep", [lit "september"]);
    (lit "tyz", [lit "week"]);
    (lit "utc", [lit "utc"]);
    (lit "am", [lit "am"]);
    (lit "ne", [lit "sunday"]);
    (lit "pi", [lit "friday"]);
    (lit "pm", [lit "pm"]);
    (lit "po", [lit "monday"]);
    (lit "so", [lit "saturday"]);
    (lit "st", [lit "thursday"; lit "wednesday"]);
    (lit "ut", [lit "tuesday"]);
    (lit "vo", [lit ""]);
    (lit "za", [lit "in"]);
    (lit " ", [lit " "]);
    (lit "'", [lit ""]);
    (lit "+", [lit "+"]);
    (lit ",", [lit ""]);
    (lit "-", [lit "-"]);
    (lit ".", [lit "."]);
    (lit "/", [lit "/"]);
    (lit ":", [lit ":"]);
    (lit ";", [lit ""]);
    (lit "@", [lit ""]);
    (lit "[", [lit ""]);
    (lit "]", [lit ""]);
    (lit "d", [lit "day"]);
    (lit "h", [lit "hour"]);
    (lit "o", [lit "in"]);
    (lit "r", [lit "year"]);
    (lit "s", [lit "second"]);
    (lit "v", [lit ""]);
    (lit "z", [lit "z"]);
    (lit "|", [lit ""])];
    ld_reltype := [(lit "v tejto hodine", lit "0 hour ago");
    (lit "v tejto minute", lit "0 minute ago");
    (lit "buduci mesiac", lit "in 1 month");
    (lit "buduci tyzden", lit "in 1 week");
    (lit "minuly mesiac", lit "1 month ago");
    (lit "minuly tyzden", lit "1 week ago");
    (lit "tento mesiac", lit "0 month ago");
    (lit "tento tyzden", lit "0 week ago");
    (lit "buduci rok", lit "in 1 year");
    (lit "minuly rok", lit "1 year ago");
    (lit "predvcerom", lit "2 day ago");
    (lit "tento rok", lit "0 year ago");
    (lit "pozajtra", lit "in 2 days");
    (lit "zajtra", lit "in 1 day");
    (lit "teraz", lit "0 second ago");
    (lit "vcera", lit "1 day ago");
    (lit "dnes", lit "0 day ago")];
    ld_relrx := [(rx "(?i)pred (\d+[.,]?\d*) sekundami", lit "$1 second ago");
    (rx "(?i)pred (\d+[.,]?\d*) hodinami", lit "$1 hour ago");
    (rx "(?i)pred (\d+[.,]?\d*) mesiacmi", lit "$1 month ago");
    (rx "(?i)pred (\d+[.,]?\d*) mesiacom", lit "$1 month ago");
    (rx "(?i)pred (\d+[.,]?\d*) minutami", lit "$1 minute ago");
    (rx "(?i)pred (\d+[.,]?\d*) sekundou", lit "$1 second ago");
    (rx "(?i)pred (\d+[.,]?\d*) tyzdnami", lit "$1 week ago");
    (rx "(?i)pred (\d+[.,]?\d*) hodinou", lit "$1 hour ago");
    (rx "(?i)pred (\d+[.,]?\d*) minutou", lit "$1 minute ago");
    (rx "(?i)pred (\d+[.,]?\d*) tyzdnom", lit "$1 week ago");
    (rx "(?i)o (\d+[.,]?\d*) mesiacov", lit "in $1 month");
    (rx "(?i)pred (\d+[.,]?\d*) dnami", lit "$1 day ago");
    (rx "(?i)pred (\d+[.,]?\d*) rokmi", lit "$1 year ago");
    (rx "(?i)pred (\d+[.,]?\d*) rokom", lit "$1 year ago");
    (rx "(?i)o (\d+[.,]?\d*) mesiace", lit "in ${1} month");
    (rx "(?i)o (\d+[.,]?\d*) sekundu", lit "in $1 second");
    (rx "(?i)o (\d+[.,]?\d*) sekundy", lit "in ${1} second");
    (rx "(?i)o (\d+[.,]?\d*) tyzdnov", lit "in $1 week");
    (rx "(?i)pred (\d+[.,]?\d*) dnom", lit "$1 day ago");
    (rx "(?i)o (\d+[.,]?\d*) hodinu", lit "in $1 hour");
    (rx "(?i)o (\d+[.,]?\d*) hodiny", lit "in ${1} hour");
    (rx "(?i)o (\d+[.,]?\d*) mesiac", lit "in $1 month");
    (rx "(?i)o (\d+[.,]?\d*) minutu", lit "in $1 minute");
    (rx "(?i)o (\d+[.,]?\d*) minuty", lit "in ${1} minute");
    (rx "(?i)o (\d+[.,]?\d*) sekund", lit "in $1 second");
    (rx "(?i)o (\d+[.,]?\d*) tyzden", lit "in $1 week");
    (rx "(?i)o (\d+[.,]?\d*) tyzdne", lit "in ${1} week");
    (rx "(?i)pred (\d+[.,]?\d*) mes", lit "$1 month ago");
    (rx "(?i)pred (\d+[.,]?\d*) min", lit "$1 minute ago");
    (rx "(?i)pred (\d+[.,]?\d*) tyz", lit "$1 week ago");
    (rx "(?i)o (\d+[.,]?\d*) hodin", lit "in $1 hour");
    (rx "(?i)o (\d+[.,]?\d*) minut", lit "in $1 minute");
    (rx "(?i)o (\d+[.,]?\d*) rokov", lit "in $1 year");
    (rx "(?i)o (\d+[.,]?\d*) roky", lit "in ${1} year");
    (rx "(?i)pred (\d+[.,]?\d*) d", lit "$1 day ago");
    (rx "(?i)pred (\d+[.,]?\d*) h", lit "$1 hour ago");
    (rx "(?i)pred (\d+[.,]?\d*) r", lit "$1 year ago");
    (rx "(?i)pred (\d+[.,]?\d*) s", lit "$1 second ago");
    (rx "(?i)o (\d+[.,]?\d*) den", lit "in $1 day");
    (rx "(?i)o (\d+[.,]?\d*) dni", lit "in ${1} day");
    (rx "(?i)o (\d+[.,]?\d*) mes", lit "in $1 month");
    (rx "(?i)o (\d+[.,]?\d*) min", lit "in $1 minute");
    (rx "(?i)o (\d+[.,]?\d*) rok", lit "in $1 year");
    (rx "(?i)o (\d+[.,]?\d*) tyz", lit "in $1 week");
    (rx "(?i)o (\d+[.,]?\d*) d", lit "in $1 day");
    (rx "(?i)o (\d+[.,]?\d*) h", lit "in $1 hour");
    (rx "(?i)o (\d+[.,]?\d*) r", lit "in $1 year");
    (rx "(?i)o (\d+[.,]?\d*) s", lit "in $1 second")];
    ld_rx := Some (rx "(?i)(\A|[^\pL\pM\d]|_)(pred \d+[.,]?\d* sekundami|pred \d+[.,]?\d* hodinami|pred \d+[.,]?\d* mesiacmi|pred \d+[.,]?\d* mesiacom|pred \d+[.,]?\d* minutami|pred \d+[.,]?\d* sekundou|pred \d+[.,]?\d* tyzdnami|pred \d+[.,]?\d* hodinou|pred \d+[.,]?\d* minutou|pred \d+[.,]?\d* tyzdnom|o \d+[.,]?\d* mesiacov|pred \d+[.,]?\d* dnami|pred \d+[.,]?\d* rokmi|pred \d+[.,]?\d* rokom|o \d+[.,]?\d* mesiace|o \d+[.,]?\d* sekundu|o \d+[.,]?\d* sekundy|o \d+[.,]?\d* tyzdnov|pred \d+[.,]?\d* dnom|o \d+[.,]?\d* hodinu|o \d+[.,]?\d* hodiny|o \d+[.,]?\d* mesiac|o \d+[.,]?\d* minutu|o \d+[.,]?\d* minuty|o \d+[.,]?\d* sekund|o \d+[.,]?\d* tyzden|o \d+[.,]?\d* tyzdne|pred \d+[.,]?\d* mes|pred \d+[.,]?\d* min|pred \d+[.,]?\d* tyz|o \d+[.,]?\d* hodin|o \d+[.,]?\d* minut|o \d+[.,]?\d* rokov|o \d+[.,]?\d* roky|pred \d+[.,]?\d* d|pred \d+[.,]?\d* h|pred \d+[.,]?\d* r|pred \d+[.,]?\d* s|o \d+[.,]?\d* den|o \d+[.,]?\d* dni|o \d+[.,]?\d* mes|o \d+[.,]?\d* min|o \d+[.,]?\d* rok|o \d+[.,]?\d* tyz|o \d+[.,]?\d* d|o \d+[.,]?\d* h|o \d+[.,]?\d* r|o \d+[.,]?\d* s)(\z|[^\pL\pM\d]|_)");
    ld_rx_exact := Some (rx "(?i)^(pred \d+[.,]?\d* sekundami|pred \d+[.,]?\d* hodinami|pred \d+[.,]?\d* mesiacmi|pred \d+[.,]?\d* mesiacom|pred \d+[.,]?\d* minutami|pred \d+[.,]?\d* sekundou|pred \d+[.,]?\d* tyzdnami|pred \d+[.,]?\d* hodinou|pred \d+[.,]?\d* minutou|pred \d+[.,]?\d* tyzdnom|o \d+[.,]?\d* mesiacov|pred \d+[.,]?\d* dnami|pred \d+[.,]?\d* rokmi|pred \d+[.,]?\d* rokom|o \d+[.,]?\d* mesiace|o \d+[.,]?\d* sekundu|o \d+[.,]?\d* sekundy|o \d+[.,]?\d* tyzdnov|pred \d+[.,]?\d* dnom|o \d+[.,]?\d* hodinu|o \d+[.,]?\d* hodiny|o \d+[.,]?\d* mesiac|o \d+[.,]?\d* minutu|o \d+[.,]?\d* minuty|o \d+[.,]?\d* sekund|o \d+[.,]?\d* tyzden|o \d+[.,]?\d* tyzdne|pred \d+[.,]?\d* mes|pred \d+[.,]?\d* min|pred \d+[.,]?\d* tyz|o \d+[.,]?\d* hodin|o \d+[.,]?\d* minut|o \d+[.,]?\d* rokov|o \d+[.,]?\d* roky|pred \d+[.,]?\d* d|pred \d+[.,]?\d* h|pred \d+[.,]?\d* r|pred \d+[.,]?\d* s|o \d+[.,]?\d* den|o \d+[.,]?\d* dni|o \d+[.,]?\d* mes|o \d+[.,]?\d* min|o \d+[.,]?\d* rok|o \d+[.,]?\d* tyz|o \d+[.,]?\d* d|o \d+[.,]?\d* h|o \d+[.,]?\d* r|o \d+[.,]?\d* s)$");
    ld_known := [lit "v tejto hodine";
    lit "v tejto minute";
    lit "buduci mesiac";
    lit "buduci tyzden";
    lit "minuly mesiac";
    lit "minuly tyzden";
    lit "tento mesiac";
    lit "tento tyzden";
    lit "buduci rok";
    lit "minuly rok";
    lit "predvcerom";
    lit "september";
    lit "septembra";
    lit "tento rok";
    lit "december";
    lit "decembra";
    lit "februara";
    lit "november";
    lit "novembra";
    lit "pondelok";
    lit "pozajtra";
    lit "augusta";
    lit "februar";
    lit "januara";
    lit "oktober";
    lit "oktobra";
    lit "sekunda";
    lit "stvrtok";
    lit "aprila";
    lit "august";
    lit "hodina";
    lit "januar";
    lit "mesiac";
    lit "minuta";
    lit "nedela";
    lit "nedelu";
    lit "piatok";
    lit "sobota";
    lit "sobotu";
    lit "streda";
    lit "stredu";
    lit "tyzden";
    lit "utorok";
    lit "zajtra";
    lit "april";
    lit "marca";
    lit "marec";
    lit "teraz";
    lit "vcera";
    lit "dnes";
    lit "jula";
    lit "juna";
    lit "maja";
    lit "pred";
    lit "apr";
    lit "aug";
    lit "dec";
    lit "den";
    lit "feb";
    lit "gmt";
    lit "jan";
    lit "jul";
    lit "jun";
    lit "maj";
    lit "mar";
    lit "mes";
    lit "min";
    lit "nov";
    lit "okt";
    lit "rok";
    lit "sep";
    lit "tyz";
    lit "utc";
    lit "am";
    lit "ne";
    lit "pi";
    lit "pm";
    lit "po";
    lit "so";
    lit "st";
    lit "ut";
    lit "vo";
    lit "za";
    lit " ";
    lit "'";
    lit "+";
    lit ",";
    lit "-";
    lit ".";
    lit "/";
    lit ":";
    lit ";";
    lit "@";
    lit "[";
    lit "]";
    lit "d";
    lit "h";
    lit "o";
    lit "r";
    lit "s";
    lit "v";
    lit "z";
    lit "|"] |}.

(** sl.go:12-150 *)
Definition loc_sl : locale := Eval vm_compute in
  {| ld_name := lit "sl"; ld_order := lit "DMY"; ld_nospacing := false; ld_splitter := 0;
    ld_charset := runes (lit "bcdefghijklnorstuvzčš");
    ld_abbr := [];
    ld_simpl := [];
    ld_trans := [(lit "ponedeljek", [lit "monday"]);
    (lit "september", [lit "september"]);
    (lit "december", [lit "december"]);
    (lit "dopoldne", [lit "am"]);
    (lit "november", [lit "november"]);
    (lit "popoldne", [lit "pm"]);
    (lit "cetrtek", [lit "thursday"]);
    (lit "februar", [lit "february"]);
    (lit "nedelja", [lit "sunday"]);
    (lit "oktober", [lit "october"]);
    (lit "sekunda", [lit "second"]);
    (lit "avgust", [lit "august"]);
    (lit "januar", [lit "january"]);
    (lit "minuta", [lit "minute"]);
    (lit "sobota", [lit "saturday"]);
    (lit "april", [lit "april"]);
    (lit "julij", [lit "july"]);
    (lit "junij", [lit "june"]);
    (lit "marec", [lit "march"]);
    (lit "mesec", [lit "month"]);
    (lit "petek", [lit "friday"]);
    (lit "sreda", [lit "wednesday"]);
    (lit "teden", [lit "week"]);
    (lit "torek", [lit "tuesday"]);
    (lit "leto", [lit "year"]);
    (lit "apr", [lit "april"]);
    (lit "avg", [lit "august"]);
    (lit "cet", [lit "thursday"]);
    (lit "dan", [lit "day"]);
    (lit "dec", [lit "december"]);
    (lit "dop", [lit "am"]);
    (lit "feb", [lit "february"]);
    (lit "gmt", [lit "gmt"]);
    (lit "jan", [lit "january"]);
    (lit "jul", [lit "july"]);
    (lit "jun", [lit "june"]);
    (lit "maj", [lit "may"]);
    (lit "mar", [lit "march"]);
    (lit "mes", [lit "month"]);
    (lit "min", [lit "minute"]);
    (lit "ned", [lit "sunday"]);
    (lit "nov", [lit "november"]);
    (lit "okt", [lit "october"]);
    (lit "pet", [lit "friday"]);
    (lit "pon", [lit "monday"]);
    (lit "pop", [lit "pm"]);
    (lit "sek", [lit "second"]);
    (lit "sep", [lit "september"]);
    (lit "sob", [lit "saturday"]);
    (lit "sre", [lit "wednesday"]);
    (lit "ted", [lit "week"]);
    (lit "tor", [lit "tuesday"]);
    (lit "ura", [lit "hour"]);
    (lit "utc", [lit "utc"]);
    (lit "am", [lit "am"]);
    (lit "pm", [lit "pm"]);
    (lit " ", [lit " "]);
    (lit "'", [lit ""]);
    (lit "+", [lit "+"]);
    (lit ",", [lit ""]);
    (lit "-", [lit "-"]);
    (lit ".", [lit "."]);
    (lit "/", [lit "/"]);
    (lit ":", [lit ":"]);
    (lit ";", [lit ""]);
    (lit "@", [lit ""]);
    (lit "[", [lit ""]);
    (lit "]", [lit ""]);
    (lit "h", [lit "hour"]);
    (lit "s", [lit "second"]);
    (lit "z", [lit "z"]);
    (lit "|", [lit ""])];
    ld_reltype := [(lit "naslednji mesec", lit "in 1 month");
    (lit "naslednji teden", lit "in 1 week");
    (lit "naslednje leto", lit "in 1 year");
    (lit "prejsnji mesec", lit "1 month ago");
    (lit "prejsnji teden", lit "1 week ago");
    (lit "to minuto", lit "0 minute ago");
    (lit "v tej uri", lit "0 hour ago");
    (lit "ta mesec", lit "0 month ago");
    (lit "ta teden", lit "0 week ago");
    (lit "vceraj", lit "1 day ago");
    (lit "danes", lit "0 day ago");
    (lit "jutri", lit "in 1 day");
    (lit "letos", lit "0 year ago");
    (lit "lani", lit "1 year ago");
    (lit "zdaj", lit "0 second ago")];
    ld_relrx := [(rx "(?i)pred (\d+[.,]?\d*) sekundami", lit "$1 second ago");
    (rx "(?i)pred (\d+[.,]?\d*) minutami", lit "$1 minute ago");
    (rx "(?i)pred (\d+[.,]?\d*) mesecem", lit "$1 month ago");
    (rx "(?i)pred (\d+[.,]?\d*) sekundo", lit "$1 second ago");
    (rx "(?i)cez (\d+[.,]?\d*) mesecev", lit "in $1 month");
    (rx "(?i)cez (\d+[.,]?\d*) sekundo", lit "in $1 second");
    (rx "(?i)pred (\d+[.,]?\d*) dnevom", lit "$1 day ago");
    (rx "(?i)pred (\d+[.,]?\d*) meseci", lit "$1 month ago");
    (rx "(?i)pred (\d+[.,]?\d*) minuto", lit "$1 minute ago");
    (rx "(?i)pred (\d+[.,]?\d*) tednom", lit "$1 week ago");
    (rx "(?i)cez (\d+[.,]?\d*) minuto", lit "in $1 minute");
    (rx "(?i)cez (\d+[.,]?\d*) sekund", lit "in $1 second");
    (rx "(?i)cez (\d+[.,]?\d*) tednov", lit "in $1 week");
    (rx "(?i)pred (\d+[.,]?\d*) dnevi", lit "$1 day ago");
    (rx "(?i)pred (\d+[.,]?\d*) letom", lit "$1 year ago");
    (rx "(?i)pred (\d+[.,]?\d*) tedni", lit "$1 week ago");
    (rx "(?i)pred (\d+[.,]?\d*) urami", lit "$1 hour ago");
    (rx "(?i)cez (\d+[.,]?\d*) mesec", lit "in $1 month");
    (rx "(?i)cez (\d+[.,]?\d*) minut", lit "in $1 minute");
    (rx "(?i)cez (\d+[.,]?\d*) teden", lit "in $1 week");
    (rx "(?i)pred (\d+[.,]?\d*) leti", lit "$1 year ago");
    (rx "(?i)cez (\d+[.,]?\d*) leto", lit "in $1 year");
    (rx "(?i)pred (\d+[.,]?\d*) mes", lit "$1 month ago");
    (rx "(?i)pred (\d+[.,]?\d*) min", lit "$1 minute ago");
    (rx "(?i)pred (\d+[.,]?\d*) ted", lit "$1 week ago");
    (rx "(?i)pred (\d+[.,]?\d*) uro", lit "$1 hour ago");
    (rx "(?i)cez (\d+[.,]?\d*) dan", lit "in $1 day");
    (rx "(?i)cez (\d+[.,]?\d*) dni", lit "in $1 day");
    (rx "(?i)cez (\d+[.,]?\d*) let", lit "in $1 year");
    (rx "(?i)cez (\d+[.,]?\d*) mes", lit "in $1 month");
    (rx "(?i)cez (\d+[.,]?\d*) min", lit "in $1 minute");
    (rx "(?i)cez (\d+[.,]?\d*) ted", lit "in $1 week");
    (rx "(?i)cez (\d+[.,]?\d*) uro", lit "in $1 hour");
    (rx "(?i)cez (\d+[.,]?\d*) ur", lit "in $1 hour");
    (rx "(?i)pred (\d+[.,]?\d*) h", lit "$1 hour ago");
    (rx "(?i)pred (\d+[.,]?\d*) s", lit "$1 second ago");
    (rx "(?i)cez (\d+[.,]?\d*) h", lit "in $1 hour");
    (rx "(?i)cez (\d+[.,]?\d*) s", lit "in $1 second")];
    ld_rx := Some (rx "(?i)(\A|[^\pL\pM\d]|_)(pred \d+[.,]?\d* sekundami|pred \d+[.,]?\d* minutami|pred \d+[.,]?\d* mesecem|pred \d+[.,]?\d* sekundo|cez \d+[.,]?\d* mesecev|cez \d+[.,]?\d* sekundo|pred \d+[.,]?\d* dnevom|pred \d+[.,]?\d* meseci|pred \d+[.,]?\d* minuto|pred \d+[.,]?\d* tednom|cez \d+[.,]?\d* minuto|cez \d+[.,]?\d* sekund|cez \d+[.,]?\d* tednov|pred \d+[.,]?\d* dnevi|pred \d+[.,]?\d* letom|pred \d+[.,]?\d* tedni|pred \d+[.,]?\d* urami|cez \d+[.,]?\d* mesec|cez \d+[.,]?\d* minut|cez \d+[.,]?\d* teden|pred \d+[.,]?\d* leti|cez \d+[.,]?\d* leto|pred \d+[.,]?\d* mes|pred \d+[.,]?\d* min|pred \d+[.,]?\d* ted|pred \d+[.,]?\d* uro|cez \d+[.,]?\d* dan|cez \d+[.,]?\d* dni|cez \d+[.,]?\d* let|cez \d+[.,]?\d* mes|cez \d+[.,]?\d* min|cez \d+[.,]?\d* ted|cez \d+[.,]?\d* uro|cez \d+[.,]?\d* ur|pred \d+[.,]?\d* h|pred \d+[.,]?\d* s|cez \d+[.,]?\d* h|cez \d+[.,]?\d* s)(\z|[^\pL\pM\d]|_)");
    ld_rx_exact := Some (rx "(?i)^(pred \d+[.,]?\d* sekundami|pred \d+[.,]?\d* minutami|pred \d+[.,]?\d* mesecem|pred \d+[.,]?\d* sekundo|cez \d+[.,]?\d* mesecev|cez \d+[.,]?\d* sekundo|pred \d+[.,]?\d* dnevom|pred \d+[.,]?\d* meseci|pred \d+[.,]?\d* minuto|pred \d+[.,]?\d* tednom|cez \d+[.,]?\d* minuto|cez \d+[.,]?\d* sekund|cez \d+[.,]?\d* tednov|pred \d+[.,]?\d* dnevi|pred \d+[.,]?\d* letom|pred \d+[.,]?\d* tedni|pred \d+[.,]?\d* urami|cez \d+[.,]?\d* mesec|cez \d+[.,]?\d* minut|cez \d+[.,]?\d* teden|pred \d+[.,]?\d* leti|cez \d+[.,]?\d* leto|pred \d+[.,]?\d* mes|pred \d+[.,]?\d* min|pred \d+[.,]?\d* ted|pred \d+[.,]?\d* uro|cez \d+[.,]?\d* dan|cez \d+[.,]?\d* dni|cez \d+[.,]?\d* let|cez \d+[.,]?\d* mes|cez \d+[.,]?\d* min|cez \d+[.,]?\d* ted|cez \d+[.,]?\d* uro|cez \d+[.,]?\d* ur|pred \d+[.,]?\d* h|pred \d+[.,]?\d* s|cez \d+[.,]?\d* h|cez \d+[.,]?\d* s)$");
    ld_known := [lit "naslednji mesec";
    lit "naslednji teden";
    lit "naslednje leto";
    lit "prejsnji mesec";
    lit "prejsnji teden";
    lit "ponedeljek";
    lit "september";
    lit "to minuto";
    lit "v tej uri";
    lit "december";
    lit "dopoldne";
    lit "november";
    lit "popoldne";
    lit "ta mesec";
    lit "ta teden";
    lit "cetrtek";
    lit "februar";
    lit "nedelja";
    lit "oktober";
    lit "sekunda";
    lit "avgust";
    lit "januar";
    lit "minuta";
    lit "sobota";
    lit "vceraj";
    lit "april";
    lit "danes";
    lit "julij";
    lit "junij";
    lit "jutri";
    lit "letos";
    lit "marec";
    lit "mesec";
    lit "petek";
    lit "sreda";
    lit "teden";
    lit "torek";
    lit "lani";
    lit "leto";
    lit "zdaj";
    lit "apr";
    lit "avg";
    lit "cet";
    lit "dan";
    lit "dec";
    lit "dop";
    lit "feb";
    lit "gmt";
    lit "jan";
    lit "jul";
    lit "jun";
    lit "maj";
    lit "mar";
    lit "mes";
    lit "min";
    lit "ned";
    lit "nov";
    lit "okt";
    lit "pet";
    lit "pon";
    lit "pop";
    lit "sek";
    lit "sep";
    lit "sob";
    lit "sre";
    lit "ted";
    lit "tor";
    lit "ura";
    lit "utc";
    lit "am";
    lit "pm";
    lit " ";
    lit "'";
    lit "+";
    lit ",";
    lit "-";
    lit ".";
    lit "/";
    lit ":";
    lit ";";
    lit "@";
    lit "[";
    lit "]";
    lit "h";
    lit "s";
    lit "z";
    lit "|"] |}.

(** smn.go:10-106 *)
Definition loc_smn : locale := Eval vm_compute in
  {| ld_name := lit "smn"; ld_order := lit "DMY"; ld_nospacing := false; ld_splitter := 0;
    ld_charset := runes (lit "bcdeghijklnorstuvwxyzáâčđŋ");
    ld_abbr := [];
    ld_simpl := [];
    ld_trans := [(lit "roovvadmaanu", [lit "october"]);
    (lit "uđđaivemaanu", [lit "january"]);
    (lit "vastuppeeivi", [lit "friday"]);
    (lit "cuaŋuimaanu", [lit "april"]);
    (lit "juovlamaanu", [lit "december"]);
    (lit "njuhcamaanu", [lit "march"]);
    (lit "skammamaanu", [lit "november"]);
    (lit "syeinimaanu", [lit "july"]);
    (lit "vastuppeivi", [lit "friday"]);
    (lit "cohcamaanu", [lit "september"]);
    (lit "kuovamaanu", [lit "february"]);
    (lit "majebaarga", [lit "tuesday"]);
    (lit "pasepeeivi", [lit "sunday"]);
    (lit "porgemaanu", [lit "august"]);
    (lit "vuossaarga", [lit "monday"]);
    (lit "vyesimaanu", [lit "may"]);
    (lit "kesimaanu", [lit "june"]);
    (lit "majebarga", [lit "tuesday"]);
    (lit "pasepeivi", [lit "sunday"]);
    (lit "tuorastah", [lit "thursday"]);
    (lit "tuorastuv", [lit "thursday"]);
    (lit "vuossarga", [lit "monday"]);
    (lit "koskokko", [lit "wednesday"]);
    (lit "lavurdah", [lit "saturday"]);
    (lit "lavurduv", [lit "saturday"]);
    (lit "koskoho", [lit "wednesday"]);
    (lit "roovvad", [lit "october"]);
    (lit "cuaŋui", [lit "april"]);
    (lit "juovla", [lit "december"]);
    (lit "minute", [lit "minute"]);
    (lit "njuhca", [lit "march"]);
    (lit "second", [lit "second"]);
    (lit "skamma", [lit "november"]);
    (lit "syeini", [lit "july"]);
    (lit "cohca", [lit "september"]);
    (lit "kuova", [lit "february"]);
    (lit "month", [lit "month"]);
    (lit "porge", [lit "august"]);
    (lit "vyesi", [lit "may"]);
    (lit "hour", [lit "hour"]);
    (lit "kesi", [lit "june"]);
    (lit "uđiv", [lit "january"]);
    (lit "week", [lit "week"]);
    (lit "year", [lit "year"]);
    (lit "day", [lit "day"]);
    (lit "gmt", [lit "gmt"]);
    (lit "kos", [lit "wednesday"]);
    (lit "lav", [lit "saturday"]);
    (lit "maj", [lit "tuesday"]);
    (lit "pas", [lit "sunday"]);
    (lit "tuo", [lit "thursday"]);
    (lit "utc", [lit "utc"]);
    (lit "vas", [lit "friday"]);
    (lit "vuo", [lit "monday"]);
    (lit "am", [lit "am"]);
    (lit "ep", [lit "pm"]);
    (lit "ip", [lit "am"]);
    (lit "pm", [lit "pm"]);
    (lit " ", [lit " "]);
    (lit "'", [lit ""]);
    (lit "+", [lit "+"]);
    (lit ",", [lit ""]);
    (lit "-", [lit "-"]);
    (lit ".", [lit "."]);
    (lit "/", [lit "/"]);
    (lit ":", [lit ":"]);
    (lit ";", [lit ""]);
    (lit "@", [lit ""]);
    (lit "[", [lit ""]);
    (lit "]", [lit ""]);
    (lit "z", [lit "z"]);
    (lit "|", [lit ""])];
    ld_reltype := [(lit "this minute", lit "0 minute ago");
    (lit "last month", lit "1 month ago");
    (lit "next month", lit "in 1 month");
    (lit "this month", lit "0 month ago");
    (lit "last week", lit "1 week ago");
    (lit "last year", lit "1 year ago");
    (lit "next week", lit "in 1 week");
    (lit "next year", lit "in 1 year");
    (lit "this hour", lit "0 hour ago");
    (lit "this week", lit "0 week ago");
    (lit "this year", lit "0 year ago");
    (lit "yesterday", lit "1 day ago");
    (lit "tomorrow", lit "in 1 day");
    (lit "today", lit "0 day ago");
    (lit "now", lit "0 second ago")];
    ld_relrx := [];
    ld_rx := None;
    ld_rx_exact := None;
    ld_known := [lit "roovvadmaanu";
    lit "uđđaivemaanu";
    lit "vastuppeeivi";
    lit "cuaŋuimaanu";
    lit "juovlamaanu";
    lit "njuhcamaanu";
    lit "skammamaanu";
    lit "syeinimaanu";
    lit "this minute";
    lit "vastuppeivi";
    lit "cohcamaanu";
    lit "kuovamaanu";
    lit "last month";
    lit "majebaarga";
    lit "next month";
    lit "pasepeeivi";
    lit "porgemaanu";
    lit "this month";
    lit "vuossaarga";
    lit "vyesimaanu";
    lit "kesimaanu";
    lit "last week";
    lit "last year";
    lit "majebarga";
    lit "next week";
    lit "next year";
    lit "pasepeivi";
    lit "this hour";
    lit "this week";
    lit "this year";
    lit "tuorastah";
    lit "tuorastuv";
    lit "vuossarga";
    lit "yesterday";
    lit "koskokko";
    lit "lavurdah";
    lit "lavurduv";
    lit "tomorrow";
    lit "koskoho";
    lit "roovvad";
    lit "cuaŋui";
    lit "juovla";
    lit "minute";
    lit "njuhca";
    lit "second";
    lit "skamma";
    lit "syeini";
    lit "cohca";
    lit "kuova";
    lit "month";
    lit "porge";
    lit "today";
    lit "vyesi";
    lit "hour";
    lit "kesi";
    lit "uđiv";
    lit "week";
    lit "year";
    lit "day";
    lit "gmt";
    lit "kos";
    lit "lav";
    lit "maj";
    lit "now";
    lit "pas";
    lit "tuo";
    lit "utc";
    lit "vas";
    lit "vuo";
    lit "am";
    lit "ep";
    lit "ip";
    lit "pm";
    lit " ";
    lit "'";
    lit "+";
    lit ",";
    lit "-";
    lit ".";
    lit "/";
    lit ":";
    lit ";";
    lit "@";
    lit "[";
    lit "]";
    lit "z";
    lit "|"] |}.

(** sn.go:10-97 *)
Definition loc_sn : locale := Eval vm_compute in
  {| ld_name := lit "sn"; ld_order := lit "YMD"; ld_nospacing := false; ld_splitter := 0;
    ld_charset := runes (lit "bcdeghiklnorstuvwxyz");
    ld_abbr := [];
    ld_simpl := [];
    ld_trans := [(lit "nyamavhuvhu", [lit "august"]);
    (lit "chikunguru", [lit "july"]);
    (lit "chishanu", [lit "friday"]);
    (lit "chivabvu", [lit "may"]);
    (lit "gumiguru", [lit "october"]);
    (lit "kubvumbi", [lit "april"]);
    (lit "mugovera", [lit "saturday"]);
    (lit "chikumi", [lit "june"]);
    (lit "chipiri", [lit "tuesday"]);
    (lit "chitatu", [lit "wednesday"]);
    (lit "gunyana", [lit "september"]);
    (lit "kukadzi", [lit "february"]);
    (lit "muvhuro", [lit "monday"]);
    (lit "sekondi", [lit "second"]);
    (lit "kurume", [lit "march"]);
    (lit "mbudzi", [lit "november"]);
    (lit "mineti", [lit "minute"]);
    (lit "mwedzi", [lit "month"]);
    (lit "svondo", [lit "sunday"]);
    (lit "china", [lit "thursday"]);
    (lit "ndira", [lit "january"]);
    (lit "vhiki", [lit "week"]);
    (lit "zvita", [lit "december"]);
    (lit "gore", [lit "year"]);
    (lit "zuva", [lit "day"]);
    (lit "awa", [lit "hour"]);
    (lit "chg", [lit "july"]);
    (lit "chk", [lit "june"]);
    (lit "chn", [lit "thursday"]);
    (lit "chp", [lit "tuesday"]);
    (lit "chs", [lit "friday"]);
    (lit "cht", [lit "wednesday"]);
    (lit "chv", [lit "may"]);
    (lit "gmt", [lit "gmt"]);
    (lit "gum", [lit "october"]);
    (lit "gun", [lit "september"]);
    (lit "kub", [lit "april"]);
    (lit "kuk", [lit "february"]);
    (lit "kur", [lit "march"]);
    (lit "mbu", [lit "november"]);
    (lit "mug", [lit "saturday"]);
    (lit "muv", [lit "monday"]);
    (lit "ndi", [lit "january"]);
    (lit "nya", [lit "august"]);
    (lit "svo", [lit "sunday"]);
    (lit "utc", [lit "utc"]);
    (lit "zvi", [lit "december"]);
    (lit "am", [lit "am"]);
    (lit "pm", [lit "pm"]);
    (lit " ", [lit " "]);
    (lit "'", [lit ""]);
    (lit "+", [lit "+"]);
    (lit ",", [lit ""]);
    (lit "-", [lit "-"]);
    (lit ".", [lit "."]);
    (lit "/", [lit "/"]);
    (lit ":", [lit ":"]);
    (lit ";", [lit ""]);
    (lit "@", [lit ""]);
    (lit "[", [lit ""]);
    (lit "]", [lit ""]);
    (lit "z", [lit "z"]);
    (lit "|", [lit ""])];
    ld_reltype := [(lit "this minute", lit "0 minute ago");
    (lit "last month", lit "1 month ago");
    (lit "next month", lit "in 1 month");
    (lit "this month", lit "0 month ago");
    (lit "last week", lit "1 week ago");
    (lit "last year", lit "1 year ago");
    (lit "next week", lit "in 1 week");
    (lit "next year", lit "in 1 year");
    (lit "this hour", lit "0 hour ago");
    (lit "this week", lit "0 week ago");
    (lit "this year", lit "0 year ago");
    (lit "mangwana", lit "in 1 day");
    (lit "nezuro", lit "1 day ago");
    (lit "nhasi", lit "0 day ago");
    (lit "now", lit "0 second ago")];
    ld_relrx := [];
    ld_rx := None;
    ld_rx_exact := None;
    ld_known := [lit "nyamavhuvhu";
    lit "this minute";
    lit "chikunguru";
    lit "last month";
    lit "next month";
    lit "this month";
    lit "last week";
    lit "last year";
    lit "next week";
    lit "next year";
    lit "this hour";
    lit "this week";
    lit "this year";
    lit "chishanu";
    lit "chivabvu";
    lit "gumiguru";
    lit "kubvumbi";
    lit "mangwana";
    lit "mugovera";
    lit "chikumi";
    lit "chipiri";
    lit "chitatu";
    lit "gunyana";
    lit "kukadzi";
    lit "muvhuro";
    lit "sekondi";
    lit "kurume";
    lit "mbudzi";
    lit "mineti";
    lit "mwedzi";
    lit "nezuro";
    lit "svondo";
    lit "china";
    lit "ndira";
    lit "nhasi";
    lit "vhiki";
    lit "zvita";
    lit "gore";
    lit "zuva";
    lit "awa";
    lit "chg";
    lit "chk";
    lit "chn";
    lit "chp";
    lit "chs";
    lit "cht";
    lit "chv";
    lit "gmt";
    lit "gum";
    lit "gun";
    lit "kub";
    lit "kuk";
    lit "kur";
    lit "mbu";
    lit "mug";
    lit "muv";
    lit "ndi";
    lit "now";
    lit "nya";
    lit "svo";
    lit "utc";
    lit "zvi";
    lit "am";
    lit "pm";
    lit " ";
    lit "'";
    lit "+";
    lit ",";
    lit "-";
    lit ".";
    lit "/";
    lit ":";
    lit ";";
    lit "@";
    lit "[";
    lit "]";
    lit "z";
    lit "|"] |}.

(** all patterns above are accepted by the syntax parser *)
Example patterns_ok : forallb (fun s => match parse_regex s with Some _ => true | None => false end)
  [lit "(?i)(\A|[^\pL\pM\d]|_)(\d+[.,]?\d* manotbadji maŋŋilit|\d+[.,]?\d* minuhtta maŋŋilit|\d+[.,]?\d* sekundda maŋŋilit|\d+[.,]?\d* diibmur maŋŋilit|\d+[.,]?\d* jandora maŋŋilit|\d+[.,]?\d* minuhta maŋŋilit|\d+[.,]?\d* sekunda maŋŋilit|\d+[.,]?\d* diibmu maŋŋilit|\d+[.,]?\d* jahkki maŋŋilit|\d+[.,]?\d* jandor maŋŋilit|\d+[.,]?\d* manotbadji arat|\d+[.,]?\d* vahkku maŋŋilit|\d+[.,]?\d* jahki maŋŋilit|\d+[.,]?\d* vahku maŋŋilit|\d+[.,]?\d* minuhtta arat|\d+[.,]?\d* sekundda arat|\d+[.,]?\d* diibmur arat|\d+[.,]?\d* jandora arat|\d+[.,]?\d* minuhta arat|\d+[.,]?\d* sekunda arat|\d+[.,]?\d* diibmu arat|\d+[.,]?\d* jahkki arat|\d+[.,]?\d* jandor arat|\d+[.,]?\d* vahkku arat|\d+[.,]?\d* jagi siste|\d+[.,]?\d* jahki arat|\d+[.,]?\d* vahku arat|\d+[.,]?\d* jagi arat)(\z|[^\pL\pM\d]|_)";
  lit "(?i)(\A|[^\pL\pM\d]|_)(\d+[.,]?\d* manotbadji maŋŋilit|\d+[.,]?\d* minuhtta maŋŋilit|\d+[.,]?\d* sekundda maŋŋilit|\d+[.,]?\d* diibmur maŋŋilit|\d+[.,]?\d* jandora maŋŋilit|\d+[.,]?\d* minuhta maŋŋilit|\d+[.,]?\d* sekunda maŋŋilit|\d+[.,]?\d* diibmu maŋŋilit|\d+[.,]?\d* jahkki maŋŋilit|\d+[.,]?\d* jandor maŋŋilit|\d+[.,]?\d* manotbadji arat|\d+[.,]?\d* vahkku maŋŋilit|\d+[.,]?\d* jahki maŋŋilit|\d+[.,]?\d* vahku maŋŋilit|\d+[.,]?\d* minuhtta arat|\d+[.,]?\d* sekundda arat|\d+[.,]?\d* diibmur arat|\d+[.,]?\d* jandora arat|\d+[.,]?\d* minuhta arat|\d+[.,]?\d* sekunda arat|\d+[.,]?\d* diibmu arat|\d+[.,]?\d* jahkki arat|\d+[.,]?\d* jandor arat|\d+[.,]?\d* vahkku arat|\d+[.,]?\d* jahki arat|\d+[.,]?\d* vahku arat)(\z|[^\pL\pM\d]|_)";
  lit "(?i)(\A|[^\pL\pM\d]|_)(\d+[.,]?\d* секунду назад|\d+[.,]?\d* секунды назад|через \d+[.,]?\d* секунду|через \d+[.,]?\d* секунды|\d+[.,]?\d* месяца назад|\d+[.,]?\d* минуту назад|\d+[.,]?\d* минуты назад|\d+[.,]?\d* недели назад|\d+[.,]?\d* неделю назад|через \d+[.,]?\d* месяца|через \d+[.,]?\d* минуту|через \d+[.,]?\d* минуты|через \d+[.,]?\d* недели|через \d+[.,]?\d* неделю|\d+[.,]?\d* месяц назад|через \d+[.,]?\d* месяц|\d+[.,]?\d* года назад|\d+[.,]?\d* день назад|\d+[.,]?\d* часа назад|через \d+[.,]?\d* года|через \d+[.,]?\d* день|через \d+[.,]?\d* часа|\d+[.,]?\d* год назад|\d+[.,]?\d* дня назад|\d+[.,]?\d* мес назад|\d+[.,]?\d* мин назад|\d+[.,]?\d* нед назад|\d+[.,]?\d* сек назад|\d+[.,]?\d* час назад|через \d+[.,]?\d* год|через \d+[.,]?\d* дня|через \d+[.,]?\d* мес|через \d+[.,]?\d* мин|через \d+[.,]?\d* нед|через \d+[.,]?\d* сек|через \d+[.,]?\d* час|\d+[.,]?\d* дн назад|через \d+[.,]?\d* дн|\d+[.,]?\d* г назад|\d+[.,]?\d* д назад|\d+[.,]?\d* ч назад|через \d+[.,]?\d* г|через \d+[.,]?\d* д|через \d+[.,]?\d* ч)(\z|[^\pL\pM\d]|_)";
  lit "(?i)(\A|[^\pL\pM\d]|_)(\d+[.,]?\d* сөкүүндэ ынараа өттүгэр|\d+[.,]?\d* мүнүүтэ ынараа өттүгэр|\d+[.,]?\d* нэдиэлэ анараа өттүгэр|\d+[.,]?\d* чаас ынараа өттүгэр|\d+[.,]?\d* күн ынараа өттүгэр|\d+[.,]?\d* сыл ынараа өттүгэр|\d+[.,]?\d* сөк анараа өттүгэр|\d+[.,]?\d* ыи ынараа өттүгэр|\d+[.,]?\d* сөкүүндэннэн|\d+[.,]?\d* мүнүүтэннэн|\d+[.,]?\d* нэдиэлэннэн|\d+[.,]?\d* чааһынан|\d+[.,]?\d* күнүнэн|\d+[.,]?\d* сылынан|\d+[.,]?\d* ыиынан)(\z|[^\pL\pM\d]|_)";
  lit "(?i)(\A|[^\pL\pM\d]|_)(peste \d+[.,]?\d* de saptamani|acum \d+[.,]?\d* de saptamani|peste \d+[.,]?\d* de secunde|acum \d+[.,]?\d* de secunde|peste \d+[.,]?\d* de minute|peste \d+[.,]?\d* saptamana|acum \d+[.,]?\d* de minute|acum \d+[.,]?\d* saptamana|peste \d+[.,]?\d* de luni|peste \d+[.,]?\d* de zile|peste \d+[.,]?\d* secunda|acum \d+[.,]?\d* de luni|acum \d+[.,]?\d* de zile|acum \d+[.,]?\d* secunda|peste \d+[.,]?\d* de ani|peste \d+[.,]?\d* de ore|acum \d+[.,]?\d* de ani|acum \d+[.,]?\d* de ore|peste \d+[.,]?\d* minut|acum \d+[.,]?\d* minut|peste \d+[.,]?\d* luna|peste \d+[.,]?\d* luni|peste \d+[.,]?\d* sapt|peste \d+[.,]?\d* zile|acum \d+[.,]?\d* luna|acum \d+[.,]?\d* luni|acum \d+[.,]?\d* sapt|acum \d+[.,]?\d* zile|peste \d+[.,]?\d* ani|peste \d+[.,]?\d* min|peste \d+[.,]?\d* ora|peste \d+[.,]?\d* sec|acum \d+[.,]?\d* min|acum \d+[.,]?\d* ora|acum \d+[.,]?\d* sec|peste \d+[.,]?\d* an|peste \d+[.,]?\d* zi|acum \d+[.,]?\d* an|acum \d+[.,]?\d* zi|peste \d+[.,]?\d* h|acum \d+[.,]?\d* h)(\z|[^\pL\pM\d]|_)";
  lit "(?i)(\A|[^\pL\pM\d]|_)(pred \d+[.,]?\d* sekundami|pred \d+[.,]?\d* hodinami|pred \d+[.,]?\d* mesiacmi|pred \d+[.,]?\d* mesiacom|pred \d+[.,]?\d* minutami|pred \d+[.,]?\d* sekundou|pred \d+[.,]?\d* tyzdnami|pred \d+[.,]?\d* hodinou|pred \d+[.,]?\d* minutou|pred \d+[.,]?\d* tyzdnom|o \d+[.,]?\d* mesiacov|pred \d+[.,]?\d* dnami|pred \d+[.,]?\d* rokmi|pred \d+[.,]?\d* rokom|o \d+[.,]?\d* mesiace|o \d+[.,]?\d* sekundu|o \d+[.,]?\d* sekundy|o \d+[.,]?\d* tyzdnov|pred \d+[.,]?\d* dnom|o \d+[.,]?\d* hodinu|o \d+[.,]?\d* hodiny|o \d+[.,]?\d* mesiac|o \d+[.,]?\d* minutu|o \d+[.,]?\d* minuty|o \d+[.,]?\d* sekund|o \d+[.,]?\d* tyzden|o \d+[.,]?\d* tyzdne|pred \d+[.,]?\d* mes|pred \d+[.,]?\d* min|pred \d+[.,]?\d* tyz|o \d+[.,]?\d* hodin|o \d+[.,]?\d* minut|o \d+[.,]?\d* rokov|o \d+[.,]?\d* roky|pred \d+[.,]?\d* d|pred \d+[.,]?\d* h|pred \d+[.,]?\d* r|pred \d+[.,]?\d* s|o \d+[.,]?\d* den|o \d+[.,]?\d* dni|o \d+[.,]?\d* mes|o \d+[.,]?\d* min|o \d+[.,]?\d* rok|o \d+[.,]?\d* tyz|o \d+[.,]?\d* d|o \d+[.,]?\d* h|o \d+[.,]?\d* r|o \d+[.,]?\d* s)(\z|[^\pL\pM\d]|_)";
  lit "(?i)(\A|[^\pL\pM\d]|_)(pred \d+[.,]?\d* sekundami|pred \d+[.,]?\d* minutami|pred \d+[.,]?\d* mesecem|pred \d+[.,]?\d* sekundo|cez \d+[.,]?\d* mesecev|cez \d+[.,]?\d* sekundo|pred \d+[.,]?\d* dnevom|pred \d+[.,]?\d* meseci|pred \d+[.,]?\d* minuto|pred \d+[.,]?\d* tednom|cez \d+[.,]?\d* minuto|cez \d+[.,]?\d* sekund|cez \d+[.,]?\d* tednov|pred \d+[.,]?\d* dnevi|pred \d+[.,]?\d* letom|pred \d+[.,]?\d* tedni|pred \d+[.,]?\d* urami|cez \d+[.,]?\d* mesec|cez \d+[.,]?\d* minut|cez \d+[.,]?\d* teden|pred \d+[.,]?\d* leti|cez \d+[.,]?\d* leto|pred \d+[.,]?\d* mes|pred \d+[.,]?\d* min|pred \d+[.,]?\d* ted|pred \d+[.,]?\d* uro|cez \d+[.,]?\d* dan|cez \d+[.,]?\d* dni|cez \d+[.,]?\d* let|cez \d+[.,]?\d* mes|cez \d+[.,]?\d* min|cez \d+[.,]?\d* ted|cez \d+[.,]?\d* uro|cez \d+[.,]?\d* ur|pred \d+[.,]?\d* h|pred \d+[.,]?\d* s|cez \d+[.,]?\d* h|cez \d+[.,]?\d* s)(\z|[^\pL\pM\d]|_)";
  lit "(?i)(\A|[^\pL\pM\d]|_)(තතපර \d+[.,]?\d*කට පෙර|මනතත \d+[.,]?\d*කට පෙර|පැය \d+[.,]?\d*කට පෙර|මාස \d+[.,]?\d*කට පෙර|වසර \d+[.,]?\d*කට පෙර|දන \d+[.,]?\d*කට පෙර|සත \d+[.,]?\d*කට පෙර|තතපර \d+[.,]?\d*කන|මනතත \d+[.,]?\d*කන|පැය \d+[.,]?\d*කන|මාස \d+[.,]?\d*කන|වසර \d+[.,]?\d*කන|සත \d+[.,]?\d*කන|දන \d+[.,]?\d*න)(\z|[^\pL\pM\d]|_)";
  lit "(?i)(\A|[^\pL\pM\d_])((?:через|спустя|в течение)\s+)(?:день|дня)(\z|[^\pL\pM\d_])";
  lit "(?i)(\A|[^\pL\pM\d_])((?:через|спустя|в течение)\s+)года?(\z|[^\pL\pM\d_])";
  lit "(?i)(\A|[^\pL\pM\d_])((?:через|спустя|в течение)\s+)месяца?(\z|[^\pL\pM\d_])";
  lit "(?i)(\A|[^\pL\pM\d_])((?:через|спустя|в течение)\s+)минут[уы](\z|[^\pL\pM\d_])";
  lit "(?i)(\A|[^\pL\pM\d_])((?:через|спустя|в течение)\s+)недел[юи](\z|[^\pL\pM\d_])";
  lit "(?i)(\A|[^\pL\pM\d_])((?:через|спустя|в течение)\s+)секунд[уы](\z|[^\pL\pM\d_])";
  lit "(?i)(\A|[^\pL\pM\d_])((?:через|спустя|в течение)\s+)сут(?:ки|ок)(\z|[^\pL\pM\d_])";
  lit "(?i)(\A|[^\pL\pM\d_])((?:через|спустя|в течение)\s+)часа?(\z|[^\pL\pM\d_])";
  lit "(?i)(\A|[^\pL\pM\d_])([^\d]\s+|^)год(\s+назад)(\z|[^\pL\pM\d_])";
  lit "(?i)(\A|[^\pL\pM\d_])([^\d]\s+|^)день(\s+назад)(\z|[^\pL\pM\d_])";
  lit "(?i)(\A|[^\pL\pM\d_])([^\d]\s+|^)месяц(\s+назад)(\z|[^\pL\pM\d_])";
  lit "(?i)(\A|[^\pL\pM\d_])([^\d]\s+|^)минуту(\s+назад)(\z|[^\pL\pM\d_])";
  lit "(?i)(\A|[^\pL\pM\d_])([^\d]\s+|^)неделю(\s+назад)(\z|[^\pL\pM\d_])";
  lit "(?i)(\A|[^\pL\pM\d_])([^\d]\s+|^)секунду(\s+назад)(\z|[^\pL\pM\d_])";
  lit "(?i)(\A|[^\pL\pM\d_])([^\d]\s+|^)сутки(\s+назад)(\z|[^\pL\pM\d_])";
  lit "(?i)(\A|[^\pL\pM\d_])([^\d]\s+|^)час(\s+назад)(\z|[^\pL\pM\d_])";
  lit "(?i)(\A|[^\pL\pM\d_])(\d*[02-9])\s*год(?:\z|[^\pL\pM\d_])(\z|[^\pL\pM\d_])";
  lit "(?i)(\A|[^\pL\pM\d_])(\d{3,}1)\s*год\s*$(\z|[^\pL\pM\d_])";
  lit "(?i)(\A|[^\pL\pM\d_])o hodinu(\z|[^\pL\pM\d_])";
  lit "(?i)(\A|[^\pL\pM\d_])o mesiac(\z|[^\pL\pM\d_])";
  lit "(?i)(\A|[^\pL\pM\d_])o minutu(\z|[^\pL\pM\d_])";
  lit "(?i)(\A|[^\pL\pM\d_])o pol roka(\z|[^\pL\pM\d_])";
  lit "(?i)(\A|[^\pL\pM\d_])o rok(\z|[^\pL\pM\d_])";
  lit "(?i)(\A|[^\pL\pM\d_])o sekundu(\z|[^\pL\pM\d_])";
  lit "(?i)(\A|[^\pL\pM\d_])o tyzden(\z|[^\pL\pM\d_])";
  lit "(?i)(\A|[^\pL\pM\d_])pred hodinou(\z|[^\pL\pM\d_])";
  lit "(?i)(\A|[^\pL\pM\d_])pred mesiacom(\z|[^\pL\pM\d_])";
  lit "(?i)(\A|[^\pL\pM\d_])pred minutou(\z|[^\pL\pM\d_])";
  lit "(?i)(\A|[^\pL\pM\d_])pred pol rokom(\z|[^\pL\pM\d_])";
  lit "(?i)(\A|[^\pL\pM\d_])pred rokom(\z|[^\pL\pM\d_])";
  lit "(?i)(\A|[^\pL\pM\d_])pred sekundou(\z|[^\pL\pM\d_])";
  lit "(?i)(\A|[^\pL\pM\d_])pred tyzdnom(\z|[^\pL\pM\d_])";
  lit "(?i)(\A|[^\pL\pM\d_])восемь(\z|[^\pL\pM\d_])";
  lit "(?i)(\A|[^\pL\pM\d_])дв(?:а|е|ое|ух)(\z|[^\pL\pM\d_])";
  lit "(?i)(\A|[^\pL\pM\d_])двадцать(\z|[^\pL\pM\d_])";
  lit "(?i)(\A|[^\pL\pM\d_])двенадцать(\z|[^\pL\pM\d_])";
  lit "(?i)(\A|[^\pL\pM\d_])девять(\z|[^\pL\pM\d_])";
  lit "(?i)(\A|[^\pL\pM\d_])десять(\z|[^\pL\pM\d_])";
  lit "(?i)(\A|[^\pL\pM\d_])несколько секунд(\z|[^\pL\pM\d_])";
  lit "(?i)(\A|[^\pL\pM\d_])од(?:на|ну|ни|нои|ин)(\z|[^\pL\pM\d_])";
  lit "(?i)(\A|[^\pL\pM\d_])одиннадцать(\z|[^\pL\pM\d_])";
  lit "(?i)(\A|[^\pL\pM\d_])пар[ауы](\z|[^\pL\pM\d_])";
  lit "(?i)(\A|[^\pL\pM\d_])полгода(\z|[^\pL\pM\d_])";
  lit "(?i)(\A|[^\pL\pM\d_])полтора года(\z|[^\pL\pM\d_])";
  lit "(?i)(\A|[^\pL\pM\d_])полтора часа(\z|[^\pL\pM\d_])";
  lit "(?i)(\A|[^\pL\pM\d_])полчаса(\z|[^\pL\pM\d_])";
  lit "(?i)(\A|[^\pL\pM\d_])пятнадцать(\z|[^\pL\pM\d_])";
  lit "(?i)(\A|[^\pL\pM\d_])пять(\z|[^\pL\pM\d_])";
  lit "(?i)(\A|[^\pL\pM\d_])пятьдесят(\z|[^\pL\pM\d_])";
  lit "(?i)(\A|[^\pL\pM\d_])семь(\z|[^\pL\pM\d_])";
  lit "(?i)(\A|[^\pL\pM\d_])сорок(\z|[^\pL\pM\d_])";
  lit "(?i)(\A|[^\pL\pM\d_])три(\z|[^\pL\pM\d_])";
  lit "(?i)(\A|[^\pL\pM\d_])тридцать(\z|[^\pL\pM\d_])";
  lit "(?i)(\A|[^\pL\pM\d_])четыре(\z|[^\pL\pM\d_])";
  lit "(?i)(\A|[^\pL\pM\d_])шесть(\z|[^\pL\pM\d_])";
  lit "(?i)(\d+[.,]?\d*) diibmu arat";
  lit "(?i)(\d+[.,]?\d*) diibmu maŋŋilit";
  lit "(?i)(\d+[.,]?\d*) diibmur arat";
  lit "(?i)(\d+[.,]?\d*) diibmur maŋŋilit";
  lit "(?i)(\d+[.,]?\d*) jagi arat";
  lit "(?i)(\d+[.,]?\d*) jagi siste";
  lit "(?i)(\d+[.,]?\d*) jahki arat";
  lit "(?i)(\d+[.,]?\d*) jahki maŋŋilit";
  lit "(?i)(\d+[.,]?\d*) jahkki arat";
  lit "(?i)(\d+[.,]?\d*) jahkki maŋŋilit";
  lit "(?i)(\d+[.,]?\d*) jandor arat";
  lit "(?i)(\d+[.,]?\d*) jandor maŋŋilit";
  lit "(?i)(\d+[.,]?\d*) jandora arat";
  lit "(?i)(\d+[.,]?\d*) jandora maŋŋilit";
  lit "(?i)(\d+[.,]?\d*) manotbadji arat";
  lit "(?i)(\d+[.,]?\d*) manotbadji maŋŋilit";
  lit "(?i)(\d+[.,]?\d*) minuhta arat";
  lit "(?i)(\d+[.,]?\d*) minuhta maŋŋilit";
  lit "(?i)(\d+[.,]?\d*) minuhtta arat";
  lit "(?i)(\d+[.,]?\d*) minuhtta maŋŋilit";
  lit "(?i)(\d+[.,]?\d*) sekunda arat";
  lit "(?i)(\d+[.,]?\d*) sekunda maŋŋilit";
  lit "(?i)(\d+[.,]?\d*) sekundda arat";
  lit "(?i)(\d+[.,]?\d*) sekundda maŋŋilit";
  lit "(?i)(\d+[.,]?\d*) vahkku arat";
  lit "(?i)(\d+[.,]?\d*) vahkku maŋŋilit";
  lit "(?i)(\d+[.,]?\d*) vahku arat";
  lit "(?i)(\d+[.,]?\d*) vahku maŋŋilit";
  lit "(?i)(\d+[.,]?\d*) г назад";
  lit "(?i)(\d+[.,]?\d*) год назад";
  lit "(?i)(\d+[.,]?\d*) года назад";
  lit "(?i)(\d+[.,]?\d*) д назад";
  lit "(?i)(\d+[.,]?\d*) день назад";
  lit "(?i)(\d+[.,]?\d*) дн назад";
  lit "(?i)(\d+[.,]?\d*) дня назад";
  lit "(?i)(\d+[.,]?\d*) күн ынараа өттүгэр";
  lit "(?i)(\d+[.,]?\d*) күнүнэн";
  lit "(?i)(\d+[.,]?\d*) мес назад";
  lit "(?i)(\d+[.,]?\d*) месяц назад";
  lit "(?i)(\d+[.,]?\d*) месяца назад";
  lit "(?i)(\d+[.,]?\d*) мин назад";
  lit "(?i)(\d+[.,]?\d*) минуту назад";
  lit "(?i)(\d+[.,]?\d*) минуты назад";
  lit "(?i)(\d+[.,]?\d*) мүнүүтэ ынараа өттүгэр";
  lit "(?i)(\d+[.,]?\d*) мүнүүтэннэн";
  lit "(?i)(\d+[.,]?\d*) нед назад";
  lit "(?i)(\d+[.,]?\d*) недели назад";
  lit "(?i)(\d+[.,]?\d*) неделю назад";
  lit "(?i)(\d+[.,]?\d*) нэдиэлэ анараа өттүгэр";
  lit "(?i)(\d+[.,]?\d*) нэдиэлэннэн";
  lit "(?i)(\d+[.,]?\d*) сек назад";
  lit "(?i)(\d+[.,]?\d*) секунду назад";
  lit "(?i)(\d+[.,]?\d*) секунды назад";
  lit "(?i)(\d+[.,]?\d*) сыл ынараа өттүгэр";
  lit "(?i)(\d+[.,]?\d*) сылынан";
  lit "(?i)(\d+[.,]?\d*) сөк анараа өттүгэр";
  lit "(?i)(\d+[.,]?\d*) сөкүүндэ ынараа өттүгэр";
  lit "(?i)(\d+[.,]?\d*) сөкүүндэннэн";
  lit "(?i)(\d+[.,]?\d*) ч назад";
  lit "(?i)(\d+[.,]?\d*) чаас ынараа өттүгэр";
  lit "(?i)(\d+[.,]?\d*) чааһынан";
  lit "(?i)(\d+[.,]?\d*) час назад";
  lit "(?i)(\d+[.,]?\d*) часа назад";
  lit "(?i)(\d+[.,]?\d*) ыи ынараа өттүгэр";
  lit "(?i)(\d+[.,]?\d*) ыиынан";
  lit "(?i)^(\d+[.,]?\d* manotbadji maŋŋilit|\d+[.,]?\d* minuhtta maŋŋilit|\d+[.,]?\d* sekundda maŋŋilit|\d+[.,]?\d* diibmur maŋŋilit|\d+[.,]?\d* jandora maŋŋilit|\d+[.,]?\d* minuhta maŋŋilit|\d+[.,]?\d* sekunda maŋŋilit|\d+[.,]?\d* diibmu maŋŋilit|\d+[.,]?\d* jahkki maŋŋilit|\d+[.,]?\d* jandor maŋŋilit|\d+[.,]?\d* manotbadji arat|\d+[.,]?\d* vahkku maŋŋilit|\d+[.,]?\d* jahki maŋŋilit|\d+[.,]?\d* vahku maŋŋilit|\d+[.,]?\d* minuhtta arat|\d+[.,]?\d* sekundda arat|\d+[.,]?\d* diibmur arat|\d+[.,]?\d* jandora arat|\d+[.,]?\d* minuhta arat|\d+[.,]?\d* sekunda arat|\d+[.,]?\d* diibmu arat|\d+[.,]?\d* jahkki arat|\d+[.,]?\d* jandor arat|\d+[.,]?\d* vahkku arat|\d+[.,]?\d* jagi siste|\d+[.,]?\d* jahki arat|\d+[.,]?\d* vahku arat|\d+[.,]?\d* jagi arat)$";
  lit "(?i)^(\d+[.,]?\d* manotbadji maŋŋilit|\d+[.,]?\d* minuhtta maŋŋilit|\d+[.,]?\d* sekundda maŋŋilit|\d+[.,]?\d* diibmur maŋŋilit|\d+[.,]?\d* jandora maŋŋilit|\d+[.,]?\d* minuhta maŋŋilit|\d+[.,]?\d* sekunda maŋŋilit|\d+[.,]?\d* diibmu maŋŋilit|\d+[.,]?\d* jahkki maŋŋilit|\d+[.,]?\d* jandor maŋŋilit|\d+[.,]?\d* manotbadji arat|\d+[.,]?\d* vahkku maŋŋilit|\d+[.,]?\d* jahki maŋŋilit|\d+[.,]?\d* vahku maŋŋilit|\d+[.,]?\d* minuhtta arat|\d+[.,]?\d* sekundda arat|\d+[.,]?\d* diibmur arat|\d+[.,]?\d* jandora arat|\d+[.,]?\d* minuhta arat|\d+[.,]?\d* sekunda arat|\d+[.,]?\d* diibmu arat|\d+[.,]?\d* jahkki arat|\d+[.,]?\d* jandor arat|\d+[.,]?\d* vahkku arat|\d+[.,]?\d* jahki arat|\d+[.,]?\d* vahku arat)$";
  lit "(?i)^(\d+[.,]?\d* секунду назад|\d+[.,]?\d* секунды назад|через \d+[.,]?\d* секунду|через \d+[.,]?\d* секунды|\d+[.,]?\d* месяца назад|\d+[.,]?\d* минуту назад|\d+[.,]?\d* минуты назад|\d+[.,]?\d* недели назад|\d+[.,]?\d* неделю назад|через \d+[.,]?\d* месяца|через \d+[.,]?\d* минуту|через \d+[.,]?\d* минуты|через \d+[.,]?\d* недели|через \d+[.,]?\d* неделю|\d+[.,]?\d* месяц назад|через \d+[.,]?\d* месяц|\d+[.,]?\d* года назад|\d+[.,]?\d* день назад|\d+[.,]?\d* часа назад|через \d+[.,]?\d* года|через \d+[.,]?\d* день|через \d+[.,]?\d* часа|\d+[.,]?\d* год назад|\d+[.,]?\d* дня назад|\d+[.,]?\d* мес назад|\d+[.,]?\d* мин назад|\d+[.,]?\d* нед назад|\d+[.,]?\d* сек назад|\d+[.,]?\d* час назад|через \d+[.,]?\d* год|через \d+[.,]?\d* дня|через \d+[.,]?\d* мес|через \d+[.,]?\d* мин|через \d+[.,]?\d* нед|через \d+[.,]?\d* сек|через \d+[.,]?\d* час|\d+[.,]?\d* дн назад|через \d+[.,]?\d* дн|\d+[.,]?\d* г назад|\d+[.,]?\d* д назад|\d+[.,]?\d* ч назад|через \d+[.,]?\d* г|через \d+[.,]?\d* д|через \d+[.,]?\d* ч)$";
  lit "(?i)^(\d+[.,]?\d* сөкүүндэ ынараа өттүгэр|\d+[.,]?\d* мүнүүтэ ынараа өттүгэр|\d+[.,]?\d* нэдиэлэ анараа өттүгэр|\d+[.,]?\d* чаас ынараа өттүгэр|\d+[.,]?\d* күн ынараа өттүгэр|\d+[.,]?\d* сыл ынараа өттүгэр|\d+[.,]?\d* сөк анараа өттүгэр|\d+[.,]?\d* ыи ынараа өттүгэр|\d+[.,]?\d* сөкүүндэннэн|\d+[.,]?\d* мүнүүтэннэн|\d+[.,]?\d* нэдиэлэннэн|\d+[.,]?\d* чааһынан|\d+[.,]?\d* күнүнэн|\d+[.,]?\d* сылынан|\d+[.,]?\d* ыиынан)$";
  lit "(?i)^(peste \d+[.,]?\d* de saptamani|acum \d+[.,]?\d* de saptamani|peste \d+[.,]?\d* de secunde|acum \d+[.,]?\d* de secunde|peste \d+[.,]?\d* de minute|peste \d+[.,]?\d* saptamana|acum \d+[.,]?\d* de minute|acum \d+[.,]?\d* saptamana|peste \d+[.,]?\d* de luni|peste \d+[.,]?\d* de zile|peste \d+[.,]?\d* secunda|acum \d+[.,]?\d* de luni|acum \d+[.,]?\d* de zile|acum \d+[.,]?\d* secunda|peste \d+[.,]?\d* de ani|peste \d+[.,]?\d* de ore|acum \d+[.,]?\d* de ani|acum \d+[.,]?\d* de ore|peste \d+[.,]?\d* minut|acum \d+[.,]?\d* minut|peste \d+[.,]?\d* luna|peste \d+[.,]?\d* luni|peste \d+[.,]?\d* sapt|peste \d+[.,]?\d* zile|acum \d+[.,]?\d* luna|acum \d+[.,]?\d* luni|acum \d+[.,]?\d* sapt|acum \d+[.,]?\d* zile|peste \d+[.,]?\d* ani|peste \d+[.,]?\d* min|peste \d+[.,]?\d* ora|peste \d+[.,]?\d* sec|acum \d+[.,]?\d* min|acum \d+[.,]?\d* ora|acum \d+[.,]?\d* sec|peste \d+[.,]?\d* an|peste \d+[.,]?\d* zi|acum \d+[.,]?\d* an|acum \d+[.,]?\d* zi|peste \d+[.,]?\d* h|acum \d+[.,]?\d* h)$";
  lit "(?i)^(pred \d+[.,]?\d* sekundami|pred \d+[.,]?\d* hodinami|pred \d+[.,]?\d* mesiacmi|pred \d+[.,]?\d* mesiacom|pred \d+[.,]?\d* minutami|pred \d+[.,]?\d* sekundou|pred \d+[.,]?\d* tyzdnami|pred \d+[.,]?\d* hodinou|pred \d+[.,]?\d* minutou|pred \d+[.,]?\d* tyzdnom|o \d+[.,]?\d* mesiacov|pred \d+[.,]?\d* dnami|pred \d+[.,]?\d* rokmi|pred \d+[.,]?\d* rokom|o \d+[.,]?\d* mesiace|o \d+[.,]?\d* sekundu|o \d+[.,]?\d* sekundy|o \d+[.,]?\d* tyzdnov|pred \d+[.,]?\d* dnom|o \d+[.,]?\d* hodinu|o \d+[.,]?\d* hodiny|o \d+[.,]?\d* mesiac|o \d+[.,]?\d* minutu|o \d+[.,]?\d* minuty|o \d+[.,]?\d* sekund|o \d+[.,]?\d* tyzden|o \d+[.,]?\d* tyzdne|pred \d+[.,]?\d* mes|pred \d+[.,]?\d* min|pred \d+[.,]?\d* tyz|o \d+[.,]?\d* hodin|o \d+[.,]?\d* minut|o \d+[.,]?\d* rokov|o \d+[.,]?\d* roky|pred \d+[.,]?\d* d|pred \d+[.,]?\d* h|pred \d+[.,]?\d* r|pred \d+[.,]?\d* s|o \d+[.,]?\d* den|o \d+[.,]?\d* dni|o \d+[.,]?\d* mes|o \d+[.,]?\d* min|o \d+[.,]?\d* rok|o \d+[.,]?\d* tyz|o \d+[.,]?\d* d|o \d+[.,]?\d* h|o \d+[.,]?\d* r|o \d+[.,]?\d* s)$";
  lit "(?i)^(pred \d+[.,]?\d* sekundami|pred \d+[.,]?\d* minutami|pred \d+[.,]?\d* mesecem|pred \d+[.,]?\d* sekundo|cez \d+[.,]?\d* mesecev|cez \d+[.,]?\d* sekundo|pred \d+[.,]?\d* dnevom|pred \d+[.,]?\d* meseci|pred \d+[.,]?\d* minuto|pred \d+[.,]?\d* tednom|cez \d+[.,]?\d* minuto|cez \d+[.,]?\d* sekund|cez \d+[.,]?\d* tednov|pred \d+[.,]?\d* dnevi|pred \d+[.,]?\d* letom|pred \d+[.,]?\d* tedni|pred \d+[.,]?\d* urami|cez \d+[.,]?\d* mesec|cez \d+[.,]?\d* minut|cez \d+[.,]?\d* teden|pred \d+[.,]?\d* leti|cez \d+[.,]?\d* leto|pred \d+[.,]?\d* mes|pred \d+[.,]?\d* min|pred \d+[.,]?\d* ted|pred \d+[.,]?\d* uro|cez \d+[.,]?\d* dan|cez \d+[.,]?\d* dni|cez \d+[.,]?\d* let|cez \d+[.,]?\d* mes|cez \d+[.,]?\d* min|cez \d+[.,]?\d* ted|cez \d+[.,]?\d* uro|cez \d+[.,]?\d* ur|pred \d+[.,]?\d* h|pred \d+[.,]?\d* s|cez \d+[.,]?\d* h|cez \d+[.,]?\d* s)$";
  lit "(?i)^(තතපර \d+[.,]?\d*කට පෙර|මනතත \d+[.,]?\d*කට පෙර|පැය \d+[.,]?\d*කට පෙර|මාස \d+[.,]?\d*කට පෙර|වසර \d+[.,]?\d*කට පෙර|දන \d+[.,]?\d*කට පෙර|සත \d+[.,]?\d*කට පෙර|තතපර \d+[.,]?\d*කන|මනතත \d+[.,]?\d*කන|පැය \d+[.,]?\d*කන|මාස \d+[.,]?\d*කන|වසර \d+[.,]?\d*කන|සත \d+[.,]?\d*කන|දන \d+[.,]?\d*න)$";
  lit "(?i)acum (\d+[.,]?\d*) an";
  lit "(?i)acum (\d+[.,]?\d*) de ani";
  lit "(?i)acum (\d+[.,]?\d*) de luni";
  lit "(?i)acum (\d+[.,]?\d*) de minute";
  lit "(?i)acum (\d+[.,]?\d*) de ore";
  lit "(?i)acum (\d+[.,]?\d*) de saptamani";
  lit "(?i)acum (\d+[.,]?\d*) de secunde";
  lit "(?i)acum (\d+[.,]?\d*) de zile";
  lit "(?i)acum (\d+[.,]?\d*) h";
  lit "(?i)acum (\d+[.,]?\d*) luna";
  lit "(?i)acum (\d+[.,]?\d*) luni";
  lit "(?i)acum (\d+[.,]?\d*) min";
  lit "(?i)acum (\d+[.,]?\d*) minut";
  lit "(?i)acum (\d+[.,]?\d*) ora";
  lit "(?i)acum (\d+[.,]?\d*) sapt";
  lit "(?i)acum (\d+[.,]?\d*) saptamana";
  lit "(?i)acum (\d+[.,]?\d*) sec";
  lit "(?i)acum (\d+[.,]?\d*) secunda";
  lit "(?i)acum (\d+[.,]?\d*) zi";
  lit "(?i)acum (\d+[.,]?\d*) zile";
  lit "(?i)cez (\d+[.,]?\d*) dan";
  lit "(?i)cez (\d+[.,]?\d*) dni";
  lit "(?i)cez (\d+[.,]?\d*) h";
  lit "(?i)cez (\d+[.,]?\d*) let";
  lit "(?i)cez (\d+[.,]?\d*) leto";
  lit "(?i)cez (\d+[.,]?\d*) mes";
  lit "(?i)cez (\d+[.,]?\d*) mesec";
  lit "(?i)cez (\d+[.,]?\d*) mesecev";
  lit "(?i)cez (\d+[.,]?\d*) min";
  lit "(?i)cez (\d+[.,]?\d*) minut";
  lit "(?i)cez (\d+[.,]?\d*) minuto";
  lit "(?i)cez (\d+[.,]?\d*) s";
  lit "(?i)cez (\d+[.,]?\d*) sekund";
  lit "(?i)cez (\d+[.,]?\d*) sekundo";
  lit "(?i)cez (\d+[.,]?\d*) ted";
  lit "(?i)cez (\d+[.,]?\d*) teden";
  lit "(?i)cez (\d+[.,]?\d*) tednov";
  lit "(?i)cez (\d+[.,]?\d*) ur";
  lit "(?i)cez (\d+[.,]?\d*) uro";
  lit "(?i)o (\d+[.,]?\d*) d";
  lit "(?i)o (\d+[.,]?\d*) den";
  lit "(?i)o (\d+[.,]?\d*) dni";
  lit "(?i)o (\d+[.,]?\d*) h";
  lit "(?i)o (\d+[.,]?\d*) hodin";
  lit "(?i)o (\d+[.,]?\d*) hodinu";
  lit "(?i)o (\d+[.,]?\d*) hodiny";
  lit "(?i)o (\d+[.,]?\d*) mes";
  lit "(?i)o (\d+[.,]?\d*) mesiac";
  lit "(?i)o (\d+[.,]?\d*) mesiace";
  lit "(?i)o (\d+[.,]?\d*) mesiacov";
  lit "(?i)o (\d+[.,]?\d*) min";
  lit "(?i)o (\d+[.,]?\d*) minut";
  lit "(?i)o (\d+[.,]?\d*) minutu";
  lit "(?i)o (\d+[.,]?\d*) minuty";
  lit "(?i)o (\d+[.,]?\d*) r";
  lit "(?i)o (\d+[.,]?\d*) rok";
  lit "(?i)o (\d+[.,]?\d*) rokov";
  lit "(?i)o (\d+[.,]?\d*) roky";
  lit "(?i)o (\d+[.,]?\d*) s";
  lit "(?i)o (\d+[.,]?\d*) sekund";
  lit "(?i)o (\d+[.,]?\d*) sekundu";
  lit "(?i)o (\d+[.,]?\d*) sekundy";
  lit "(?i)o (\d+[.,]?\d*) tyz";
  lit "(?i)o (\d+[.,]?\d*) tyzden";
  lit "(?i)o (\d+[.,]?\d*) tyzdne";
  lit "(?i)o (\d+[.,]?\d*) tyzdnov";
  lit "(?i)peste (\d+[.,]?\d*) an";
  lit "(?i)peste (\d+[.,]?\d*) ani";
  lit "(?i)peste (\d+[.,]?\d*) de ani";
  lit "(?i)peste (\d+[.,]?\d*) de luni";
  lit "(?i)peste (\d+[.,]?\d*) de minute";
  lit "(?i)peste (\d+[.,]?\d*) de ore";
  lit "(?i)peste (\d+[.,]?\d*) de saptamani";
  lit "(?i)peste (\d+[.,]?\d*) de secunde";
  lit "(?i)peste (\d+[.,]?\d*) de zile";
  lit "(?i)peste (\d+[.,]?\d*) h";
  lit "(?i)peste (\d+[.,]?\d*) luna";
  lit "(?i)peste (\d+[.,]?\d*) luni";
  lit "(?i)peste (\d+[.,]?\d*) min";
  lit "(?i)peste (\d+[.,]?\d*) minut";
  lit "(?i)peste (\d+[.,]?\d*) ora";
  lit "(?i)peste (\d+[.,]?\d*) sapt";
  lit "(?i)peste (\d+[.,]?\d*) saptamana";
  lit "(?i)peste (\d+[.,]?\d*) sec";
  lit "(?i)peste (\d+[.,]?\d*) secunda";
  lit "(?i)peste (\d+[.,]?\d*) zi";
  lit "(?i)peste (\d+[.,]?\d*) zile";
  lit "(?i)pred (\d+[.,]?\d*) d";
  lit "(?i)pred (\d+[.,]?\d*) dnami";
  lit "(?i)pred (\d+[.,]?\d*) dnevi";
  lit "(?i)pred (\d+[.,]?\d*) dnevom";
  lit "(?i)pred (\d+[.,]?\d*) dnom";
  lit "(?i)pred (\d+[.,]?\d*) h";
  lit "(?i)pred (\d+[.,]?\d*) hodinami";
  lit "(?i)pred (\d+[.,]?\d*) hodinou";
  lit "(?i)pred (\d+[.,]?\d*) leti";
  lit "(?i)pred (\d+[.,]?\d*) letom";
  lit "(?i)pred (\d+[.,]?\d*) mes";
  lit "(?i)pred (\d+[.,]?\d*) mesecem";
  lit "(?i)pred (\d+[.,]?\d*) meseci";
  lit "(?i)pred (\d+[.,]?\d*) mesiacmi";
  lit "(?i)pred (\d+[.,]?\d*) mesiacom";
  lit "(?i)pred (\d+[.,]?\d*) min";
  lit "(?i)pred (\d+[.,]?\d*) minutami";
  lit "(?i)pred (\d+[.,]?\d*) minuto";
  lit "(?i)pred (\d+[.,]?\d*) minutou";
  lit "(?i)pred (\d+[.,]?\d*) r";
  lit "(?i)pred (\d+[.,]?\d*) rokmi";
  lit "(?i)pred (\d+[.,]?\d*) rokom";
  lit "(?i)pred (\d+[.,]?\d*) s";
  lit "(?i)pred (\d+[.,]?\d*) sekundami";
  lit "(?i)pred (\d+[.,]?\d*) sekundo";
  lit "(?i)pred (\d+[.,]?\d*) sekundou";
  lit "(?i)pred (\d+[.,]?\d*) ted";
  lit "(?i)pred (\d+[.,]?\d*) tedni";
  lit "(?i)pred (\d+[.,]?\d*) tednom";
  lit "(?i)pred (\d+[.,]?\d*) tyz";
  lit "(?i)pred (\d+[.,]?\d*) tyzdnami";
  lit "(?i)pred (\d+[.,]?\d*) tyzdnom";
  lit "(?i)pred (\d+[.,]?\d*) urami";
  lit "(?i)pred (\d+[.,]?\d*) uro";
  lit "(?i)через (\d+[.,]?\d*) г";
  lit "(?i)через (\d+[.,]?\d*) год";
  lit "(?i)через (\d+[.,]?\d*) года";
  lit "(?i)через (\d+[.,]?\d*) д";
  lit "(?i)через (\d+[.,]?\d*) день";
  lit "(?i)через (\d+[.,]?\d*) дн";
  lit "(?i)через (\d+[.,]?\d*) дня";
  lit "(?i)через (\d+[.,]?\d*) мес";
  lit "(?i)через (\d+[.,]?\d*) месяц";
  lit "(?i)через (\d+[.,]?\d*) месяца";
  lit "(?i)через (\d+[.,]?\d*) мин";
  lit "(?i)через (\d+[.,]?\d*) минуту";
  lit "(?i)через (\d+[.,]?\d*) минуты";
  lit "(?i)через (\d+[.,]?\d*) нед";
  lit "(?i)через (\d+[.,]?\d*) недели";
  lit "(?i)через (\d+[.,]?\d*) неделю";
  lit "(?i)через (\d+[.,]?\d*) сек";
  lit "(?i)через (\d+[.,]?\d*) секунду";
  lit "(?i)через (\d+[.,]?\d*) секунды";
  lit "(?i)через (\d+[.,]?\d*) ч";
  lit "(?i)через (\d+[.,]?\d*) час";
  lit "(?i)через (\d+[.,]?\d*) часа";
  lit "(?i)තතපර (\d+[.,]?\d*)කට පෙර";
  lit "(?i)තතපර (\d+[.,]?\d*)කන";
  lit "(?i)දන (\d+[.,]?\d*)කට පෙර";
  lit "(?i)දන (\d+[.,]?\d*)න";
  lit "(?i)පැය (\d+[.,]?\d*)කට පෙර";
  lit "(?i)පැය (\d+[.,]?\d*)කන";
  lit "(?i)මනතත (\d+[.,]?\d*)කට පෙර";
  lit "(?i)මනතත (\d+[.,]?\d*)කන";
  lit "(?i)මාස (\d+[.,]?\d*)කට පෙර";
  lit "(?i)මාස (\d+[.,]?\d*)කන";
  lit "(?i)වසර (\d+[.,]?\d*)කට පෙර";
  lit "(?i)වසර (\d+[.,]?\d*)කන";
  lit "(?i)සත (\d+[.,]?\d*)කට පෙර";
  lit "(?i)සත (\d+[.,]?\d*)කන"] = true.
Proof. vm_compute. reflexivity. Qed.

Definition table_10 : list (str * locale) :=
  [(lit "ro", loc_ro);
   (lit "ro-MD", loc_ro_MD);
   (lit "rof", loc_rof);
   (lit "ru", loc_ru);
   (lit "ru-BY", loc_ru_BY);
   (lit "ru-KG", loc_ru_KG);
   (lit "ru-KZ", loc_ru_KZ);
   (lit "ru-MD", loc_ru_MD);
   (lit "ru-UA", loc_ru_UA);
   (lit "rw", loc_rw);
   (lit "rwk", loc_rwk);
   (lit "sah", loc_sah);
   (lit "saq", loc_saq);
   (lit "sbp", loc_sbp);
   (lit "se", loc_se);
   (lit "se-FI", loc_se_FI);
   (lit "se-SE", loc_se_SE);
   (lit "seh", loc_seh);
   (lit "ses", loc_ses);
   (lit "sg", loc_sg);
   (lit "shi-Latn", loc_shi_Latn);
   (lit "shi-Tfng", loc_shi_Tfng);
   (lit "shi", loc_shi);
   (lit "si", loc_si);
   (lit "sk", loc_sk);
   (lit "sl", loc_sl);
   (lit "smn", loc_smn);
   (lit "sn", loc_sn)].

(** each region with its language *)
Definition regions_10 : list (str * str) :=
  [(lit "ro-MD", lit "ro");
   (lit "ru-BY", lit "ru");
   (lit "ru-KG", lit "ru");
   (lit "ru-KZ", lit "ru");
   (lit "ru-MD", lit "ru");
   (lit "ru-UA", lit "ru");
   (lit "se-FI", lit "se");
   (lit "se-SE", lit "se")].
