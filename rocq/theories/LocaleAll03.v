(** Generated by tools/gen_all_locales.py from /repo/internal/data. Do not edit. *)
From Verif Require Import GoBase SMap Regex Language LocaleData.

(** de.go:208-211 *)
Definition own_de_AT : locale := Eval vm_compute in
  {| ld_name := lit "de-AT"; ld_order := lit "DMY"; ld_nospacing := false; ld_splitter := 0;
    ld_charset := runes (lit "");
    ld_abbr := [];
    ld_simpl := [];
    ld_trans := [];
    ld_reltype := [];
    ld_relrx := [];
    ld_rx := None;
    ld_rx_exact := None;
    ld_known := [] |}.
Definition loc_de_AT : locale := merge loc_de own_de_AT.

(** de.go:213-216 *)
Definition own_de_BE : locale := Eval vm_compute in
  {| ld_name := lit "de-BE"; ld_order := lit "DMY"; ld_nospacing := false; ld_splitter := 0;
    ld_charset := runes (lit "");
    ld_abbr := [];
    ld_simpl := [];
    ld_trans := [];
    ld_reltype := [];
    ld_relrx := [];
    ld_rx := None;
    ld_rx_exact := None;
    ld_known := [] |}.
Definition loc_de_BE : locale := merge loc_de own_de_BE.

(** de.go:218-221 *)
Definition own_de_CH : locale := Eval vm_compute in
  {| ld_name := lit "de-CH"; ld_order := lit "DMY"; ld_nospacing := false; ld_splitter := 0;
    ld_charset := runes (lit "");
    ld_abbr := [];
    ld_simpl := [];
    ld_trans := [];
    ld_reltype := [];
    ld_relrx := [];
    ld_rx := None;
    ld_rx_exact := None;
    ld_known := [] |}.
Definition loc_de_CH : locale := merge loc_de own_de_CH.

(** de.go:223-226 *)
Definition own_de_IT : locale := Eval vm_compute in
  {| ld_name := lit "de-IT"; ld_order := lit "DMY"; ld_nospacing := false; ld_splitter := 0;
    ld_charset := runes (lit "");
    ld_abbr := [];
    ld_simpl := [];
    ld_trans := [];
    ld_reltype := [];
    ld_relrx := [];
    ld_rx := None;
    ld_rx_exact := None;
    ld_known := [] |}.
Definition loc_de_IT : locale := merge loc_de own_de_IT.

(** de.go:228-231 *)
Definition own_de_LI : locale := Eval vm_compute in
  {| ld_name := lit "de-LI"; ld_order := lit "DMY"; ld_nospacing := false; ld_splitter := 0;
    ld_charset := runes (lit "");
    ld_abbr := [];
    ld_simpl := [];
    ld_trans := [];
    ld_reltype := [];
    ld_relrx := [];
    ld_rx := None;
    ld_rx_exact := None;
    ld_known := [] |}.
Definition loc_de_LI : locale := merge loc_de own_de_LI.

(** de.go:233-236 *)
Definition own_de_LU : locale := Eval vm_compute in
  {| ld_name := lit "de-LU"; ld_order := lit "DMY"; ld_nospacing := false; ld_splitter := 0;
    ld_charset := runes (lit "");
    ld_abbr := [];
    ld_simpl := [];
    ld_trans := [];
    ld_reltype := [];
    ld_relrx := [];
    ld_rx := None;
    ld_rx_exact := None;
    ld_known := [] |}.
Definition loc_de_LU : locale := merge loc_de own_de_LU.

(** dje.go:10-97 *)
Definition loc_dje : locale := Eval vm_compute in
  {| ld_name := lit "dje"; ld_order := lit "DMY"; ld_nospacing := false; ld_splitter := 0;
    ld_charset := runes (lit "bcdefghijklnorstuwxyzõŋž");
    ld_abbr := [];
    ld_simpl := [];
    ld_trans := [(lit "zaarikay b", [lit "pm"]);
    (lit "deesanbur", [lit "december"]);
    (lit "feewiriye", [lit "february"]);
    (lit "noowanbur", [lit "november"]);
    (lit "sektanbur", [lit "september"]);
    (lit "alhamisi", [lit "thursday"]);
    (lit "atalaata", [lit "tuesday"]);
    (lit "oktoobur", [lit "october"]);
    (lit "subbaahi", [lit "am"]);
    (lit "zanwiye", [lit "january"]);
    (lit "alarba", [lit "wednesday"]);
    (lit "alhadi", [lit "sunday"]);
    (lit "alzuma", [lit "friday"]);
    (lit "asibti", [lit "saturday"]);
    (lit "atinni", [lit "monday"]);
    (lit "awiril", [lit "april"]);
    (lit "miniti", [lit "minute"]);
    (lit "guuru", [lit "hour"]);
    (lit "handu", [lit "month"]);
    (lit "jiiri", [lit "year"]);
    (lit "marsi", [lit "march"]);
    (lit "zaari", [lit "day"]);
    (lit "zuweŋ", [lit "june"]);
    (lit "zuyye", [lit "july"]);
    (lit "hebu", [lit "week"]);
    (lit "miti", [lit "second"]);
    (lit "ala", [lit "wednesday"]);
    (lit "alh", [lit "sunday"]);
    (lit "alm", [lit "thursday"]);
    (lit "alz", [lit "friday"]);
    (lit "asi", [lit "saturday"]);
    (lit "ata", [lit "tuesday"]);
    (lit "ati", [lit "monday"]);
    (lit "awi", [lit "april"]);
    (lit "dee", [lit "december"]);
    (lit "fee", [lit "february"]);
    (lit "gmt", [lit "gmt"]);
    (lit "mar", [lit "march"]);
    (lit "noo", [lit "november"]);
    (lit "okt", [lit "october"]);
    (lit "sek", [lit "september"]);
    (lit "utc", [lit "utc"]);
    (lit "zan", [lit "january"]);
    (lit "zuw", [lit "june"]);
    (lit "zuy", [lit "july"]);
    (lit "am", [lit "am"]);
    (lit "me", [lit "may"]);
    (lit "pm", [lit "pm"]);
    (lit "ut", [lit "august"]);
    (lit " ", [lit " "]);
    (lit "'", [lit ""]);
    (lit "+", [lit "+"]);
    (lit ",", [lit ""]);
    (lit "-", [lit "-"]);
    (lit ".", [lit "."]);
    (lit "/", [lit "/"]);
    (lit ":", [lit ":"]);
    (lit ";", [lit ""]);
    (lit "@", [lit ""]);
    (lit "[", [lit ""]);
    (lit "]", [lit ""]);
    (lit "z", [lit "z"]);
    (lit "|", [lit ""])];
    ld_reltype := [(lit "this minute", lit "0 minute ago");
    (lit "last month", lit "1 month ago");
    (lit "next month", lit "in 1 month");
    (lit "this month", lit "0 month ago");
    (lit "last week", lit "1 week ago");
    (lit "last year", lit "1 year ago");
    (lit "next week", lit "in 1 week");
    (lit "next year", lit "in 1 year");
    (lit "this hour", lit "0 hour ago");
    (lit "this week", lit "0 week ago");
    (lit "this year", lit "0 year ago");
    (lit "suba", lit "in 1 day");
    (lit "hoo", lit "0 day ago");
    (lit "now", lit "0 second ago");
    (lit "bi", lit "1 day ago")];
    ld_relrx := [];
    ld_rx := None;
    ld_rx_exact := None;
    ld_known := [lit "this minute";
    lit "last month";
    lit "next month";
    lit "this month";
    lit "zaarikay b";
    lit "deesanbur";
    lit "feewiriye";
    lit "last week";
    lit "last year";
    lit "next week";
    lit "next year";
    lit "noowanbur";
    lit "sektanbur";
    lit "this hour";
    lit "this week";
    lit "this year";
    lit "alhamisi";
    lit "atalaata";
    lit "oktoobur";
    lit "subbaahi";
    lit "zanwiye";
    lit "alarba";
    lit "alhadi";
    lit "alzuma";
    lit "asibti";
    lit "atinni";
    lit "awiril";
    lit "miniti";
    lit "guuru";
    lit "handu";
    lit "jiiri";
    lit "marsi";
    lit "zaari";
    lit "zuweŋ";
    lit "zuyye";
    lit "hebu";
    lit "miti";
    lit "suba";
    lit "ala";
    lit "alh";
    lit "alm";
    lit "alz";
    lit "asi";
    lit "ata";
    lit "ati";
    lit "awi";
    lit "dee";
    lit "fee";
    lit "gmt";
    lit "hoo";
    lit "mar";
    lit "noo";
    lit "now";
    lit "okt";
    lit "sek";
    lit "utc";
    lit "zan";
    lit "zuw";
    lit "zuy";
    lit "am";
    lit "bi";
    lit "me";
    lit "pm";
    lit "ut";
    lit " ";
    lit "'";
    lit "+";
    lit ",";
    lit "-";
    lit ".";
    lit "/";
    lit ":";
    lit ";";
    lit "@";
    lit "[";
    lit "]";
    lit "z";
    lit "|"] |}.

(** dsb.go:12-175 *)
Definition loc_dsb : locale := Eval vm_compute in
  {| ld_name := lit "dsb"; ld_order := lit "DMY"; ld_nospacing := false; ld_splitter := 0;
    ld_charset := runes (lit "bcdefghijklnorstuwyzóěłńśź");
    ld_abbr := [];
    ld_simpl := [];
    ld_trans := [(lit "wotpołdnja", [lit "pm"]);
    (lit "dopołdnja", [lit "am"]);
    (lit "ponjezele", [lit "monday"]);
    (lit "september", [lit "september"]);
    (lit "septembra", [lit "september"]);
    (lit "december", [lit "december"]);
    (lit "decembra", [lit "december"]);
    (lit "februara", [lit "february"]);
    (lit "nowember", [lit "november"]);
    (lit "nowembra", [lit "november"]);
    (lit "awgusta", [lit "august"]);
    (lit "februar", [lit "february"]);
    (lit "januara", [lit "january"]);
    (lit "njezela", [lit "sunday"]);
    (lit "oktober", [lit "october"]);
    (lit "oktobra", [lit "october"]);
    (lit "sekunda", [lit "second"]);
    (lit "stwortk", [lit "thursday"]);
    (lit "wałtora", [lit "tuesday"]);
    (lit "apryla", [lit "april"]);
    (lit "awgust", [lit "august"]);
    (lit "gozina", [lit "hour"]);
    (lit "januar", [lit "january"]);
    (lit "julija", [lit "july"]);
    (lit "junija", [lit "june"]);
    (lit "minuta", [lit "minute"]);
    (lit "mjasec", [lit "month"]);
    (lit "sobota", [lit "saturday"]);
    (lit "srjoda", [lit "wednesday"]);
    (lit "apryl", [lit "april"]);
    (lit "julij", [lit "july"]);
    (lit "junij", [lit "june"]);
    (lit "merca", [lit "march"]);
    (lit "tyzen", [lit "week"]);
    (lit "leto", [lit "year"]);
    (lit "maja", [lit "may"]);
    (lit "merc", [lit "march"]);
    (lit "mjas", [lit "month"]);
    (lit "petk", [lit "friday"]);
    (lit "apr", [lit "april"]);
    (lit "awg", [lit "august"]);
    (lit "dec", [lit "december"]);
    (lit "feb", [lit "february"]);
    (lit "gmt", [lit "gmt"]);
    (lit "goz", [lit "hour"]);
    (lit "jan", [lit "january"]);
    (lit "jul", [lit "july"]);
    (lit "jun", [lit "june"]);
    (lit "maj", [lit "may"]);
    (lit "mer", [lit "march"]);
    (lit "min", [lit "minute"]);
    (lit "nje", [lit "sunday"]);
    (lit "now", [lit "november"]);
    (lit "okt", [lit "october"]);
    (lit "pet", [lit "friday"]);
    (lit "pon", [lit "monday"]);
    (lit "sek", [lit "second"]);
    (lit "sep", [lit "september"]);
    (lit "sob", [lit "saturday"]);
    (lit "srj", [lit "wednesday"]);
    (lit "stw", [lit "thursday"]);
    (lit "tyz", [lit "week"]);
    (lit "utc", [lit "utc"]);
    (lit "wał", [lit "tuesday"]);
    (lit "zen", [lit "day"]);
    (lit "am", [lit "am"]);
    (lit "pm", [lit "pm"]);
    (lit " ", [lit " "]);
    (lit "'", [lit ""]);
    (lit "+", [lit "+"]);
    (lit ",", [lit ""]);
    (lit "-", [lit "-"]);
    (lit ".", [lit "."]);
    (lit "/", [lit "/"]);
    (lit ":", [lit ":"]);
    (lit ";", [lit ""]);
    (lit "@", [lit ""]);
    (lit "[", [lit ""]);
    (lit "]", [lit ""]);
    (lit "g", [lit "hour"]);
    (lit "l", [lit "year"]);
    (lit "m", [lit "minute"]);
    (lit "s", [lit "second"]);
    (lit "z", [lit "z"]);
    (lit "|", [lit ""])];
    ld_reltype := [(lit "psiducy mjasec", lit "in 1 month");
    (lit "psiducy tyzen", lit "in 1 week");
    (lit "sledny mjasec", lit "1 month ago");
    (lit "sledny tyzen", lit "1 week ago");
    (lit "this minute", lit "0 minute ago");
    (lit "ten mjasec", lit "0 month ago");
    (lit "ten tyzen", lit "0 week ago");
    (lit "this hour", lit "0 hour ago");
    (lit "letosa", lit "0 year ago");
    (lit "witse", lit "in 1 day");
    (lit "zinsa", lit "0 day ago");
    (lit "znowa", lit "in 1 year");
    (lit "cora", lit "1 day ago");
    (lit "łoni", lit "1 year ago");
    (lit "now", lit "0 second ago")];
    ld_relrx := [(rx "(?i)psed (\d+[.,]?\d*) mjasecami", lit "$1 month ago");
    (rx "(?i)psed (\d+[.,]?\d*) sekundami", lit "$1 second ago");
    (rx "(?i)psed (\d+[.,]?\d*) tyzenjami", lit "$1 week ago");
    (rx "(?i)psed (\d+[.,]?\d*) gozinami", lit "$1 hour ago");
    (rx "(?i)psed (\d+[.,]?\d*) minutami", lit "$1 minute ago");
    (rx "(?i)psed (\d+[.,]?\d*) mjasecom", lit "$1 month ago");
    (rx "(?i)psed (\d+[.,]?\d*) tyzenjom", lit "$1 week ago");
    (rx "(?i)psed (\d+[.,]?\d*) sekundu", lit "$1 second ago");
    (rx "(?i)psed (\d+[.,]?\d*) dnjami", lit "$1 day ago");
    (rx "(?i)psed (\d+[.,]?\d*) gozinu", lit "$1 hour ago");
    (rx "(?i)psed (\d+[.,]?\d*) letami", lit "$1 year ago");
    (rx "(?i)psed (\d+[.,]?\d*) minutu", lit "$1 minute ago");
    (rx "(?i)za (\d+[.,]?\d*) mjasecow", lit "in $1 month");
    (rx "(?i)za (\d+[.,]?\d*) sekundow", lit "in $1 second");
    (rx "(?i)za (\d+[.,]?\d*) tyzenjow", lit "in $1 week");
    (rx "(?i)psed (\d+[.,]?\d*) dnjom", lit "$1 day ago");
    (rx "(?i)psed (\d+[.,]?\d*) letom", lit "$1 year ago");
    (rx "(?i)za (\d+[.,]?\d*) minutow", lit "in $1 minute");
    (rx "(?i)za (\d+[.,]?\d*) sekundu", lit "in $1 second");
    (rx "(?i)psed (\d+[.,]?\d*) mjas", lit "$1 month ago");
    (rx "(?i)za (\d+[.,]?\d*) gozinu", lit "in $1 hour");
    (rx "(?i)za (\d+[.,]?\d*) minutu", lit "in $1 minute");
    (rx "(?i)za (\d+[.,]?\d*) mjasec", lit "in $1 month");
    (rx "(?i)psed (\d+[.,]?\d*) dnj", lit "$1 day ago");
    (rx "(?i)psed (\d+[.,]?\d*) goz", lit "$1 hour ago");
    (rx "(?i)psed (\d+[.,]?\d*) min", lit "$1 minute ago");
    (rx "(?i)psed (\d+[.,]?\d*) sek", lit "$1 second ago");
    (rx "(?i)psed (\d+[.,]?\d*) tyz", lit "$1 week ago");
    (rx "(?i)za (\d+[.,]?\d*) dnjow", lit "in $1 day");
    (rx "(?i)za (\d+[.,]?\d*) gozin", lit "in $1 hour");
    (rx "(?i)za (\d+[.,]?\d*) tyzen", lit "in $1 week");
    (rx "(?i)za (\d+[.,]?\d*) leto", lit "in $1 year");
    (rx "(?i)za (\d+[.,]?\d*) mjas", lit "in $1 month");
    (rx "(?i)psed (\d+[.,]?\d*) d", lit "$1 day ago");
    (rx "(?i)psed (\d+[.,]?\d*) g", lit "$1 hour ago");
    (rx "(?i)psed (\d+[.,]?\d*) l", lit "$1 year ago");
    (rx "(?i)psed (\d+[.,]?\d*) m", lit "$1 minute ago");
    (rx "(?i)psed (\d+[.,]?\d*) s", lit "$1 second ago");
    (rx "(?i)za (\d+[.,]?\d*) dnj", lit "in $1 day");
    (rx "(?i)za (\d+[.,]?\d*) goz", lit "in $1 hour");
    (rx "(?i)za (\d+[.,]?\d*) let", lit "in $1 year");
    (rx "(?i)za (\d+[.,]?\d*) min", lit "in $1 minute");
    (rx "(?i)za (\d+[.,]?\d*) sek", lit "in $1 second");
    (rx "(?i)za (\d+[.,]?\d*) tyz", lit "in $1 week");
    (rx "(?i)za (\d+[.,]?\d*) zen", lit "in $1 day");
    (rx "(?i)za (\d+[.,]?\d*) g", lit "in $1 hour");
    (rx "(?i)za (\d+[.,]?\d*) l", lit "in $1 year");
    (rx "(?i)za (\d+[.,]?\d*) m", lit "in $1 minute");
    (rx "(?i)za (\d+[.,]?\d*) s", lit "in $1 second");
    (rx "(?i)za (\d+[.,]?\d*) z", lit "in $1 day")];
    ld_rx := Some (rx "(?i)(\A|[^\pL\pM\d]|_)(psed \d+[.,]?\d* mjasecami|psed \d+[.,]?\d* sekundami|psed \d+[.,]?\d* tyzenjami|psed \d+[.,]?\d* gozinami|psed \d+[.,]?\d* minutami|psed \d+[.,]?\d* mjasecom|psed \d+[.,]?\d* tyzenjom|psed \d+[.,]?\d* sekundu|psed \d+[.,]?\d* dnjami|psed \d+[.,]?\d* gozinu|psed \d+[.,]?\d* letami|psed \d+[.,]?\d* minutu|za \d+[.,]?\d* mjasecow|za \d+[.,]?\d* sekundow|za \d+[.,]?\d* tyzenjow|psed \d+[.,]?\d* dnjom|psed \d+[.,]?\d* letom|za \d+[.,]?\d* minutow|za \d+[.,]?\d* sekundu|psed \d+[.,]?\d* mjas|za \d+[.,]?\d* gozinu|za \d+[.,]?\d* minutu|za \d+[.,]?\d* mjasec|psed \d+[.,]?\d* dnj|psed \d+[.,]?\d* goz|psed \d+[.,]?\d* min|psed \d+[.,]?\d* sek|psed \d+[.,]?\d* tyz|za \d+[.,]?\d* dnjow|za \d+[.,]?\d* gozin|za \d+[.,]?\d* tyzen|za \d+[.,]?\d* leto|za \d+[.,]?\d* mjas|psed \d+[.,]?\d* d|psed \d+[.,]?\d* g|psed \d+[.,]?\d* l|psed \d+[.,]?\d* m|psed \d+[.,]?\d* s|za \d+[.,]?\d* dnj|za \d+[.,]?\d* goz|za \d+[.,]?\d* let|za \d+[.,]?\d* min|za \d+[.,]?\d* sek|za \d+[.,]?\d* tyz|za \d+[.,]?\d* zen|za \d+[.,]?\d* g|za \d+[.,]?\d* l|za \d+[.,]?\d* m|za \d+[.,]?\d* s|za \d+[.,]?\d* z)(\z|[^\pL\pM\d]|_)");
    ld_rx_exact := Some (rx "(?i)^(psed \d+[.,]?\d* mjasecami|psed \d+[.,]?\d* sekundami|psed \d+[.,]?\d* tyzenjami|psed \d+[.,]?\d* gozinami|psed \d+[.,]?\d* minutami|psed \d+[.,]?\d* mjasecom|psed \d+[.,]?\d* tyzenjom|psed \d+[.,]?\d* sekundu|psed \d+[.,]?\d* dnjami|psed \d+[.,]?\d* gozinu|psed \d+[.,]?\d* letami|psed \d+[.,]?\d* minutu|za \d+[.,]?\d* mjasecow|za \d+[.,]?\d* sekundow|za \d+[.,]?\d* tyzenjow|psed \d+[.,]?\d* dnjom|psed \d+[.,]?\d* letom|za \d+[.,]?\d* minutow|za \d+[.,]?\d* sekundu|psed \d+[.,]?\d* mjas|za \d+[.,]?\d* gozinu|za \d+[.,]?\d* minutu|za \d+[.,]?\d* mjasec|psed \d+[.,]?\d* dnj|psed \d+[.,]?\d* goz|psed \d+[.,]?\d* min|psed \d+[.,]?\d* sek|psed \d+[.,]?\d* tyz|za \d+[.,]?\d* dnjow|za \d+[.,]?\d* gozin|za \d+[.,]?\d* tyzen|za \d+[.,]?\d* leto|za \d+[.,]?\d* mjas|psed \d+[.,]?\d* d|psed \d+[.,]?\d* g|psed \d+[.,]?\d* l|psed \d+[.,]?\d* m|psed \d+[.,]?\d* s|za \d+[.,]?\d* dnj|za \d+[.,]?\d* goz|za \d+[.,]?\d* let|za \d+[.,]?\d* min|za \d+[.,]?\d* sek|za \d+[.,]?\d* tyz|za \d+[.,]?\d* zen|za \d+[.,]?\d* g|za \d+[.,]?\d* l|za \d+[.,]?\d* m|za \d+[.,]?\d* s|za \d+[.,]?\d* z)$");
    ld_known := [lit "psiducy mjasec";
    lit "psiducy tyzen";
    lit "sledny mjasec";
    lit "sledny tyzen";
    lit "this minute";
    lit "ten mjasec";
    lit "wotpołdnja";
    lit "dopołdnja";
    lit "ponjezele";
    lit "september";
    lit "septembra";
    lit "ten tyzen";
    lit "this hour";
    lit "december";
    lit "decembra";
    lit "februara";
    lit "nowember";
    lit "nowembra";
    lit "awgusta";
    lit "februar";
    lit "januara";
    lit "njezela";
    lit "oktober";
    lit "oktobra";
    lit "sekunda";
    lit "stwortk";
    lit "wałtora";
    lit "apryla";
    lit "awgust";
    lit "gozina";
    lit "januar";
    lit "julija";
    lit "junija";
    lit "letosa";
    lit "minuta";
    lit "mjasec";
    lit "sobota";
    lit "srjoda";
    lit "apryl";
    lit "julij";
    lit "junij";
    lit "merca";
    lit "tyzen";
    lit "witse";
    lit "zinsa";
    lit "znowa";
    lit "cora";
    lit "leto";
    lit "maja";
    lit "merc";
    lit "mjas";
    lit "petk";
    lit "łoni";
    lit "apr";
    lit "awg";
    lit "dec";
    lit "feb";
    lit "gmt";
    lit "goz";
    lit "jan";
    lit "jul";
    lit "jun";
    lit "maj";
    lit "mer";
    lit "min";
    lit "nje";
    lit "now";
    lit "okt";
    lit "pet";
    lit "pon";
    lit "sek";
    lit "sep";
    lit "sob";
    lit "srj";
    lit "stw";
    lit "tyz";
    lit "utc";
    lit "wał";
    lit "zen";
    lit "am";
    lit "pm";
    lit " ";
    lit "'";
    lit "+";
    lit ",";
    lit "-";
    lit ".";
    lit "/";
    lit ":";
    lit ";";
    lit "@";
    lit "[";
    lit "]";
    lit "g";
    lit "l";
    lit "m";
    lit "s";
    lit "z";
    lit "|"] |}.

(** dua.go:10-99 *)
Definition loc_dua : locale := Eval vm_compute in
  {| ld_name := lit "dua"; ld_order := lit "DMY"; ld_nospacing := false; ld_splitter := 0;
    ld_charset := runes (lit "bcdeghiklnorstuwxyzáéíóúŋɓɔɗɛ́̄");
    ld_abbr := [];
    ld_simpl := [];
    ld_trans := [(lit "madiɓɛdiɓɛ", [lit "july"]);
    (lit "esɔpɛsɔpɛ", [lit "june"]);
    (lit "diŋgindi", [lit "august"]);
    (lit "emiasele", [lit "may"]);
    (lit "esaɓasu", [lit "saturday"]);
    (lit "nyɛtɛki", [lit "september"]);
    (lit "dimɔdi", [lit "january"]);
    (lit "disama", [lit "week"]);
    (lit "diɓaɓa", [lit "april"]);
    (lit "ebyamu", [lit "pm"]);
    (lit "elaŋgɛ", [lit "december"]);
    (lit "mayesɛ", [lit "october"]);
    (lit "mukɔsu", [lit "wednesday"]);
    (lit "tinini", [lit "november"]);
    (lit "ŋgandɛ", [lit "hour"]);
    (lit "ŋgɔndɛ", [lit "february"]);
    (lit "ɗonɛsu", [lit "friday"]);
    (lit "bunya", [lit "day"]);
    (lit "idiɓa", [lit "am"]);
    (lit "kwasu", [lit "tuesday"]);
    (lit "ndɔkɔ", [lit "minute"]);
    (lit "pindi", [lit "second"]);
    (lit "ŋgisu", [lit "thursday"]);
    (lit "mɔdi", [lit "month"]);
    (lit "mɔsu", [lit "monday"]);
    (lit "nyɛt", [lit "september"]);
    (lit "sɔŋɛ", [lit "march"]);
    (lit "ŋgɔn", [lit "february"]);
    (lit "diŋ", [lit "august"]);
    (lit "diɓ", [lit "april"]);
    (lit "ela", [lit "december"]);
    (lit "emi", [lit "may"]);
    (lit "esa", [lit "saturday"]);
    (lit "esɔ", [lit "june"]);
    (lit "eti", [lit "sunday"]);
    (lit "gmt", [lit "gmt"]);
    (lit "kwa", [lit "tuesday"]);
    (lit "mad", [lit "july"]);
    (lit "may", [lit "october"]);
    (lit "mbu", [lit "year"]);
    (lit "muk", [lit "wednesday"]);
    (lit "mɔs", [lit "monday"]);
    (lit "sɔŋ", [lit "march"]);
    (lit "tin", [lit "november"]);
    (lit "utc", [lit "utc"]);
    (lit "ŋgi", [lit "thursday"]);
    (lit "ɗon", [lit "friday"]);
    (lit "am", [lit "am"]);
    (lit "di", [lit "january"]);
    (lit "et", [lit "sunday"]);
    (lit "pm", [lit "pm"]);
    (lit " ", [lit " "]);
    (lit "'", [lit ""]);
    (lit "+", [lit "+"]);
    (lit ",", [lit ""]);
    (lit "-", [lit "-"]);
    (lit ".", [lit "."]);
    (lit "/", [lit "/"]);
    (lit ":", [lit ":"]);
    (lit ";", [lit ""]);
    (lit "@", [lit ""]);
    (lit "[", [lit ""]);
    (lit "]", [lit ""]);
    (lit "z", [lit "z"]);
    (lit "|", [lit ""])];
    ld_reltype := [(lit "kiɛlɛ nitombi", lit "1 day ago");
    (lit "this minute", lit "0 minute ago");
    (lit "last month", lit "1 month ago");
    (lit "next month", lit "in 1 month");
    (lit "this month", lit "0 month ago");
    (lit "last week", lit "1 week ago");
    (lit "last year", lit "1 year ago");
    (lit "next week", lit "in 1 week");
    (lit "next year", lit "in 1 year");
    (lit "this hour", lit "0 hour ago");
    (lit "this week", lit "0 week ago");
    (lit "this year", lit "0 year ago");
    (lit "kiɛlɛ", lit "in 1 day");
    (lit "wɛŋgɛ", lit "0 day ago");
    (lit "now", lit "0 second ago")];
    ld_relrx := [];
    ld_rx := None;
    ld_rx_exact := None;
    ld_known := [lit "kiɛlɛ nitombi";
    lit "this minute";
    lit "last month";
    lit "madiɓɛdiɓɛ";
    lit "next month";
    lit "this month";
    lit "esɔpɛsɔpɛ";
    lit "last week";
    lit "last year";
    lit "next week";
    lit "next year";
    lit "this hour";
    lit "this week";
    lit "this year";
    lit "diŋgindi";
    lit "emiasele";
    lit "esaɓasu";
    lit "nyɛtɛki";
    lit "dimɔdi";
    lit "disama";
    lit "diɓaɓa";
    lit "ebyamu";
    lit "elaŋgɛ";
    lit "mayesɛ";
    lit "mukɔsu";
    lit "tinini";
    lit "ŋgandɛ";
    lit "ŋgɔndɛ";
    lit "ɗonɛsu";
    lit "bunya";
    lit "idiɓa";
    lit "kiɛlɛ";
    lit "kwasu";
    lit "ndɔkɔ";
    lit "pindi";
    lit "wɛŋgɛ";
    lit "ŋgisu";
    lit "mɔdi";
    lit "mɔsu";
    lit "nyɛt";
    lit "sɔŋɛ";
    lit "ŋgɔn";
    lit "diŋ";
    lit "diɓ";
    lit "ela";
    lit "emi";
    lit "esa";
    lit "esɔ";
    lit "eti";
    lit "gmt";
    lit "kwa";
    lit "mad";
    lit "may";
    lit "mbu";
    lit "muk";
    lit "mɔs";
    lit "now";
    lit "sɔŋ";
    lit "tin";
    lit "utc";
    lit "ŋgi";
    lit "ɗon";
    lit "am";
    lit "di";
    lit "et";
    lit "pm";
    lit " ";
    lit "'";
    lit "+";
    lit ",";
    lit "-";
    lit ".";
    lit "/";
    lit ":";
    lit ";";
    lit "@";
    lit "[";
    lit "]";
    lit "z";
    lit "|"] |}.

(** dyo.go:10-95 *)
Definition loc_dyo : locale := Eval vm_compute in
  {| ld_name := lit "dyo"; ld_order := lit "DMY"; ld_nospacing := false; ld_splitter := 0;
    ld_charset := runes (lit "bcdefghijklnorstuvwxyzéóúŋ");
    ld_abbr := [];
    ld_simpl := [];
    ld_trans := [(lit "settembar", [lit "september"]);
    (lit "aramisay", [lit "thursday"]);
    (lit "disambar", [lit "december"]);
    (lit "novembar", [lit "november"]);
    (lit "alarbay", [lit "wednesday"]);
    (lit "febirie", [lit "february"]);
    (lit "oktobar", [lit "october"]);
    (lit "aburil", [lit "april"]);
    (lit "arjuma", [lit "friday"]);
    (lit "fuleeŋ", [lit "month"]);
    (lit "lookuŋ", [lit "week"]);
    (lit "minute", [lit "minute"]);
    (lit "sanvie", [lit "january"]);
    (lit "second", [lit "second"]);
    (lit "sibiti", [lit "saturday"]);
    (lit "suuyee", [lit "july"]);
    (lit "talata", [lit "tuesday"]);
    (lit "dimas", [lit "sunday"]);
    (lit "funak", [lit "day"]);
    (lit "teneŋ", [lit "monday"]);
    (lit "emit", [lit "year"]);
    (lit "hour", [lit "hour"]);
    (lit "mars", [lit "march"]);
    (lit "sueŋ", [lit "june"]);
    (lit "ala", [lit "wednesday"]);
    (lit "ara", [lit "thursday"]);
    (lit "arj", [lit "friday"]);
    (lit "dim", [lit "sunday"]);
    (lit "gmt", [lit "gmt"]);
    (lit "mee", [lit "may"]);
    (lit "sib", [lit "saturday"]);
    (lit "tal", [lit "tuesday"]);
    (lit "ten", [lit "monday"]);
    (lit "utc", [lit "utc"]);
    (lit "ab", [lit "april"]);
    (lit "am", [lit "am"]);
    (lit "de", [lit "december"]);
    (lit "fe", [lit "february"]);
    (lit "ma", [lit "march"]);
    (lit "me", [lit "may"]);
    (lit "no", [lit "november"]);
    (lit "ok", [lit "october"]);
    (lit "pm", [lit "pm"]);
    (lit "sa", [lit "january"]);
    (lit "se", [lit "september"]);
    (lit "su", [lit "july"; lit "june"]);
    (lit "ut", [lit "august"]);
    (lit " ", [lit " "]);
    (lit "'", [lit ""]);
    (lit "+", [lit "+"]);
    (lit ",", [lit ""]);
    (lit "-", [lit "-"]);
    (lit ".", [lit "."]);
    (lit "/", [lit "/"]);
    (lit ":", [lit ":"]);
    (lit ";", [lit ""]);
    (lit "@", [lit ""]);
    (lit "[", [lit ""]);
    (lit "]", [lit ""]);
    (lit "z", [lit "z"]);
    (lit "|", [lit ""])];
    ld_reltype := [(lit "this minute", lit "0 minute ago");
    (lit "last month", lit "1 month ago");
    (lit "next month", lit "in 1 month");
    (lit "this month", lit "0 month ago");
    (lit "last week", lit "1 week ago");
    (lit "last year", lit "1 year ago");
    (lit "next week", lit "in 1 week");
    (lit "next year", lit "in 1 year");
    (lit "this hour", lit "0 hour ago");
    (lit "this week", lit "0 week ago");
    (lit "this year", lit "0 year ago");
    (lit "fucen", lit "1 day ago");
    (lit "kajom", lit "in 1 day");
    (lit "jaat", lit "0 day ago");
    (lit "now", lit "0 second ago")];
    ld_relrx := [];
    ld_rx := None;
    ld_rx_exact := None;
    ld_known := [lit "this minute";
    lit "last month";
    lit "next month";
    lit "this month";
    lit "last week";
    lit "last year";
    lit "next week";
    lit "next year";
    lit "settembar";
    lit "this hour";
    lit "this week";
    lit "this year";
    lit "aramisay";
    lit "disambar";
    lit "novembar";
    lit "alarbay";
    lit "febirie";
    lit "oktobar";
    lit "aburil";
    lit "arjuma";
    lit "fuleeŋ";
    lit "lookuŋ";
    lit "minute";
    lit "sanvie";
    lit "second";
    lit "sibiti";
    lit "suuyee";
    lit "talata";
    lit "dimas";
    lit "fucen";
    lit "funak";
    lit "kajom";
    lit "teneŋ";
    lit "emit";
    lit "hour";
    lit "jaat";
    lit "mars";
    lit "sueŋ";
    lit "ala";
    lit "ara";
    lit "arj";
    lit "dim";
    lit "gmt";
    lit "mee";
    lit "now";
    lit "sib";
    lit "tal";
    lit "ten";
    lit "utc";
    lit "ab";
    lit "am";
    lit "de";
    lit "fe";
    lit "ma";
    lit "me";
    lit "no";
    lit "ok";
    lit "pm";
    lit "sa";
    lit "se";
    lit "su";
    lit "ut";
    lit " ";
    lit "'";
    lit "+";
    lit ",";
    lit "-";
    lit ".";
    lit "/";
    lit ":";
    lit ";";
    lit "@";
    lit "[";
    lit "]";
    lit "z";
    lit "|"] |}.

(** dz.go:12-131 *)
Definition loc_dz : locale := Eval vm_compute in
  {| ld_name := lit "dz"; ld_order := lit "YMD"; ld_nospacing := false; ld_splitter := 0;
    ld_charset := runes (lit "ceghiklnorstuwxyz་༠༡༢༣༤༥༦༧༨༩ཁགངཅཆཉདནཔཕབམཙཚཝཞཟའརལསཱིེོུྐྒྔྤྱྲླྷ");
    ld_abbr := [];
    ld_simpl := [];
    ld_trans := [(lit "ས་ཟ་བཅ་གཅག་པ་", [lit "november"]);
    (lit "ས་ཟ་བཅ་གཉས་པ་", [lit "december"]);
    (lit "གཟའ་མག་དམར་", [lit "monday"]);
    (lit "ཟ་བཅ་གཅག་པ་", [lit "november"]);
    (lit "ཟ་བཅ་གཉས་པ་", [lit "december"]);
    (lit "གཟའ་པ་སངས་", [lit "thursday"]);
    (lit "ས་ཟ་གཉས་པ་", [lit "february"]);
    (lit "ས་ཟ་གསམ་པ་", [lit "march"]);
    (lit "ས་ཟ་བདན་པ་", [lit "july"]);
    (lit "ས་ཟ་བརད་པ་", [lit "august"]);
    (lit "གཟའ་ཕར་བ་", [lit "wednesday"]);
    (lit "གཟའ་ལག་པ་", [lit "tuesday"]);
    (lit "གཟའ་སན་པ་", [lit "friday"]);
    (lit "ས་ཟ་དག་པ་", [lit "september"]);
    (lit "ས་ཟ་བཅ་པ་", [lit "october"]);
    (lit "གཟའ་ཉ་མ་", [lit "saturday"]);
    (lit "གཟའ་ཟ་བ་", [lit "sunday"]);
    (lit "ཟ་གཉས་པ་", [lit "february"]);
    (lit "ཟ་གསམ་པ་", [lit "march"]);
    (lit "ཟ་བདན་པ་", [lit "july"]);
    (lit "ཟ་བརད་པ་", [lit "august"]);
    (lit "ས་ཟ་དག་པ", [lit "june"]);
    (lit "ས་ཟ་དངཔ་", [lit "january"]);
    (lit "ས་ཟ་བཞ་པ", [lit "april"]);
    (lit "ས་ཟ་ལ་པ་", [lit "may"]);
    (lit "ཟ་དག་པ་", [lit "september"]);
    (lit "ཟ་བཅ་པ་", [lit "october"]);
    (lit "ཟ་བཞ་པ་", [lit "april"]);
    (lit "བདན་ཕག", [lit "week"]);
    (lit "ཟ་དག་པ", [lit "june"]);
    (lit "ཟ་དངཔ་", [lit "january"]);
    (lit "ཟ་ལ་པ་", [lit "may"]);
    (lit "སར་ཆ་", [lit "second"]);
    (lit "ཆ་ཚད", [lit "hour"]);
    (lit "ཕ་ཆ་", [lit "pm"]);
    (lit "ཟ་༡༠", [lit "october"]);
    (lit "ཟ་༡༡", [lit "november"]);
    (lit "ཟ་༡༢", [lit "december"]);
    (lit "ཟ་ཝ་", [lit "month"]);
    (lit "ས་ཆ་", [lit "am"]);
    (lit "སངས་", [lit "thursday"]);
    (lit "སར་མ", [lit "minute"]);
    (lit "gmt", [lit "gmt"]);
    (lit "utc", [lit "utc"]);
    (lit "ཕར་", [lit "wednesday"]);
    (lit "མར་", [lit "monday"]);
    (lit "ཚས་", [lit "day"]);
    (lit "ཟ་༡", [lit "january"]);
    (lit "ཟ་༢", [lit "february"]);
    (lit "ཟ་༣", [lit "march"]);
    (lit "ཟ་༤", [lit "april"]);
    (lit "ཟ་༥", [lit "may"]);
    (lit "ཟ་༦", [lit "june"]);
    (lit "ཟ་༧", [lit "july"]);
    (lit "ཟ་༨", [lit "august"]);
    (lit "ཟ་༩", [lit "september"]);
    (lit "ལག་", [lit "tuesday"]);
    (lit "སན་", [lit "friday"]);
    (lit "am", [lit "am"]);
    (lit "pm", [lit "pm"]);
    (lit "ཉ་", [lit "saturday"]);
    (lit "ཟ་", [lit "sunday"]);
    (lit " ", [lit " "]);
    (lit "'", [lit ""]);
    (lit "+", [lit "+"]);
    (lit ",", [lit ""]);
    (lit "-", [lit "-"]);
    (lit ".", [lit "."]);
    (lit "/", [lit "/"]);
    (lit ":", [lit ":"]);
    (lit ";", [lit ""]);
    (lit "@", [lit ""]);
    (lit "[", [lit ""]);
    (lit "]", [lit ""]);
    (lit "z", [lit "z"]);
    (lit "|", [lit ""]);
    (lit "ལ", [lit "year"])];
    ld_reltype := [(lit "this minute", lit "0 minute ago");
    (lit "last month", lit "1 month ago");
    (lit "next month", lit "in 1 month");
    (lit "this month", lit "0 month ago");
    (lit "last week", lit "1 week ago");
    (lit "last year", lit "1 year ago");
    (lit "next week", lit "in 1 week");
    (lit "next year", lit "in 1 year");
    (lit "this hour", lit "0 hour ago");
    (lit "this week", lit "0 week ago");
    (lit "this year", lit "0 year ago");
    (lit "ནངས་པ་", lit "in 1 day");
    (lit "ད་རས་", lit "0 day ago");
    (lit "ཁ་ཙ་", lit "1 day ago");
    (lit "now", lit "0 second ago")];
    ld_relrx := [(rx "(?i)བངན་ཕག་ (\d+[.,]?\d*) ཧ་མ་", lit "$1 week ago");
    (rx "(?i)བངན་ཕག་ (\d+[.,]?\d*) ནང་", lit "in $1 week");
    (rx "(?i)ལ་འཁར་ (\d+[.,]?\d*) ཧ་མ་", lit "$1 year ago");
    (rx "(?i)ཆ་ཚད་ (\d+[.,]?\d*) ཧ་མ་", lit "$1 hour ago");
    (rx "(?i)ལ་འཁར་ (\d+[.,]?\d*) ནང་", lit "in $1 year");
    (rx "(?i)སར་ཆ་ (\d+[.,]?\d*) ཧ་མ་", lit "$1 second ago");
    (rx "(?i)སར་མ་ (\d+[.,]?\d*) ཧ་མ་", lit "$1 minute ago");
    (rx "(?i)ཆ་ཚད་ (\d+[.,]?\d*) ནང་", lit "in $1 hour");
    (rx "(?i)ཉནམ་ (\d+[.,]?\d*) ཧ་མ་", lit "$1 day ago");
    (rx "(?i)སར་ཆ་ (\d+[.,]?\d*) ནང་", lit "in $1 second");
    (rx "(?i)སར་མ་ (\d+[.,]?\d*) ནང་", lit "in $1 minute");
    (rx "(?i)ཉནམ་ (\d+[.,]?\d*) ནང་", lit "in $1 day");
    (rx "(?i)ཟཝ་ (\d+[.,]?\d*) ཧ་མ་", lit "$1 month ago");
    (rx "(?i)ཟཝ་ (\d+[.,]?\d*) ནང་", lit "in $1 month")];
    ld_rx := Some (rx "(?i)(\A|[^\pL\pM\d]|_)(བངན་ཕག་ \d+[.,]?\d* ཧ་མ་|བངན་ཕག་ \d+[.,]?\d* ནང་|ལ་འཁར་ \d+[.,]?\d* ཧ་མ་|ཆ་ཚད་ \d+[.,]?\d* ཧ་མ་|ལ་འཁར་ \d+[.,]?\d* ནང་|སར་ཆ་ \d+[.,]?\d* ཧ་མ་|སར་མ་ \d+[.,]?\d* ཧ་མ་|ཆ་ཚད་ \d+[.,]?\d* ནང་|ཉནམ་ \d+[.,]?\d* ཧ་མ་|སར་ཆ་ \d+[.,]?\d* ནང་|སར་མ་ \d+[.,]?\d* ནང་|ཉནམ་ \d+[.,]?\d* ནང་|ཟཝ་ \d+[.,]?\d* ཧ་མ་|ཟཝ་ \d+[.,]?\d* ནང་)(\z|[^\pL\pM\d]|_)");
    ld_rx_exact := Some (rx "(?i)^(བངན་ཕག་ \d+[.,]?\d* ཧ་མ་|བངན་ཕག་ \d+[.,]?\d* ནང་|ལ་འཁར་ \d+[.,]?\d* ཧ་མ་|ཆ་ཚད་ \d+[.,]?\d* ཧ་མ་|ལ་འཁར་ \d+[.,]?\d* ནང་|སར་ཆ་ \d+[.,]?\d* ཧ་མ་|སར་མ་ \d+[.,]?\d* ཧ་མ་|ཆ་ཚད་ \d+[.,]?\d* ནང་|ཉནམ་ \d+[.,]?\d* ཧ་མ་|སར་ཆ་ \d+[.,]?\d* ནང་|སར་མ་ \d+[.,]?\d* ནང་|ཉནམ་ \d+[.,]?\d* ནང་|ཟཝ་ \d+[.,]?\d* ཧ་མ་|ཟཝ་ \d+[.,]?\d* ནང་)$");
    ld_known := [lit "ས་ཟ་བཅ་གཅག་པ་";
    lit "ས་ཟ་བཅ་གཉས་པ་";
    lit "this minute";
    lit "གཟའ་མག་དམར་";
    lit "ཟ་བཅ་གཅག་པ་";
    lit "ཟ་བཅ་གཉས་པ་";
    lit "last month";
    lit "next month";
    lit "this month";
    lit "གཟའ་པ་སངས་";
    lit "ས་ཟ་གཉས་པ་";
    lit "ས་ཟ་གསམ་པ་";
    lit "ས་ཟ་བདན་པ་";
    lit "ས་ཟ་བརད་པ་";
    lit "last week";
    lit "last year";
    lit "next week";
    lit "next year";
    lit "this hour";
    lit "this week";
    lit "this year";
    lit "གཟའ་ཕར་བ་";
    lit "གཟའ་ལག་པ་";
    lit "གཟའ་སན་པ་";
    lit "ས་ཟ་དག་པ་";
    lit "ས་ཟ་བཅ་པ་";
    lit "གཟའ་ཉ་མ་";
    lit "གཟའ་ཟ་བ་";
    lit "ཟ་གཉས་པ་";
    lit "ཟ་གསམ་པ་";
    lit "ཟ་བདན་པ་";
    lit "ཟ་བརད་པ་";
    lit "ས་ཟ་དག་པ";
    lit "ས་ཟ་དངཔ་";
    lit "ས་ཟ་བཞ་པ";
    lit "ས་ཟ་ལ་པ་";
    lit "ཟ་དག་པ་";
    lit "ཟ་བཅ་པ་";
    lit "ཟ་བཞ་པ་";
    lit "ནངས་པ་";
    lit "བདན་ཕག";
    lit "ཟ་དག་པ";
    lit "ཟ་དངཔ་";
    lit "ཟ་ལ་པ་";
    lit "ད་རས་";
    lit "སར་ཆ་";
    lit "ཁ་ཙ་";
    lit "ཆ་ཚད";
    lit "ཕ་ཆ་";
    lit "ཟ་༡༠";
    lit "ཟ་༡༡";
    lit "ཟ་༡༢";
    lit "ཟ་ཝ་";
    lit "ས་ཆ་";
    lit "སངས་";
    lit "སར་མ";
    lit "gmt";
    lit "now";
    lit "utc";
    lit "ཕར་";
    lit "མར་";
    lit "ཚས་";
    lit "ཟ་༡";
    lit "ཟ་༢";
    lit "ཟ་༣";
    lit "ཟ་༤";
    lit "ཟ་༥";
    lit "ཟ་༦";
    lit "ཟ་༧";
    lit "ཟ་༨";
    lit "ཟ་༩";
    lit "ལག་";
    lit "སན་";
    lit "am";
    lit "pm";
    lit "ཉ་";
    lit "ཟ་";
    lit " ";
    lit "'";
    lit "+";
    lit ",";
    lit "-";
    lit ".";
    lit "/";
    lit ":";
    lit ";";
    lit "@";
    lit "[";
    lit "]";
    lit "z";
    lit "|";
    lit "ལ"] |}.

(** ebu.go:10-98 *)
Definition loc_ebu : locale := Eval vm_compute in
  {| ld_name := lit "ebu"; ld_order := lit "DMY"; ld_nospacing := false; ld_splitter := 0;
    ld_charset := runes (lit "bcdeghijklnorstuwxyzĩũ");
    ld_abbr := [];
    ld_simpl := [];
    ld_trans := [(lit "mweri wa ikumi na kairi", [lit "december"]);
    (lit "mweri wa ikumi na umwe", [lit "november"]);
    (lit "mweri wa gatantatu", [lit "june"]);
    (lit "mweri wa mugwanja", [lit "july"]);
    (lit "mweri wa kathatu", [lit "march"]);
    (lit "mweri wa gatano", [lit "may"]);
    (lit "mweri wa kanana", [lit "august"]);
    (lit "mweri wa ikumi", [lit "october"]);
    (lit "mweri wa kairi", [lit "february"]);
    (lit "mweri wa kenda", [lit "september"]);
    (lit "mweri wa mbere", [lit "january"]);
    (lit "mweri wa kana", [lit "april"]);
    (lit "njumamothii", [lit "saturday"]);
    (lit "njumatano", [lit "wednesday"]);
    (lit "njumatatu", [lit "monday"]);
    (lit "aramithi", [lit "thursday"]);
    (lit "muthenya", [lit "day"]);
    (lit "njumaine", [lit "tuesday"]);
    (lit "ndagika", [lit "minute"]);
    (lit "sekondi", [lit "second"]);
    (lit "kiumia", [lit "week"; lit "sunday"]);
    (lit "njumaa", [lit "friday"]);
    (lit "ithaa", [lit "hour"]);
    (lit "mwaka", [lit "year"]);
    (lit "mweri", [lit "month"]);
    (lit "arm", [lit "thursday"]);
    (lit "gan", [lit "june"]);
    (lit "gat", [lit "may"]);
    (lit "gmt", [lit "gmt"]);
    (lit "igi", [lit "december"]);
    (lit "iku", [lit "october"]);
    (lit "imw", [lit "november"]);
    (lit "ine", [lit "tuesday"]);
    (lit "kai", [lit "february"]);
    (lit "kan", [lit "april"]);
    (lit "kat", [lit "march"]);
    (lit "ken", [lit "september"]);
    (lit "kma", [lit "sunday"]);
    (lit "knn", [lit "august"]);
    (lit "maa", [lit "friday"]);
    (lit "mbe", [lit "january"]);
    (lit "mug", [lit "july"]);
    (lit "nmm", [lit "saturday"]);
    (lit "tan", [lit "wednesday"]);
    (lit "tat", [lit "monday"]);
    (lit "utc", [lit "utc"]);
    (lit "am", [lit "am"]);
    (lit "ki", [lit "am"]);
    (lit "pm", [lit "pm"]);
    (lit "ut", [lit "pm"]);
    (lit " ", [lit " "]);
    (lit "'", [lit ""]);
    (lit "+", [lit "+"]);
    (lit ",", [lit ""]);
    (lit "-", [lit "-"]);
    (lit ".", [lit "."]);
    (lit "/", [lit "/"]);
    (lit ":", [lit ":"]);
    (lit ";", [lit ""]);
    (lit "@", [lit ""]);
    (lit "[", [lit ""]);
    (lit "]", [lit ""]);
    (lit "z", [lit "z"]);
    (lit "|", [lit ""])];
    ld_reltype := [(lit "this minute", lit "0 minute ago");
    (lit "last month", lit "1 month ago");
    (lit "next month", lit "in 1 month");
    (lit "this month", lit "0 month ago");
    (lit "last week", lit "1 week ago");
    (lit "last year", lit "1 year ago");
    (lit "next week", lit "in 1 week");
    (lit "next year", lit "in 1 year");
    (lit "this hour", lit "0 hour ago");
    (lit "this week", lit "0 week ago");
    (lit "this year", lit "0 year ago");
    (lit "umunthi", lit "0 day ago");
    (lit "igoro", lit "1 day ago");
    (lit "ruciu", lit "in 1 day");
    (lit "now", lit "0 second ago")];
    ld_relrx := [];
    ld_rx := None;
    ld_rx_exact := None;
    ld_known := [lit "mweri wa ikumi na kairi";
    lit "mweri wa ikumi na umwe";
    lit "mweri wa gatantatu";
    lit "mweri wa mugwanja";
    lit "mweri wa kathatu";
    lit "mweri wa gatano";
    lit "mweri wa kanana";
    lit "mweri wa ikumi";
    lit "mweri wa kairi";
    lit "mweri wa kenda";
    lit "mweri wa mbere";
    lit "mweri wa kana";
    lit "njumamothii";
    lit "this minute";
    lit "last month";
    lit "next month";
    lit "this month";
    lit "last week";
    lit "last year";
    lit "next week";
    lit "next year";
    lit "njumatano";
    lit "njumatatu";
    lit "this hour";
    lit "this week";
    lit "this year";
    lit "aramithi";
    lit "muthenya";
    lit "njumaine";
    lit "ndagika";
    lit "sekondi";
    lit "umunthi";
    lit "kiumia";
    lit "njumaa";
    lit "igoro";
    lit "ithaa";
    lit "mwaka";
    lit "mweri";
    lit "ruciu";
    lit "arm";
    lit "gan";
    lit "gat";
    lit "gmt";
    lit "igi";
    lit "iku";
    lit "imw";
    lit "ine";
    lit "kai";
    lit "kan";
    lit "kat";
    lit "ken";
    lit "kma";
    lit "knn";
    lit "maa";
    lit "mbe";
    lit "mug";
    lit "nmm";
    lit "now";
    lit "tan";
    lit "tat";
    lit "utc";
    lit "am";
    lit "ki";
    lit "pm";
    lit "ut";
    lit " ";
    lit "'";
    lit "+";
    lit ",";
    lit "-";
    lit ".";
    lit "/";
    lit ":";
    lit ";";
    lit "@";
    lit "[";
    lit "]";
    lit "z";
    lit "|"] |}.

(** ee.go:13-136 *)
Definition loc_ee : locale := Eval vm_compute in
  {| ld_name := lit "ee"; ld_order := lit "MDY"; ld_nospacing := false; ld_splitter := 0;
    ld_charset := runes (lit "bcdefghiklnorstuvwxyzĩŋƒɔɖɛɣ");
    ld_abbr := [];
    ld_simpl := [];
    ld_trans := [(lit "adeɛmekpɔxe", [lit "november"]);
    (lit "kɔsiɖa ɖeka", [lit "week"]);
    (lit "deasiamime", [lit "august"]);
    (lit "aɖabaƒoƒo", [lit "minute"]);
    (lit "anyɔnyɔ", [lit "september"]);
    (lit "memleɖa", [lit "saturday"]);
    (lit "siamlɔm", [lit "july"]);
    (lit "afɔfie", [lit "april"]);
    (lit "dzodze", [lit "february"]);
    (lit "gaƒoƒo", [lit "hour"]);
    (lit "kɔsiɖa", [lit "sunday"]);
    (lit "sekend", [lit "second"]);
    (lit "tedoxe", [lit "march"]);
    (lit "yawoɖa", [lit "thursday"]);
    (lit "blaɖa", [lit "tuesday"]);
    (lit "dzome", [lit "december"]);
    (lit "dzove", [lit "january"]);
    (lit "dzoɖa", [lit "monday"]);
    (lit "ŋkeke", [lit "day"]);
    (lit "ɣetrɔ", [lit "pm"]);
    (lit "ɣleti", [lit "month"]);
    (lit "dama", [lit "may"]);
    (lit "fiɖa", [lit "friday"]);
    (lit "kele", [lit "october"]);
    (lit "kuɖa", [lit "wednesday"]);
    (lit "masa", [lit "june"]);
    (lit "ade", [lit "november"]);
    (lit "afɔ", [lit "april"]);
    (lit "any", [lit "september"]);
    (lit "bla", [lit "tuesday"]);
    (lit "dam", [lit "may"]);
    (lit "dea", [lit "august"]);
    (lit "dzd", [lit "february"]);
    (lit "dzm", [lit "december"]);
    (lit "dzo", [lit "monday"]);
    (lit "dzv", [lit "january"]);
    (lit "fiɖ", [lit "friday"]);
    (lit "gmt", [lit "gmt"]);
    (lit "kel", [lit "october"]);
    (lit "kuɖ", [lit "wednesday"]);
    (lit "kɔs", [lit "sunday"]);
    (lit "mas", [lit "june"]);
    (lit "mem", [lit "saturday"]);
    (lit "sia", [lit "july"]);
    (lit "ted", [lit "march"]);
    (lit "utc", [lit "utc"]);
    (lit "yaw", [lit "thursday"]);
    (lit "ŋdi", [lit "am"]);
    (lit "am", [lit "am"]);
    (lit "pm", [lit "pm"]);
    (lit "ƒe", [lit "year"]);
    (lit " ", [lit " "]);
    (lit "'", [lit ""]);
    (lit "+", [lit "+"]);
    (lit ",", [lit ""]);
    (lit "-", [lit "-"]);
    (lit ".", [lit "."]);
    (lit "/", [lit "/"]);
    (lit ":", [lit ":"]);
    (lit ";", [lit ""]);
    (lit "@", [lit ""]);
    (lit "[", [lit ""]);
    (lit "]", [lit ""]);
    (lit "z", [lit "z"]);
    (lit "|", [lit ""])];
    ld_reltype := [(lit "kɔsiɖa si gbɔ na", lit "in 1 week");
    (lit "kɔsiɖa si va yi", lit "1 week ago");
    (lit "ɣleti si gbɔ na", lit "in 1 month");
    (lit "ɣleti si va yi", lit "1 month ago");
    (lit "etsɔ si gbɔna", lit "in 1 day");
    (lit "etsɔ si va yi", lit "1 day ago");
    (lit "ƒe si gbɔ na", lit "in 1 year");
    (lit "this minute", lit "0 minute ago");
    (lit "ƒe si va yi", lit "1 year ago");
    (lit "kɔsiɖa sia", lit "0 week ago");
    (lit "this hour", lit "0 hour ago");
    (lit "ɣleti sia", lit "0 month ago");
    (lit "ƒe sia", lit "0 year ago");
    (lit "egbe", lit "0 day ago");
    (lit "fifi", lit "0 second ago")];
    ld_relrx := [(rx "(?i)aɖabaƒoƒo (\d+[.,]?\d*) si wo va yi", lit "$1 minute ago");
    (rx "(?i)aɖabaƒoƒo (\d+[.,]?\d*) si va yi", lit "$1 minute ago");
    (rx "(?i)gaƒoƒo (\d+[.,]?\d*) si wo va yi", lit "$1 hour ago");
    (rx "(?i)kɔsiɖa (\d+[.,]?\d*) si wo va yi", lit "$1 week ago");
    (rx "(?i)le aɖabaƒoƒo (\d+[.,]?\d*) wo me", lit "in $1 minute");
    (rx "(?i)sekend (\d+[.,]?\d*) si wo va yi", lit "$1 second ago");
    (rx "(?i)le ƒe (\d+[.,]?\d*) si gbɔna me", lit "in $1 year");
    (rx "(?i)le ƒe (\d+[.,]?\d*) si va yi me", lit "$1 year ago");
    (rx "(?i)ŋkeke (\d+[.,]?\d*) si wo va yi", lit "$1 day ago");
    (rx "(?i)ɣleti (\d+[.,]?\d*) si wo va yi", lit "$1 month ago");
    (rx "(?i)gaƒoƒo (\d+[.,]?\d*) si va yi", lit "$1 hour ago");
    (rx "(?i)kɔsiɖa (\d+[.,]?\d*) si va yi", lit "$1 week ago");
    (rx "(?i)le aɖabaƒoƒo (\d+[.,]?\d*) me", lit "in $1 minute");
    (rx "(?i)le gaƒoƒo (\d+[.,]?\d*) wo me", lit "in $1 hour");
    (rx "(?i)le kɔsiɖa (\d+[.,]?\d*) wo me", lit "in $1 week");
    (rx "(?i)le sekend (\d+[.,]?\d*) wo me", lit "in $1 second");
    (rx "(?i)sekend (\d+[.,]?\d*) si va yi", lit "$1 second ago");
    (rx "(?i)le ŋkeke (\d+[.,]?\d*) wo me", lit "in $1 day");
    (rx "(?i)le ɣleti (\d+[.,]?\d*) wo me", lit "in $1 month");
    (rx "(?i)ŋkeke (\d+[.,]?\d*) si va yi", lit "$1 day ago");
    (rx "(?i)ƒe (\d+[.,]?\d*) si va yi me", lit "$1 year ago");
    (rx "(?i)ƒe (\d+[.,]?\d*) si wo va yi", lit "$1 year ago");
    (rx "(?i)ɣleti (\d+[.,]?\d*) si va yi", lit "$1 month ago");
    (rx "(?i)le gaƒoƒo (\d+[.,]?\d*) me", lit "in $1 hour");
    (rx "(?i)le kɔsiɖa (\d+[.,]?\d*) me", lit "in $1 week");
    (rx "(?i)le sekend (\d+[.,]?\d*) me", lit "in $1 second");
    (rx "(?i)le ŋkeke (\d+[.,]?\d*) me", lit "in $1 day");
    (rx "(?i)le ɣleti (\d+[.,]?\d*) me", lit "in $1 month");
    (rx "(?i)ƒe (\d+[.,]?\d*) si va yi", lit "$1 year ago");
    (rx "(?i)le ƒe (\d+[.,]?\d*) me", lit "in $1 year")];
    ld_rx := Some (rx "(?i)(\A|[^\pL\pM\d]|_)(aɖabaƒoƒo \d+[.,]?\d* si wo va yi|aɖabaƒoƒo \d+[.,]?\d* si va yi|gaƒoƒo \d+[.,]?\d* si wo va yi|kɔsiɖa \d+[.,]?\d* si wo va yi|le aɖabaƒoƒo \d+[.,]?\d* wo me|sekend \d+[.,]?\d* si wo va yi|le ƒe \d+[.,]?\d* si gbɔna me|le ƒe \d+[.,]?\d* si va yi me|ŋkeke \d+[.,]?\d* si wo va yi|ɣleti \d+[.,]?\d* si wo va yi|gaƒoƒo \d+[.,]?\d* si va yi|kɔsiɖa \d+[.,]?\d* si va yi|le aɖabaƒoƒo \d+[.,]?\d* me|le gaƒoƒo \d+[.,]?\d* wo me|le kɔsiɖa \d+[.,]?\d* wo me|le sekend \d+[.,]?\d* wo me|sekend \d+[.,]?\d* si va yi|le ŋkeke \d+[.,]?\d* wo me|le ɣleti \d+[.,]?\d* wo me|ŋkeke \d+[.,]?\d* si va yi|ƒe \d+[.,]?\d* si va yi me|ƒe \d+[.,]?\d* si wo va yi|ɣleti \d+[.,]?\d* si va yi|le gaƒoƒo \d+[.,]?\d* me|le kɔsiɖa \d+[.,]?\d* me|le sekend \d+[.,]?\d* me|le ŋkeke \d+[.,]?\d* me|le ɣleti \d+[.,]?\d* me|ƒe \d+[.,]?\d* si va yi|le ƒe \d+[.,]?\d* me)(\z|[^\pL\pM\d]|_)");
    ld_rx_exact := Some (rx "(?i)^(aɖabaƒoƒo \d+[.,]?\d* si wo va yi|aɖabaƒoƒo \d+[.,]?\d* si va yi|gaƒoƒo \d+[.,]?\d* si wo va yi|kɔsiɖa \d+[.,]?\d* si wo va yi|le aɖabaƒoƒo \d+[.,]?\d* wo me|sekend \d+[.,]?\d* si wo va yi|le ƒe \d+[.,]?\d* si gbɔna me|le ƒe \d+[.,]?\d* si va yi me|ŋkeke \d+[.,]?\d* si wo va yi|ɣleti \d+[.,]?\d* si wo va yi|gaƒoƒo \d+[.,]?\d* si va yi|kɔsiɖa \d+[.,]?\d* si va yi|le aɖabaƒoƒo \d+[.,]?\d* me|le gaƒoƒo \d+[.,]?\d* wo me|le kɔsiɖa \d+[.,]?\d* wo me|le sekend \d+[.,]?\d* wo me|sekend \d+[.,]?\d* si va yi|le ŋkeke \d+[.,]?\d* wo me|le ɣleti \d+[.,]?\d* wo me|ŋkeke \d+[.,]?\d* si va yi|ƒe \d+[.,]?\d* si va yi me|ƒe \d+[.,]?\d* si wo va yi|ɣleti \d+[.,]?\d* si va yi|le gaƒoƒo \d+[.,]?\d* me|le kɔsiɖa \d+[.,]?\d* me|le sekend \d+[.,]?\d* me|le ŋkeke \d+[.,]?\d* me|le ɣleti \d+[.,]?\d* me|ƒe \d+[.,]?\d* si va yi|le ƒe \d+[.,]?\d* me)$");
    ld_known := [lit "kɔsiɖa si gbɔ na";
    lit "kɔsiɖa si va yi";
    lit "ɣleti si gbɔ na";
    lit "ɣleti si va yi";
    lit "etsɔ si gbɔna";
    lit "etsɔ si va yi";
    lit "ƒe si gbɔ na";
    lit "adeɛmekpɔxe";
    lit "kɔsiɖa ɖeka";
    lit "this minute";
    lit "ƒe si va yi";
    lit "deasiamime";
    lit "kɔsiɖa sia";
    lit "aɖabaƒoƒo";
    lit "this hour";
    lit "ɣleti sia";
    lit "anyɔnyɔ";
    lit "memleɖa";
    lit "siamlɔm";
    lit "afɔfie";
    lit "dzodze";
    lit "gaƒoƒo";
    lit "kɔsiɖa";
    lit "sekend";
    lit "tedoxe";
    lit "yawoɖa";
    lit "ƒe sia";
    lit "blaɖa";
    lit "dzome";
    lit "dzove";
    lit "dzoɖa";
    lit "ŋkeke";
    lit "ɣetrɔ";
    lit "ɣleti";
    lit "dama";
    lit "egbe";
    lit "fifi";
    lit "fiɖa";
    lit "kele";
    lit "kuɖa";
    lit "masa";
    lit "ade";
    lit "afɔ";
    lit "any";
    lit "bla";
    lit "dam";
    lit "dea";
    lit "dzd";
    lit "dzm";
    lit "dzo";
    lit "dzv";
    lit "fiɖ";
    lit "gmt";
    lit "kel";
    lit "kuɖ";
    lit "kɔs";
    lit "mas";
    lit "mem";
    lit "sia";
    lit "ted";
    lit "utc";
    lit "yaw";
    lit "ŋdi";
    lit "am";
    lit "pm";
    lit "ƒe";
    lit " ";
    lit "'";
    lit "+";
    lit ",";
    lit "-";
    lit ".";
    lit "/";
    lit ":";
    lit ";";
    lit "@";
    lit "[";
    lit "]";
    lit "z";
    lit "|"] |}.

(** ee.go:138-141 *)
Definition own_ee_TG : locale := Eval vm_compute in
  {| ld_name := lit "ee-TG"; ld_order := lit "MDY"; ld_nospacing := false; ld_splitter := 0;
    ld_charset := runes (lit "");
    ld_abbr := [];
    ld_simpl := [];
    ld_trans := [];
    ld_reltype := [];
    ld_relrx := [];
    ld_rx := None;
    ld_rx_exact := None;
    ld_known := [] |}.
Definition loc_ee_TG : locale := merge loc_ee own_ee_TG.

(** el.go:13-176 *)
Definition loc_el : locale := Eval vm_compute in
  {| ld_name := lit "el"; ld_order := lit "DMY"; ld_nospacing := false; ld_splitter := 0;
    ld_charset := runes (lit "cgtuzΐάέήίαβγδεηθικλμνοπρςστυφχωόύώ");
    ld_abbr := [];
    ld_simpl := [];
    ld_trans := [(lit "δευτερολεπτο", [lit "second"]);
    (lit "σεπτεμβριος", [lit "september"]);
    (lit "σεπτεμβριου", [lit "september"]);
    (lit "φεβρουαριος", [lit "february"]);
    (lit "φεβρουαριου", [lit "february"]);
    (lit "δεκεμβριος", [lit "december"]);
    (lit "δεκεμβριου", [lit "december"]);
    (lit "ιανουαριος", [lit "january"]);
    (lit "ιανουαριου", [lit "january"]);
    (lit "αυγουστος", [lit "august"]);
    (lit "αυγουστου", [lit "august"]);
    (lit "νοεμβριος", [lit "november"]);
    (lit "νοεμβριου", [lit "november"]);
    (lit "οκτωβριος", [lit "october"]);
    (lit "οκτωβριου", [lit "october"]);
    (lit "παρασκευη", [lit "friday"]);
    (lit "απριλιος", [lit "april"]);
    (lit "απριλιου", [lit "april"]);
    (lit "εβδομαδα", [lit "week"]);
    (lit "δευτερα", [lit "monday"]);
    (lit "ιουλιος", [lit "july"]);
    (lit "ιουλιου", [lit "july"]);
    (lit "ιουνιος", [lit "june"]);
    (lit "ιουνιου", [lit "june"]);
    (lit "κυριακη", [lit "sunday"]);
    (lit "μαρτιος", [lit "march"]);
    (lit "μαρτιου", [lit "march"]);
    (lit "σαββατο", [lit "saturday"]);
    (lit "τεταρτη", [lit "wednesday"]);
    (lit "πεμπτη", [lit "thursday"]);
    (lit "ημερα", [lit "day"]);
    (lit "λεπτο", [lit "minute"]);
    (lit "μαιος", [lit "may"]);
    (lit "μαιου", [lit "may"]);
    (lit "μηνας", [lit "month"]);
    (lit "τριτη", [lit "tuesday"]);
    (lit "δευτ", [lit "second"]);
    (lit "ετος", [lit "year"]);
    (lit "ιουλ", [lit "july"]);
    (lit "ιουν", [lit "june"]);
    (lit "gmt", [lit "gmt"]);
    (lit "utc", [lit "utc"]);
    (lit "απρ", [lit "april"]);
    (lit "αυγ", [lit "august"]);
    (lit "δεκ", [lit "december"]);
    (lit "δευ", [lit "monday"]);
    (lit "εβδ", [lit "week"]);
    (lit "ιαν", [lit "january"]);
    (lit "κυρ", [lit "sunday"]);
    (lit "λεπ", [lit "minute"]);
    (lit "μαι", [lit "may"]);
    (lit "μαρ", [lit "march"]);
    (lit "μην", [lit "month"]);
    (lit "νοε", [lit "november"]);
    (lit "οκτ", [lit "october"]);
    (lit "παρ", [lit "friday"]);
    (lit "πεμ", [lit "thursday"]);
    (lit "σαβ", [lit "saturday"]);
    (lit "σεπ", [lit "september"]);
    (lit "τετ", [lit "wednesday"]);
    (lit "τρι", [lit "tuesday"]);
    (lit "φεβ", [lit "february"]);
    (lit "ωρα", [lit "hour"]);
    (lit "am", [lit "am"]);
    (lit "pm", [lit "pm"]);
    (lit "ετ", [lit "year"]);
    (lit "μμ", [lit "pm"]);
    (lit "πμ", [lit "am"]);
    (lit "ωρ", [lit "hour"]);
    (lit " ", [lit " "]);
    (lit "'", [lit ""]);
    (lit "+", [lit "+"]);
    (lit ",", [lit ""]);
    (lit "-", [lit "-"]);
    (lit ".", [lit "."]);
    (lit "/", [lit "/"]);
    (lit ":", [lit ":"]);
    (lit ";", [lit ""]);
    (lit "@", [lit ""]);
    (lit "[", [lit ""]);
    (lit "]", [lit ""]);
    (lit "z", [lit "z"]);
    (lit "|", [lit ""]);
    (lit "δ", [lit "second"]);
    (lit "λ", [lit "minute"]);
    (lit "ω", [lit "hour"])];
    ld_reltype := [(lit "προηγουμενη εβδομαδα", lit "1 week ago");
    (lit "αυτην την εβδομαδα", lit "0 week ago");
    (lit "προηγουμενος μηνας", lit "1 month ago");
    (lit "επομενη εβδομαδα", lit "in 1 week");
    (lit "επομενος μηνας", lit "in 1 month");
    (lit "αυτην την ωρα", lit "0 hour ago");
    (lit "αυτο το λεπτο", lit "0 minute ago");
    (lit "επομενο ετος", lit "in 1 year");
    (lit "τρεχων μηνας", lit "0 month ago");
    (lit "σημερα", lit "0 day ago");
    (lit "αυριο", lit "in 1 day");
    (lit "περσι", lit "1 year ago");
    (lit "φετος", lit "0 year ago");
    (lit "τωρα", lit "0 second ago");
    (lit "χθες", lit "1 day ago")];
    ld_relrx := [(rx "(?i)πριν απο (\d+[.,]?\d*) δευτερολεπτα", lit "$1 second ago");
    (rx "(?i)πριν απο (\d+[.,]?\d*) δευτερολεπτο", lit "$1 second ago");
    (rx "(?i)πριν απο (\d+[.,]?\d*) εβδομαδες", lit "$1 week ago");
    (rx "(?i)πριν απο (\d+[.,]?\d*) εβδομαδα", lit "$1 week ago");
    (rx "(?i)πριν απο (\d+[.,]?\d*) ημερες", lit "$1 day ago");
    (rx "(?i)σε (\d+[.,]?\d*) δευτερολεπτα", lit "in $1 second");
    (rx "(?i)σε (\d+[.,]?\d*) δευτερολεπτο", lit "in $1 second");
    (rx "(?i)πριν απο (\d+[.,]?\d*) ημερα", lit "$1 day ago");
    (rx "(?i)πριν απο (\d+[.,]?\d*) λεπτα", lit "$1 minute ago");
    (rx "(?i)πριν απο (\d+[.,]?\d*) λεπτο", lit "$1 minute ago");
    (rx "(?i)πριν απο (\d+[.,]?\d*) μηνες", lit "$1 month ago");
    (rx "(?i)πριν απο (\d+[.,]?\d*) δευτ", lit "$1 second ago");
    (rx "(?i)πριν απο (\d+[.,]?\d*) ετος", lit "$1 year ago");
    (rx "(?i)πριν απο (\d+[.,]?\d*) μηνα", lit "$1 month ago");
    (rx "(?i)πριν απο (\d+[.,]?\d*) ωρες", lit "$1 hour ago");
    (rx "(?i)πριν απο (\d+[.,]?\d*) εβδ", lit "$1 week ago");
    (rx "(?i)πριν απο (\d+[.,]?\d*) ετη", lit "$1 year ago");
    (rx "(?i)πριν απο (\d+[.,]?\d*) λεπ", lit "$1 minute ago");
    (rx "(?i)πριν απο (\d+[.,]?\d*) ωρα", lit "$1 hour ago");
    (rx "(?i)σε (\d+[.,]?\d*) εβδομαδες", lit "in $1 week");
    (rx "(?i)πριν απο (\d+[.,]?\d*) ωρ", lit "$1 hour ago");
    (rx "(?i)σε (\d+[.,]?\d*) εβδομαδα", lit "in $1 week");
    (rx "(?i)(\d+[.,]?\d*) ετος πριν", lit "$1 year ago");
    (rx "(?i)σε (\d+[.,]?\d*) ημερες", lit "in $1 day");
    (rx "(?i)(\d+[.,]?\d*) εβδ πριν", lit "$1 week ago");
    (rx "(?i)(\d+[.,]?\d*) ετη πριν", lit "$1 year ago");
    (rx "(?i)σε (\d+[.,]?\d*) ημερα", lit "in $1 day");
    (rx "(?i)σε (\d+[.,]?\d*) λεπτα", lit "in $1 minute");
    (rx "(?i)σε (\d+[.,]?\d*) λεπτο", lit "in $1 minute");
    (rx "(?i)σε (\d+[.,]?\d*) μηνες", lit "in $1 month");
    (rx "(?i)(\d+[.,]?\d*) ημ πριν", lit "$1 day ago");
    (rx "(?i)σε (\d+[.,]?\d*) δευτ", lit "in $1 second");
    (rx "(?i)σε (\d+[.,]?\d*) ετος", lit "in $1 year");
    (rx "(?i)σε (\d+[.,]?\d*) μηνα", lit "in $1 month");
    (rx "(?i)σε (\d+[.,]?\d*) ωρες", lit "in $1 hour");
    (rx "(?i)(\d+[.,]?\d*) δ πριν", lit "$1 second ago");
    (rx "(?i)(\d+[.,]?\d*) λ πριν", lit "$1 minute ago");
    (rx "(?i)(\d+[.,]?\d*) μ πριν", lit "$1 month ago");
    (rx "(?i)(\d+[.,]?\d*) ω πριν", lit "$1 hour ago");
    (rx "(?i)σε (\d+[.,]?\d*) εβδ", lit "in $1 week");
    (rx "(?i)σε (\d+[.,]?\d*) ετη", lit "in $1 year");
    (rx "(?i)σε (\d+[.,]?\d*) λεπ", lit "in $1 minute");
    (rx "(?i)σε (\d+[.,]?\d*) ωρα", lit "in $1 hour");
    (rx "(?i)σε (\d+[.,]?\d*) ημ", lit "in $1 day");
    (rx "(?i)σε (\d+[.,]?\d*) ωρ", lit "in $1 hour");
    (rx "(?i)σε (\d+[.,]?\d*) δ", lit "in $1 second");
    (rx "(?i)σε (\d+[.,]?\d*) λ", lit "in $1 minute");
    (rx "(?i)σε (\d+[.,]?\d*) μ", lit "in $1 month");
    (rx "(?i)σε (\d+[.,]?\d*) ω", lit "in $1 hour")];
    ld_rx := Some (rx "(?i)(\A|[^\pL\pM\d]|_)(πριν απο \d+[.,]?\d* δευτερολεπτα|πριν απο \d+[.,]?\d* δευτερολεπτο|πριν απο \d+[.,]?\d* εβδομαδες|πριν απο \d+[.,]?\d* εβδομαδα|πριν απο \d+[.,]?\d* ημερες|σε \d+[.,]?\d* δευτερολεπτα|σε \d+[.,]?\d* δευτερολεπτο|πριν απο \d+[.,]?\d* ημερα|πριν απο \d+[.,]?\d* λεπτα|πριν απο \d+[.,]?\d* λεπτο|πριν απο \d+[.,]?\d* μηνες|πριν απο \d+[.,]?\d* δευτ|πριν απο \d+[.,]?\d* ετος|πριν απο \d+[.,]?\d* μηνα|πριν απο \d+[.,]?\d* ωρες|πριν απο \d+[.,]?\d* εβδ|πριν απο \d+[.,]?\d* ετη|πριν απο \d+[.,]?\d* λεπ|πριν απο \d+[.,]?\d* ωρα|σε \d+[.,]?\d* εβδομαδες|πριν απο \d+[.,]?\d* ωρ|σε \d+[.,]?\d* εβδομαδα|\d+[.,]?\d* ετος πριν|σε \d+[.,]?\d* ημερες|\d+[.,]?\d* εβδ πριν|\d+[.,]?\d* ετη πριν|σε \d+[.,]?\d* ημερα|σε \d+[.,]?\d* λεπτα|σε \d+[.,]?\d* λεπτο|σε \d+[.,]?\d* μηνες|\d+[.,]?\d* ημ πριν|σε \d+[.,]?\d* δευτ|σε \d+[.,]?\d* ετος|σε \d+[.,]?\d* μηνα|σε \d+[.,]?\d* ωρες|\d+[.,]?\d* δ πριν|\d+[.,]?\d* λ πριν|\d+[.,]?\d* μ πριν|\d+[.,]?\d* ω πριν|σε \d+[.,]?\d* εβδ|σε \d+[.,]?\d* ετη|σε \d+[.,]?\d* λεπ|σε \d+[.,]?\d* ωρα|σε \d+[.,]?\d* ημ|σε \d+[.,]?\d* ωρ|σε \d+[.,]?\d* δ|σε \d+[.,]?\d* λ|σε \d+[.,]?\d* μ|σε \d+[.,]?\d* ω)(\z|[^\pL\pM\d]|_)");
    ld_rx_exact := Some (rx "(?i)^(πριν απο \d+[.,]?\d* δευτερολεπτα|πριν απο \d+[.,]?\d* δευτερολεπτο|πριν απο \d+[.,]?\d* εβδομαδες|πριν απο \d+[.,]?\d* εβδομαδα|πριν απο \d+[.,]?\d* ημερες|σε \d+[.,]?\d* δευτερολεπτα|σε \d+[.,]?\d* δευτερολεπτο|πριν απο \d+[.,]?\d* ημερα|πριν απο \d+[.,]?\d* λεπτα|πριν απο \d+[.,]?\d* λεπτο|πριν απο \d+[.,]?\d* μηνες|πριν απο \d+[.,]?\d* δευτ|πριν απο \d+[.,]?\d* ετος|πριν απο \d+[.,]?\d* μηνα|πριν απο \d+[.,]?\d* ωρες|πριν απο \d+[.,]?\d* εβδ|πριν απο \d+[.,]?\d* ετη|πριν απο \d+[.,]?\d* λεπ|πριν απο \d+[.,]?\d* ωρα|σε \d+[.,]?\d* εβδομαδες|πριν απο \d+[.,]?\d* ωρ|σε \d+[.,]?\d* εβδομαδα|\d+[.,]?\d* ετος πριν|σε \d+[.,]?\d* ημερες|\d+[.,]?\d* εβδ πριν|\d+[.,]?\d* ετη πριν|σε \d+[.,]?\d* ημερα|σε \d+[.,]?\d* λεπτα|σε \d+[.,]?\d* λεπτο|σε \d+[.,]?\d* μηνες|\d+[.,]?\d* ημ πριν|σε \d+[.,]?\d* δευτ|σε \d+[.,]?\d* ετος|σε \d+[.,]?\d* μηνα|σε \d+[.,]?\d* ωρες|\d+[.,]?\d* δ πριν|\d+[.,]?\d* λ πριν|\d+[.,]?\d* μ πριν|\d+[.,]?\d* ω πριν|σε \d+[.,]?\d* εβδ|σε \d+[.,]?\d* ετη|σε \d+[.,]?\d* λεπ|σε \d+[.,]?\d* ωρα|σε \d+[.,]?\d* ημ|σε \d+[.,]?\d* ωρ|σε \d+[.,]?\d* δ|σε \d+[.,]?\d* λ|σε \d+[.,]?\d* μ|σε \d+[.,]?\d* ω)$");
    ld_known := [lit "προηγουμενη εβδομαδα";
    lit "αυτην την εβδομαδα";
    lit "προηγουμενος μηνας";
    lit "επομενη εβδομαδα";
    lit "επομενος μηνας";
    lit "αυτην την ωρα";
    lit "αυτο το λεπτο";
    lit "δευτερολεπτο";
    lit "επομενο ετος";
    lit "τρεχων μηνας";
    lit "σεπτεμβριος";
    lit "σεπτεμβριου";
    lit "φεβρουαριος";
    lit "φεβρουαριου";
    lit "δεκεμβριος";
    lit "δεκεμβριου";
    lit "ιανουαριος";
    lit "ιανουαριου";
    lit "αυγουστος";
    lit "αυγουστου";
    lit "νοεμβριος";
    lit "νοεμβριου";
    lit "οκτωβριος";
    lit "οκτωβριου";
    lit "παρασκευη";
    lit "απριλιος";
    lit "απριλιου";
    lit "εβδομαδα";
    lit "δευτερα";
    lit "ιουλιος";
    lit "ιουλιου";
    lit "ιουνιος";
    lit "ιουνιου";
    lit "κυριακη";
    lit "μαρτιος";
    lit "μαρτιου";
    lit "σαββατο";
    lit "τεταρτη";
    lit "πεμπτη";
    lit "σημερα";
    lit "αυριο";
    lit "ημερα";
    lit "λεπτο";
    lit "μαιος";
    lit "μαιου";
    lit "μηνας";
    lit "περσι";
    lit "τριτη";
    lit "φετος";
    lit "δευτ";
    lit "ετος";
    lit "ιουλ";
    lit "ιουν";
    lit "τωρα";
    lit "χθες";
    lit "gmt";
    lit "utc";
    lit "απρ";
    lit "αυγ";
    lit "δεκ";
    lit "δευ";
    lit "εβδ";
    lit "ιαν";
    lit "κυρ";
    lit "λεπ";
    lit "μαι";
    lit "μαρ";
    lit "μην";
    lit "νοε";
    lit "οκτ";
    lit "παρ";
    lit "πεμ";
    lit "σαβ";
    lit "σεπ";
    lit "τετ";
    lit "τρι";
    lit "φεβ";
    lit "ωρα";
    lit "am";
    lit "pm";
    lit "ετ";
    lit "μμ";
    lit "πμ";
    lit "ωρ";
    lit " ";
    lit "'";
    lit "+";
    lit ",";
    lit "-";
    lit ".";
    lit "/";
    lit ":";
    lit ";";
    lit "@";
    lit "[";
    lit "]";
    lit "z";
    lit "|";
    lit "δ";
    lit "λ";
    lit "ω"] |}.

(** el.go:178-181 *)
Definition own_el_CY : locale := Eval vm_compute in
  {| ld_name := lit "el-CY"; ld_order := lit "DMY"; ld_nospacing := false; ld_splitter := 0;
    ld_charset := runes (lit "");
    ld_abbr := [];
    ld_simpl := [];
    ld_trans := [];
    ld_reltype := [];
    ld_relrx := [];
    ld_rx := None;
    ld_rx_exact := None;
    ld_known := [] |}.
Definition loc_el_CY : locale := merge loc_el own_el_CY.

(** en.go:330-333 *)
Definition own_en_001 : locale := Eval vm_compute in
  {| ld_name := lit "en-001"; ld_order := lit "DMY"; ld_nospacing := false; ld_splitter := 0;
    ld_charset := runes (lit "");
    ld_abbr := [];
    ld_simpl := [];
    ld_trans := [];
    ld_reltype := [];
    ld_relrx := [];
    ld_rx := None;
    ld_rx_exact := None;
    ld_known := [] |}.
Definition loc_en_001 : locale := merge loc_en own_en_001.

(** en.go:335-338 *)
Definition own_en_150 : locale := Eval vm_compute in
  {| ld_name := lit "en-150"; ld_order := lit "DMY"; ld_nospacing := false; ld_splitter := 0;
    ld_charset := runes (lit "");
    ld_abbr := [];
    ld_simpl := [];
    ld_trans := [];
    ld_reltype := [];
    ld_relrx := [];
    ld_rx := None;
    ld_rx_exact := None;
    ld_known := [] |}.
Definition loc_en_150 : locale := merge loc_en own_en_150.

(** en.go:340-343 *)
Definition own_en_AG : locale := Eval vm_compute in
  {| ld_name := lit "en-AG"; ld_order := lit "DMY"; ld_nospacing := false; ld_splitter := 0;
    ld_charset := runes (lit "");
    ld_abbr := [];
    ld_simpl := [];
    ld_trans := [];
    ld_reltype := [];
    ld_relrx := [];
    ld_rx := None;
    ld_rx_exact := None;
    ld_known := [] |}.
Definition loc_en_AG : locale := merge loc_en own_en_AG.

(** en.go:345-348 *)
Definition own_en_AI : locale := Eval vm_compute in
  {| ld_name := lit "en-AI"; ld_order := lit "DMY"; ld_nospacing := false; ld_splitter := 0;
    ld_charset := runes (lit "");
    ld_abbr := [];
    ld_simpl := [];
    ld_trans := [];
    ld_reltype := [];
    ld_relrx := [];
    ld_rx := None;
    ld_rx_exact := None;
    ld_known := [] |}.
Definition loc_en_AI : locale := merge loc_en own_en_AI.

(** en.go:350-353 *)
Definition own_en_AS : locale := Eval vm_compute in
  {| ld_name := lit "en-AS"; ld_order := lit "MDY"; ld_nospacing := false; ld_splitter := 0;
    ld_charset := runes (lit "");
    ld_abbr := [];
    ld_simpl := [];
    ld_trans := [];
    ld_reltype := [];
    ld_relrx := [];
    ld_rx := None;
    ld_rx_exact := None;
    ld_known := [] |}.
Definition loc_en_AS : locale := merge loc_en own_en_AS.

(** en.go:355-358 *)
Definition own_en_AT : locale := Eval vm_compute in
  {| ld_name := lit "en-AT"; ld_order := lit "DMY"; ld_nospacing := false; ld_splitter := 0;
    ld_charset := runes (lit "");
    ld_abbr := [];
    ld_simpl := [];
    ld_trans := [];
    ld_reltype := [];
    ld_relrx := [];
    ld_rx := None;
    ld_rx_exact := None;
    ld_known := [] |}.
Definition loc_en_AT : locale := merge loc_en own_en_AT.

(** en.go:360-363 *)
Definition own_en_AU : locale := Eval vm_compute in
  {| ld_name := lit "en-AU"; ld_order := lit "DMY"; ld_nospacing := false; ld_splitter := 0;
    ld_charset := runes (lit "");
    ld_abbr := [];
    ld_simpl := [];
    ld_trans := [];
    ld_reltype := [];
    ld_relrx := [];
    ld_rx := None;
    ld_rx_exact := None;
    ld_known := [] |}.
Definition loc_en_AU : locale := merge loc_en own_en_AU.

(** en.go:365-368 *)
Definition own_en_BB : locale := Eval vm_compute in
  {| ld_name := lit "en-BB"; ld_order := lit "DMY"; ld_nospacing := false; ld_splitter := 0;
    ld_charset := runes (lit "");
    ld_abbr := [];
    ld_simpl := [];
    ld_trans := [];
    ld_reltype := [];
    ld_relrx := [];
    ld_rx := None;
    ld_rx_exact := None;
    ld_known := [] |}.
Definition loc_en_BB : locale := merge loc_en own_en_BB.

(** en.go:370-373 *)
Definition own_en_BE : locale := Eval vm_compute in
  {| ld_name := lit "en-BE"; ld_order := lit "DMY"; ld_nospacing := false; ld_splitter := 0;
    ld_charset := runes (lit "");
    ld_abbr := [];
    ld_simpl := [];
    ld_trans := [];
    ld_reltype := [];
    ld_relrx := [];
    ld_rx := None;
    ld_rx_exact := None;
    ld_known := [] |}.
Definition loc_en_BE : locale := merge loc_en own_en_BE.

(** en.go:375-378 *)
Definition own_en_BI : locale := Eval vm_compute in
  {| ld_name := lit "en-BI"; ld_order := lit "MDY"; ld_nospacing := false; ld_splitter := 0;
    ld_charset := runes (lit "");
    ld_abbr := [];
    ld_simpl := [];
    ld_trans := [];
    ld_reltype := [];
    ld_relrx := [];
    ld_rx := None;
    ld_rx_exact := None;
    ld_known := [] |}.
Definition loc_en_BI : locale := merge loc_en own_en_BI.

(** en.go:380-383 *)
Definition own_en_BM : locale := Eval vm_compute in
  {| ld_name := lit "en-BM"; ld_order := lit "DMY"; ld_nospacing := false; ld_splitter := 0;
    ld_charset := runes (lit "");
    ld_abbr := [];
    ld_simpl := [];
    ld_trans := [];
    ld_reltype := [];
    ld_relrx := [];
    ld_rx := None;
    ld_rx_exact := None;
    ld_known := [] |}.
Definition loc_en_BM : locale := merge loc_en own_en_BM.

(** en.go:385-388 *)
Definition own_en_BS : locale := Eval vm_compute in
  {| ld_name := lit "en-BS"; ld_order := lit "DMY"; ld_nospacing := false; ld_splitter := 0;
    ld_charset := runes (lit "");
    ld_abbr := [];
    ld_simpl := [];
    ld_trans := [];
    ld_reltype := [];
    ld_relrx := [];
    ld_rx := None;
    ld_rx_exact := None;
    ld_known := [] |}.
Definition loc_en_BS : locale := merge loc_en own_en_BS.

(** en.go:390-393 *)
Definition own_en_BW : locale := Eval vm_compute in
  {| ld_name := lit "en-BW"; ld_order := lit "DMY"; ld_nospacing := false; ld_splitter := 0;
    ld_charset := runes (lit "");
    ld_abbr := [];
    ld_simpl := [];
    ld_trans := [];
    ld_reltype := [];
    ld_relrx := [];
    ld_rx := None;
    ld_rx_exact := None;
    ld_known := [] |}.
Definition loc_en_BW : locale := merge loc_en own_en_BW.

(** en.go:395-398 *)
Definition own_en_BZ : locale := Eval vm_compute in
  {| ld_name := lit "en-BZ"; ld_order := lit "DMY"; ld_nospacing := false; ld_splitter := 0;
    ld_charset := runes (lit "");
    ld_abbr := [];
    ld_simpl := [];
    ld_trans := [];
    ld_reltype := [];
    ld_relrx := [];
    ld_rx := None;
    ld_rx_exact := None;
    ld_known := [] |}.
Definition loc_en_BZ : locale := merge loc_en own_en_BZ.

(** en.go:400-419 *)
Definition own_en_CA : locale := Eval vm_compute in
  {| ld_name := lit "en-CA"; ld_order := lit "YMD"; ld_nospacing := false; ld_splitter := 0;
    ld_charset := runes (lit "");
    ld_abbr := [];
    ld_simpl := [];
    ld_trans := [];
    ld_reltype := [];
    ld_relrx := [(rx "(?i)(\d+[.,]?\d*) mins ago", lit "$1 minute ago");
    (rx "(?i)(\d+[.,]?\d*) secs ago", lit "$1 second ago");
    (rx "(?i)(\d+[.,]?\d*) hrs ago", lit "$1 hour ago");
    (rx "(?i)(\d+[.,]?\d*) mos ago", lit "$1 month ago");
    (rx "(?i)(\d+[.,]?\d*) wks ago", lit "$1 week ago");
    (rx "(?i)(\d+[.,]?\d*) yrs ago", lit "$1 year ago");
    (rx "(?i)in (\d+[.,]?\d*) mins", lit "in $1 minute");
    (rx "(?i)in (\d+[.,]?\d*) secs", lit "in $1 second");
    (rx "(?i)in (\d+[.,]?\d*) hrs", lit "in $1 hour");
    (rx "(?i)in (\d+[.,]?\d*) mos", lit "in $1 month");
    (rx "(?i)in (\d+[.,]?\d*) wks", lit "in $1 week");
    (rx "(?i)in (\d+[.,]?\d*) yrs", lit "in $1 year")];
    ld_rx := Some (rx "(?i)(\A|[^\pL\pM\d]|_)(\d+[.,]?\d* decades? ago|\d+[.,]?\d* minutes ago|\d+[.,]?\d* seconds ago|in \d+[.,]?\d* decades?|\d+[.,]?\d* minute ago|\d+[.,]?\d* months ago|\d+[.,]?\d* second ago|in \d+[.,]?\d* minutes|in \d+[.,]?\d* seconds|\d+[.,]?\d* hours ago|\d+[.,]?\d* month ago|\d+[.,]?\d* weeks ago|\d+[.,]?\d* years ago|in \d+[.,]?\d* minute|in \d+[.,]?\d* months|in \d+[.,]?\d* second|\d+[.,]?\d* days ago|\d+[.,]?\d* hour ago|\d+[.,]?\d* mins ago|\d+[.,]?\d* secs ago|\d+[.,]?\d* week ago|\d+[.,]?\d* year ago|in \d+[.,]?\d* hours|in \d+[.,]?\d* month|in \d+[.,]?\d* weeks|in \d+[.,]?\d* years|\d+[.,]?\d* day ago|\d+[.,]?\d* hrs ago|\d+[.,]?\d* min ago|\d+[.,]?\d* mos ago|\d+[.,]?\d* sec ago|\d+[.,]?\d* wks ago|\d+[.,]?\d* yrs ago|in \d+[.,]?\d* days|in \d+[.,]?\d* hour|in \d+[.,]?\d* mins|in \d+[.,]?\d* secs|in \d+[.,]?\d* week|in \d+[.,]?\d* year|\d+[.,]?\d* hr ago|\d+[.,]?\d* mo ago|\d+[.,]?\d* wk ago|\d+[.,]?\d* yr ago|in \d+[.,]?\d* day|in \d+[.,]?\d* hrs|in \d+[.,]?\d* min|in \d+[.,]?\d* mos|in \d+[.,]?\d* sec|in \d+[.,]?\d* wks|in \d+[.,]?\d* yrs|in \d+[.,]?\d* hr|in \d+[.,]?\d* mo|in \d+[.,]?\d* wk|in \d+[.,]?\d* yr)(\z|[^\pL\pM\d]|_)");
    ld_rx_exact := Some (rx "(?i)^(\d+[.,]?\d* decades? ago|\d+[.,]?\d* minutes ago|\d+[.,]?\d* seconds ago|in \d+[.,]?\d* decades?|\d+[.,]?\d* minute ago|\d+[.,]?\d* months ago|\d+[.,]?\d* second ago|in \d+[.,]?\d* minutes|in \d+[.,]?\d* seconds|\d+[.,]?\d* hours ago|\d+[.,]?\d* month ago|\d+[.,]?\d* weeks ago|\d+[.,]?\d* years ago|in \d+[.,]?\d* minute|in \d+[.,]?\d* months|in \d+[.,]?\d* second|\d+[.,]?\d* days ago|\d+[.,]?\d* hour ago|\d+[.,]?\d* mins ago|\d+[.,]?\d* secs ago|\d+[.,]?\d* week ago|\d+[.,]?\d* year ago|in \d+[.,]?\d* hours|in \d+[.,]?\d* month|in \d+[.,]?\d* weeks|in \d+[.,]?\d* years|\d+[.,]?\d* day ago|\d+[.,]?\d* hrs ago|\d+[.,]?\d* min ago|\d+[.,]?\d* mos ago|\d+[.,]?\d* sec ago|\d+[.,]?\d* wks ago|\d+[.,]?\d* yrs ago|in \d+[.,]?\d* days|in \d+[.,]?\d* hour|in \d+[.,]?\d* mins|in \d+[.,]?\d* secs|in \d+[.,]?\d* week|in \d+[.,]?\d* year|\d+[.,]?\d* hr ago|\d+[.,]?\d* mo ago|\d+[.,]?\d* wk ago|\d+[.,]?\d* yr ago|in \d+[.,]?\d* day|in \d+[.,]?\d* hrs|in \d+[.,]?\d* min|in \d+[.,]?\d* mos|in \d+[.,]?\d* sec|in \d+[.,]?\d* wks|in \d+[.,]?\d* yrs|in \d+[.,]?\d* hr|in \d+[.,]?\d* mo|in \d+[.,]?\d* wk|in \d+[.,]?\d* yr)$");
    ld_known := [] |}.
Definition loc_en_CA : locale := merge loc_en own_en_CA.

(** en.go:421-424 *)
Definition own_en_CC : locale := Eval vm_compute in
  {| ld_name := lit "en-CC"; ld_order := lit "DMY"; ld_nospacing := false; ld_splitter := 0;
    ld_charset := runes (lit "");
    ld_abbr := [];
    ld_simpl := [];
    ld_trans := [];
    ld_reltype := [];
    ld_relrx := [];
    ld_rx := None;
    ld_rx_exact := None;
    ld_known := [] |}.
Definition loc_en_CC : locale := merge loc_en own_en_CC.

(** en.go:426-429 *)
Definition own_en_CH : locale := Eval vm_compute in
  {| ld_name := lit "en-CH"; ld_order := lit "DMY"; ld_nospacing := false; ld_splitter := 0;
    ld_charset := runes (lit "");
    ld_abbr := [];
    ld_simpl := [];
    ld_trans := [];
    ld_reltype := [];
    ld_relrx := [];
    ld_rx := None;
    ld_rx_exact := None;
    ld_known := [] |}.
Definition loc_en_CH : locale := merge loc_en own_en_CH.

(** en.go:431-434 *)
Definition own_en_CK : locale := Eval vm_compute in
  {| ld_name := lit "en-CK"; ld_order := lit "DMY"; ld_nospacing := false; ld_splitter := 0;
    ld_charset := runes (lit "");
    ld_abbr := [];
    ld_simpl := [];
    ld_trans := [];
    ld_reltype := [];
    ld_relrx := [];
    ld_rx := None;
    ld_rx_exact := None;
    ld_known := [] |}.
Definition loc_en_CK : locale := merge loc_en own_en_CK.

(** en.go:436-439 *)
Definition own_en_CM : locale := Eval vm_compute in
  {| ld_name := lit "en-CM"; ld_order := lit "DMY"; ld_nospacing := false; ld_splitter := 0;
    ld_charset := runes (lit "");
    ld_abbr := [];
    ld_simpl := [];
    ld_trans := [];
    ld_reltype := [];
    ld_relrx := [];
    ld_rx := None;
    ld_rx_exact := None;
    ld_known := [] |}.
Definition loc_en_CM : locale := merge loc_en own_en_CM.

(** en.go:441-444 *)
Definition own_en_CX : locale := Eval vm_compute in
  {| ld_name := lit "en-CX"; ld_order := lit "DMY"; ld_nospacing := false; ld_splitter := 0;
    ld_charset := runes (lit "");
    ld_abbr := [];
    ld_simpl := [];
    ld_trans := [];
    ld_reltype := [];
    ld_relrx := [];
    ld_rx := None;
    ld_rx_exact := None;
    ld_known := [] |}.
Definition loc_en_CX : locale := merge loc_en own_en_CX.

(** en.go:446-449 *)
Definition own_en_CY : locale := Eval vm_compute in
  {| ld_name := lit "en-CY"; ld_order := lit "DMY"; ld_nospacing := false; ld_splitter := 0;
    ld_charset := runes (lit "");
    ld_abbr := [];
    ld_simpl := [];
    ld_trans := [];
    ld_reltype := [];
    ld_relrx := [];
    ld_rx := None;
    ld_rx_exact := None;
    ld_known := [] |}.
Definition loc_en_CY : locale := merge loc_en own_en_CY.

(** en.go:451-454 *)
Definition own_en_DE : locale := Eval vm_compute in
  {| ld_name := lit "en-DE"; ld_order := lit "DMY"; ld_nospacing := false; ld_splitter := 0;
    ld_charset := runes (lit "");
    ld_abbr := [];
    ld_simpl := [];
    ld_trans := [];
    ld_reltype := [];
    ld_relrx := [];
    ld_rx := None;
    ld_rx_exact := None;
    ld_known := [] |}.
Definition loc_en_DE : locale := merge loc_en own_en_DE.

(** en.go:456-459 *)
Definition own_en_DG : locale := Eval vm_compute in
  {| ld_name := lit "en-DG"; ld_order := lit "DMY"; ld_nospacing := false; ld_splitter := 0;
    ld_charset := runes (lit "");
    ld_abbr := [];
    ld_simpl := [];
    ld_trans := [];
    ld_reltype := [];
    ld_relrx := [];
    ld_rx := None;
    ld_rx_exact := None;
    ld_known := [] |}.
Definition loc_en_DG : locale := merge loc_en own_en_DG.

(** en.go:461-464 *)
Definition own_en_DK : locale := Eval vm_compute in
  {| ld_name := lit "en-DK"; ld_order := lit "DMY"; ld_nospacing := false; ld_splitter := 0;
    ld_charset := runes (lit "");
    ld_abbr := [];
    ld_simpl := [];
    ld_trans := [];
    ld_reltype := [];
    ld_relrx := [];
    ld_rx := None;
    ld_rx_exact := None;
    ld_known := [] |}.
Definition loc_en_DK : locale := merge loc_en own_en_DK.

(** en.go:466-469 *)
Definition own_en_DM : locale := Eval vm_compute in
  {| ld_name := lit "en-DM"; ld_order := lit "DMY"; ld_nospacing := false; ld_splitter := 0;
    ld_charset := runes (lit "");
    ld_abbr := [];
    ld_simpl := [];
    ld_trans := [];
    ld_reltype := [];
    ld_relrx := [];
    ld_rx := None;
    ld_rx_exact := None;
    ld_known := [] |}.
Definition loc_en_DM : locale := merge loc_en own_en_DM.

(** en.go:471-474 *)
Definition own_en_ER : locale := Eval vm_compute in
  {| ld_name := lit "en-ER"; ld_order := lit "DMY"; ld_nospacing := false; ld_splitter := 0;
    ld_charset := runes (lit "");
    ld_abbr := [];
    ld_simpl := [];
    ld_trans := [];
    ld_reltype := [];
    ld_relrx := [];
    ld_rx := None;
    ld_rx_exact := None;
    ld_known := [] |}.
Definition loc_en_ER : locale := merge loc_en own_en_ER.

(** en.go:476-479 *)
Definition own_en_FI : locale := Eval vm_compute in
  {| ld_name := lit "en-FI"; ld_order := lit "DMY"; ld_nospacing := false; ld_splitter := 0;
    ld_charset := runes (lit "");
    ld_abbr := [];
    ld_simpl := [];
    ld_trans := [];
    ld_reltype := [];
    ld_relrx := [];
    ld_rx := None;
    ld_rx_exact := None;
    ld_known := [] |}.
Definition loc_en_FI : locale := merge loc_en own_en_FI.

(** en.go:481-484 *)
Definition own_en_FJ : locale := Eval vm_compute in
  {| ld_name := lit "en-FJ"; ld_order := lit "DMY"; ld_nospacing := false; ld_splitter := 0;
    ld_charset := runes (lit "");
    ld_abbr := [];
    ld_simpl := [];
    ld_trans := [];
    ld_reltype := [];
    ld_relrx := [];
    ld_rx := None;
    ld_rx_exact := None;
    ld_known := [] |}.
Definition loc_en_FJ : locale := merge loc_en own_en_FJ.

(** en.go:486-489 *)
Definition own_en_FK : locale := Eval vm_compute in
  {| ld_name := lit "en-FK"; ld_order := lit "DMY"; ld_nospacing := false; ld_splitter := 0;
    ld_charset := runes (lit "");
    ld_abbr := [];
    ld_simpl := [];
    ld_trans := [];
    ld_reltype := [];
    ld_relrx := [];
    ld_rx := None;
    ld_rx_exact := None;
    ld_known := [] |}.
Definition loc_en_FK : locale := merge loc_en own_en_FK.

(** en.go:491-494 *)
Definition own_en_FM : locale := Eval vm_compute in
  {| ld_name := lit "en-FM"; ld_order := lit "DMY"; ld_nospacing := false; ld_splitter := 0;
    ld_charset := runes (lit "");
    ld_abbr := [];
    ld_simpl := [];
    ld_trans := [];
    ld_reltype := [];
    ld_relrx := [];
    ld_rx := None;
    ld_rx_exact := None;
    ld_known := [] |}.
Definition loc_en_FM : locale := merge loc_en own_en_FM.

(** en.go:501-504 *)
Definition own_en_GD : locale := Eval vm_compute in
  {| ld_name := lit "en-GD"; ld_order := lit "DMY"; ld_nospacing := false; ld_splitter := 0;
    ld_charset := runes (lit "");
    ld_abbr := [];
    ld_simpl := [];
    ld_trans := [];
    ld_reltype := [];
    ld_relrx := [];
    ld_rx := None;
    ld_rx_exact := None;
    ld_known := [] |}.
Definition loc_en_GD : locale := merge loc_en own_en_GD.

(** en.go:506-509 *)
Definition own_en_GG : locale := Eval vm_compute in
  {| ld_name := lit "en-GG"; ld_order := lit "DMY"; ld_nospacing := false; ld_splitter := 0;
    ld_charset := runes (lit "");
    ld_abbr := [];
    ld_simpl := [];
    ld_trans := [];
    ld_reltype := [];
    ld_relrx := [];
    ld_rx := None;
    ld_rx_exact := None;
    ld_known := [] |}.
Definition loc_en_GG : locale := merge loc_en own_en_GG.

(** en.go:511-514 *)
Definition own_en_GH : locale := Eval vm_compute in
  {| ld_name := lit "en-GH"; ld_order := lit "DMY"; ld_nospacing := false; ld_splitter := 0;
    ld_charset := runes (lit "");
    ld_abbr := [];
    ld_simpl := [];
    ld_trans := [];
    ld_reltype := [];
    ld_relrx := [];
    ld_rx := None;
    ld_rx_exact := None;
    ld_known := [] |}.
Definition loc_en_GH : locale := merge loc_en own_en_GH.

(** en.go:516-519 *)
Definition own_en_GI : locale := Eval vm_compute in
  {| ld_name := lit "en-GI"; ld_order := lit "DMY"; ld_nospacing := false; ld_splitter := 0;
    ld_charset := runes (lit "");
    ld_abbr := [];
    ld_simpl := [];
    ld_trans := [];
    ld_reltype := [];
    ld_relrx := [];
    ld_rx := None;
    ld_rx_exact := None;
    ld_known := [] |}.
Definition loc_en_GI : locale := merge loc_en own_en_GI.

(** en.go:521-524 *)
Definition own_en_GM : locale := Eval vm_compute in
  {| ld_name := lit "en-GM"; ld_order := lit "DMY"; ld_nospacing := false; ld_splitter := 0;
    ld_charset := runes (lit "");
    ld_abbr := [];
    ld_simpl := [];
    ld_trans := [];
    ld_reltype := [];
    ld_relrx := [];
    ld_rx := None;
    ld_rx_exact := None;
    ld_known := [] |}.
Definition loc_en_GM : locale := merge loc_en own_en_GM.

(** en.go:526-529 *)
Definition own_en_GU : locale := Eval vm_compute in
  {| ld_name := lit "en-GU"; ld_order := lit "MDY"; ld_nospacing := false; ld_splitter := 0;
    ld_charset := runes (lit "");
    ld_abbr := [];
    ld_simpl := [];
    ld_trans := [];
    ld_reltype := [];
    ld_relrx := [];
    ld_rx := None;
    ld_rx_exact := None;
    ld_known := [] |}.
Definition loc_en_GU : locale := merge loc_en own_en_GU.

(** en.go:531-534 *)
Definition own_en_GY : locale := Eval vm_compute in
  {| ld_name := lit "en-GY"; ld_order := lit "DMY"; ld_nospacing := false; ld_splitter := 0;
    ld_charset := runes (lit "");
    ld_abbr := [];
    ld_simpl := [];
    ld_trans := [];
    ld_reltype := [];
    ld_relrx := [];
    ld_rx := None;
    ld_rx_exact := None;
    ld_known := [] |}.
Definition loc_en_GY : locale := merge loc_en own_en_GY.

(** en.go:536-539 *)
Definition own_en_HK : locale := Eval vm_compute in
  {| ld_name := lit "en-HK"; ld_order := lit "DMY"; ld_nospacing := false; ld_splitter := 0;
    ld_charset := runes (lit "");
    ld_abbr := [];
    ld_simpl := [];
    ld_trans := [];
    ld_reltype := [];
    ld_relrx := [];
    ld_rx := None;
    ld_rx_exact := None;
    ld_known := [] |}.
Definition loc_en_HK : locale := merge loc_en own_en_HK.

(** en.go:541-544 *)
Definition own_en_IE : locale := Eval vm_compute in
  {| ld_name := lit "en-IE"; ld_order := lit "DMY"; ld_nospacing := false; ld_splitter := 0;
    ld_charset := runes (lit "");
    ld_abbr := [];
    ld_simpl := [];
    ld_trans := [];
    ld_reltype := [];
    ld_relrx := [];
    ld_rx := None;
    ld_rx_exact := None;
    ld_known := [] |}.
Definition loc_en_IE : locale := merge loc_en own_en_IE.

(** en.go:546-549 *)
Definition own_en_IL : locale := Eval vm_compute in
  {| ld_name := lit "en-IL"; ld_order := lit "DMY"; ld_nospacing := false; ld_splitter := 0;
    ld_charset := runes (lit "");
    ld_abbr := [];
    ld_simpl := [];
    ld_trans := [];
    ld_reltype := [];
    ld_relrx := [];
    ld_rx := None;
    ld_rx_exact := None;
    ld_known := [] |}.
Definition loc_en_IL : locale := merge loc_en own_en_IL.

(** en.go:551-554 *)
Definition own_en_IM : locale := Eval vm_compute in
  {| ld_name := lit "en-IM"; ld_order := lit "DMY"; ld_nospacing := false; ld_splitter := 0;
    ld_charset := runes (lit "");
    ld_abbr := [];
    ld_simpl := [];
    ld_trans := [];
    ld_reltype := [];
    ld_relrx := [];
    ld_rx := None;
    ld_rx_exact := None;
    ld_known := [] |}.
Definition loc_en_IM : locale := merge loc_en own_en_IM.

(** en.go:556-559 *)
Definition own_en_IN : locale := Eval vm_compute in
  {| ld_name := lit "en-IN"; ld_order := lit "DMY"; ld_nospacing := false; ld_splitter := 0;
    ld_charset := runes (lit "");
    ld_abbr := [];
    ld_simpl := [];
    ld_trans := [];
    ld_reltype := [];
    ld_relrx := [];
    ld_rx := None;
    ld_rx_exact := None;
    ld_known := [] |}.
Definition loc_en_IN : locale := merge loc_en own_en_IN.

(** en.go:561-564 *)
Definition own_en_IO : locale := Eval vm_compute in
  {| ld_name := lit "en-IO"; ld_order := lit "DMY"; ld_nospacing := false; ld_splitter := 0;
    ld_charset := runes (lit "");
    ld_abbr := [];
    ld_simpl := [];
    ld_trans := [];
    ld_reltype := [];
    ld_relrx := [];
    ld_rx := None;
    ld_rx_exact := None;
    ld_known := [] |}.
Definition loc_en_IO : locale := merge loc_en own_en_IO.

(** en.go:566-569 *)
Definition own_en_JE : locale := Eval vm_compute in
  {| ld_name := lit "en-JE"; ld_order := lit "DMY"; ld_nospacing := false; ld_splitter := 0;
    ld_charset := runes (lit "");
    ld_abbr := [];
    ld_simpl := [];
    ld_trans := [];
    ld_reltype := [];
    ld_relrx := [];
    ld_rx := None;
    ld_rx_exact := None;
    ld_known := [] |}.
Definition loc_en_JE : locale := merge loc_en own_en_JE.

(** en.go:571-574 *)
Definition own_en_JM : locale := Eval vm_compute in
  {| ld_name := lit "en-JM"; ld_order := lit "DMY"; ld_nospacing := false; ld_splitter := 0;
    ld_charset := runes (lit "");
    ld_abbr := [];
    ld_simpl := [];
    ld_trans := [];
    ld_reltype := [];
    ld_relrx := [];
    ld_rx := None;
    ld_rx_exact := None;
    ld_known := [] |}.
Definition loc_en_JM : locale := merge loc_en own_en_JM.

(** en.go:576-579 *)
Definition own_en_KE : locale := Eval vm_compute in
  {| ld_name := lit "en-KE"; ld_order := lit "DMY"; ld_nospacing := false; ld_splitter := 0;
    ld_charset := runes (lit "");
    ld_abbr := [];
    ld_simpl := [];
    ld_trans := [];
    ld_reltype := [];
    ld_relrx := [];
    ld_rx := None;
    ld_rx_exact := None;
    ld_known := [] |}.
Definition loc_en_KE : locale := merge loc_en own_en_KE.

(** en.go:581-584 *)
Definition own_en_KI : locale := Eval vm_compute in
  {| ld_name := lit "en-KI"; ld_order := lit "DMY"; ld_nospacing := false; ld_splitter := 0;
    ld_charset := runes (lit "");
    ld_abbr := [];
    ld_simpl := [];
    ld_trans := [];
    ld_reltype := [];
    ld_relrx := [];
    ld_rx := None;
    ld_rx_exact := None;
    ld_known := [] |}.
Definition loc_en_KI : locale := merge loc_en own_en_KI.

(** en.go:586-589 *)
Definition own_en_KN : locale := Eval vm_compute in
  {| ld_name := lit "en-KN"; ld_order := lit "DMY"; ld_nospacing := false; ld_splitter := 0;
    ld_charset := runes (lit "");
    ld_abbr := [];
    ld_simpl := [];
    ld_trans := [];
    ld_reltype := [];
    ld_relrx := [];
    ld_rx := None;
    ld_rx_exact := None;
    ld_known := [] |}.
Definition loc_en_KN : locale := merge loc_en own_en_KN.

(** en.go:591-594 *)
Definition own_en_KY : locale := Eval vm_compute in
  {| ld_name := lit "en-KY"; ld_order := lit "DMY"; ld_nospacing := false; ld_splitter := 0;
    ld_charset := runes (lit "");
    ld_abbr := [];
    ld_simpl := [];
    ld_trans := [];
    ld_reltype := [];
    ld_relrx := [];
    ld_rx := None;
    ld_rx_exact := None;
    ld_known := [] |}.
Definition loc_en_KY : locale := merge loc_en own_en_KY.

(** en.go:596-599 *)
Definition own_en_LC : locale := Eval vm_compute in
  {| ld_name := lit "en-LC"; ld_order := lit "DMY"; ld_nospacing := false; ld_splitter := 0;
    ld_charset := runes (lit "");
    ld_abbr := [];
    ld_simpl := [];
    ld_trans := [];
    ld_reltype := [];
    ld_relrx := [];
    ld_rx := None;
    ld_rx_exact := None;
    ld_known := [] |}.
Definition loc_en_LC : locale := merge loc_en own_en_LC.

(** en.go:601-604 *)
Definition own_en_LR : locale := Eval vm_compute in
  {| ld_name := lit "en-LR"; ld_order := lit "DMY"; ld_nospacing := false; ld_splitter := 0;
    ld_charset := runes (lit "");
    ld_abbr := [];
    ld_simpl := [];
    ld_trans := [];
    ld_reltype := [];
    ld_relrx := [];
    ld_rx := None;
    ld_rx_exact := None;
    ld_known := [] |}.
Definition loc_en_LR : locale := merge loc_en own_en_LR.

(** en.go:606-609 *)
Definition own_en_LS : locale := Eval vm_compute in
  {| ld_name := lit "en-LS"; ld_order := lit "DMY"; ld_nospacing := false; ld_splitter := 0;
    ld_charset := runes (lit "");
    ld_abbr := [];
    ld_simpl := [];
    ld_trans := [];
    ld_reltype := [];
    ld_relrx := [];
    ld_rx := None;
    ld_rx_exact := None;
    ld_known := [] |}.
Definition loc_en_LS : locale := merge loc_en own_en_LS.

(** en.go:611-614 *)
Definition own_en_MG : locale := Eval vm_compute in
  {| ld_name := lit "en-MG"; ld_order := lit "DMY"; ld_nospacing := false; ld_splitter := 0;
    ld_charset := runes (lit "");
    ld_abbr := [];
    ld_simpl := [];
    ld_trans := [];
    ld_reltype := [];
    ld_relrx := [];
    ld_rx := None;
    ld_rx_exact := None;
    ld_known := [] |}.
Definition loc_en_MG : locale := merge loc_en own_en_MG.

(** en.go:616-619 *)
Definition own_en_MH : locale := Eval vm_compute in
  {| ld_name := lit "en-MH"; ld_order := lit "MDY"; ld_nospacing := false; ld_splitter := 0;
    ld_charset := runes (lit "");
    ld_abbr := [];
    ld_simpl := [];
    ld_trans := [];
    ld_reltype := [];
    ld_relrx := [];
    ld_rx := None;
    ld_rx_exact := None;
    ld_known := [] |}.
Definition loc_en_MH : locale := merge loc_en own_en_MH.

(** en.go:621-624 *)
Definition own_en_MO : locale := Eval vm_compute in
  {| ld_name := lit "en-MO"; ld_order := lit "DMY"; ld_nospacing := false; ld_splitter := 0;
    ld_charset := runes (lit "");
    ld_abbr := [];
    ld_simpl := [];
    ld_trans := [];
    ld_reltype := [];
    ld_relrx := [];
    ld_rx := None;
    ld_rx_exact := None;
    ld_known := [] |}.
Definition loc_en_MO : locale := merge loc_en own_en_MO.

(** en.go:626-629 *)
Definition own_en_MP : locale := Eval vm_compute in
  {| ld_name := lit "en-MP"; ld_order := lit "MDY"; ld_nospacing := false; ld_splitter := 0;
    ld_charset := runes (lit "");
    ld_abbr := [];
    ld_simpl := [];
    ld_trans := [];
    ld_reltype := [];
    ld_relrx := [];
    ld_rx := None;
    ld_rx_exact := None;
    ld_known := [] |}.
Definition loc_en_MP : locale := merge loc_en own_en_MP.

(** en.go:631-634 *)
Definition own_en_MS : locale := Eval vm_compute in
  {| ld_name := lit "en-MS"; ld_order := lit "DMY"; ld_nospacing := false; ld_splitter := 0;
    ld_charset := runes (lit "");
    ld_abbr := [];
    ld_simpl := [];
    ld_trans := [];
    ld_reltype := [];
    ld_relrx := [];
    ld_rx := None;
    ld_rx_exact := None;
    ld_known := [] |}.
Definition loc_en_MS : locale := merge loc_en own_en_MS.

(** en.go:636-639 *)
Definition own_en_MT : locale := Eval vm_compute in
  {| ld_name := lit "en-MT"; ld_order := lit "DMY"; ld_nospacing := false; ld_splitter := 0;
    ld_charset := runes (lit "");
    ld_abbr := [];
    ld_simpl := [];
    ld_trans := [];
    ld_reltype := [];
    ld_relrx := [];
    ld_rx := None;
    ld_rx_exact := None;
    ld_known := [] |}.
Definition loc_en_MT : locale := merge loc_en own_en_MT.

(** en.go:641-644 *)
Definition own_en_MU : locale := Eval vm_compute in
  {| ld_name := lit "en-MU"; ld_order := lit "DMY"; ld_nospacing := false; ld_splitter := 0;
    ld_charset := runes (lit "");
    ld_abbr := [];
    ld_simpl := [];
    ld_trans := [];
    ld_reltype := [];
    ld_relrx := [];
    ld_rx := None;
    ld_rx_exact := None;
    ld_known := [] |}.
Definition loc_en_MU : locale := merge loc_en own_en_MU.

(** en.go:646-649 *)
Definition own_en_MW : locale := Eval vm_compute in
  {| ld_name := lit "en-MW"; ld_order := lit "DMY"; ld_nospacing := false; ld_splitter := 0;
    ld_charset := runes (lit "");
    ld_abbr := [];
    ld_simpl := [];
    ld_trans := [];
    ld_reltype := [];
    ld_relrx := [];
    ld_rx := None;
    ld_rx_exact := None;
    ld_known := [] |}.
Definition loc_en_MW : locale := merge loc_en own_en_MW.

(** en.go:651-654 *)
Definition own_en_MY : locale := Eval vm_compute in
  {| ld_name := lit "en-MY"; ld_order := lit "DMY"; ld_nospacing := false; ld_splitter := 0;
    ld_charset := runes (lit "");
    ld_abbr := [];
    ld_simpl := [];
    ld_trans := [];
    ld_reltype := [];
    ld_relrx := [];
    ld_rx := None;
    ld_rx_exact := None;
    ld_known := [] |}.
Definition loc_en_MY : locale := merge loc_en own_en_MY.

(** en.go:656-659 *)
Definition own_en_NA : locale := Eval vm_compute in
  {| ld_name := lit "en-NA"; ld_order := lit "DMY"; ld_nospacing := false; ld_splitter := 0;
    ld_charset := runes (lit "");
    ld_abbr := [];
    ld_simpl := [];
    ld_trans := [];
    ld_reltype := [];
    ld_relrx := [];
    ld_rx := None;
    ld_rx_exact := None;
    ld_known := [] |}.
Definition loc_en_NA : locale := merge loc_en own_en_NA.

(** en.go:661-664 *)
Definition own_en_NF : locale := Eval vm_compute in
  {| ld_name := lit "en-NF"; ld_order := lit "DMY"; ld_nospacing := false; ld_splitter := 0;
    ld_charset := runes (lit "");
    ld_abbr := [];
    ld_simpl := [];
    ld_trans := [];
    ld_reltype := [];
    ld_relrx := [];
    ld_rx := None;
    ld_rx_exact := None;
    ld_known := [] |}.
Definition loc_en_NF : locale := merge loc_en own_en_NF.

(** en.go:666-669 *)
Definition own_en_NG : locale := Eval vm_compute in
  {| ld_name := lit "en-NG"; ld_order := lit "DMY"; ld_nospacing := false; ld_splitter := 0;
    ld_charset := runes (lit "");
    ld_abbr := [];
    ld_simpl := [];
    ld_trans := [];
    ld_reltype := [];
    ld_relrx := [];
    ld_rx := None;
    ld_rx_exact := None;
    ld_known := [] |}.
Definition loc_en_NG : locale := merge loc_en own_en_NG.

(** en.go:671-674 *)
Definition own_en_NL : locale := Eval vm_compute in
  {| ld_name := lit "en-NL"; ld_order := lit "DMY"; ld_nospacing := false; ld_splitter := 0;
    ld_charset := runes (lit "");
    ld_abbr := [];
    ld_simpl := [];
    ld_trans := [];
    ld_reltype := [];
    ld_relrx := [];
    ld_rx := None;
    ld_rx_exact := None;
    ld_known := [] |}.
Definition loc_en_NL : locale := merge loc_en own_en_NL.

(** en.go:676-679 *)
Definition own_en_NR : locale := Eval vm_compute in
  {| ld_name := lit "en-NR"; ld_order := lit "DMY"; ld_nospacing := false; ld_splitter := 0;
    ld_charset := runes (lit "");
    ld_abbr := [];
    ld_simpl := [];
    ld_trans := [];
    ld_reltype := [];
    ld_relrx := [];
    ld_rx := None;
    ld_rx_exact := None;
    ld_known := [] |}.
Definition loc_en_NR : locale := merge loc_en own_en_NR.

(** en.go:681-684 *)
Definition own_en_NU : locale := Eval vm_compute in
  {| ld_name := lit "en-NU"; ld_order := lit "DMY"; ld_nospacing := false; ld_splitter := 0;
    ld_charset := runes (lit "");
    ld_abbr := [];
    ld_simpl := [];
    ld_trans := [];
    ld_reltype := [];
    ld_relrx := [];
    ld_rx := None;
    ld_rx_exact := None;
    ld_known := [] |}.
Definition loc_en_NU : locale := merge loc_en own_en_NU.

(** en.go:686-689 *)
Definition own_en_NZ : locale := Eval vm_compute in
  {| ld_name := lit "en-NZ"; ld_order := lit "DMY"; ld_nospacing := false; ld_splitter := 0;
    ld_charset := runes (lit "");
    ld_abbr := [];
    ld_simpl := [];
    ld_trans := [];
    ld_reltype := [];
    ld_relrx := [];
    ld_rx := None;
    ld_rx_exact := None;
    ld_known := [] |}.
Definition loc_en_NZ : locale := merge loc_en own_en_NZ.

(** en.go:691-694 *)
Definition own_en_PG : locale := Eval vm_compute in
  {| ld_name := lit "en-PG"; ld_order := lit "DMY"; ld_nospacing := false; ld_splitter := 0;
    ld_charset := runes (lit "");
    ld_abbr := [];
    ld_simpl := [];
    ld_trans := [];
    ld_reltype := [];
    ld_relrx := [];
    ld_rx := None;
    ld_rx_exact := None;
    ld_known := [] |}.
Definition loc_en_PG : locale := merge loc_en own_en_PG.

(** en.go:696-699 *)
Definition own_en_PH : locale := Eval vm_compute in
  {| ld_name := lit "en-PH"; ld_order := lit "DMY"; ld_nospacing := false; ld_splitter := 0;
    ld_charset := runes (lit "");
    ld_abbr := [];
    ld_simpl := [];
    ld_trans := [];
    ld_reltype := [];
    ld_relrx := [];
    ld_rx := None;
    ld_rx_exact := None;
    ld_known := [] |}.
Definition loc_en_PH : locale := merge loc_en own_en_PH.

(** en.go:701-704 *)
Definition own_en_PK : locale := Eval vm_compute in
  {| ld_name := lit "en-PK"; ld_order := lit "DMY"; ld_nospacing := false; ld_splitter := 0;
    ld_charset := runes (lit "");
    ld_abbr := [];
    ld_simpl := [];
    ld_trans := [];
    ld_reltype := [];
    ld_relrx := [];
    ld_rx := None;
    ld_rx_exact := None;
    ld_known := [] |}.
Definition loc_en_PK : locale := merge loc_en own_en_PK.

(** en.go:706-709 *)
Definition own_en_PN : locale := Eval vm_compute in
  {| ld_name := lit "en-PN"; ld_order := lit "DMY"; ld_nospacing := false; ld_splitter := 0;
    ld_charset := runes (lit "");
    ld_abbr := [];
    ld_simpl := [];
    ld_trans := [];
    ld_reltype := [];
    ld_relrx := [];
    ld_rx := None;
    ld_rx_exact := None;
    ld_known := [] |}.
Definition loc_en_PN : locale := merge loc_en own_en_PN.

(** en.go:711-714 *)
Definition own_en_PR : locale := Eval vm_compute in
  {| ld_name := lit "en-PR"; ld_order := lit "MDY"; ld_nospacing := false; ld_splitter := 0;
    ld_charset := runes (lit "");
    ld_abbr := [];
    ld_simpl := [];
    ld_trans := [];
    ld_reltype := [];
    ld_relrx := [];
    ld_rx := None;
    ld_rx_exact := None;
    ld_known := [] |}.
Definition loc_en_PR : locale := merge loc_en own_en_PR.

(** en.go:716-719 *)
Definition own_en_PW : locale := Eval vm_compute in
  {| ld_name := lit "en-PW"; ld_order := lit "DMY"; ld_nospacing := false; ld_splitter := 0;
    ld_charset := runes (lit "");
    ld_abbr := [];
    ld_simpl := [];
    ld_trans := [];
    ld_reltype := [];
    ld_relrx := [];
    ld_rx := None;
    ld_rx_exact := None;
    ld_known := [] |}.
Definition loc_en_PW : locale := merge loc_en own_en_PW.

(** en.go:721-724 *)
Definition own_en_RW : locale := Eval vm_compute in
  {| ld_name := lit "en-RW"; ld_order := lit "DMY"; ld_nospacing := false; ld_splitter := 0;
    ld_charset := runes (lit "");
    ld_abbr := [];
    ld_simpl := [];
    ld_trans := [];
    ld_reltype := [];
    ld_relrx := [];
    ld_rx := None;
    ld_rx_exact := None;
    ld_known := [] |}.
Definition loc_en_RW : locale := merge loc_en own_en_RW.

(** en.go:726-729 *)
Definition own_en_SB : locale := Eval vm_compute in
  {| ld_name := lit "en-SB"; ld_order := lit "DMY"; ld_nospacing := false; ld_splitter := 0;
    ld_charset := runes (lit "");
    ld_abbr := [];
    ld_simpl := [];
    ld_trans := [];
    ld_reltype := [];
    ld_relrx := [];
    ld_rx := None;
    ld_rx_exact := None;
    ld_known := [] |}.
Definition loc_en_SB : locale := merge loc_en own_en_SB.

(** en.go:731-734 *)
Definition own_en_SC : locale := Eval vm_compute in
  {| ld_name := lit "en-SC"; ld_order := lit "DMY"; ld_nospacing := false; ld_splitter := 0;
    ld_charset := runes (lit "");
    ld_abbr := [];
    ld_simpl := [];
    ld_trans := [];
    ld_reltype := [];
    ld_relrx := [];
    ld_rx := None;
    ld_rx_exact := None;
    ld_known := [] |}.
Definition loc_en_SC : locale := merge loc_en own_en_SC.

(** en.go:736-739 *)
Definition own_en_SD : locale := Eval vm_compute in
  {| ld_name := lit "en-SD"; ld_order := lit "DMY"; ld_nospacing := false; ld_splitter := 0;
    ld_charset := runes (lit "");
    ld_abbr := [];
    ld_simpl := [];
    ld_trans := [];
    ld_reltype := [];
    ld_relrx := [];
    ld_rx := None;
    ld_rx_exact := None;
    ld_known := [] |}.
Definition loc_en_SD : locale := merge loc_en own_en_SD.

(** en.go:741-744 *)
Definition own_en_SE : locale := Eval vm_compute in
  {| ld_name := lit "en-SE"; ld_order := lit "YMD"; ld_nospacing := false; ld_splitter := 0;
    ld_charset := runes (lit "");
    ld_abbr := [];
    ld_simpl := [];
    ld_trans := [];
    ld_reltype := [];
    ld_relrx := [];
    ld_rx := None;
    ld_rx_exact := None;
    ld_known := [] |}.
Definition loc_en_SE : locale := merge loc_en own_en_SE.

(** en.go:746-764 *)
Definition own_en_SG : locale := Eval vm_compute in
  {| ld_name := lit "en-SG"; ld_order := lit "DMY"; ld_nospacing := false; ld_splitter := 0;
    ld_charset := runes (lit "");
    ld_abbr := [];
    ld_simpl := [];
    ld_trans := [(lit "mth", [lit "month"])];
    ld_reltype := [(lit "last mth", lit "1 month ago");
    (lit "next mth", lit "in 1 month");
    (lit "this mth", lit "0 month ago")];
    ld_relrx := [(rx "(?i)(\d+[.,]?\d*) mth ago", lit "$1 month ago");
    (rx "(?i)in (\d+[.,]?\d*) mth", lit "in $1 month")];
    ld_rx := Some (rx "(?i)(\A|[^\pL\pM\d]|_)(\d+[.,]?\d* decades? ago|\d+[.,]?\d* minutes ago|\d+[.,]?\d* seconds ago|in \d+[.,]?\d* decades?|\d+[.,]?\d* minute ago|\d+[.,]?\d* months ago|\d+[.,]?\d* second ago|in \d+[.,]?\d* minutes|in \d+[.,]?\d* seconds|\d+[.,]?\d* hours ago|\d+[.,]?\d* month ago|\d+[.,]?\d* weeks ago|\d+[.,]?\d* years ago|in \d+[.,]?\d* minute|in \d+[.,]?\d* months|in \d+[.,]?\d* second|\d+[.,]?\d* days ago|\d+[.,]?\d* hour ago|\d+[.,]?\d* week ago|\d+[.,]?\d* year ago|in \d+[.,]?\d* hours|in \d+[.,]?\d* month|in \d+[.,]?\d* weeks|in \d+[.,]?\d* years|\d+[.,]?\d* day ago|\d+[.,]?\d* min ago|\d+[.,]?\d* mth ago|\d+[.,]?\d* sec ago|in \d+[.,]?\d* days|in \d+[.,]?\d* hour|in \d+[.,]?\d* week|in \d+[.,]?\d* year|\d+[.,]?\d* hr ago|\d+[.,]?\d* mo ago|\d+[.,]?\d* wk ago|\d+[.,]?\d* yr ago|in \d+[.,]?\d* day|in \d+[.,]?\d* min|in \d+[.,]?\d* mth|in \d+[.,]?\d* sec|in \d+[.,]?\d* hr|in \d+[.,]?\d* mo|in \d+[.,]?\d* wk|in \d+[.,]?\d* yr)(\z|[^\pL\pM\d]|_)");
    ld_rx_exact := Some (rx "(?i)^(\d+[.,]?\d* decades? ago|\d+[.,]?\d* minutes ago|\d+[.,]?\d* seconds ago|in \d+[.,]?\d* decades?|\d+[.,]?\d* minute ago|\d+[.,]?\d* months ago|\d+[.,]?\d* second ago|in \d+[.,]?\d* minutes|in \d+[.,]?\d* seconds|\d+[.,]?\d* hours ago|\d+[.,]?\d* month ago|\d+[.,]?\d* weeks ago|\d+[.,]?\d* years ago|in \d+[.,]?\d* minute|in \d+[.,]?\d* months|in \d+[.,]?\d* second|\d+[.,]?\d* days ago|\d+[.,]?\d* hour ago|\d+[.,]?\d* week ago|\d+[.,]?\d* year ago|in \d+[.,]?\d* hours|in \d+[.,]?\d* month|in \d+[.,]?\d* weeks|in \d+[.,]?\d* years|\d+[.,]?\d* day ago|\d+[.,]?\d* min ago|\d+[.,]?\d* mth ago|\d+[.,]?\d* sec ago|in \d+[.,]?\d* days|in \d+[.,]?\d* hour|in \d+[.,]?\d* week|in \d+[.,]?\d* year|\d+[.,]?\d* hr ago|\d+[.,]?\d* mo ago|\d+[.,]?\d* wk ago|\d+[.,]?\d* yr ago|in \d+[.,]?\d* day|in \d+[.,]?\d* min|in \d+[.,]?\d* mth|in \d+[.,]?\d* sec|in \d+[.,]?\d* hr|in \d+[.,]?\d* mo|in \d+[.,]?\d* wk|in \d+[.,]?\d* yr)$");
    ld_known := [lit "day before yesterday";
    lit "day after tomorrow";
    lit "last decade";
    lit "next decade";
    lit "this decade";
    lit "this minute";
    lit "last month";
    lit "next month";
    lit "this month";
    lit "last week";
    lit "last year";
    lit "next week";
    lit "next year";
    lit "september";
    lit "this hour";
    lit "this week";
    lit "this year";
    lit "till date";
    lit "wednesday";
    lit "yesterday";
    lit "december";
    lit "february";
    lit "from now";
    lit "last mth";
    lit "next mth";
    lit "november";
    lit "saturday";
    lit "this mth";
    lit "thursday";
    lit "tomorrow";
    lit "decades";
    lit "january";
    lit "last mo";
    lit "last wk";
    lit "last yr";
    lit "minutes";
    lit "next mo";
    lit "next wk";
    lit "next yr";
    lit "october";
    lit "seconds";
    lit "this mo";
    lit "this wk";
    lit "this yr";
    lit "tuesday";
    lit "august";
    lit "before";
    lit "decade";
    lit "friday";
    lit "minute";
    lit "monday";
    lit "months";
    lit "second";
    lit "sunday";
    lit "about";
    lit "after";
    lit "april";
    lit "hours";
    lit "march";
    lit "month";
    lit "today";
    lit "weeks";
    lit "years";
    lit "days";
    lit "hour";
    lit "july";
    lit "june";
    lit "just";
    lit "mins";
    lit "secs";
    lit "sept";
    lit "tues";
    lit "week";
    lit "year";
    lit "ago";
    lit "and";
    lit "apr";
    lit "aug";
    lit "day";
    lit "dec";
    lit "feb";
    lit "fri";
    lit "gmt";
    lit "hrs";
    lit "jan";
    lit "jul";
    lit "jun";
    lit "mar";
    lit "may";
    lit "min";
    lit "mon";
    lit "mth";
    lit "nov";
    lit "now";
    lit "oct";
    lit "sat";
    lit "sec";
    lit "sep";
    lit "sun";
    lit "the";
    lit "thu";
    lit "tue";
    lit "utc";
    lit "wed";
    lit "ad";
    lit "am";
    lit "at";
    lit "by";
    lit "hr";
    lit "in";
    lit "mo";
    lit "nd";
    lit "of";
    lit "on";
    lit "pm";
    lit "rd";
    lit "st";
    lit "th";
    lit "wk";
    lit "yr";
    lit " ";
    lit "'";
    lit "+";
    lit ",";
    lit "-";
    lit ".";
    lit "/";
    lit ":";
    lit ";";
    lit "@";
    lit "[";
    lit "]";
    lit "d";
    lit "h";
    lit "m";
    lit "s";
    lit "y";
    lit "z";
    lit "|"] |}.
Definition loc_en_SG : locale := merge loc_en own_en_SG.

(** en.go:766-769 *)
Definition own_en_SH : locale := Eval vm_compute in
  {| ld_name := lit "en-SH"; ld_order := lit "DMY"; ld_nospacing := false; ld_splitter := 0;
    ld_charset := runes (lit "");
    ld_abbr := [];
    ld_simpl := [];
    ld_trans := [];
    ld_reltype := [];
    ld_relrx := [];
    ld_rx := None;
    ld_rx_exact := None;
    ld_known := [] |}.
Definition loc_en_SH : locale := merge loc_en own_en_SH.

(** en.go:771-774 *)
Definition own_en_SI : locale := Eval vm_compute in
  {| ld_name := lit "en-SI"; ld_order := lit "DMY"; ld_nospacing := false; ld_splitter := 0;
    ld_charset := runes (lit "");
    ld_abbr := [];
    ld_simpl := [];
    ld_trans := [];
    ld_reltype := [];
    ld_relrx := [];
    ld_rx := None;
    ld_rx_exact := None;
    ld_known := [] |}.
Definition loc_en_SI : locale := merge loc_en own_en_SI.

(** en.go:776-779 *)
Definition own_en_SL : locale := Eval vm_compute in
  {| ld_name := lit "en-SL"; ld_order := lit "DMY"; ld_nospacing := false; ld_splitter := 0;
    ld_charset := runes (lit "");
    ld_abbr := [];
    ld_simpl := [];
    ld_trans := [];
    ld_reltype := [];
    ld_relrx := [];
    ld_rx := None;
    ld_rx_exact := None;
    ld_known := [] |}.
Definition loc_en_SL : locale := merge loc_en own_en_SL.

(** en.go:781-784 *)
Definition own_en_SS : locale := Eval vm_compute in
  {| ld_name := lit "en-SS"; ld_order := lit "DMY"; ld_nospacing := false; ld_splitter := 0;
    ld_charset := runes (lit "");
    ld_abbr := [];
    ld_simpl := [];
    ld_trans := [];
    ld_reltype := [];
    ld_relrx := [];
    ld_rx := None;
    ld_rx_exact := None;
    ld_known := [] |}.
Definition loc_en_SS : locale := merge loc_en own_en_SS.

(** en.go:786-789 *)
Definition own_en_SX : locale := Eval vm_compute in
  {| ld_name := lit "en-SX"; ld_order := lit "DMY"; ld_nospacing := false; ld_splitter := 0;
    ld_charset := runes (lit "");
    ld_abbr := [];
    ld_simpl := [];
    ld_trans := [];
    ld_reltype := [];
    ld_relrx := [];
    ld_rx := None;
    ld_rx_exact := None;
    ld_known := [] |}.
Definition loc_en_SX : locale := merge loc_en own_en_SX.

(** en.go:791-794 *)
Definition own_en_SZ : locale := Eval vm_compute in
  {| ld_name := lit "en-SZ"; ld_order := lit "DMY"; ld_nospacing := false; ld_splitter := 0;
    ld_charset := runes (lit "");
    ld_abbr := [];
    ld_simpl := [];
    ld_trans := [];
    ld_reltype := [];
    ld_relrx := [];
    ld_rx := None;
    ld_rx_exact := None;
    ld_known := [] |}.
Definition loc_en_SZ : locale := merge loc_en own_en_SZ.

(** en.go:796-799 *)
Definition own_en_TC : locale := Eval vm_compute in
  {| ld_name := lit "en-TC"; ld_order := lit "DMY"; ld_nospacing := false; ld_splitter := 0;
    ld_charset := runes (lit "");
    ld_abbr := [];
    ld_simpl := [];
    ld_trans := [];
    ld_reltype := [];
    ld_relrx := [];
    ld_rx := None;
    ld_rx_exact := None;
    ld_known := [] |}.
Definition loc_en_TC : locale := merge loc_en own_en_TC.

(** en.go:801-804 *)
Definition own_en_TK : locale := Eval vm_compute in
  {| ld_name := lit "en-TK"; ld_order := lit "DMY"; ld_nospacing := false; ld_splitter := 0;
    ld_charset := runes (lit "");
    ld_abbr := [];
    ld_simpl := [];
    ld_trans := [];
    ld_reltype := [];
    ld_relrx := [];
    ld_rx := None;
    ld_rx_exact := None;
    ld_known := [] |}.
Definition loc_en_TK : locale := merge loc_en own_en_TK.

(** en.go:806-809 *)
Definition own_en_TO : locale := Eval vm_compute in
  {| ld_name := lit "en-TO"; ld_order := lit "DMY"; ld_nospacing := false; ld_splitter := 0;
    ld_charset := runes (lit "");
    ld_abbr := [];
    ld_simpl := [];
    ld_trans := [];
    ld_reltype := [];
    ld_relrx := [];
    ld_rx := None;
    ld_rx_exact := None;
    ld_known := [] |}.
Definition loc_en_TO : locale := merge loc_en own_en_TO.

(** en.go:811-814 *)
Definition own_en_TT : locale := Eval vm_compute in
  {| ld_name := lit "en-TT"; ld_order := lit "DMY"; ld_nospacing := false; ld_splitter := 0;
    ld_charset := runes (lit "");
    ld_abbr := [];
    ld_simpl := [];
    ld_trans := [];
    ld_reltype := [];
    ld_relrx := [];
    ld_rx := None;
    ld_rx_exact := None;
    ld_known := [] |}.
Definition loc_en_TT : locale := merge loc_en own_en_TT.

(** en.go:816-819 *)
Definition own_en_TV : locale := Eval vm_compute in
  {| ld_name := lit "en-TV"; ld_order := lit "DMY"; ld_nospacing := false; ld_splitter := 0;
    ld_charset := runes (lit "");
    ld_abbr := [];
    ld_simpl := [];
    ld_trans := [];
    ld_reltype := [];
    ld_relrx := [];
    ld_rx := None;
    ld_rx_exact := None;
    ld_known := [] |}.
Definition loc_en_TV : locale := merge loc_en own_en_TV.

(** en.go:821-824 *)
Definition own_en_TZ : locale := Eval vm_compute in
  {| ld_name := lit "en-TZ"; ld_order := lit "DMY"; ld_nospacing := false; ld_splitter := 0;
    ld_charset := runes (lit "");
    ld_abbr := [];
    ld_simpl := [];
    ld_trans := [];
    ld_reltype := [];
    ld_relrx := [];
    ld_rx := None;
    ld_rx_exact := None;
    ld_known := [] |}.
Definition loc_en_TZ : locale := merge loc_en own_en_TZ.

(** en.go:826-829 *)
Definition own_en_UG : locale := Eval vm_compute in
  {| ld_name := lit "en-UG"; ld_order := lit "DMY"; ld_nospacing := false; ld_splitter := 0;
    ld_charset := runes (lit "");
    ld_abbr := [];
    ld_simpl := [];
    ld_trans := [];
    ld_reltype := [];
    ld_relrx := [];
    ld_rx := None;
    ld_rx_exact := None;
    ld_known := [] |}.
Definition loc_en_UG : locale := merge loc_en own_en_UG.

(** en.go:831-834 *)
Definition own_en_UM : locale := Eval vm_compute in
  {| ld_name := lit "en-UM"; ld_order := lit "MDY"; ld_nospacing := false; ld_splitter := 0;
    ld_charset := runes (lit "");
    ld_abbr := [];
    ld_simpl := [];
    ld_trans := [];
    ld_reltype := [];
    ld_relrx := [];
    ld_rx := None;
    ld_rx_exact := None;
    ld_known := [] |}.
Definition loc_en_UM : locale := merge loc_en own_en_UM.

(** en.go:836-839 *)
Definition own_en_VC : locale := Eval vm_compute in
  {| ld_name := lit "en-VC"; ld_order := lit "DMY"; ld_nospacing := false; ld_splitter := 0;
    ld_charset := runes (lit "");
    ld_abbr := [];
    ld_simpl := [];
    ld_trans := [];
    ld_reltype := [];
    ld_relrx := [];
    ld_rx := None;
    ld_rx_exact := None;
    ld_known := [] |}.
Definition loc_en_VC : locale := merge loc_en own_en_VC.

(** en.go:841-844 *)
Definition own_en_VG : locale := Eval vm_compute in
  {| ld_name := lit "en-VG"; ld_order := lit "DMY"; ld_nospacing := false; ld_splitter := 0;
    ld_charset := runes (lit "");
    ld_abbr := [];
    ld_simpl := [];
    ld_trans := [];
    ld_reltype := [];
    ld_relrx := [];
    ld_rx := None;
    ld_rx_exact := None;
    ld_known := [] |}.
Definition loc_en_VG : locale := merge loc_en own_en_VG.

(** en.go:846-849 *)
Definition own_en_VI : locale := Eval vm_compute in
  {| ld_name := lit "en-VI"; ld_order := lit "MDY"; ld_nospacing := false; ld_splitter := 0;
    ld_charset := runes (lit "");
    ld_abbr := [];
    ld_simpl := [];
    ld_trans := [];
    ld_reltype := [];
    ld_relrx := [];
    ld_rx := None;
    ld_rx_exact := None;
    ld_known := [] |}.
Definition loc_en_VI : locale := merge loc_en own_en_VI.

(** en.go:851-854 *)
Definition own_en_VU : locale := Eval vm_compute in
  {| ld_name := lit "en-VU"; ld_order := lit "DMY"; ld_nospacing := false; ld_splitter := 0;
    ld_charset := runes (lit "");
    ld_abbr := [];
    ld_simpl := [];
    ld_trans := [];
    ld_reltype := [];
    ld_relrx := [];
    ld_rx := None;
    ld_rx_exact := None;
    ld_known := [] |}.
Definition loc_en_VU : locale := merge loc_en own_en_VU.

(** en.go:856-859 *)
Definition own_en_WS : locale := Eval vm_compute in
  {| ld_name := lit "en-WS"; ld_order := lit "DMY"; ld_nospacing := false; ld_splitter := 0;
    ld_charset := runes (lit "");
    ld_abbr := [];
    ld_simpl := [];
    ld_trans := [];
    ld_reltype := [];
    ld_relrx := [];
    ld_rx := None;
    ld_rx_exact := None;
    ld_known := [] |}.
Definition loc_en_WS : locale := merge loc_en own_en_WS.

(** en.go:861-864 *)
Definition own_en_ZA : locale := Eval vm_compute in
  {| ld_name := lit "en-ZA"; ld_order := lit "YMD"; ld_nospacing := false; ld_splitter := 0;
    ld_charset := runes (lit "");
    ld_abbr := [];
    ld_simpl := [];
    ld_trans := [];
    ld_reltype := [];
    ld_relrx := [];
    ld_rx := None;
    ld_rx_exact := None;
    ld_known := [] |}.
Definition loc_en_ZA : locale := merge loc_en own_en_ZA.

(** en.go:866-869 *)
Definition own_en_ZM : locale := Eval vm_compute in
  {| ld_name := lit "en-ZM"; ld_order := lit "DMY"; ld_nospacing := false; ld_splitter := 0;
    ld_charset := runes (lit "");
    ld_abbr := [];
    ld_simpl := [];
    ld_trans := [];
    ld_reltype := [];
    ld_relrx := [];
    ld_rx := None;
    ld_rx_exact := None;
    ld_known := [] |}.
Definition loc_en_ZM : locale := merge loc_en own_en_ZM.

(** en.go:871-874 *)
Definition own_en_ZW : locale := Eval vm_compute in
  {| ld_name := lit "en-ZW"; ld_order := lit "DMY"; ld_nospacing := false; ld_splitter := 0;
    ld_charset := runes (lit "");
    ld_abbr := [];
    ld_simpl := [];
    ld_trans := [];
    ld_reltype := [];
    ld_relrx := [];
    ld_rx := None;
    ld_rx_exact := None;
    ld_known := [] |}.
Definition loc_en_ZW : locale := merge loc_en own_en_ZW.

(** eo.go:10-99 *)
Definition loc_eo : locale := Eval vm_compute in
  {| ld_name := lit "eo"; ld_order := lit "YMD"; ld_nospacing := false; ld_splitter := 0;
    ld_charset := runes (lit "bcdefghijklnorstuvwxyzĉĵŭ");
    ld_abbr := [];
    ld_simpl := [];
    ld_trans := [(lit "septembro", [lit "september"]);
    (lit "decembro", [lit "december"]);
    (lit "februaro", [lit "february"]);
    (lit "merkredo", [lit "wednesday"]);
    (lit "novembro", [lit "november"]);
    (lit "vendredo", [lit "friday"]);
    (lit "augusto", [lit "august"]);
    (lit "dimanco", [lit "sunday"]);
    (lit "januaro", [lit "january"]);
    (lit "oktobro", [lit "october"]);
    (lit "aprilo", [lit "april"]);
    (lit "minute", [lit "minute"]);
    (lit "sabato", [lit "saturday"]);
    (lit "second", [lit "second"]);
    (lit "jaudo", [lit "thursday"]);
    (lit "julio", [lit "july"]);
    (lit "junio", [lit "june"]);
    (lit "lundo", [lit "monday"]);
    (lit "mardo", [lit "tuesday"]);
    (lit "marto", [lit "march"]);
    (lit "month", [lit "month"]);
    (lit "hour", [lit "hour"]);
    (lit "majo", [lit "may"]);
    (lit "week", [lit "week"]);
    (lit "year", [lit "year"]);
    (lit "apr", [lit "april"]);
    (lit "atm", [lit "am"]);
    (lit "aug", [lit "august"]);
    (lit "day", [lit "day"]);
    (lit "dec", [lit "december"]);
    (lit "feb", [lit "february"]);
    (lit "gmt", [lit "gmt"]);
    (lit "jan", [lit "january"]);
    (lit "jul", [lit "july"]);
    (lit "jun", [lit "june"]);
    (lit "maj", [lit "may"]);
    (lit "mar", [lit "march"]);
    (lit "nov", [lit "november"]);
    (lit "okt", [lit "october"]);
    (lit "ptm", [lit "pm"]);
    (lit "sep", [lit "september"]);
    (lit "utc", [lit "utc"]);
    (lit "am", [lit "am"]);
    (lit "di", [lit "sunday"]);
    (lit "ja", [lit "thursday"]);
    (lit "lu", [lit "monday"]);
    (lit "ma", [lit "tuesday"]);
    (lit "me", [lit "wednesday"]);
    (lit "pm", [lit "pm"]);
    (lit "sa", [lit "saturday"]);
    (lit "ve", [lit "friday"]);
    (lit " ", [lit " "]);
    (lit "'", [lit ""]);
    (lit "+", [lit "+"]);
    (lit ",", [lit ""]);
    (lit "-", [lit "-"]);
    (lit ".", [lit "."]);
    (lit "/", [lit "/"]);
    (lit ":", [lit ":"]);
    (lit ";", [lit ""]);
    (lit "@", [lit ""]);
    (lit "[", [lit ""]);
    (lit "]", [lit ""]);
    (lit "z", [lit "z"]);
    (lit "|", [lit ""])];
    ld_reltype := [(lit "this minute", lit "0 minute ago");
    (lit "last month", lit "1 month ago");
    (lit "next month", lit "in 1 month");
    (lit "this month", lit "0 month ago");
    (lit "last week", lit "1 week ago");
    (lit "last year", lit "1 year ago");
    (lit "next week", lit "in 1 week");
    (lit "next year", lit "in 1 year");
    (lit "this hour", lit "0 hour ago");
    (lit "this week", lit "0 week ago");
    (lit "this year", lit "0 year ago");
    (lit "yesterday", lit "1 day ago");
    (lit "tomorrow", lit "in 1 day");
    (lit "today", lit "0 day ago");
    (lit "now", lit "0 second ago")];
    ld_relrx := [];
    ld_rx := None;
    ld_rx_exact := None;
    ld_known := [lit "this minute";
    lit "last month";
    lit "next month";
    lit "this month";
    lit "last week";
    lit "last year";
    lit "next week";
    lit "next year";
    lit "septembro";
    lit "this hour";
    lit "this week";
    lit "this year";
    lit "yesterday";
    lit "decembro";
    lit "februaro";
    lit "merkredo";
    lit "novembro";
    lit "tomorrow";
    lit "vendredo";
    lit "augusto";
    lit "dimanco";
    lit "januaro";
    lit "oktobro";
    lit "aprilo";
    lit "minute";
    lit "sabato";
    lit "second";
    lit "jaudo";
    lit "julio";
    lit "junio";
    lit "lundo";
    lit "mardo";
    lit "marto";
    lit "month";
    lit "today";
    lit "hour";
    lit "majo";
    lit "week";
    lit "year";
    lit "apr";
    lit "atm";
    lit "aug";
    lit "day";
    lit "dec";
    lit "feb";
    lit "gmt";
    lit "jan";
    lit "jul";
    lit "jun";
    lit "maj";
    lit "mar";
    lit "nov";
    lit "now";
    lit "okt";
    lit "ptm";
    lit "sep";
    lit "utc";
    lit "am";
    lit "di";
    lit "ja";
    lit "lu";
    lit "ma";
    lit "me";
    lit "pm";
    lit "sa";
    lit "ve";
    lit " ";
    lit "'";
    lit "+";
    lit ",";
    lit "-";
    lit ".";
    lit "/";
    lit ":";
    lit ";";
    lit "@";
    lit "[";
    lit "]";
    lit "z";
    lit "|"] |}.

(** all patterns above are accepted by the syntax parser *)
Example patterns_ok : forallb (fun s => match parse_regex s with Some _ => true | None => false end)
  [lit "(?i)(\A|[^\pL\pM\d]|_)(\d+[.,]?\d* decades? ago|\d+[.,]?\d* minutes ago|\d+[.,]?\d* seconds ago|in \d+[.,]?\d* decades?|\d+[.,]?\d* minute ago|\d+[.,]?\d* months ago|\d+[.,]?\d* second ago|in \d+[.,]?\d* minutes|in \d+[.,]?\d* seconds|\d+[.,]?\d* hours ago|\d+[.,]?\d* month ago|\d+[.,]?\d* weeks ago|\d+[.,]?\d* years ago|in \d+[.,]?\d* minute|in \d+[.,]?\d* months|in \d+[.,]?\d* second|\d+[.,]?\d* days ago|\d+[.,]?\d* hour ago|\d+[.,]?\d* mins ago|\d+[.,]?\d* secs ago|\d+[.,]?\d* week ago|\d+[.,]?\d* year ago|in \d+[.,]?\d* hours|in \d+[.,]?\d* month|in \d+[.,]?\d* weeks|in \d+[.,]?\d* years|\d+[.,]?\d* day ago|\d+[.,]?\d* hrs ago|\d+[.,]?\d* min ago|\d+[.,]?\d* mos ago|\d+[.,]?\d* sec ago|\d+[.,]?\d* wks ago|\d+[.,]?\d* yrs ago|in \d+[.,]?\d* days|in \d+[.,]?\d* hour|in \d+[.,]?\d* mins|in \d+[.,]?\d* secs|in \d+[.,]?\d* week|in \d+[.,]?\d* year|\d+[.,]?\d* hr ago|\d+[.,]?\d* mo ago|\d+[.,]?\d* wk ago|\d+[.,]?\d* yr ago|in \d+[.,]?\d* day|in \d+[.,]?\d* hrs|in \d+[.,]?\d* min|in \d+[.,]?\d* mos|in \d+[.,]?\d* sec|in \d+[.,]?\d* wks|in \d+[.,]?\d* yrs|in \d+[.,]?\d* hr|in \d+[.,]?\d* mo|in \d+[.,]?\d* wk|in \d+[.,]?\d* yr)(\z|[^\pL\pM\d]|_)";
  lit "(?i)(\A|[^\pL\pM\d]|_)(\d+[.,]?\d* decades? ago|\d+[.,]?\d* minutes ago|\d+[.,]?\d* seconds ago|in \d+[.,]?\d* decades?|\d+[.,]?\d* minute ago|\d+[.,]?\d* months ago|\d+[.,]?\d* second ago|in \d+[.,]?\d* minutes|in \d+[.,]?\d* seconds|\d+[.,]?\d* hours ago|\d+[.,]?\d* month ago|\d+[.,]?\d* weeks ago|\d+[.,]?\d* years ago|in \d+[.,]?\d* minute|in \d+[.,]?\d* months|in \d+[.,]?\d* second|\d+[.,]?\d* days ago|\d+[.,]?\d* hour ago|\d+[.,]?\d* week ago|\d+[.,]?\d* year ago|in \d+[.,]?\d* hours|in \d+[.,]?\d* month|in \d+[.,]?\d* weeks|in \d+[.,]?\d* years|\d+[.,]?\d* day ago|\d+[.,]?\d* min ago|\d+[.,]?\d* mth ago|\d+[.,]?\d* sec ago|in \d+[.,]?\d* days|in \d+[.,]?\d* hour|in \d+[.,]?\d* week|in \d+[.,]?\d* year|\d+[.,]?\d* hr ago|\d+[.,]?\d* mo ago|\d+[.,]?\d* wk ago|\d+[.,]?\d* yr ago|in \d+[.,]?\d* day|in \d+[.,]?\d* min|in \d+[.,]?\d* mth|in \d+[.,]?\d* sec|in \d+[.,]?\d* hr|in \d+[.,]?\d* mo|in \d+[.,]?\d* wk|in \d+[.,]?\d* yr)(\z|[^\pL\pM\d]|_)";
  lit "(?i)(\A|[^\pL\pM\d]|_)(aɖabaƒoƒo \d+[.,]?\d* si wo va yi|aɖabaƒoƒo \d+[.,]?\d* si va yi|gaƒoƒo \d+[.,]?\d* si wo va yi|kɔsiɖa \d+[.,]?\d* si wo va yi|le aɖabaƒoƒo \d+[.,]?\d* wo me|sekend \d+[.,]?\d* si wo va yi|le ƒe \d+[.,]?\d* si gbɔna me|le ƒe \d+[.,]?\d* si va yi me|ŋkeke \d+[.,]?\d* si wo va yi|ɣleti \d+[.,]?\d* si wo va yi|gaƒoƒo \d+[.,]?\d* si va yi|kɔsiɖa \d+[.,]?\d* si va yi|le aɖabaƒoƒo \d+[.,]?\d* me|le gaƒoƒo \d+[.,]?\d* wo me|le kɔsiɖa \d+[.,]?\d* wo me|le sekend \d+[.,]?\d* wo me|sekend \d+[.,]?\d* si va yi|le ŋkeke \d+[.,]?\d* wo me|le ɣleti \d+[.,]?\d* wo me|ŋkeke \d+[.,]?\d* si va yi|ƒe \d+[.,]?\d* si va yi me|ƒe \d+[.,]?\d* si wo va yi|ɣleti \d+[.,]?\d* si va yi|le gaƒoƒo \d+[.,]?\d* me|le kɔsiɖa \d+[.,]?\d* me|le sekend \d+[.,]?\d* me|le ŋkeke \d+[.,]?\d* me|le ɣleti \d+[.,]?\d* me|ƒe \d+[.,]?\d* si va yi|le ƒe \d+[.,]?\d* me)(\z|[^\pL\pM\d]|_)";
  lit "(?i)(\A|[^\pL\pM\d]|_)(psed \d+[.,]?\d* mjasecami|psed \d+[.,]?\d* sekundami|psed \d+[.,]?\d* tyzenjami|psed \d+[.,]?\d* gozinami|psed \d+[.,]?\d* minutami|psed \d+[.,]?\d* mjasecom|psed \d+[.,]?\d* tyzenjom|psed \d+[.,]?\d* sekundu|psed \d+[.,]?\d* dnjami|psed \d+[.,]?\d* gozinu|psed \d+[.,]?\d* letami|psed \d+[.,]?\d* minutu|za \d+[.,]?\d* mjasecow|za \d+[.,]?\d* sekundow|za \d+[.,]?\d* tyzenjow|psed \d+[.,]?\d* dnjom|psed \d+[.,]?\d* letom|za \d+[.,]?\d* minutow|za \d+[.,]?\d* sekundu|psed \d+[.,]?\d* mjas|za \d+[.,]?\d* gozinu|za \d+[.,]?\d* minutu|za \d+[.,]?\d* mjasec|psed \d+[.,]?\d* dnj|psed \d+[.,]?\d* goz|psed \d+[.,]?\d* min|psed \d+[.,]?\d* sek|psed \d+[.,]?\d* tyz|za \d+[.,]?\d* dnjow|za \d+[.,]?\d* gozin|za \d+[.,]?\d* tyzen|za \d+[.,]?\d* leto|za \d+[.,]?\d* mjas|psed \d+[.,]?\d* d|psed \d+[.,]?\d* g|psed \d+[.,]?\d* l|psed \d+[.,]?\d* m|psed \d+[.,]?\d* s|za \d+[.,]?\d* dnj|za \d+[.,]?\d* goz|za \d+[.,]?\d* let|za \d+[.,]?\d* min|za \d+[.,]?\d* sek|za \d+[.,]?\d* tyz|za \d+[.,]?\d* zen|za \d+[.,]?\d* g|za \d+[.,]?\d* l|za \d+[.,]?\d* m|za \d+[.,]?\d* s|za \d+[.,]?\d* z)(\z|[^\pL\pM\d]|_)";
  lit "(?i)(\A|[^\pL\pM\d]|_)(πριν απο \d+[.,]?\d* δευτερολεπτα|πριν απο \d+[.,]?\d* δευτερολεπτο|πριν απο \d+[.,]?\d* εβδομαδες|πριν απο \d+[.,]?\d* εβδομαδα|πριν απο \d+[.,]?\d* ημερες|σε \d+[.,]?\d* δευτερολεπτα|σε \d+[.,]?\d* δευτερολεπτο|πριν απο \d+[.,]?\d* ημερα|πριν απο \d+[.,]?\d* λεπτα|πριν απο \d+[.,]?\d* λεπτο|πριν απο \d+[.,]?\d* μηνες|πριν απο \d+[.,]?\d* δευτ|πριν απο \d+[.,]?\d* ετος|πριν απο \d+[.,]?\d* μηνα|πριν απο \d+[.,]?\d* ωρες|πριν απο \d+[.,]?\d* εβδ|πριν απο \d+[.,]?\d* ετη|πριν απο \d+[.,]?\d* λεπ|πριν απο \d+[.,]?\d* ωρα|σε \d+[.,]?\d* εβδομαδες|πριν απο \d+[.,]?\d* ωρ|σε \d+[.,]?\d* εβδομαδα|\d+[.,]?\d* ετος πριν|σε \d+[.,]?\d* ημερες|\d+[.,]?\d* εβδ πριν|\d+[.,]?\d* ετη πριν|σε \d+[.,]?\d* ημερα|σε \d+[.,]?\d* λεπτα|σε \d+[.,]?\d* λεπτο|σε \d+[.,]?\d* μηνες|\d+[.,]?\d* ημ πριν|σε \d+[.,]?\d* δευτ|σε \d+[.,]?\d* ετος|σε \d+[.,]?\d* μηνα|σε \d+[.,]?\d* ωρες|\d+[.,]?\d* δ πριν|\d+[.,]?\d* λ πριν|\d+[.,]?\d* μ πριν|\d+[.,]?\d* ω πριν|σε \d+[.,]?\d* εβδ|σε \d+[.,]?\d* ετη|σε \d+[.,]?\d* λεπ|σε \d+[.,]?\d* ωρα|σε \d+[.,]?\d* ημ|σε \d+[.,]?\d* ωρ|σε \d+[.,]?\d* δ|σε \d+[.,]?\d* λ|σε \d+[.,]?\d* μ|σε \d+[.,]?\d* ω)(\z|[^\pL\pM\d]|_)";
  lit "(?i)(\A|[^\pL\pM\d]|_)(བངན་ཕག་ \d+[.,]?\d* ཧ་མ་|བངན་ཕག་ \d+[.,]?\d* ནང་|ལ་འཁར་ \d+[.,]?\d* ཧ་མ་|ཆ་ཚད་ \d+[.,]?\d* ཧ་མ་|ལ་འཁར་ \d+[.,]?\d* ནང་|སར་ཆ་ \d+[.,]?\d* ཧ་མ་|སར་མ་ \d+[.,]?\d* ཧ་མ་|ཆ་ཚད་ \d+[.,]?\d* ནང་|ཉནམ་ \d+[.,]?\d* ཧ་མ་|སར་ཆ་ \d+[.,]?\d* ནང་|སར་མ་ \d+[.,]?\d* ནང་|ཉནམ་ \d+[.,]?\d* ནང་|ཟཝ་ \d+[.,]?\d* ཧ་མ་|ཟཝ་ \d+[.,]?\d* ནང་)(\z|[^\pL\pM\d]|_)";
  lit "(?i)(\d+[.,]?\d*) hrs ago";
  lit "(?i)(\d+[.,]?\d*) mins ago";
  lit "(?i)(\d+[.,]?\d*) mos ago";
  lit "(?i)(\d+[.,]?\d*) mth ago";
  lit "(?i)(\d+[.,]?\d*) secs ago";
  lit "(?i)(\d+[.,]?\d*) wks ago";
  lit "(?i)(\d+[.,]?\d*) yrs ago";
  lit "(?i)(\d+[.,]?\d*) δ πριν";
  lit "(?i)(\d+[.,]?\d*) εβδ πριν";
  lit "(?i)(\d+[.,]?\d*) ετη πριν";
  lit "(?i)(\d+[.,]?\d*) ετος πριν";
  lit "(?i)(\d+[.,]?\d*) ημ πριν";
  lit "(?i)(\d+[.,]?\d*) λ πριν";
  lit "(?i)(\d+[.,]?\d*) μ πριν";
  lit "(?i)(\d+[.,]?\d*) ω πριν";
  lit "(?i)^(\d+[.,]?\d* decades? ago|\d+[.,]?\d* minutes ago|\d+[.,]?\d* seconds ago|in \d+[.,]?\d* decades?|\d+[.,]?\d* minute ago|\d+[.,]?\d* months ago|\d+[.,]?\d* second ago|in \d+[.,]?\d* minutes|in \d+[.,]?\d* seconds|\d+[.,]?\d* hours ago|\d+[.,]?\d* month ago|\d+[.,]?\d* weeks ago|\d+[.,]?\d* years ago|in \d+[.,]?\d* minute|in \d+[.,]?\d* months|in \d+[.,]?\d* second|\d+[.,]?\d* days ago|\d+[.,]?\d* hour ago|\d+[.,]?\d* mins ago|\d+[.,]?\d* secs ago|\d+[.,]?\d* week ago|\d+[.,]?\d* year ago|in \d+[.,]?\d* hours|in \d+[.,]?\d* month|in \d+[.,]?\d* weeks|in \d+[.,]?\d* years|\d+[.,]?\d* day ago|\d+[.,]?\d* hrs ago|\d+[.,]?\d* min ago|\d+[.,]?\d* mos ago|\d+[.,]?\d* sec ago|\d+[.,]?\d* wks ago|\d+[.,]?\d* yrs ago|in \d+[.,]?\d* days|in \d+[.,]?\d* hour|in \d+[.,]?\d* mins|in \d+[.,]?\d* secs|in \d+[.,]?\d* week|in \d+[.,]?\d* year|\d+[.,]?\d* hr ago|\d+[.,]?\d* mo ago|\d+[.,]?\d* wk ago|\d+[.,]?\d* yr ago|in \d+[.,]?\d* day|in \d+[.,]?\d* hrs|in \d+[.,]?\d* min|in \d+[.,]?\d* mos|in \d+[.,]?\d* sec|in \d+[.,]?\d* wks|in \d+[.,]?\d* yrs|in \d+[.,]?\d* hr|in \d+[.,]?\d* mo|in \d+[.,]?\d* wk|in \d+[.,]?\d* yr)$";
  lit "(?i)^(\d+[.,]?\d* decades? ago|\d+[.,]?\d* minutes ago|\d+[.,]?\d* seconds ago|in \d+[.,]?\d* decades?|\d+[.,]?\d* minute ago|\d+[.,]?\d* months ago|\d+[.,]?\d* second ago|in \d+[.,]?\d* minutes|in \d+[.,]?\d* seconds|\d+[.,]?\d* hours ago|\d+[.,]?\d* month ago|\d+[.,]?\d* weeks ago|\d+[.,]?\d* years ago|in \d+[.,]?\d* minute|in \d+[.,]?\d* months|in \d+[.,]?\d* second|\d+[.,]?\d* days ago|\d+[.,]?\d* hour ago|\d+[.,]?\d* week ago|\d+[.,]?\d* year ago|in \d+[.,]?\d* hours|in \d+[.,]?\d* month|in \d+[.,]?\d* weeks|in \d+[.,]?\d* years|\d+[.,]?\d* day ago|\d+[.,]?\d* min ago|\d+[.,]?\d* mth ago|\d+[.,]?\d* sec ago|in \d+[.,]?\d* days|in \d+[.,]?\d* hour|in \d+[.,]?\d* week|in \d+[.,]?\d* year|\d+[.,]?\d* hr ago|\d+[.,]?\d* mo ago|\d+[.,]?\d* wk ago|\d+[.,]?\d* yr ago|in \d+[.,]?\d* day|in \d+[.,]?\d* min|in \d+[.,]?\d* mth|in \d+[.,]?\d* sec|in \d+[.,]?\d* hr|in \d+[.,]?\d* mo|in \d+[.,]?\d* wk|in \d+[.,]?\d* yr)$";
  lit "(?i)^(aɖabaƒoƒo \d+[.,]?\d* si wo va yi|aɖabaƒoƒo \d+[.,]?\d* si va yi|gaƒoƒo \d+[.,]?\d* si wo va yi|kɔsiɖa \d+[.,]?\d* si wo va yi|le aɖabaƒoƒo \d+[.,]?\d* wo me|sekend \d+[.,]?\d* si wo va yi|le ƒe \d+[.,]?\d* si gbɔna me|le ƒe \d+[.,]?\d* si va yi me|ŋkeke \d+[.,]?\d* si wo va yi|ɣleti \d+[.,]?\d* si wo va yi|gaƒoƒo \d+[.,]?\d* si va yi|kɔsiɖa \d+[.,]?\d* si va yi|le aɖabaƒoƒo \d+[.,]?\d* me|le gaƒoƒo \d+[.,]?\d* wo me|le kɔsiɖa \d+[.,]?\d* wo me|le sekend \d+[.,]?\d* wo me|sekend \d+[.,]?\d* si va yi|le ŋkeke \d+[.,]?\d* wo me|le ɣleti \d+[.,]?\d* wo me|ŋkeke \d+[.,]?\d* si va yi|ƒe \d+[.,]?\d* si va yi me|ƒe \d+[.,]?\d* si wo va yi|ɣleti \d+[.,]?\d* si va yi|le gaƒoƒo \d+[.,]?\d* me|le kɔsiɖa \d+[.,]?\d* me|le sekend \d+[.,]?\d* me|le ŋkeke \d+[.,]?\d* me|le ɣleti \d+[.,]?\d* me|ƒe \d+[.,]?\d* si va yi|le ƒe \d+[.,]?\d* me)$";
  lit "(?i)^(psed \d+[.,]?\d* mjasecami|psed \d+[.,]?\d* sekundami|psed \d+[.,]?\d* tyzenjami|psed \d+[.,]?\d* gozinami|psed \d+[.,]?\d* minutami|psed \d+[.,]?\d* mjasecom|psed \d+[.,]?\d* tyzenjom|psed \d+[.,]?\d* sekundu|psed \d+[.,]?\d* dnjami|psed \d+[.,]?\d* gozinu|psed \d+[.,]?\d* letami|psed \d+[.,]?\d* minutu|za \d+[.,]?\d* mjasecow|za \d+[.,]?\d* sekundow|za \d+[.,]?\d* tyzenjow|psed \d+[.,]?\d* dnjom|psed \d+[.,]?\d* letom|za \d+[.,]?\d* minutow|za \d+[.,]?\d* sekundu|psed \d+[.,]?\d* mjas|za \d+[.,]?\d* gozinu|za \d+[.,]?\d* minutu|za \d+[.,]?\d* mjasec|psed \d+[.,]?\d* dnj|psed \d+[.,]?\d* goz|psed \d+[.,]?\d* min|psed \d+[.,]?\d* sek|psed \d+[.,]?\d* tyz|za \d+[.,]?\d* dnjow|za \d+[.,]?\d* gozin|za \d+[.,]?\d* tyzen|za \d+[.,]?\d* leto|za \d+[.,]?\d* mjas|psed \d+[.,]?\d* d|psed \d+[.,]?\d* g|psed \d+[.,]?\d* l|psed \d+[.,]?\d* m|psed \d+[.,]?\d* s|za \d+[.,]?\d* dnj|za \d+[.,]?\d* goz|za \d+[.,]?\d* let|za \d+[.,]?\d* min|za \d+[.,]?\d* sek|za \d+[.,]?\d* tyz|za \d+[.,]?\d* zen|za \d+[.,]?\d* g|za \d+[.,]?\d* l|za \d+[.,]?\d* m|za \d+[.,]?\d* s|za \d+[.,]?\d* z)$";
  lit "(?i)^(πριν απο \d+[.,]?\d* δευτερολεπτα|πριν απο \d+[.,]?\d* δευτερολεπτο|πριν απο \d+[.,]?\d* εβδομαδες|πριν απο \d+[.,]?\d* εβδομαδα|πριν απο \d+[.,]?\d* ημερες|σε \d+[.,]?\d* δευτερολεπτα|σε \d+[.,]?\d* δευτερολεπτο|πριν απο \d+[.,]?\d* ημερα|πριν απο \d+[.,]?\d* λεπτα|πριν απο \d+[.,]?\d* λεπτο|πριν απο \d+[.,]?\d* μηνες|πριν απο \d+[.,]?\d* δευτ|πριν απο \d+[.,]?\d* ετος|πριν απο \d+[.,]?\d* μηνα|πριν απο \d+[.,]?\d* ωρες|πριν απο \d+[.,]?\d* εβδ|πριν απο \d+[.,]?\d* ετη|πριν απο \d+[.,]?\d* λεπ|πριν απο \d+[.,]?\d* ωρα|σε \d+[.,]?\d* εβδομαδες|πριν απο \d+[.,]?\d* ωρ|σε \d+[.,]?\d* εβδομαδα|\d+[.,]?\d* ετος πριν|σε \d+[.,]?\d* ημερες|\d+[.,]?\d* εβδ πριν|\d+[.,]?\d* ετη πριν|σε \d+[.,]?\d* ημερα|σε \d+[.,]?\d* λεπτα|σε \d+[.,]?\d* λεπτο|σε \d+[.,]?\d* μηνες|\d+[.,]?\d* ημ πριν|σε \d+[.,]?\d* δευτ|σε \d+[.,]?\d* ετος|σε \d+[.,]?\d* μηνα|σε \d+[.,]?\d* ωρες|\d+[.,]?\d* δ πριν|\d+[.,]?\d* λ πριν|\d+[.,]?\d* μ πριν|\d+[.,]?\d* ω πριν|σε \d+[.,]?\d* εβδ|σε \d+[.,]?\d* ετη|σε \d+[.,]?\d* λεπ|σε \d+[.,]?\d* ωρα|σε \d+[.,]?\d* ημ|σε \d+[.,]?\d* ωρ|σε \d+[.,]?\d* δ|σε \d+[.,]?\d* λ|σε \d+[.,]?\d* μ|σε \d+[.,]?\d* ω)$";
  lit "(?i)^(བངན་ཕག་ \d+[.,]?\d* ཧ་མ་|བངན་ཕག་ \d+[.,]?\d* ནང་|ལ་འཁར་ \d+[.,]?\d* ཧ་མ་|ཆ་ཚད་ \d+[.,]?\d* ཧ་མ་|ལ་འཁར་ \d+[.,]?\d* ནང་|སར་ཆ་ \d+[.,]?\d* ཧ་མ་|སར་མ་ \d+[.,]?\d* ཧ་མ་|ཆ་ཚད་ \d+[.,]?\d* ནང་|ཉནམ་ \d+[.,]?\d* ཧ་མ་|སར་ཆ་ \d+[.,]?\d* ནང་|སར་མ་ \d+[.,]?\d* ནང་|ཉནམ་ \d+[.,]?\d* ནང་|ཟཝ་ \d+[.,]?\d* ཧ་མ་|ཟཝ་ \d+[.,]?\d* ནང་)$";
  lit "(?i)aɖabaƒoƒo (\d+[.,]?\d*) si va yi";
  lit "(?i)aɖabaƒoƒo (\d+[.,]?\d*) si wo va yi";
  lit "(?i)gaƒoƒo (\d+[.,]?\d*) si va yi";
  lit "(?i)gaƒoƒo (\d+[.,]?\d*) si wo va yi";
  lit "(?i)in (\d+[.,]?\d*) hrs";
  lit "(?i)in (\d+[.,]?\d*) mins";
  lit "(?i)in (\d+[.,]?\d*) mos";
  lit "(?i)in (\d+[.,]?\d*) mth";
  lit "(?i)in (\d+[.,]?\d*) secs";
  lit "(?i)in (\d+[.,]?\d*) wks";
  lit "(?i)in (\d+[.,]?\d*) yrs";
  lit "(?i)kɔsiɖa (\d+[.,]?\d*) si va yi";
  lit "(?i)kɔsiɖa (\d+[.,]?\d*) si wo va yi";
  lit "(?i)le aɖabaƒoƒo (\d+[.,]?\d*) me";
  lit "(?i)le aɖabaƒoƒo (\d+[.,]?\d*) wo me";
  lit "(?i)le gaƒoƒo (\d+[.,]?\d*) me";
  lit "(?i)le gaƒoƒo (\d+[.,]?\d*) wo me";
  lit "(?i)le kɔsiɖa (\d+[.,]?\d*) me";
  lit "(?i)le kɔsiɖa (\d+[.,]?\d*) wo me";
  lit "(?i)le sekend (\d+[.,]?\d*) me";
  lit "(?i)le sekend (\d+[.,]?\d*) wo me";
  lit "(?i)le ŋkeke (\d+[.,]?\d*) me";
  lit "(?i)le ŋkeke (\d+[.,]?\d*) wo me";
  lit "(?i)le ƒe (\d+[.,]?\d*) me";
  lit "(?i)le ƒe (\d+[.,]?\d*) si gbɔna me";
  lit "(?i)le ƒe (\d+[.,]?\d*) si va yi me";
  lit "(?i)le ɣleti (\d+[.,]?\d*) me";
  lit "(?i)le ɣleti (\d+[.,]?\d*) wo me";
  lit "(?i)psed (\d+[.,]?\d*) d";
  lit "(?i)psed (\d+[.,]?\d*) dnj";
  lit "(?i)psed (\d+[.,]?\d*) dnjami";
  lit "(?i)psed (\d+[.,]?\d*) dnjom";
  lit "(?i)psed (\d+[.,]?\d*) g";
  lit "(?i)psed (\d+[.,]?\d*) goz";
  lit "(?i)psed (\d+[.,]?\d*) gozinami";
  lit "(?i)psed (\d+[.,]?\d*) gozinu";
  lit "(?i)psed (\d+[.,]?\d*) l";
  lit "(?i)psed (\d+[.,]?\d*) letami";
  lit "(?i)psed (\d+[.,]?\d*) letom";
  lit "(?i)psed (\d+[.,]?\d*) m";
  lit "(?i)psed (\d+[.,]?\d*) min";
  lit "(?i)psed (\d+[.,]?\d*) minutami";
  lit "(?i)psed (\d+[.,]?\d*) minutu";
  lit "(?i)psed (\d+[.,]?\d*) mjas";
  lit "(?i)psed (\d+[.,]?\d*) mjasecami";
  lit "(?i)psed (\d+[.,]?\d*) mjasecom";
  lit "(?i)psed (\d+[.,]?\d*) s";
  lit "(?i)psed (\d+[.,]?\d*) sek";
  lit "(?i)psed (\d+[.,]?\d*) sekundami";
  lit "(?i)psed (\d+[.,]?\d*) sekundu";
  lit "(?i)psed (\d+[.,]?\d*) tyz";
  lit "(?i)psed (\d+[.,]?\d*) tyzenjami";
  lit "(?i)psed (\d+[.,]?\d*) tyzenjom";
  lit "(?i)sekend (\d+[.,]?\d*) si va yi";
  lit "(?i)sekend (\d+[.,]?\d*) si wo va yi";
  lit "(?i)za (\d+[.,]?\d*) dnj";
  lit "(?i)za (\d+[.,]?\d*) dnjow";
  lit "(?i)za (\d+[.,]?\d*) g";
  lit "(?i)za (\d+[.,]?\d*) goz";
  lit "(?i)za (\d+[.,]?\d*) gozin";
  lit "(?i)za (\d+[.,]?\d*) gozinu";
  lit "(?i)za (\d+[.,]?\d*) l";
  lit "(?i)za (\d+[.,]?\d*) let";
  lit "(?i)za (\d+[.,]?\d*) leto";
  lit "(?i)za (\d+[.,]?\d*) m";
  lit "(?i)za (\d+[.,]?\d*) min";
  lit "(?i)za (\d+[.,]?\d*) minutow";
  lit "(?i)za (\d+[.,]?\d*) minutu";
  lit "(?i)za (\d+[.,]?\d*) mjas";
  lit "(?i)za (\d+[.,]?\d*) mjasec";
  lit "(?i)za (\d+[.,]?\d*) mjasecow";
  lit "(?i)za (\d+[.,]?\d*) s";
  lit "(?i)za (\d+[.,]?\d*) sek";
  lit "(?i)za (\d+[.,]?\d*) sekundow";
  lit "(?i)za (\d+[.,]?\d*) sekundu";
  lit "(?i)za (\d+[.,]?\d*) tyz";
  lit "(?i)za (\d+[.,]?\d*) tyzen";
  lit "(?i)za (\d+[.,]?\d*) tyzenjow";
  lit "(?i)za (\d+[.,]?\d*) z";
  lit "(?i)za (\d+[.,]?\d*) zen";
  lit "(?i)ŋkeke (\d+[.,]?\d*) si va yi";
  lit "(?i)ŋkeke (\d+[.,]?\d*) si wo va yi";
  lit "(?i)ƒe (\d+[.,]?\d*) si va yi";
  lit "(?i)ƒe (\d+[.,]?\d*) si va yi me";
  lit "(?i)ƒe (\d+[.,]?\d*) si wo va yi";
  lit "(?i)ɣleti (\d+[.,]?\d*) si va yi";
  lit "(?i)ɣleti (\d+[.,]?\d*) si wo va yi";
  lit "(?i)πριν απο (\d+[.,]?\d*) δευτ";
  lit "(?i)πριν απο (\d+[.,]?\d*) δευτερολεπτα";
  lit "(?i)πριν απο (\d+[.,]?\d*) δευτερολεπτο";
  lit "(?i)πριν απο (\d+[.,]?\d*) εβδ";
  lit "(?i)πριν απο (\d+[.,]?\d*) εβδομαδα";
  lit "(?i)πριν απο (\d+[.,]?\d*) εβδομαδες";
  lit "(?i)πριν απο (\d+[.,]?\d*) ετη";
  lit "(?i)πριν απο (\d+[.,]?\d*) ετος";
  lit "(?i)πριν απο (\d+[.,]?\d*) ημερα";
  lit "(?i)πριν απο (\d+[.,]?\d*) ημερες";
  lit "(?i)πριν απο (\d+[.,]?\d*) λεπ";
  lit "(?i)πριν απο (\d+[.,]?\d*) λεπτα";
  lit "(?i)πριν απο (\d+[.,]?\d*) λεπτο";
  lit "(?i)πριν απο (\d+[.,]?\d*) μηνα";
  lit "(?i)πριν απο (\d+[.,]?\d*) μηνες";
  lit "(?i)πριν απο (\d+[.,]?\d*) ωρ";
  lit "(?i)πριν απο (\d+[.,]?\d*) ωρα";
  lit "(?i)πριν απο (\d+[.,]?\d*) ωρες";
  lit "(?i)σε (\d+[.,]?\d*) δ";
  lit "(?i)σε (\d+[.,]?\d*) δευτ";
  lit "(?i)σε (\d+[.,]?\d*) δευτερολεπτα";
  lit "(?i)σε (\d+[.,]?\d*) δευτερολεπτο";
  lit "(?i)σε (\d+[.,]?\d*) εβδ";
  lit "(?i)σε (\d+[.,]?\d*) εβδομαδα";
  lit "(?i)σε (\d+[.,]?\d*) εβδομαδες";
  lit "(?i)σε (\d+[.,]?\d*) ετη";
  lit "(?i)σε (\d+[.,]?\d*) ετος";
  lit "(?i)σε (\d+[.,]?\d*) ημ";
  lit "(?i)σε (\d+[.,]?\d*) ημερα";
  lit "(?i)σε (\d+[.,]?\d*) ημερες";
  lit "(?i)σε (\d+[.,]?\d*) λ";
  lit "(?i)σε (\d+[.,]?\d*) λεπ";
  lit "(?i)σε (\d+[.,]?\d*) λεπτα";
  lit "(?i)σε (\d+[.,]?\d*) λεπτο";
  lit "(?i)σε (\d+[.,]?\d*) μ";
  lit "(?i)σε (\d+[.,]?\d*) μηνα";
  lit "(?i)σε (\d+[.,]?\d*) μηνες";
  lit "(?i)σε (\d+[.,]?\d*) ω";
  lit "(?i)σε (\d+[.,]?\d*) ωρ";
  lit "(?i)σε (\d+[.,]?\d*) ωρα";
  lit "(?i)σε (\d+[.,]?\d*) ωρες";
  lit "(?i)ཆ་ཚད་ (\d+[.,]?\d*) ནང་";
  lit "(?i)ཆ་ཚད་ (\d+[.,]?\d*) ཧ་མ་";
  lit "(?i)ཉནམ་ (\d+[.,]?\d*) ནང་";
  lit "(?i)ཉནམ་ (\d+[.,]?\d*) ཧ་མ་";
  lit "(?i)བངན་ཕག་ (\d+[.,]?\d*) ནང་";
  lit "(?i)བངན་ཕག་ (\d+[.,]?\d*) ཧ་མ་";
  lit "(?i)ཟཝ་ (\d+[.,]?\d*) ནང་";
  lit "(?i)ཟཝ་ (\d+[.,]?\d*) ཧ་མ་";
  lit "(?i)ལ་འཁར་ (\d+[.,]?\d*) ནང་";
  lit "(?i)ལ་འཁར་ (\d+[.,]?\d*) ཧ་མ་";
  lit "(?i)སར་ཆ་ (\d+[.,]?\d*) ནང་";
  lit "(?i)སར་ཆ་ (\d+[.,]?\d*) ཧ་མ་";
  lit "(?i)སར་མ་ (\d+[.,]?\d*) ནང་";
  lit "(?i)སར་མ་ (\d+[.,]?\d*) ཧ་མ་"] = true.
Proof. vm_compute. reflexivity. Qed.

Definition table_03 : list (str * locale) :=
  [(lit "de", loc_de);
   (lit "de-AT", loc_de_AT);
   (lit "de-BE", loc_de_BE);
   (lit "de-CH", loc_de_CH);
   (lit "de-IT", loc_de_IT);
   (lit "de-LI", loc_de_LI);
   (lit "de-LU", loc_de_LU);
   (lit "dje", loc_dje);
   (lit "dsb", loc_dsb);
   (lit "dua", loc_dua);
   (lit "dyo", loc_dyo);
   (lit "dz", loc_dz);
   (lit "ebu", loc_ebu);
   (lit "ee", loc_ee);
   (lit "ee-TG", loc_ee_TG);
   (lit "el", loc_el);
   (lit "el-CY", loc_el_CY);
   (lit "en", loc_en);
   (lit "en-001", loc_en_001);
   (lit "en-150", loc_en_150);
   (lit "en-AG", loc_en_AG);
   (lit "en-AI", loc_en_AI);
   (lit "en-AS", loc_en_AS);
   (lit "en-AT", loc_en_AT);
   (lit "en-AU", loc_en_AU);
   (lit "en-BB", loc_en_BB);
   (lit "en-BE", loc_en_BE);
   (lit "en-BI", loc_en_BI);
   (lit "en-BM", loc_en_BM);
   (lit "en-BS", loc_en_BS);
   (lit "en-BW", loc_en_BW);
   (lit "en-BZ", loc_en_BZ);
   (lit "en-CA", loc_en_CA);
   (lit "en-CC", loc_en_CC);
   (lit "en-CH", loc_en_CH);
   (lit "en-CK", loc_en_CK);
   (lit "en-CM", loc_en_CM);
   (lit "en-CX", loc_en_CX);
   (lit "en-CY", loc_en_CY);
   (lit "en-DE", loc_en_DE);
   (lit "en-DG", loc_en_DG);
   (lit "en-DK", loc_en_DK);
   (lit "en-DM", loc_en_DM);
   (lit "en-ER", loc_en_ER);
   (lit "en-FI", loc_en_FI);
   (lit "en-FJ", loc_en_FJ);
   (lit "en-FK", loc_en_FK);
   (lit "en-FM", loc_en_FM);
   (lit "en-GB", loc_en_GB);
   (lit "en-GD", loc_en_GD);
   (lit "en-GG", loc_en_GG);
   (lit "en-GH", loc_en_GH);
   (lit "en-GI", loc_en_GI);
   (lit "en-GM", loc_en_GM);
   (lit "en-GU", loc_en_GU);
   (lit "en-GY", loc_en_GY);
   (lit "en-HK", loc_en_HK);
   (lit "en-IE", loc_en_IE);
   (lit "en-IL", loc_en_IL);
   (lit "en-IM", loc_en_IM);
   (lit "en-IN", loc_en_IN);
   (lit "en-IO", loc_en_IO);
   (lit "en-JE", loc_en_JE);
   (lit "en-JM", loc_en_JM);
   (lit "en-KE", loc_en_KE);
   (lit "en-KI", loc_en_KI);
   (lit "en-KN", loc_en_KN);
   (lit "en-KY", loc_en_KY);
   (lit "en-LC", loc_en_LC);
   (lit "en-LR", loc_en_LR);
   (lit "en-LS", loc_en_LS);
   (lit "en-MG", loc_en_MG);
   (lit "en-MH", loc_en_MH);
   (lit "en-MO", loc_en_MO);
   (lit "en-MP", loc_en_MP);
   (lit "en-MS", loc_en_MS);
   (lit "en-MT", loc_en_MT);
   (lit "en-MU", loc_en_MU);
   (lit "en-MW", loc_en_MW);
   (lit "en-MY", loc_en_MY);
   (lit "en-NA", loc_en_NA);
   (lit "en-NF", loc_en_NF);
   (lit "en-NG", loc_en_NG);
   (lit "en-NL", loc_en_NL);
   (lit "en-NR", loc_en_NR);
   (lit "en-NU", loc_en_NU);
   (lit "en-NZ", loc_en_NZ);
   (lit "en-PG", loc_en_PG);
   (lit "en-PH", loc_en_PH);
   (lit "en-PK", loc_en_PK);
   (lit "en-PN", loc_en_PN);
   (lit "en-PR", loc_en_PR);
   (lit "en-PW", loc_en_PW);
   (lit "en-RW", loc_en_RW);
   (lit "en-SB", loc_en_SB);
   (lit "en-SC", loc_en_SC);
   (lit "en-SD", loc_en_SD);
   (lit "en-SE", loc_en_SE);
   (lit "en-SG", loc_en_SG);
   (lit "en-SH", loc_en_SH);
   (lit "en-SI", loc_en_SI);
   (lit "en-SL", loc_en_SL);
   (lit "en-SS", loc_en_SS);
   (lit "en-SX", loc_en_SX);
   (lit "en-SZ", loc_en_SZ);
   (lit "en-TC", loc_en_TC);
   (lit "en-TK", loc_en_TK);
   (lit "en-TO", loc_en_TO);
   (lit "en-TT", loc_en_TT);
   (lit "en-TV", loc_en_TV);
   (lit "en-TZ", loc_en_TZ);
   (lit "en-UG", loc_en_UG);
   (lit "en-UM", loc_en_UM);
   (lit "en-VC", loc_en_VC);
   (lit "en-VG", loc_en_VG);
   (lit "en-VI", loc_en_VI);
   (lit "en-VU", loc_en_VU);
   (lit "en-WS", loc_en_WS);
   (lit "en-ZA", loc_en_ZA);
   (lit "en-ZM", loc_en_ZM);
   (lit "en-ZW", loc_en_ZW);
   (lit "eo", loc_eo)].

(** each region with its language *)
Definition regions_03 : list (str * str) :=
  [(lit "de-AT", lit "de");
   (lit "de-BE", lit "de");
   (lit "de-CH", lit "de");
   (lit "de-IT", lit "de");
   (lit "de-LI", lit "de");
   (lit "de-LU", lit "de");
   (lit "ee-TG", lit "ee");
   (lit "el-CY", lit "el");
   (lit "en-001", lit "en");
   (lit "en-150", lit "en");
   (lit "en-AG", lit "en");
   (lit "en-AI", lit "en");
   (lit "en-AS", lit "en");
   (lit "en-AT", lit "en");
   (lit "en-AU", lit "en");
   (lit "en-BB", lit "en");
   (lit "en-BE", lit "en");
   (lit "en-BI", lit "en");
   (lit "en-BM", lit "en");
   (lit "en-BS", lit "en");
   (lit "en-BW", lit "en");
   (lit "en-BZ", lit "en");
   (lit "en-CA", lit "en");
   (lit "en-CC", lit "en");
   (lit "en-CH", lit "en");
   (lit "en-CK", lit "en");
   (lit "en-CM", lit "en");
   (lit "en-CX", lit "en");
   (lit "en-CY", lit "en");
   (lit "en-DE", lit "en");
   (lit "en-DG", lit "en");
   (lit "en-DK", lit "en");
   (lit "en-DM", lit "en");
   (lit "en-ER", lit "en");
   (lit "en-FI", lit "en");
   (lit "en-FJ", lit "en");
   (lit "en-FK", lit "en");
   (lit "en-FM", lit "en");
   (lit "en-GB", lit "en");
   (lit "en-GD", lit "en");
   (lit "en-GG", lit "en");
   (lit "en-GH", lit "en");
   (lit "en-GI", lit "en");
   (lit "en-GM", lit "en");
   (lit "en-GU", lit "en");
   (lit "en-GY", lit "en");
   (lit "en-HK", lit "en");
   (lit "en-IE", lit "en");
   (lit "en-IL", lit "en");
   (lit "en-IM", lit "en");
   (lit "en-IN", lit "en");
   (lit "en-IO", lit "en");
   (lit "en-JE", lit "en");
   (lit "en-JM", lit "en");
   (lit "en-KE", lit "en");
   (lit "en-KI", lit "en");
   (lit "en-KN", lit "en");
   (lit "en-KY", lit "en");
   (lit "en-LC", lit "en");
   (lit "en-LR", lit "en");
   (lit "en-LS", lit "en");
   (lit "en-MG", lit "en");
   (lit "en-MH", lit "en");
   (lit "en-MO", lit "en");
   (lit "en-MP", lit "en");
   (lit "en-MS", lit "en");
   (lit "en-MT", lit "en");
   (lit "en-MU", lit "en");
   (lit "en-MW", lit "en");
   (lit "en-MY", lit "en");
   (lit "en-NA", lit "en");
   (lit "en-NF", lit "en");
   (lit "en-NG", lit "en");
   (lit "en-NL", lit "en");
   (lit "en-NR", lit "en");
   (lit "en-NU", lit "en");
   (lit "en-NZ", lit "en");
   (lit "en-PG", lit "en");
   (lit "en-PH", lit "en");
   (lit "en-PK", lit "en");
   (lit "en-PN", lit "en");
   (lit "en-PR", lit "en");
   (lit "en-PW", lit "en");
   (lit "en-RW", lit "en");
   (lit "en-SB", lit "en");
   (lit "en-SC", lit "en");
   (lit "en-SD", lit "en");
   (lit "en-SE", lit "en");
   (lit "en-SG", lit "en");
   (lit "en-SH", lit "en");
   (lit "en-SI", lit "en");
   (lit "en-SL", lit "en");
   (lit "en-SS", lit "en");
   (lit "en-SX", lit "en");
   (lit "en-SZ", lit "en");
   (lit "en-TC", lit "en");
   (lit "en-TK", lit "en");
   (lit "en-TO", lit "en");
   (lit "en-TT", lit "en");
   (lit "en-TV", lit "en");
   (lit "en-TZ", lit "en");
   (lit "en-UG", lit "en");
   (lit "en-UM", lit "en");
   (lit "en-VC", lit "en");
   (lit "en-VG", lit "en");
   (lit "en-VI", lit "en");
   (lit "en-VU", lit "en");
   (lit "en-WS", lit "en");
   (lit "en-ZA", lit "en");
   (lit "en-ZM", lit "en");
   (lit "en-ZW", lit "en")].
