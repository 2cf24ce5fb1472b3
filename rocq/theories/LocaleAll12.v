(** Generated by tools/gen_all_locales.py from /repo/internal/data. Do not edit. *)
From Verif Require Import GoBase SMap Regex Language LocaleData.

(** tr.go:13-158 *)
Definition loc_tr : locale := Eval vm_compute in
  {| ld_name := lit "tr"; ld_order := lit "DMY"; ld_nospacing := false; ld_splitter := 1;
    ld_charset := runes (lit "bcdefghiklnorstuvyzçöüğış");
    ld_abbr := [];
    ld_simpl := [];
    ld_trans := [(lit "icerisinde", [lit "in"]);
    (lit "cumartesi", [lit "saturday"]);
    (lit "pazartesi", [lit "monday"]);
    (lit "carsamba", [lit "wednesday"]);
    (lit "persembe", [lit "thursday"]);
    (lit "yaklasık", [lit ""]);
    (lit "agustos", [lit "august"]);
    (lit "haziran", [lit "june"]);
    (lit "aralık", [lit "december"]);
    (lit "dakika", [lit "minute"]);
    (lit "icinde", [lit "in"]);
    (lit "saniye", [lit "second"]);
    (lit "temmuz", [lit "july"]);
    (lit "eylul", [lit "september"]);
    (lit "hafta", [lit "week"]);
    (lit "kasım", [lit "november"]);
    (lit "mayıs", [lit "may"]);
    (lit "nisan", [lit "april"]);
    (lit "pazar", [lit "sunday"]);
    (lit "sonra", [lit "in"]);
    (lit "subat", [lit "february"]);
    (lit "cuma", [lit "friday"]);
    (lit "ekim", [lit "october"]);
    (lit "mart", [lit "march"]);
    (lit "ocak", [lit "january"]);
    (lit "once", [lit "ago"]);
    (lit "saat", [lit "hour"]);
    (lit "salı", [lit "tuesday"]);
    (lit "sene", [lit "year"]);
    (lit "agu", [lit "august"]);
    (lit "ara", [lit "december"]);
    (lit "car", [lit "wednesday"]);
    (lit "cmt", [lit "saturday"]);
    (lit "crs", [lit "wednesday"]);
    (lit "cum", [lit "friday"]);
    (lit "eki", [lit "october"]);
    (lit "eyl", [lit "september"]);
    (lit "gmt", [lit "gmt"]);
    (lit "gun", [lit "day"]);
    (lit "haz", [lit "june"]);
    (lit "kas", [lit "november"]);
    (lit "mar", [lit "march"]);
    (lit "may", [lit "may"]);
    (lit "nis", [lit "april"]);
    (lit "oca", [lit "january"]);
    (lit "paz", [lit "sunday"]);
    (lit "per", [lit "thursday"]);
    (lit "prs", [lit "thursday"]);
    (lit "pzt", [lit "monday"]);
    (lit "sal", [lit "tuesday"]);
    (lit "sub", [lit "february"]);
    (lit "tem", [lit "july"]);
    (lit "utc", [lit "utc"]);
    (lit "yıl", [lit "year"]);
    (lit "ag", [lit "august"]);
    (lit "am", [lit "am"]);
    (lit "ar", [lit "december"]);
    (lit "ay", [lit "month"]);
    (lit "dk", [lit "minute"]);
    (lit "ek", [lit "october"]);
    (lit "ey", [lit "september"]);
    (lit "ha", [lit "june"]);
    (lit "hf", [lit "week"]);
    (lit "ka", [lit "november"]);
    (lit "ni", [lit "april"]);
    (lit "oc", [lit "january"]);
    (lit "oo", [lit "am"]);
    (lit "os", [lit "pm"]);
    (lit "pm", [lit "pm"]);
    (lit "sa", [lit "hour"]);
    (lit "sn", [lit "second"]);
    (lit "su", [lit "february"]);
    (lit "te", [lit "july"]);
    (lit "ve", [lit ""]);
    (lit " ", [lit " "]);
    (lit "'", [lit ""]);
    (lit "+", [lit "+"]);
    (lit ",", [lit ""]);
    (lit "-", [lit "-"]);
    (lit ".", [lit "."]);
    (lit "/", [lit "/"]);
    (lit ":", [lit ":"]);
    (lit ";", [lit ""]);
    (lit "@", [lit ""]);
    (lit "[", [lit ""]);
    (lit "]", [lit ""]);
    (lit "z", [lit "z"]);
    (lit "|", [lit ""])];
    ld_reltype := [(lit "onumuzdeki hafta", lit "in 1 week");
    (lit "onumuzdeki gun", lit "in 1 day");
    (lit "onumuzdeki yıl", lit "in 1 year");
    (lit "gelecek hafta", lit "in 1 week");
    (lit "onumuzdeki ay", lit "in 1 month");
    (lit "gecen hafta", lit "1 week ago");
    (lit "gelecek yıl", lit "in 1 year");
    (lit "gelecek ay", lit "in 1 month");
    (lit "bu dakika", lit "0 minute ago");
    (lit "gecen gun", lit "1 day ago");
    (lit "gecen yıl", lit "1 year ago");
    (lit "bu hafta", lit "0 week ago");
    (lit "gecen ay", lit "1 month ago");
    (lit "bu saat", lit "0 hour ago");
    (lit "haftaya", lit "in 1 week");
    (lit "bu yıl", lit "0 year ago");
    (lit "bu ay", lit "0 month ago");
    (lit "bugun", lit "0 day ago");
    (lit "simdi", lit "0 second ago");
    (lit "yarın", lit "in 1 day");
    (lit "dun", lit "1 day ago")];
    ld_relrx := [(rx "(?i)(\d+[.,]?\d*) dakika sonra", lit "in $1 minute");
    (rx "(?i)(\d+[.,]?\d*) saniye sonra", lit "in $1 second");
    (rx "(?i)(\d+[.,]?\d*) dakika once", lit "$1 minute ago");
    (rx "(?i)(\d+[.,]?\d*) hafta sonra", lit "in $1 week");
    (rx "(?i)(\d+[.,]?\d*) saniye once", lit "$1 second ago");
    (rx "(?i)(\d+[.,]?\d*) hafta once", lit "$1 week ago");
    (rx "(?i)(\d+[.,]?\d*) saat sonra", lit "in $1 hour");
    (rx "(?i)(\d+[.,]?\d*) gun sonra", lit "in $1 day");
    (rx "(?i)(\d+[.,]?\d*) saat once", lit "$1 hour ago");
    (rx "(?i)(\d+[.,]?\d*) yıl sonra", lit "in $1 year");
    (rx "(?i)(\d+[.,]?\d*) ay sonra", lit "in $1 month");
    (rx "(?i)(\d+[.,]?\d*) dk sonra", lit "in $1 minute");
    (rx "(?i)(\d+[.,]?\d*) gun once", lit "$1 day ago");
    (rx "(?i)(\d+[.,]?\d*) hf sonra", lit "in $1 week");
    (rx "(?i)(\d+[.,]?\d*) sa sonra", lit "in $1 hour");
    (rx "(?i)(\d+[.,]?\d*) sn sonra", lit "in $1 second");
    (rx "(?i)(\d+[.,]?\d*) yıl once", lit "$1 year ago");
    (rx "(?i)(\d+[.,]?\d*) ay once", lit "$1 month ago");
    (rx "(?i)(\d+[.,]?\d*) dk once", lit "$1 minute ago");
    (rx "(?i)(\d+[.,]?\d*) hf once", lit "$1 week ago");
    (rx "(?i)(\d+[.,]?\d*) sa once", lit "$1 hour ago");
    (rx "(?i)(\d+[.,]?\d*) sn once", lit "$1 second ago")];
    ld_rx := Some (rx "(?i)(\A|[^\pL\pM\d]|_)(\d+[.,]?\d* dakika sonra|\d+[.,]?\d* saniye sonra|\d+[.,]?\d* dakika once|\d+[.,]?\d* hafta sonra|\d+[.,]?\d* saniye once|\d+[.,]?\d* hafta once|\d+[.,]?\d* saat sonra|\d+[.,]?\d* gun sonra|\d+[.,]?\d* saat once|\d+[.,]?\d* yıl sonra|\d+[.,]?\d* ay sonra|\d+[.,]?\d* dk sonra|\d+[.,]?\d* gun once|\d+[.,]?\d* hf sonra|\d+[.,]?\d* sa sonra|\d+[.,]?\d* sn sonra|\d+[.,]?\d* yıl once|\d+[.,]?\d* ay once|\d+[.,]?\d* dk once|\d+[.,]?\d* hf once|\d+[.,]?\d* sa once|\d+[.,]?\d* sn once)(\z|[^\pL\pM\d]|_)");
    ld_rx_exact := Some (rx "(?i)^(\d+[.,]?\d* dakika sonra|\d+[.,]?\d* saniye sonra|\d+[.,]?\d* dakika once|\d+[.,]?\d* hafta sonra|\d+[.,]?\d* saniye once|\d+[.,]?\d* hafta once|\d+[.,]?\d* saat sonra|\d+[.,]?\d* gun sonra|\d+[.,]?\d* saat once|\d+[.,]?\d* yıl sonra|\d+[.,]?\d* ay sonra|\d+[.,]?\d* dk sonra|\d+[.,]?\d* gun once|\d+[.,]?\d* hf sonra|\d+[.,]?\d* sa sonra|\d+[.,]?\d* sn sonra|\d+[.,]?\d* yıl once|\d+[.,]?\d* ay once|\d+[.,]?\d* dk once|\d+[.,]?\d* hf once|\d+[.,]?\d* sa once|\d+[.,]?\d* sn once)$");
    ld_known := [lit "onumuzdeki hafta";
    lit "onumuzdeki gun";
    lit "onumuzdeki yıl";
    lit "gelecek hafta";
    lit "onumuzdeki ay";
    lit "gecen hafta";
    lit "gelecek yıl";
    lit "gelecek ay";
    lit "icerisinde";
    lit "bu dakika";
    lit "cumartesi";
    lit "gecen gun";
    lit "gecen yıl";
    lit "pazartesi";
    lit "bu hafta";
    lit "carsamba";
    lit "gecen ay";
    lit "persembe";
    lit "yaklasık";
    lit "agustos";
    lit "bu saat";
    lit "haftaya";
    lit "haziran";
    lit "aralık";
    lit "bu yıl";
    lit "dakika";
    lit "icinde";
    lit "saniye";
    lit "temmuz";
    lit "bu ay";
    lit "bugun";
    lit "eylul";
    lit "hafta";
    lit "kasım";
    lit "mayıs";
    lit "nisan";
    lit "pazar";
    lit "simdi";
    lit "sonra";
    lit "subat";
    lit "yarın";
    lit "cuma";
    lit "ekim";
    lit "mart";
    lit "ocak";
    lit "once";
    lit "saat";
    lit "salı";
    lit "sene";
    lit "agu";
    lit "ara";
    lit "car";
    lit "cmt";
    lit "crs";
    lit "cum";
    lit "dun";
    lit "eki";
    lit "eyl";
    lit "gmt";
    lit "gun";
    lit "haz";
    lit "kas";
    lit "mar";
    lit "may";
    lit "nis";
    lit "oca";
    lit "paz";
    lit "per";
    lit "prs";
    lit "pzt";
    lit "sal";
    lit "sub";
    lit "tem";
    lit "utc";
    lit "yıl";
    lit "ag";
    lit "am";
    lit "ar";
    lit "ay";
    lit "dk";
    lit "ek";
    lit "ey";
    lit "ha";
    lit "hf";
    lit "ka";
    lit "ni";
    lit "oc";
    lit "oo";
    lit "os";
    lit "pm";
    lit "sa";
    lit "sn";
    lit "su";
    lit "te";
    lit "ve";
    lit " ";
    lit "'";
    lit "+";
    lit ",";
    lit "-";
    lit ".";
    lit "/";
    lit ":";
    lit ";";
    lit "@";
    lit "[";
    lit "]";
    lit "z";
    lit "|"] |}.

(** tr.go:160-163 *)
Definition own_tr_CY : locale := Eval vm_compute in
  {| ld_name := lit "tr-CY"; ld_order := lit "DMY"; ld_nospacing := false; ld_splitter := 0;
    ld_charset := runes (lit "");
    ld_abbr := [];
    ld_simpl := [];
    ld_trans := [];
    ld_reltype := [];
    ld_relrx := [];
    ld_rx := None;
    ld_rx_exact := None;
    ld_known := [] |}.
Definition loc_tr_CY : locale := merge loc_tr own_tr_CY.

(** twq.go:10-97 *)
Definition loc_twq : locale := Eval vm_compute in
  {| ld_name := lit "twq"; ld_order := lit "DMY"; ld_nospacing := false; ld_splitter := 0;
    ld_charset := runes (lit "bcdefghijklnorstuwxyzõŋž");
    ld_abbr := [];
    ld_simpl := [];
    ld_trans := [(lit "zaarikay b", [lit "pm"]);
    (lit "alhamiisa", [lit "thursday"]);
    (lit "deesanbur", [lit "december"]);
    (lit "feewiriye", [lit "february"]);
    (lit "noowanbur", [lit "november"]);
    (lit "sektanbur", [lit "september"]);
    (lit "atalaata", [lit "tuesday"]);
    (lit "oktoobur", [lit "october"]);
    (lit "subbaahi", [lit "am"]);
    (lit "zanwiye", [lit "january"]);
    (lit "alarba", [lit "wednesday"]);
    (lit "alhadi", [lit "sunday"]);
    (lit "alzuma", [lit "friday"]);
    (lit "asibti", [lit "saturday"]);
    (lit "atinni", [lit "monday"]);
    (lit "awiril", [lit "april"]);
    (lit "miniti", [lit "minute"]);
    (lit "guuru", [lit "hour"]);
    (lit "handu", [lit "month"]);
    (lit "jiiri", [lit "year"]);
    (lit "marsi", [lit "march"]);
    (lit "zaari", [lit "day"]);
    (lit "zuweŋ", [lit "june"]);
    (lit "zuyye", [lit "july"]);
    (lit "hebu", [lit "week"]);
    (lit "miti", [lit "second"]);
    (lit "ala", [lit "wednesday"]);
    (lit "alh", [lit "sunday"]);
    (lit "alm", [lit "thursday"]);
    (lit "alz", [lit "friday"]);
    (lit "asi", [lit "saturday"]);
    (lit "ata", [lit "tuesday"]);
    (lit "ati", [lit "monday"]);
    (lit "awi", [lit "april"]);
    (lit "dee", [lit "december"]);
    (lit "fee", [lit "february"]);
    (lit "gmt", [lit "gmt"]);
    (lit "mar", [lit "march"]);
    (lit "noo", [lit "november"]);
    (lit "okt", [lit "october"]);
    (lit "sek", [lit "september"]);
    (lit "utc", [lit "utc"]);
    (lit "zan", [lit "january"]);
    (lit "zuw", [lit "june"]);
    (lit "zuy", [lit "july"]);
    (lit "am", [lit "am"]);
    (lit "me", [lit "may"]);
    (lit "pm", [lit "pm"]);
    (lit "ut", [lit "august"]);
    (lit " ", [lit " "]);
    (lit "'", [lit ""]);
    (lit "+", [lit "+"]);
    (lit ",", [lit ""]);
    (lit "-", [lit "-"]);
    (lit ".", [lit "."]);
    (lit "/", [lit "/"]);
    (lit ":", [lit ":"]);
    (lit ";", [lit ""]);
    (lit "@", [lit ""]);
    (lit "[", [lit ""]);
    (lit "]", [lit ""]);
    (lit "z", [lit "z"]);
    (lit "|", [lit ""])];
    ld_reltype := [(lit "this minute", lit "0 minute ago");
    (lit "last month", lit "1 month ago");
    (lit "next month", lit "in 1 month");
    (lit "this month", lit "0 month ago");
    (lit "last week", lit "1 week ago");
    (lit "last year", lit "1 year ago");
    (lit "next week", lit "in 1 week");
    (lit "next year", lit "in 1 year");
    (lit "this hour", lit "0 hour ago");
    (lit "this week", lit "0 week ago");
    (lit "this year", lit "0 year ago");
    (lit "suba", lit "in 1 day");
    (lit "hoo", lit "0 day ago");
    (lit "now", lit "0 second ago");
    (lit "bi", lit "1 day ago")];
    ld_relrx := [];
    ld_rx := None;
    ld_rx_exact := None;
    ld_known := [lit "this minute";
    lit "last month";
    lit "next month";
    lit "this month";
    lit "zaarikay b";
    lit "alhamiisa";
    lit "deesanbur";
    lit "feewiriye";
    lit "last week";
    lit "last year";
    lit "next week";
    lit "next year";
    lit "noowanbur";
    lit "sektanbur";
    lit "this hour";
    lit "this week";
    lit "this year";
    lit "atalaata";
    lit "oktoobur";
    lit "subbaahi";
    lit "zanwiye";
    lit "alarba";
    lit "alhadi";
    lit "alzuma";
    lit "asibti";
    lit "atinni";
    lit "awiril";
    lit "miniti";
    lit "guuru";
    lit "handu";
    lit "jiiri";
    lit "marsi";
    lit "zaari";
    lit "zuweŋ";
    lit "zuyye";
    lit "hebu";
    lit "miti";
    lit "suba";
    lit "ala";
    lit "alh";
    lit "alm";
    lit "alz";
    lit "asi";
    lit "ata";
    lit "ati";
    lit "awi";
    lit "dee";
    lit "fee";
    lit "gmt";
    lit "hoo";
    lit "mar";
    lit "noo";
    lit "now";
    lit "okt";
    lit "sek";
    lit "utc";
    lit "zan";
    lit "zuw";
    lit "zuy";
    lit "am";
    lit "bi";
    lit "me";
    lit "pm";
    lit "ut";
    lit " ";
    lit "'";
    lit "+";
    lit ",";
    lit "-";
    lit ".";
    lit "/";
    lit ":";
    lit ";";
    lit "@";
    lit "[";
    lit "]";
    lit "z";
    lit "|"] |}.

(** tzm.go:10-99 *)
Definition loc_tzm : locale := Eval vm_compute in
  {| ld_name := lit "tzm"; ld_order := lit "DMY"; ld_nospacing := false; ld_splitter := 0;
    ld_charset := runes (lit "bcdefghijklnorstuwxyzɣḍṭ");
    ld_abbr := [];
    ld_simpl := [];
    ld_trans := [(lit "deffir aza", [lit "pm"]);
    (lit "zdat azal", [lit "am"]);
    (lit "asseggas", [lit "year"]);
    (lit "cutanbir", [lit "september"]);
    (lit "dujanbir", [lit "december"]);
    (lit "yebrayer", [lit "february"]);
    (lit "yennayer", [lit "january"]);
    (lit "asidyas", [lit "saturday"]);
    (lit "asimwas", [lit "friday"]);
    (lit "imalass", [lit "week"]);
    (lit "nwanbir", [lit "november"]);
    (lit "tasragt", [lit "hour"]);
    (lit "asamas", [lit "sunday"]);
    (lit "asinas", [lit "tuesday"]);
    (lit "ktuber", [lit "october"]);
    (lit "tusdat", [lit "minute"]);
    (lit "tusnat", [lit "second"]);
    (lit "yulyuz", [lit "july"]);
    (lit "akras", [lit "wednesday"]);
    (lit "akwas", [lit "thursday"]);
    (lit "aynas", [lit "monday"]);
    (lit "ibrir", [lit "april"]);
    (lit "mayyu", [lit "may"]);
    (lit "yunyu", [lit "june"]);
    (lit "ayur", [lit "month"]);
    (lit "mars", [lit "march"]);
    (lit "ɣuct", [lit "august"]);
    (lit "akr", [lit "wednesday"]);
    (lit "akw", [lit "thursday"]);
    (lit "asa", [lit "sunday"]);
    (lit "asd", [lit "saturday"]);
    (lit "asm", [lit "friday"]);
    (lit "asn", [lit "tuesday"]);
    (lit "ass", [lit "day"]);
    (lit "ayn", [lit "monday"]);
    (lit "cut", [lit "september"]);
    (lit "duj", [lit "december"]);
    (lit "gmt", [lit "gmt"]);
    (lit "ibr", [lit "april"]);
    (lit "ktu", [lit "october"]);
    (lit "mar", [lit "march"]);
    (lit "may", [lit "may"]);
    (lit "nwa", [lit "november"]);
    (lit "utc", [lit "utc"]);
    (lit "yeb", [lit "february"]);
    (lit "yen", [lit "january"]);
    (lit "yul", [lit "july"]);
    (lit "yun", [lit "june"]);
    (lit "ɣuc", [lit "august"]);
    (lit "am", [lit "am"]);
    (lit "pm", [lit "pm"]);
    (lit " ", [lit " "]);
    (lit "'", [lit ""]);
    (lit "+", [lit "+"]);
    (lit ",", [lit ""]);
    (lit "-", [lit "-"]);
    (lit ".", [lit "."]);
    (lit "/", [lit "/"]);
    (lit ":", [lit ":"]);
    (lit ";", [lit ""]);
    (lit "@", [lit ""]);
    (lit "[", [lit ""]);
    (lit "]", [lit ""]);
    (lit "z", [lit "z"]);
    (lit "|", [lit ""])];
    ld_reltype := [(lit "this minute", lit "0 minute ago");
    (lit "last month", lit "1 month ago");
    (lit "next month", lit "in 1 month");
    (lit "this month", lit "0 month ago");
    (lit "last week", lit "1 week ago");
    (lit "last year", lit "1 year ago");
    (lit "next week", lit "in 1 week");
    (lit "next year", lit "in 1 year");
    (lit "this hour", lit "0 hour ago");
    (lit "this week", lit "0 week ago");
    (lit "this year", lit "0 year ago");
    (lit "assenat", lit "1 day ago");
    (lit "asekka", lit "in 1 day");
    (lit "assa", lit "0 day ago");
    (lit "now", lit "0 second ago")];
    ld_relrx := [];
    ld_rx := None;
    ld_rx_exact := None;
    ld_known := [lit "this minute";
    lit "deffir aza";
    lit "last month";
    lit "next month";
    lit "this month";
    lit "last week";
    lit "last year";
    lit "next week";
    lit "next year";
    lit "this hour";
    lit "this week";
    lit "this year";
    lit "zdat azal";
    lit "asseggas";
    lit "cutanbir";
    lit "dujanbir";
    lit "yebrayer";
    lit "yennayer";
    lit "asidyas";
    lit "asimwas";
    lit "assenat";
    lit "imalass";
    lit "nwanbir";
    lit "tasragt";
    lit "asamas";
    lit "asekka";
    lit "asinas";
    lit "ktuber";
    lit "tusdat";
    lit "tusnat";
    lit "yulyuz";
    lit "akras";
    lit "akwas";
    lit "aynas";
    lit "ibrir";
    lit "mayyu";
    lit "yunyu";
    lit "assa";
    lit "ayur";
    lit "mars";
    lit "ɣuct";
    lit "akr";
    lit "akw";
    lit "asa";
    lit "asd";
    lit "asm";
    lit "asn";
    lit "ass";
    lit "ayn";
    lit "cut";
    lit "duj";
    lit "gmt";
    lit "ibr";
    lit "ktu";
    lit "mar";
    lit "may";
    lit "now";
    lit "nwa";
    lit "utc";
    lit "yeb";
    lit "yen";
    lit "yul";
    lit "yun";
    lit "ɣuc";
    lit "am";
    lit "pm";
    lit " ";
    lit "'";
    lit "+";
    lit ",";
    lit "-";
    lit ".";
    lit "/";
    lit ":";
    lit ";";
    lit "@";
    lit "[";
    lit "]";
    lit "z";
    lit "|"] |}.

(** ug.go:12-109 *)
Definition loc_ug : locale := Eval vm_compute in
  {| ld_name := lit "ug"; ld_order := lit "YMD"; ld_nospacing := false; ld_splitter := 0;
    ld_charset := runes (lit "ceghinorstuwzئابتجدرسشغفكلمنوىيپچگھۆۇۈۋېە");
    ld_abbr := [];
    ld_simpl := [];
    ld_trans := [(lit "چۈشتىن بۇرۇن", [lit "am"]);
    (lit "چۈشتىن كېيىن", [lit "pm"]);
    (lit "سېنتەبىر", [lit "september"]);
    (lit "سەيشەنبە", [lit "tuesday"]);
    (lit "يۆكتەبىر", [lit "october"]);
    (lit "يەكشەنبە", [lit "sunday"]);
    (lit "پەيشەنبە", [lit "thursday"]);
    (lit "چارشەنبە", [lit "wednesday"]);
    (lit "دۈشەنبە", [lit "monday"]);
    (lit "دېكابىر", [lit "december"]);
    (lit "نويابىر", [lit "november"]);
    (lit "ياۋغۇست", [lit "august"]);
    (lit "سېكۇنت", [lit "second"]);
    (lit "فېۋرال", [lit "february"]);
    (lit "يانۋار", [lit "january"]);
    (lit "ياپرېل", [lit "april"]);
    (lit "سايەت", [lit "hour"]);
    (lit "شەنبە", [lit "saturday"]);
    (lit "مىنۇت", [lit "minute"]);
    (lit "يىيۇل", [lit "july"]);
    (lit "يىيۇن", [lit "june"]);
    (lit "ھەپتە", [lit "week"]);
    (lit "جۈمە", [lit "friday"]);
    (lit "مارت", [lit "march"]);
    (lit "gmt", [lit "gmt"]);
    (lit "utc", [lit "utc"]);
    (lit "كۈن", [lit "day"]);
    (lit "ماي", [lit "may"]);
    (lit "ياي", [lit "month"]);
    (lit "يىل", [lit "year"]);
    (lit "am", [lit "am"]);
    (lit "pm", [lit "pm"]);
    (lit "جۈ", [lit "friday"]);
    (lit "دۈ", [lit "monday"]);
    (lit "سە", [lit "tuesday"]);
    (lit "شە", [lit "saturday"]);
    (lit "يە", [lit "sunday"]);
    (lit "پە", [lit "thursday"]);
    (lit "چا", [lit "wednesday"]);
    (lit "چب", [lit "am"]);
    (lit "چك", [lit "pm"]);
    (lit " ", [lit " "]);
    (lit "'", [lit ""]);
    (lit "+", [lit "+"]);
    (lit ",", [lit ""]);
    (lit "-", [lit "-"]);
    (lit ".", [lit "."]);
    (lit "/", [lit "/"]);
    (lit ":", [lit ":"]);
    (lit ";", [lit ""]);
    (lit "@", [lit ""]);
    (lit "[", [lit ""]);
    (lit "]", [lit ""]);
    (lit "z", [lit "z"]);
    (lit "|", [lit ""])];
    ld_reltype := [(lit "يۆتكەن ھەپتە", lit "1 week ago");
    (lit "this minute", lit "0 minute ago");
    (lit "كېلەر ھەپتە", lit "in 1 week");
    (lit "يۆتكەن ياي", lit "1 month ago");
    (lit "يۆتكەن يىل", lit "1 year ago");
    (lit "this hour", lit "0 hour ago");
    (lit "كېلەر ياي", lit "in 1 month");
    (lit "كېلەر يىل", lit "in 1 year");
    (lit "بۇ ھەپتە", lit "0 week ago");
    (lit "تۈنۈگۈن", lit "1 day ago");
    (lit "بۇ ياي", lit "0 month ago");
    (lit "بۇ يىل", lit "0 year ago");
    (lit "بۈگۈن", lit "0 day ago");
    (lit "يەتە", lit "in 1 day");
    (lit "now", lit "0 second ago")];
    ld_relrx := [(rx "(?i)(\d+[.,]?\d*) سېكۇنتتىن كېيىن", lit "in $1 second");
    (rx "(?i)(\d+[.,]?\d*) سايەتتىن كېيىن", lit "in $1 hour");
    (rx "(?i)(\d+[.,]?\d*) سېكۇنت يىلگىرى", lit "$1 second ago");
    (rx "(?i)(\d+[.,]?\d*) مىنۇتتىن كېيىن", lit "in $1 minute");
    (rx "(?i)(\d+[.,]?\d*) ھەپتىدىن كېيىن", lit "in $1 week");
    (rx "(?i)(\d+[.,]?\d*) سايەت يىلگىرى", lit "$1 hour ago");
    (rx "(?i)(\d+[.,]?\d*) مىنۇت يىلگىرى", lit "$1 minute ago");
    (rx "(?i)(\d+[.,]?\d*) ھەپتە يىلگىرى", lit "$1 week ago");
    (rx "(?i)(\d+[.,]?\d*) كۈندىن كېيىن", lit "in $1 day");
    (rx "(?i)(\d+[.,]?\d*) يايدىن كېيىن", lit "in $1 month");
    (rx "(?i)(\d+[.,]?\d*) يىلدىن كېيىن", lit "in $1 year");
    (rx "(?i)(\d+[.,]?\d*) كۈن يىلگىرى", lit "$1 day ago");
    (rx "(?i)(\d+[.,]?\d*) ياي يىلگىرى", lit "$1 month ago");
    (rx "(?i)(\d+[.,]?\d*) يىل يىلگىرى", lit "$1 year ago")];
    ld_rx := Some (rx "(?i)(\A|[^\pL\pM\d]|_)(\d+[.,]?\d* سېكۇنتتىن كېيىن|\d+[.,]?\d* سايەتتىن كېيىن|\d+[.,]?\d* سېكۇنت يىلگىرى|\d+[.,]?\d* مىنۇتتىن كېيىن|\d+[.,]?\d* ھەپتىدىن كېيىن|\d+[.,]?\d* سايەت يىلگىرى|\d+[.,]?\d* مىنۇت يىلگىرى|\d+[.,]?\d* ھەپتە يىلگىرى|\d+[.,]?\d* كۈندىن كېيىن|\d+[.,]?\d* يايدىن كېيىن|\d+[.,]?\d* يىلدىن كېيىن|\d+[.,]?\d* كۈن يىلگىرى|\d+[.,]?\d* ياي يىلگىرى|\d+[.,]?\d* يىل يىلگىرى)(\z|[^\pL\pM\d]|_)");
    ld_rx_exact := Some (rx "(?i)^(\d+[.,]?\d* سېكۇنتتىن كېيىن|\d+[.,]?\d* سايەتتىن كېيىن|\d+[.,]?\d* سېكۇنت يىلگىرى|\d+[.,]?\d* مىنۇتتىن كېيىن|\d+[.,]?\d* ھەپتىدىن كېيىن|\d+[.,]?\d* سايەت يىلگىرى|\d+[.,]?\d* مىنۇت يىلگىرى|\d+[.,]?\d* ھەپتە يىلگىرى|\d+[.,]?\d* كۈندىن كېيىن|\d+[.,]?\d* يايدىن كېيىن|\d+[.,]?\d* يىلدىن كېيىن|\d+[.,]?\d* كۈن يىلگىرى|\d+[.,]?\d* ياي يىلگىرى|\d+[.,]?\d* يىل يىلگىرى)$");
    ld_known := [lit "يۆتكەن ھەپتە";
    lit "چۈشتىن بۇرۇن";
    lit "چۈشتىن كېيىن";
    lit "this minute";
    lit "كېلەر ھەپتە";
    lit "يۆتكەن ياي";
    lit "يۆتكەن يىل";
    lit "this hour";
    lit "كېلەر ياي";
    lit "كېلەر يىل";
    lit "بۇ ھەپتە";
    lit "سېنتەبىر";
    lit "سەيشەنبە";
    lit "يۆكتەبىر";
    lit "يەكشەنبە";
    lit "پەيشەنبە";
    lit "چارشەنبە";
    lit "تۈنۈگۈن";
    lit "دۈشەنبە";
    lit "دېكابىر";
    lit "نويابىر";
    lit "ياۋغۇست";
    lit "بۇ ياي";
    lit "بۇ يىل";
    lit "سېكۇنت";
    lit "فېۋرال";
    lit "يانۋار";
    lit "ياپرېل";
    lit "بۈگۈن";
    lit "سايەت";
    lit "شەنبە";
    lit "مىنۇت";
    lit "يىيۇل";
    lit "يىيۇن";
    lit "ھەپتە";
    lit "جۈمە";
    lit "مارت";
    lit "يەتە";
    lit "gmt";
    lit "now";
    lit "utc";
    lit "كۈن";
    lit "ماي";
    lit "ياي";
    lit "يىل";
    lit "am";
    lit "pm";
    lit "جۈ";
    lit "دۈ";
    lit "سە";
    lit "شە";
    lit "يە";
    lit "پە";
    lit "چا";
    lit "چب";
    lit "چك";
    lit " ";
    lit "'";
    lit "+";
    lit ",";
    lit "-";
    lit ".";
    lit "/";
    lit ":";
    lit ";";
    lit "@";
    lit "[";
    lit "]";
    lit "z";
    lit "|"] |}.

(** uk.go:12-307 *)
Definition loc_uk : locale := Eval vm_compute in
  {| ld_name := lit "uk"; ld_order := lit "DMY"; ld_nospacing := false; ld_splitter := 1;
    ld_charset := runes (lit "cgtuzабвгдежзийклмнопрстухцчьюяєії");
    ld_abbr := [];
    ld_simpl := [(rx "(?i)(\A|[^\pL\pM\d_])од(на|ну|ні|ноі|нієі|ин|ніи)(\z|[^\pL\pM\d_])", lit "${1}1${2}");
    (rx "(?i)(\A|[^\pL\pM\d_])дв(а|і|оє|ох)(\z|[^\pL\pM\d_])", lit "${1}2${2}");
    (rx "(?i)(\A|[^\pL\pM\d_])пар[ауі](\z|[^\pL\pM\d_])", lit "${1}2${2}");
    (rx "(?i)(\A|[^\pL\pM\d_])три(\z|[^\pL\pM\d_])", lit "${1}3${2}");
    (rx "(?i)(\A|[^\pL\pM\d_])чотири(\z|[^\pL\pM\d_])", lit "${1}4${2}");
    (rx "(?i)(\A|[^\pL\pM\d_])п'ять(\z|[^\pL\pM\d_])", lit "${1}5${2}");
    (rx "(?i)(\A|[^\pL\pM\d_])шість(\z|[^\pL\pM\d_])", lit "${1}6${2}");
    (rx "(?i)(\A|[^\pL\pM\d_])сім(\z|[^\pL\pM\d_])", lit "${1}7${2}");
    (rx "(?i)(\A|[^\pL\pM\d_])вісім(\z|[^\pL\pM\d_])", lit "${1}8${2}");
    (rx "(?i)(\A|[^\pL\pM\d_])дев'ять(\z|[^\pL\pM\d_])", lit "${1}9${2}");
    (rx "(?i)(\A|[^\pL\pM\d_])десять(\z|[^\pL\pM\d_])", lit "${1}10${2}");
    (rx "(?i)(\A|[^\pL\pM\d_])одинадцять(\z|[^\pL\pM\d_])", lit "${1}11${2}");
    (rx "(?i)(\A|[^\pL\pM\d_])дванадцять(\z|[^\pL\pM\d_])", lit "${1}12${2}");
    (rx "(?i)(\A|[^\pL\pM\d_])п'ятнадцять(\z|[^\pL\pM\d_])", lit "${1}15${2}");
    (rx "(?i)(\A|[^\pL\pM\d_])двадцять(\z|[^\pL\pM\d_])", lit "${1}20${2}");
    (rx "(?i)(\A|[^\pL\pM\d_])тридцять(\z|[^\pL\pM\d_])", lit "${1}30${2}");
    (rx "(?i)(\A|[^\pL\pM\d_])сорок(\z|[^\pL\pM\d_])", lit "${1}40${2}");
    (rx "(?i)(\A|[^\pL\pM\d_])п'ятдесят(\z|[^\pL\pM\d_])", lit "${1}50${2}");
    (rx "(?i)(\A|[^\pL\pM\d_])півгодини(\z|[^\pL\pM\d_])", lit "${1}30 хвилин${2}");
    (rx "(?i)(\A|[^\pL\pM\d_])пів години(\z|[^\pL\pM\d_])", lit "${1}30 хвилин${2}");
    (rx "(?i)(\A|[^\pL\pM\d_])півроку(\z|[^\pL\pM\d_])", lit "${1}6 місяців${2}");
    (rx "(?i)(\A|[^\pL\pM\d_])пів року(\z|[^\pL\pM\d_])", lit "${1}6 місяців${2}");
    (rx "(?i)(\A|[^\pL\pM\d_])півтори години(\z|[^\pL\pM\d_])", lit "${1}90 хвилин${2}");
    (rx "(?i)(\A|[^\pL\pM\d_])півтора року(\z|[^\pL\pM\d_])", lit "${1}18 місяців${2}");
    (rx "(?i)(\A|[^\pL\pM\d_])^година(\z|[^\pL\pM\d_])", lit "${1}1 година${2}");
    (rx "(?i)(\A|[^\pL\pM\d_])^годину(\z|[^\pL\pM\d_])", lit "${1}1 годину${2}");
    (rx "(?i)(\A|[^\pL\pM\d_])^хвилину(\z|[^\pL\pM\d_])", lit "${1}1 хвилину${2}");
    (rx "(?i)(\A|[^\pL\pM\d_])^секунду(\z|[^\pL\pM\d_])", lit "${1}1 секунду${2}");
    (rx "(?i)(\A|[^\pL\pM\d_])кілька секунд(\z|[^\pL\pM\d_])", lit "${1}44 секунди${2}");
    (rx "(?i)(\A|[^\pL\pM\d_])кілька хвилин(\z|[^\pL\pM\d_])", lit "${1}2 хвилини${2}");
    (rx "(?i)(\A|[^\pL\pM\d_])опів на(\z|[^\pL\pM\d_])", lit "${1}30 хвилин${2}");
    (rx "(?i)(\A|[^\pL\pM\d_])за чверть(\z|[^\pL\pM\d_])", lit "${1}15 хвилин${2}")];
    ld_trans := [(lit "після полудня", [lit "pm"]);
    (lit "до полудня", [lit "am"]);
    (lit "листопада", [lit "november"]);
    (lit "понеділок", [lit "monday"]);
    (lit "пополудні", [lit "pm"]);
    (lit "приблизно", [lit ""]);
    (lit "березень", [lit "march"]);
    (lit "вересень", [lit "september"]);
    (lit "вівторок", [lit "tuesday"]);
    (lit "листопад", [lit "november"]);
    (lit "місяцеві", [lit "month"]);
    (lit "місяцями", [lit "month"]);
    (lit "п'ятниця", [lit "friday"]);
    (lit "протягом", [lit "in"]);
    (lit "секундою", [lit "second"]);
    (lit "хвилиною", [lit "minute"]);
    (lit "березня", [lit "march"]);
    (lit "близько", [lit ""]);
    (lit "вересня", [lit "september"]);
    (lit "годиною", [lit "hour"]);
    (lit "грудень", [lit "december"]);
    (lit "жовтень", [lit "october"]);
    (lit "квітень", [lit "april"]);
    (lit "місяцем", [lit "month"]);
    (lit "місяцям", [lit "month"]);
    (lit "місяцях", [lit "month"]);
    (lit "місяців", [lit "month"]);
    (lit "секунда", [lit "second"]);
    (lit "секунди", [lit "second"]);
    (lit "секундо", [lit "second"]);
    (lit "секунду", [lit "second"]);
    (lit "секунді", [lit "second"]);
    (lit "серпень", [lit "august"]);
    (lit "тиждень", [lit "week"]);
    (lit "тижневі", [lit "week"]);
    (lit "травень", [lit "may"]);
    (lit "хвилина", [lit "minute"]);
    (lit "хвилини", [lit "minute"]);
    (lit "хвилино", [lit "minute"]);
    (lit "хвилину", [lit "minute"]);
    (lit "хвилині", [lit "minute"]);
    (lit "червень", [lit "june"]);
    (lit "вівтор", [lit "tuesday"]);
    (lit "година", [lit "hour"]);
    (lit "години", [lit "hour"]);
    (lit "годино", [lit "hour"]);
    (lit "годину", [lit "hour"]);
    (lit "годині", [lit "hour"]);
    (lit "грудня", [lit "december"]);
    (lit "жовтня", [lit "october"]);
    (lit "квітня", [lit "april"]);
    (lit "липень", [lit "july"]);
    (lit "листоп", [lit "november"]);
    (lit "лютого", [lit "february"]);
    (lit "місяць", [lit "month"]);
    (lit "місяцю", [lit "month"]);
    (lit "місяця", [lit "month"]);
    (lit "місяці", [lit "month"]);
    (lit "неділю", [lit "sunday"]);
    (lit "неділя", [lit "sunday"]);
    (lit "роками", [lit "year"]);
    (lit "рокові", [lit "year"]);
    (lit "секунд", [lit "second"]);
    (lit "середа", [lit "wednesday"]);
    (lit "середу", [lit "wednesday"]);
    (lit "серпня", [lit "august"]);
    (lit "субота", [lit "saturday"]);
    (lit "суботу", [lit "saturday"]);
    (lit "січень", [lit "january"]);
    (lit "тижнем", [lit "week"]);
    (lit "тижнів", [lit "week"]);
    (lit "травня", [lit "may"]);
    (lit "хвилин", [lit "minute"]);
    (lit "червня", [lit "june"]);
    (lit "четвер", [lit "thursday"]);
    (lit "берез", [lit "march"]);
    (lit "верес", [lit "september"]);
    (lit "годин", [lit "hour"]);
    (lit "дневі", [lit "day"]);
    (lit "липня", [lit "july"]);
    (lit "лютии", [lit "february"]);
    (lit "назад", [lit "ago"]);
    (lit "неділ", [lit "sunday"]);
    (lit "понед", [lit "monday"]);
    (lit "роках", [lit "year"]);
    (lit "роком", [lit "year"]);
    (lit "років", [lit "year"]);
    (lit "серед", [lit "wednesday"]);
    (lit "субот", [lit "saturday"]);
    (lit "січня", [lit "january"]);
    (lit "тижню", [lit "week"]);
    (lit "тижня", [lit "week"]);
    (lit "тижні", [lit "week"]);
    (lit "через", [lit "in"]);
    (lit "груд", [lit "december"]);
    (lit "день", [lit "day"]);
    (lit "днем", [lit "day"]);
    (lit "днів", [lit "day"]);
    (lit "доба", [lit "day"]);
    (lit "доби", [lit "day"]);
    (lit "жовт", [lit "october"]);
    (lit "квіт", [lit "april"]);
    (lit "лист", [lit "november"]);
    (lit "роки", [lit "year"]);
    (lit "року", [lit "year"]);
    (lit "році", [lit "year"]);
    (lit "серп", [lit "august"]);
    (lit "тому", [lit "ago"]);
    (lit "трав", [lit "may"]);
    (lit "черв", [lit "june"]);
    (lit "gmt", [lit "gmt"]);
    (lit "utc", [lit "utc"]);
    (lit "бер", [lit "march"]);
    (lit "вер", [lit "september"]);
    (lit "вів", [lit "tuesday"]);
    (lit "год", [lit "hour"]);
    (lit "гру", [lit "december"]);
    (lit "дню", [lit "day"]);
    (lit "дня", [lit "day"]);
    (lit "дні", [lit "day"]);
    (lit "діб", [lit "day"]);
    (lit "жов", [lit "october"]);
    (lit "кві", [lit "april"]);
    (lit "лип", [lit "july"]);
    (lit "лис", [lit "november"]);
    (lit "лют", [lit "february"]);
    (lit "міс", [lit "month"]);
    (lit "нед", [lit "sunday"]);
    (lit "пон", [lit "monday"]);
    (lit "пят", [lit "friday"]);
    (lit "рік", [lit "year"]);
    (lit "сек", [lit "second"]);
    (lit "сер", [lit "august"; lit "wednesday"]);
    (lit "суб", [lit "saturday"]);
    (lit "січ", [lit "january"]);
    (lit "тиж", [lit "week"]);
    (lit "тра", [lit "may"]);
    (lit "чер", [lit "june"]);
    (lit "чет", [lit "thursday"]);
    (lit "am", [lit "am"]);
    (lit "pm", [lit "pm"]);
    (lit "вт", [lit "tuesday"]);
    (lit "дн", [lit "day"]);
    (lit "дп", [lit "am"]);
    (lit "за", [lit "in"]);
    (lit "нд", [lit "sunday"]);
    (lit "об", [lit ""]);
    (lit "пн", [lit "monday"]);
    (lit "пп", [lit "pm"]);
    (lit "пт", [lit "friday"]);
    (lit "сб", [lit "saturday"]);
    (lit "ср", [lit "wednesday"]);
    (lit "хв", [lit "minute"]);
    (lit "чт", [lit "thursday"]);
    (lit " ", [lit " "]);
    (lit "'", [lit ""]);
    (lit "+", [lit "+"]);
    (lit ",", [lit ""]);
    (lit "-", [lit "-"]);
    (lit ".", [lit "."]);
    (lit "/", [lit "/"]);
    (lit ":", [lit ":"]);
    (lit ";", [lit ""]);
    (lit "@", [lit ""]);
    (lit "[", [lit ""]);
    (lit "]", [lit ""]);
    (lit "z", [lit "z"]);
    (lit "|", [lit ""]);
    (lit "г", [lit "hour"]);
    (lit "д", [lit "day"]);
    (lit "м", [lit "month"]);
    (lit "о", [lit ""]);
    (lit "р", [lit "year"]);
    (lit "с", [lit "second"]);
    (lit "т", [lit "week"]);
    (lit "і", [lit ""])];
    ld_reltype := [(lit "наступного місяця", lit "in 1 month");
    (lit "наступного тижня", lit "in 1 week");
    (lit "минулого місяця", lit "1 month ago");
    (lit "наступного року", lit "in 1 year");
    (lit "минулого тижня", lit "1 week ago");
    (lit "цього місяця", lit "0 month ago");
    (lit "цієі хвилини", lit "0 minute ago");
    (lit "післязавтра", lit "in 2 day");
    (lit "цього тижня", lit "0 week ago");
    (lit "цієі години", lit "0 hour ago");
    (lit "цього року", lit "0 year ago");
    (lit "позавчора", lit "2 day ago");
    (lit "сьогодні", lit "0 day ago");
    (lit "завтра", lit "in 1 day");
    (lit "вчора", lit "1 day ago");
    (lit "зараз", lit "0 second ago");
    (lit "торік", lit "1 year ago");
    (lit "учора", lit "1 day ago")];
    ld_relrx := [(rx "(?i)через (\d+[.,]?\d*) секунди", lit "in $1 second");
    (rx "(?i)через (\d+[.,]?\d*) секунду", lit "in $1 second");
    (rx "(?i)через (\d+[.,]?\d*) тиждень", lit "in $1 week");
    (rx "(?i)через (\d+[.,]?\d*) хвилини", lit "in $1 minute");
    (rx "(?i)через (\d+[.,]?\d*) хвилину", lit "in $1 minute");
    (rx "(?i)(\d+[.,]?\d*) секунда тому", lit "${1} second ago");
    (rx "(?i)(\d+[.,]?\d*) секунди тому", lit "$1 second ago");
    (rx "(?i)(\d+[.,]?\d*) секунду тому", lit "$1 second ago");
    (rx "(?i)(\d+[.,]?\d*) тиждень тому", lit "$1 week ago");
    (rx "(?i)(\d+[.,]?\d*) хвилина тому", lit "${1} minute ago");
    (rx "(?i)(\d+[.,]?\d*) хвилини тому", lit "$1 minute ago");
    (rx "(?i)(\d+[.,]?\d*) хвилину тому", lit "$1 minute ago");
    (rx "(?i)через (\d+[.,]?\d*) години", lit "in $1 hour");
    (rx "(?i)через (\d+[.,]?\d*) годину", lit "in $1 hour");
    (rx "(?i)через (\d+[.,]?\d*) місяць", lit "in $1 month");
    (rx "(?i)через (\d+[.,]?\d*) місяця", lit "in $1 month");
    (rx "(?i)(\d+[.,]?\d*) година тому", lit "${1} hour ago");
    (rx "(?i)(\d+[.,]?\d*) години тому", lit "$1 hour ago");
    (rx "(?i)(\d+[.,]?\d*) годину тому", lit "$1 hour ago");
    (rx "(?i)(\d+[.,]?\d*) місяць тому", lit "$1 month ago");
    (rx "(?i)(\d+[.,]?\d*) місяця тому", lit "$1 month ago");
    (rx "(?i)через (\d+[.,]?\d*) тижня", lit "in $1 week");
    (rx "(?i)(\d+[.,]?\d*) тижня тому", lit "$1 week ago");
    (rx "(?i)через (\d+[.,]?\d*) день", lit "in $1 day");
    (rx "(?i)через (\d+[.,]?\d*) року", lit "in $1 year");
    (rx "(?i)(\d+[.,]?\d*) день тому", lit "$1 day ago");
    (rx "(?i)(\d+[.,]?\d*) року тому", lit "$1 year ago");
    (rx "(?i)через (\d+[.,]?\d*) год", lit "in $1 hour");
    (rx "(?i)через (\d+[.,]?\d*) дня", lit "in $1 day");
    (rx "(?i)через (\d+[.,]?\d*) міс", lit "in $1 month");
    (rx "(?i)через (\d+[.,]?\d*) рік", lit "in $1 year");
    (rx "(?i)через (\d+[.,]?\d*) тиж", lit "in $1 week");
    (rx "(?i)(\d+[.,]?\d*) год тому", lit "$1 hour ago");
    (rx "(?i)(\d+[.,]?\d*) дня тому", lit "$1 day ago");
    (rx "(?i)(\d+[.,]?\d*) міс тому", lit "$1 month ago");
    (rx "(?i)(\d+[.,]?\d*) рік тому", lit "$1 year ago");
    (rx "(?i)(\d+[.,]?\d*) тиж тому", lit "$1 week ago");
    (rx "(?i)через (\d+[.,]?\d*) дн", lit "in $1 day");
    (rx "(?i)через (\d+[.,]?\d*) хв", lit "in $1 minute");
    (rx "(?i)(\d+[.,]?\d*) дн тому", lit "$1 day ago");
    (rx "(?i)(\d+[.,]?\d*) хв тому", lit "$1 minute ago");
    (rx "(?i)через (\d+[.,]?\d*) р", lit "in $1 year");
    (rx "(?i)через (\d+[.,]?\d*) с", lit "in $1 second");
    (rx "(?i)(\d+[.,]?\d*) д тому", lit "$1 day ago");
    (rx "(?i)(\d+[.,]?\d*) р тому", lit "$1 year ago");
    (rx "(?i)(\d+[.,]?\d*) с тому", lit "$1 second ago");
    (rx "(?i)за (\d+[.,]?\d*) год", lit "in $1 hour");
    (rx "(?i)за (\d+[.,]?\d*) міс", lit "in $1 month");
    (rx "(?i)за (\d+[.,]?\d*) тиж", lit "in $1 week");
    (rx "(?i)за (\d+[.,]?\d*) хв", lit "in $1 minute");
    (rx "(?i)за (\d+[.,]?\d*) д", lit "in $1 day");
    (rx "(?i)за (\d+[.,]?\d*) р", lit "in $1 year");
    (rx "(?i)за (\d+[.,]?\d*) с", lit "in $1 second")];
    ld_rx := Some (rx "(?i)(\A|[^\pL\pM\d]|_)(через \d+[.,]?\d* секунди|через \d+[.,]?\d* секунду|через \d+[.,]?\d* тиждень|через \d+[.,]?\d* хвилини|через \d+[.,]?\d* хвилину|\d+[.,]?\d* секунда тому|\d+[.,]?\d* секунди тому|\d+[.,]?\d* секунду тому|\d+[.,]?\d* тиждень тому|\d+[.,]?\d* хвилина тому|\d+[.,]?\d* хвилини тому|\d+[.,]?\d* хвилину тому|через \d+[.,]?\d* години|через \d+[.,]?\d* годину|через \d+[.,]?\d* місяць|через \d+[.,]?\d* місяця|\d+[.,]?\d* година тому|\d+[.,]?\d* години тому|\d+[.,]?\d* годину тому|\d+[.,]?\d* місяць тому|\d+[.,]?\d* місяця тому|через \d+[.,]?\d* тижня|\d+[.,]?\d* тижня тому|через \d+[.,]?\d* день|через \d+[.,]?\d* року|\d+[.,]?\d* день тому|\d+[.,]?\d* року тому|через \d+[.,]?\d* год|через \d+[.,]?\d* дня|через \d+[.,]?\d* міс|через \d+[.,]?\d* рік|через \d+[.,]?\d* тиж|\d+[.,]?\d* год тому|\d+[.,]?\d* дня тому|\d+[.,]?\d* міс тому|\d+[.,]?\d* рік тому|\d+[.,]?\d* тиж тому|через \d+[.,]?\d* дн|через \d+[.,]?\d* хв|\d+[.,]?\d* дн тому|\d+[.,]?\d* хв тому|через \d+[.,]?\d* р|через \d+[.,]?\d* с|\d+[.,]?\d* д тому|\d+[.,]?\d* р тому|\d+[.,]?\d* с тому|за \d+[.,]?\d* год|за \d+[.,]?\d* міс|за \d+[.,]?\d* тиж|за \d+[.,]?\d* хв|за \d+[.,]?\d* д|за \d+[.,]?\d* р|за \d+[.,]?\d* с)(\z|[^\pL\pM\d]|_)");
    ld_rx_exact := Some (rx "(?i)^(через \d+[.,]?\d* секунди|через \d+[.,]?\d* секунду|через \d+[.,]?\d* тиждень|через \d+[.,]?\d* хвилини|через \d+[.,]?\d* хвилину|\d+[.,]?\d* секунда тому|\d+[.,]?\d* секунди тому|\d+[.,]?\d* секунду тому|\d+[.,]?\d* тиждень тому|\d+[.,]?\d* хвилина тому|\d+[.,]?\d* хвилини тому|\d+[.,]?\d* хвилину тому|через \d+[.,]?\d* години|через \d+[.,]?\d* годину|через \d+[.,]?\d* місяць|через \d+[.,]?\d* місяця|\d+[.,]?\d* година тому|\d+[.,]?\d* години тому|\d+[.,]?\d* годину тому|\d+[.,]?\d* місяць тому|\d+[.,]?\d* місяця тому|через \d+[.,]?\d* тижня|\d+[.,]?\d* тижня тому|через \d+[.,]?\d* день|через \d+[.,]?\d* року|\d+[.,]?\d* день тому|\d+[.,]?\d* року тому|через \d+[.,]?\d* год|через \d+[.,]?\d* дня|через \d+[.,]?\d* міс|через \d+[.,]?\d* рік|через \d+[.,]?\d* тиж|\d+[.,]?\d* год тому|\d+[.,]?\d* дня тому|\d+[.,]?\d* міс тому|\d+[.,]?\d* рік тому|\d+[.,]?\d* тиж тому|через \d+[.,]?\d* дн|через \d+[.,]?\d* хв|\d+[.,]?\d* дн тому|\d+[.,]?\d* хв тому|через \d+[.,]?\d* р|через \d+[.,]?\d* с|\d+[.,]?\d* д тому|\d+[.,]?\d* р тому|\d+[.,]?\d* с тому|за \d+[.,]?\d* год|за \d+[.,]?\d* міс|за \d+[.,]?\d* тиж|за \d+[.,]?\d* хв|за \d+[.,]?\d* д|за \d+[.,]?\d* р|за \d+[.,]?\d* с)$");
    ld_known := [lit "наступного місяця";
    lit "наступного тижня";
    lit "минулого місяця";
    lit "наступного року";
    lit "минулого тижня";
    lit "після полудня";
    lit "цього місяця";
    lit "цієі хвилини";
    lit "післязавтра";
    lit "цього тижня";
    lit "цієі години";
    lit "до полудня";
    lit "цього року";
    lit "листопада";
    lit "позавчора";
    lit "понеділок";
    lit "пополудні";
    lit "приблизно";
    lit "березень";
    lit "вересень";
    lit "вівторок";
    lit "листопад";
    lit "місяцеві";
    lit "місяцями";
    lit "п'ятниця";
    lit "протягом";
    lit "секундою";
    lit "сьогодні";
    lit "хвилиною";
    lit "березня";
    lit "близько";
    lit "вересня";
    lit "годиною";
    lit "грудень";
    lit "жовтень";
    lit "квітень";
    lit "місяцем";
    lit "місяцям";
    lit "місяцях";
    lit "місяців";
    lit "секунда";
    lit "секунди";
    lit "секундо";
    lit "секунду";
    lit "секунді";
    lit "серпень";
    lit "тиждень";
    lit "тижневі";
    lit "травень";
    lit "хвилина";
    lit "хвилини";
    lit "хвилино";
    lit "хвилину";
    lit "хвилині";
    lit "червень";
    lit "вівтор";
    lit "година";
    lit "години";
    lit "годино";
    lit "годину";
    lit "годині";
    lit "грудня";
    lit "жовтня";
    lit "завтра";
    lit "квітня";
    lit "липень";
    lit "листоп";
    lit "лютого";
    lit "місяць";
    lit "місяцю";
    lit "місяця";
    lit "місяці";
    lit "неділю";
    lit "неділя";
    lit "роками";
    lit "рокові";
    lit "секунд";
    lit "середа";
    lit "середу";
    lit "серпня";
    lit "субота";
    lit "суботу";
    lit "січень";
    lit "тижнем";
    lit "тижнів";
    lit "травня";
    lit "хвилин";
    lit "червня";
    lit "четвер";
    lit "берез";
    lit "верес";
    lit "вчора";
    lit "годин";
    lit "дневі";
    lit "зараз";
    lit "липня";
    lit "лютии";
    lit "назад";
    lit "неділ";
    lit "понед";
    lit "роках";
    lit "роком";
    lit "років";
    lit "серед";
    lit "субот";
    lit "січня";
    lit "тижню";
    lit "тижня";
    lit "тижні";
    lit "торік";
    lit "учора";
    lit "через";
    lit "груд";
    lit "день";
    lit "днем";
    lit "днів";
    lit "доба";
    lit "доби";
    lit "жовт";
    lit "квіт";
    lit "лист";
    lit "роки";
    lit "року";
    lit "році";
    lit "серп";
    lit "тому";
    lit "трав";
    lit "черв";
    lit "gmt";
    lit "utc";
    lit "бер";
    lit "вер";
    lit "вів";
    lit "год";
    lit "гру";
    lit "дню";
    lit "дня";
    lit "дні";
    lit "діб";
    lit "жов";
    lit "кві";
    lit "лип";
    lit "лис";
    lit "лют";
    lit "міс";
    lit "нед";
    lit "пон";
    lit "пят";
    lit "рік";
    lit "сек";
    lit "сер";
    lit "суб";
    lit "січ";
    lit "тиж";
    lit "тра";
    lit "чер";
    lit "чет";
    lit "am";
    lit "pm";
    lit "вт";
    lit "дн";
    lit "дп";
    lit "за";
    lit "нд";
    lit "об";
    lit "пн";
    lit "пп";
    lit "пт";
    lit "сб";
    lit "ср";
    lit "хв";
    lit "чт";
    lit " ";
    lit "'";
    lit "+";
    lit ",";
    lit "-";
    lit ".";
    lit "/";
    lit ":";
    lit ";";
    lit "@";
    lit "[";
    lit "]";
    lit "z";
    lit "|";
    lit "г";
    lit "д";
    lit "м";
    lit "о";
    lit "р";
    lit "с";
    lit "т";
    lit "і"] |}.

(** ur.go:13-111 *)
Definition loc_ur : locale := Eval vm_compute in
  {| ld_name := lit "ur"; ld_order := lit "DMY"; ld_nospacing := false; ld_splitter := 0;
    ld_charset := runes (lit "cgtuzآئابتجدرزسشعفلمنويٹپچڈکگھہیے");
    ld_abbr := [];
    ld_simpl := [];
    ld_trans := [(lit "اکتوبر", [lit "october"]);
    (lit "جمعرات", [lit "thursday"]);
    (lit "جولايی", [lit "july"]);
    (lit "سوموار", [lit "monday"]);
    (lit "اتوار", [lit "sunday"]);
    (lit "اپریل", [lit "april"]);
    (lit "جنوری", [lit "january"]);
    (lit "دسمبر", [lit "december"]);
    (lit "ستمبر", [lit "september"]);
    (lit "سیکنڈ", [lit "second"]);
    (lit "فروری", [lit "february"]);
    (lit "مہینہ", [lit "month"]);
    (lit "نومبر", [lit "november"]);
    (lit "گھنٹہ", [lit "hour"]);
    (lit "اگست", [lit "august"]);
    (lit "جمعہ", [lit "friday"]);
    (lit "مارچ", [lit "march"]);
    (lit "منگل", [lit "tuesday"]);
    (lit "ہفتہ", [lit "week"; lit "saturday"]);
    (lit "gmt", [lit "gmt"]);
    (lit "utc", [lit "utc"]);
    (lit "بدھ", [lit "wednesday"]);
    (lit "جون", [lit "june"]);
    (lit "سال", [lit "year"]);
    (lit "ماہ", [lit "month"]);
    (lit "منٹ", [lit "minute"]);
    (lit "ميی", [lit "may"]);
    (lit "am", [lit "am"]);
    (lit "pm", [lit "pm"]);
    (lit "دن", [lit "day"]);
    (lit " ", [lit " "]);
    (lit "'", [lit ""]);
    (lit "+", [lit "+"]);
    (lit ",", [lit ""]);
    (lit "-", [lit "-"]);
    (lit ".", [lit "."]);
    (lit "/", [lit "/"]);
    (lit ":", [lit ":"]);
    (lit ";", [lit ""]);
    (lit "@", [lit ""]);
    (lit "[", [lit ""]);
    (lit "]", [lit ""]);
    (lit "z", [lit "z"]);
    (lit "|", [lit ""])];
    ld_reltype := [(lit "پچھلے مہینہ", lit "1 month ago");
    (lit "اگلے مہینہ", lit "in 1 month");
    (lit "پچھلے ہفتہ", lit "1 week ago");
    (lit "اگلے ہفتہ", lit "in 1 week");
    (lit "گزشتہ سال", lit "1 year ago");
    (lit "اس مہینہ", lit "0 month ago");
    (lit "اس گھنٹے", lit "0 hour ago");
    (lit "ايندہ کل", lit "in 1 day");
    (lit "اگلے سال", lit "in 1 year");
    (lit "گزشتہ کل", lit "1 day ago");
    (lit "اس ہفتہ", lit "0 week ago");
    (lit "اس سال", lit "0 year ago");
    (lit "اس منٹ", lit "0 minute ago");
    (lit "اب", lit "0 second ago");
    (lit "اج", lit "0 day ago")];
    ld_relrx := [(rx "(?i)(\d+[.,]?\d*) سیکنڈ پہلے", lit "$1 second ago");
    (rx "(?i)(\d+[.,]?\d*) مہینہ پہلے", lit "$1 month ago");
    (rx "(?i)(\d+[.,]?\d*) مہینے پہلے", lit "$1 month ago");
    (rx "(?i)(\d+[.,]?\d*) گھنٹوں میں", lit "in $1 hour");
    (rx "(?i)(\d+[.,]?\d*) گھنٹہ پہلے", lit "$1 hour ago");
    (rx "(?i)(\d+[.,]?\d*) گھنٹے پہلے", lit "$1 hour ago");
    (rx "(?i)(\d+[.,]?\d*) دنوں پہلے", lit "$1 day ago");
    (rx "(?i)(\d+[.,]?\d*) سیکنڈ میں", lit "in $1 second");
    (rx "(?i)(\d+[.,]?\d*) مہینہ میں", lit "in $1 month");
    (rx "(?i)(\d+[.,]?\d*) مہینے میں", lit "in $1 month");
    (rx "(?i)(\d+[.,]?\d*) گھنٹہ میں", lit "in $1 hour");
    (rx "(?i)(\d+[.,]?\d*) گھنٹے میں", lit "in $1 hour");
    (rx "(?i)(\d+[.,]?\d*) ہفتہ پہلے", lit "$1 week ago");
    (rx "(?i)(\d+[.,]?\d*) ہفتے پہلے", lit "$1 week ago");
    (rx "(?i)(\d+[.,]?\d*) دنوں میں", lit "in $1 day");
    (rx "(?i)(\d+[.,]?\d*) سال پہلے", lit "$1 year ago");
    (rx "(?i)(\d+[.,]?\d*) ماہ پہلے", lit "$1 month ago");
    (rx "(?i)(\d+[.,]?\d*) منٹ پہلے", lit "$1 minute ago");
    (rx "(?i)(\d+[.,]?\d*) ہفتہ میں", lit "in $1 week");
    (rx "(?i)(\d+[.,]?\d*) ہفتے میں", lit "in $1 week");
    (rx "(?i)(\d+[.,]?\d*) دن پہلے", lit "$1 day ago");
    (rx "(?i)(\d+[.,]?\d*) سال میں", lit "in $1 year");
    (rx "(?i)(\d+[.,]?\d*) ماہ قبل", lit "$1 month ago");
    (rx "(?i)(\d+[.,]?\d*) ماہ میں", lit "in $1 month");
    (rx "(?i)(\d+[.,]?\d*) منٹ میں", lit "in $1 minute");
    (rx "(?i)(\d+[.,]?\d*) دن میں", lit "in $1 day")];
    ld_rx := Some (rx "(?i)(\A|[^\pL\pM\d]|_)(\d+[.,]?\d* سیکنڈ پہلے|\d+[.,]?\d* مہینہ پہلے|\d+[.,]?\d* مہینے پہلے|\d+[.,]?\d* گھنٹوں میں|\d+[.,]?\d* گھنٹہ پہلے|\d+[.,]?\d* گھنٹے پہلے|\d+[.,]?\d* دنوں پہلے|\d+[.,]?\d* سیکنڈ میں|\d+[.,]?\d* مہینہ میں|\d+[.,]?\d* مہینے میں|\d+[.,]?\d* گھنٹہ میں|\d+[.,]?\d* گھنٹے میں|\d+[.,]?\d* ہفتہ پہلے|\d+[.,]?\d* ہفتے پہلے|\d+[.,]?\d* دنوں میں|\d+[.,]?\d* سال پہلے|\d+[.,]?\d* ماہ پہلے|\d+[.,]?\d* منٹ پہلے|\d+[.,]?\d* ہفتہ میں|\d+[.,]?\d* ہفتے میں|\d+[.,]?\d* دن پہلے|\d+[.,]?\d* سال میں|\d+[.,]?\d* ماہ قبل|\d+[.,]?\d* ماہ میں|\d+[.,]?\d* منٹ میں|\d+[.,]?\d* دن میں)(\z|[^\pL\pM\d]|_)");
    ld_rx_exact := Some (rx "(?i)^(\d+[.,]?\d* سیکنڈ پہلے|\d+[.,]?\d* مہینہ پہلے|\d+[.,]?\d* مہینے پہلے|\d+[.,]?\d* گھنٹوں میں|\d+[.,]?\d* گھنٹہ پہلے|\d+[.,]?\d* گھنٹے پہلے|\d+[.,]?\d* دنوں پہلے|\d+[.,]?\d* سیکنڈ میں|\d+[.,]?\d* مہینہ میں|\d+[.,]?\d* مہینے میں|\d+[.,]?\d* گھنٹہ میں|\d+[.,]?\d* گھنٹے میں|\d+[.,]?\d* ہفتہ پہلے|\d+[.,]?\d* ہفتے پہلے|\d+[.,]?\d* دنوں میں|\d+[.,]?\d* سال پہلے|\d+[.,]?\d* ماہ پہلے|\d+[.,]?\d* منٹ پہلے|\d+[.,]?\d* ہفتہ میں|\d+[.,]?\d* ہفتے میں|\d+[.,]?\d* دن پہلے|\d+[.,]?\d* سال میں|\d+[.,]?\d* ماہ قبل|\d+[.,]?\d* ماہ میں|\d+[.,]?\d* منٹ میں|\d+[.,]?\d* دن میں)$");
    ld_known := [lit "پچھلے مہینہ";
    lit "اگلے مہینہ";
    lit "پچھلے ہفتہ";
    lit "اگلے ہفتہ";
    lit "گزشتہ سال";
    lit "اس مہینہ";
    lit "اس گھنٹے";
    lit "ايندہ کل";
    lit "اگلے سال";
    lit "گزشتہ کل";
    lit "اس ہفتہ";
    lit "اس سال";
    lit "اس منٹ";
    lit "اکتوبر";
    lit "جمعرات";
    lit "جولايی";
    lit "سوموار";
    lit "اتوار";
    lit "اپریل";
    lit "جنوری";
    lit "دسمبر";
    lit "ستمبر";
    lit "سیکنڈ";
    lit "فروری";
    lit "مہینہ";
    lit "نومبر";
    lit "گھنٹہ";
    lit "اگست";
    lit "جمعہ";
    lit "مارچ";
    lit "منگل";
    lit "ہفتہ";
    lit "gmt";
    lit "utc";
    lit "بدھ";
    lit "جون";
    lit "سال";
    lit "ماہ";
    lit "منٹ";
    lit "ميی";
    lit "am";
    lit "pm";
    lit "اب";
    lit "اج";
    lit "دن";
    lit " ";
    lit "'";
    lit "+";
    lit ",";
    lit "-";
    lit ".";
    lit "/";
    lit ":";
    lit ";";
    lit "@";
    lit "[";
    lit "]";
    lit "z";
    lit "|"] |}.

(** ur.go:113-140 *)
Definition own_ur_IN : locale := Eval vm_compute in
  {| ld_name := lit "ur-IN"; ld_order := lit "DMY"; ld_nospacing := false; ld_splitter := 0;
    ld_charset := runes (lit "");
    ld_abbr := [];
    ld_simpl := [];
    ld_trans := [(lit "پیر", [lit "monday"])];
    ld_reltype := [(lit "گزشتہ ہفتہ", lit "1 week ago");
    (lit "گزشتہ ماہ", lit "1 month ago");
    (lit "اگلے ماہ", lit "in 1 month");
    (lit "اس ماہ", lit "0 month ago")];
    ld_relrx := [(rx "(?i)(\d+[.,]?\d*) سالوں پہلے", lit "$1 year ago");
    (rx "(?i)(\d+[.,]?\d*) سالوں میں", lit "in $1 year");
    (rx "(?i)(\d+[.,]?\d*) سیکنڈ قبل", lit "$1 second ago");
    (rx "(?i)(\d+[.,]?\d*) گھنٹہ قبل", lit "$1 hour ago");
    (rx "(?i)(\d+[.,]?\d*) گھنٹے قبل", lit "$1 hour ago");
    (rx "(?i)(\d+[.,]?\d*) ہفتوں میں", lit "in $1 week");
    (rx "(?i)(\d+[.,]?\d*) ہفتہ قبل", lit "$1 week ago");
    (rx "(?i)(\d+[.,]?\d*) ہفتے قبل", lit "$1 week ago");
    (rx "(?i)(\d+[.,]?\d*) منٹ قبل", lit "$1 minute ago");
    (rx "(?i)(\d+[.,]?\d*) دن قبل", lit "$1 day ago")];
    ld_rx := Some (rx "(?i)(\A|[^\pL\pM\d]|_)(\d+[.,]?\d* سالوں پہلے|\d+[.,]?\d* سیکنڈ پہلے|\d+[.,]?\d* مہینہ پہلے|\d+[.,]?\d* مہینے پہلے|\d+[.,]?\d* گھنٹوں میں|\d+[.,]?\d* گھنٹہ پہلے|\d+[.,]?\d* گھنٹے پہلے|\d+[.,]?\d* دنوں پہلے|\d+[.,]?\d* سالوں میں|\d+[.,]?\d* سیکنڈ قبل|\d+[.,]?\d* سیکنڈ میں|\d+[.,]?\d* مہینہ میں|\d+[.,]?\d* مہینے میں|\d+[.,]?\d* گھنٹہ قبل|\d+[.,]?\d* گھنٹہ میں|\d+[.,]?\d* گھنٹے قبل|\d+[.,]?\d* گھنٹے میں|\d+[.,]?\d* ہفتوں میں|\d+[.,]?\d* ہفتہ پہلے|\d+[.,]?\d* ہفتے پہلے|\d+[.,]?\d* دنوں میں|\d+[.,]?\d* سال پہلے|\d+[.,]?\d* ماہ پہلے|\d+[.,]?\d* منٹ پہلے|\d+[.,]?\d* ہفتہ قبل|\d+[.,]?\d* ہفتہ میں|\d+[.,]?\d* ہفتے قبل|\d+[.,]?\d* ہفتے میں|\d+[.,]?\d* دن پہلے|\d+[.,]?\d* سال میں|\d+[.,]?\d* ماہ قبل|\d+[.,]?\d* ماہ میں|\d+[.,]?\d* منٹ قبل|\d+[.,]?\d* منٹ میں|\d+[.,]?\d* دن قبل|\d+[.,]?\d* دن میں)(\z|[^\pL\pM\d]|_)");
    ld_rx_exact := Some (rx "(?i)^(\d+[.,]?\d* سالوں پہلے|\d+[.,]?\d* سیکنڈ پہلے|\d+[.,]?\d* مہینہ پہلے|\d+[.,]?\d* مہینے پہلے|\d+[.,]?\d* گھنٹوں میں|\d+[.,]?\d* گھنٹہ پہلے|\d+[.,]?\d* گھنٹے پہلے|\d+[.,]?\d* دنوں پہلے|\d+[.,]?\d* سالوں میں|\d+[.,]?\d* سیکنڈ قبل|\d+[.,]?\d* سیکنڈ میں|\d+[.,]?\d* مہینہ میں|\d+[.,]?\d* مہینے میں|\d+[.,]?\d* گھنٹہ قبل|\d+[.,]?\d* گھنٹہ میں|\d+[.,]?\d* گھنٹے قبل|\d+[.,]?\d* گھنٹے میں|\d+[.,]?\d* ہفتوں میں|\d+[.,]?\d* ہفتہ پہلے|\d+[.,]?\d* ہفتے پہلے|\d+[.,]?\d* دنوں میں|\d+[.,]?\d* سال پہلے|\d+[.,]?\d* ماہ پہلے|\d+[.,]?\d* منٹ پہلے|\d+[.,]?\d* ہفتہ قبل|\d+[.,]?\d* ہفتہ میں|\d+[.,]?\d* ہفتے قبل|\d+[.,]?\d* ہفتے میں|\d+[.,]?\d* دن پہلے|\d+[.,]?\d* سال میں|\d+[.,]?\d* ماہ قبل|\d+[.,]?\d* ماہ میں|\d+[.,]?\d* منٹ قبل|\d+[.,]?\d* منٹ میں|\d+[.,]?\d* دن قبل|\d+[.,]?\d* دن میں)$");
    ld_known := [lit "پچھلے مہینہ";
    lit "اگلے مہینہ";
    lit "پچھلے ہفتہ";
    lit "گزشتہ ہفتہ";
    lit "اگلے ہفتہ";
    lit "گزشتہ سال";
    lit "گزشتہ ماہ";
    lit "اس مہینہ";
    lit "اس گھنٹے";
    lit "ايندہ کل";
    lit "اگلے سال";
    lit "اگلے ماہ";
    lit "گزشتہ کل";
    lit "اس ہفتہ";
    lit "اس سال";
    lit "اس ماہ";
    lit "اس منٹ";
    lit "اکتوبر";
    lit "جمعرات";
    lit "جولايی";
    lit "سوموار";
    lit "اتوار";
    lit "اپریل";
    lit "جنوری";
    lit "دسمبر";
    lit "ستمبر";
    lit "سیکنڈ";
    lit "فروری";
    lit "مہینہ";
    lit "نومبر";
    lit "گھنٹہ";
    lit "اگست";
    lit "جمعہ";
    lit "مارچ";
    lit "منگل";
    lit "ہفتہ";
    lit "gmt";
    lit "utc";
    lit "بدھ";
    lit "جون";
    lit "سال";
    lit "ماہ";
    lit "منٹ";
    lit "ميی";
    lit "پیر";
    lit "am";
    lit "pm";
    lit "اب";
    lit "اج";
    lit "دن";
    lit " ";
    lit "'";
    lit "+";
    lit ",";
    lit "-";
    lit ".";
    lit "/";
    lit ":";
    lit ";";
    lit "@";
    lit "[";
    lit "]";
    lit "z";
    lit "|"] |}.
Definition loc_ur_IN : locale := merge loc_ur own_ur_IN.

(** uz-arab.go:10-95 *)
Definition loc_uz_Arab : locale := Eval vm_compute in
  {| ld_name := lit "uz-Arab"; ld_order := lit "YMD"; ld_nospacing := false; ld_splitter := 0;
    ld_charset := runes (lit "cdeghiklnorstuwxyzابتجدرسشعفلمنهوپچکگی‌");
    ld_abbr := [];
    ld_simpl := [];
    ld_trans := [(lit "چهارشنبه", [lit "wednesday"]);
    (lit "سه‌شنبه", [lit "tuesday"]);
    (lit "پنجشنبه", [lit "thursday"]);
    (lit "minute", [lit "minute"]);
    (lit "second", [lit "second"]);
    (lit "اکتوبر", [lit "october"]);
    (lit "دوشنبه", [lit "monday"]);
    (lit "سپتمبر", [lit "september"]);
    (lit "فبروری", [lit "february"]);
    (lit "یکشنبه", [lit "sunday"]);
    (lit "month", [lit "month"]);
    (lit "اپریل", [lit "april"]);
    (lit "جنوری", [lit "january"]);
    (lit "جولای", [lit "july"]);
    (lit "دسمبر", [lit "december"]);
    (lit "نومبر", [lit "november"]);
    (lit "hour", [lit "hour"]);
    (lit "week", [lit "week"]);
    (lit "year", [lit "year"]);
    (lit "اگست", [lit "august"]);
    (lit "جمعه", [lit "friday"]);
    (lit "شنبه", [lit "saturday"]);
    (lit "مارچ", [lit "march"]);
    (lit "day", [lit "day"]);
    (lit "gmt", [lit "gmt"]);
    (lit "utc", [lit "utc"]);
    (lit "اپر", [lit "april"]);
    (lit "اکت", [lit "october"]);
    (lit "اگس", [lit "august"]);
    (lit "جنو", [lit "january"]);
    (lit "جول", [lit "july"]);
    (lit "جون", [lit "june"]);
    (lit "دسم", [lit "december"]);
    (lit "سپت", [lit "september"]);
    (lit "فبر", [lit "february"]);
    (lit "مار", [lit "march"]);
    (lit "نوم", [lit "november"]);
    (lit "am", [lit "am"]);
    (lit "pm", [lit "pm"]);
    (lit "می", [lit "may"]);
    (lit " ", [lit " "]);
    (lit "'", [lit ""]);
    (lit "+", [lit "+"]);
    (lit ",", [lit ""]);
    (lit "-", [lit "-"]);
    (lit ".", [lit "."]);
    (lit "/", [lit "/"]);
    (lit ":", [lit ":"]);
    (lit ";", [lit ""]);
    (lit "@", [lit ""]);
    (lit "[", [lit ""]);
    (lit "]", [lit ""]);
    (lit "z", [lit "z"]);
    (lit "|", [lit ""]);
    (lit "ج", [lit "friday"]);
    (lit "د", [lit "monday"]);
    (lit "س", [lit "tuesday"]);
    (lit "ش", [lit "saturday"]);
    (lit "پ", [lit "thursday"]);
    (lit "چ", [lit "wednesday"]);
    (lit "ی", [lit "sunday"])];
    ld_reltype := [(lit "this minute", lit "0 minute ago");
    (lit "last month", lit "1 month ago");
    (lit "next month", lit "in 1 month");
    (lit "this month", lit "0 month ago");
    (lit "last week", lit "1 week ago");
    (lit "last year", lit "1 year ago");
    (lit "next week", lit "in 1 week");
    (lit "next year", lit "in 1 year");
    (lit "this hour", lit "0 hour ago");
    (lit "this week", lit "0 week ago");
    (lit "this year", lit "0 year ago");
    (lit "yesterday", lit "1 day ago");
    (lit "tomorrow", lit "in 1 day");
    (lit "today", lit "0 day ago");
    (lit "now", lit "0 second ago")];
    ld_relrx := [];
    ld_rx := None;
    ld_rx_exact := None;
    ld_known := [lit "this minute";
    lit "last month";
    lit "next month";
    lit "this month";
    lit "last week";
    lit "last year";
    lit "next week";
    lit "next year";
    lit "this hour";
    lit "this week";
    lit "this year";
    lit "yesterday";
    lit "tomorrow";
    lit "چهارشنبه";
    lit "سه‌شنبه";
    lit "پنجشنبه";
    lit "minute";
    lit "second";
    lit "اکتوبر";
    lit "دوشنبه";
    lit "سپتمبر";
    lit "فبروری";
    lit "یکشنبه";
    lit "month";
    lit "today";
    lit "اپریل";
    lit "جنوری";
    lit "جولای";
    lit "دسمبر";
    lit "نومبر";
    lit "hour";
    lit "week";
    lit "year";
    lit "اگست";
    lit "جمعه";
    lit "شنبه";
    lit "مارچ";
    lit "day";
    lit "gmt";
    lit "now";
    lit "utc";
    lit "اپر";
    lit "اکت";
    lit "اگس";
    lit "جنو";
    lit "جول";
    lit "جون";
    lit "دسم";
    lit "سپت";
    lit "فبر";
    lit "مار";
    lit "نوم";
    lit "am";
    lit "pm";
    lit "می";
    lit " ";
    lit "'";
    lit "+";
    lit ",";
    lit "-";
    lit ".";
    lit "/";
    lit ":";
    lit ";";
    lit "@";
    lit "[";
    lit "]";
    lit "z";
    lit "|";
    lit "ج";
    lit "د";
    lit "س";
    lit "ش";
    lit "پ";
    lit "چ";
    lit "ی"] |}.

(** uz-cyrl.go:12-116 *)
Definition loc_uz_Cyrl : locale := Eval vm_compute in
  {| ld_name := lit "uz-Cyrl"; ld_order := lit "DMY"; ld_nospacing := false; ld_splitter := 0;
    ld_charset := runes (lit "ceghinorstuzабвгдежзийклмнопрстуфчшэюяўқҳ");
    ld_abbr := [];
    ld_simpl := [];
    ld_trans := [(lit "паишанба", [lit "thursday"]);
    (lit "чоршанба", [lit "wednesday"]);
    (lit "душанба", [lit "monday"]);
    (lit "сентябр", [lit "september"]);
    (lit "сешанба", [lit "tuesday"]);
    (lit "якшанба", [lit "sunday"]);
    (lit "август", [lit "august"]);
    (lit "дақиқа", [lit "minute"]);
    (lit "декабр", [lit "december"]);
    (lit "октябр", [lit "october"]);
    (lit "феврал", [lit "february"]);
    (lit "апрел", [lit "april"]);
    (lit "ноябр", [lit "november"]);
    (lit "сония", [lit "second"]);
    (lit "шанба", [lit "saturday"]);
    (lit "январ", [lit "january"]);
    (lit "ҳафта", [lit "week"]);
    (lit "жума", [lit "friday"]);
    (lit "март", [lit "march"]);
    (lit "соат", [lit "hour"]);
    (lit "gmt", [lit "gmt"]);
    (lit "utc", [lit "utc"]);
    (lit "авг", [lit "august"]);
    (lit "апр", [lit "april"]);
    (lit "дек", [lit "december"]);
    (lit "душ", [lit "monday"]);
    (lit "жум", [lit "friday"]);
    (lit "иил", [lit "year"]);
    (lit "июл", [lit "july"]);
    (lit "июн", [lit "june"]);
    (lit "кун", [lit "day"]);
    (lit "маи", [lit "may"]);
    (lit "мар", [lit "march"]);
    (lit "ноя", [lit "november"]);
    (lit "окт", [lit "october"]);
    (lit "паи", [lit "thursday"]);
    (lit "сен", [lit "september"]);
    (lit "сеш", [lit "tuesday"]);
    (lit "фев", [lit "february"]);
    (lit "чор", [lit "wednesday"]);
    (lit "шан", [lit "saturday"]);
    (lit "якш", [lit "sunday"]);
    (lit "янв", [lit "january"]);
    (lit "am", [lit "am"]);
    (lit "pm", [lit "pm"]);
    (lit "ои", [lit "month"]);
    (lit "тк", [lit "pm"]);
    (lit "то", [lit "am"]);
    (lit " ", [lit " "]);
    (lit "'", [lit ""]);
    (lit "+", [lit "+"]);
    (lit ",", [lit ""]);
    (lit "-", [lit "-"]);
    (lit ".", [lit "."]);
    (lit "/", [lit "/"]);
    (lit ":", [lit ":"]);
    (lit ";", [lit ""]);
    (lit "@", [lit ""]);
    (lit "[", [lit ""]);
    (lit "]", [lit ""]);
    (lit "z", [lit "z"]);
    (lit "|", [lit ""])];
    ld_reltype := [(lit "кеиинги ҳафта", lit "in 1 week");
    (lit "this minute", lit "0 minute ago");
    (lit "кеиинги иил", lit "in 1 year");
    (lit "утган ҳафта", lit "1 week ago");
    (lit "кеиинги ои", lit "in 1 month");
    (lit "this hour", lit "0 hour ago");
    (lit "утган иил", lit "1 year ago");
    (lit "бу ҳафта", lit "0 week ago");
    (lit "утган ои", lit "1 month ago");
    (lit "бу иил", lit "0 year ago");
    (lit "эртага", lit "in 1 day");
    (lit "бу ои", lit "0 month ago");
    (lit "бугун", lit "0 day ago");
    (lit "ҳозир", lit "0 second ago");
    (lit "кеча", lit "1 day ago")];
    ld_relrx := [(rx "(?i)(\d+[.,]?\d*) дақиқадан сунг", lit "in $1 minute");
    (rx "(?i)(\d+[.,]?\d*) сониядан сунг", lit "in $1 second");
    (rx "(?i)(\d+[.,]?\d*) ҳафтадан сунг", lit "in $1 week");
    (rx "(?i)(\d+[.,]?\d*) дақиқа олдин", lit "$1 minute ago");
    (rx "(?i)(\d+[.,]?\d*) соатдан сунг", lit "in $1 hour");
    (rx "(?i)(\d+[.,]?\d*) иилдан сунг", lit "in $1 year");
    (rx "(?i)(\d+[.,]?\d*) кундан сунг", lit "in $1 day");
    (rx "(?i)(\d+[.,]?\d*) сония олдин", lit "$1 second ago");
    (rx "(?i)(\d+[.,]?\d*) ҳафта олдин", lit "$1 week ago");
    (rx "(?i)(\d+[.,]?\d*) оидан сунг", lit "in $1 month");
    (rx "(?i)(\d+[.,]?\d*) соат олдин", lit "$1 hour ago");
    (rx "(?i)(\d+[.,]?\d*) иил аввал", lit "$1 year ago");
    (rx "(?i)(\d+[.,]?\d*) кун олдин", lit "$1 day ago");
    (rx "(?i)(\d+[.,]?\d*) ои аввал", lit "$1 month ago")];
    ld_rx := Some (rx "(?i)(\A|[^\pL\pM\d]|_)(\d+[.,]?\d* дақиқадан сунг|\d+[.,]?\d* сониядан сунг|\d+[.,]?\d* ҳафтадан сунг|\d+[.,]?\d* дақиқа олдин|\d+[.,]?\d* соатдан сунг|\d+[.,]?\d* иилдан сунг|\d+[.,]?\d* кундан сунг|\d+[.,]?\d* сония олдин|\d+[.,]?\d* ҳафта олдин|\d+[.,]?\d* оидан сунг|\d+[.,]?\d* соат олдин|\d+[.,]?\d* иил аввал|\d+[.,]?\d* кун олдин|\d+[.,]?\d* ои аввал)(\z|[^\pL\pM\d]|_)");
    ld_rx_exact := Some (rx "(?i)^(\d+[.,]?\d* дақиқадан сунг|\d+[.,]?\d* сониядан сунг|\d+[.,]?\d* ҳафтадан сунг|\d+[.,]?\d* дақиқа олдин|\d+[.,]?\d* соатдан сунг|\d+[.,]?\d* иилдан сунг|\d+[.,]?\d* кундан сунг|\d+[.,]?\d* сония олдин|\d+[.,]?\d* ҳафта олдин|\d+[.,]?\d* оидан сунг|\d+[.,]?\d* соат олдин|\d+[.,]?\d* иил аввал|\d+[.,]?\d* кун олдин|\d+[.,]?\d* ои аввал)$");
    ld_known := [lit "кеиинги ҳафта";
    lit "this minute";
    lit "кеиинги иил";
    lit "утган ҳафта";
    lit "кеиинги ои";
    lit "this hour";
    lit "утган иил";
    lit "бу ҳафта";
    lit "паишанба";
    lit "утган ои";
    lit "чоршанба";
    lit "душанба";
    lit "сентябр";
    lit "сешанба";
    lit "якшанба";
    lit "август";
    lit "бу иил";
    lit "дақиқа";
    lit "декабр";
    lit "октябр";
    lit "феврал";
    lit "эртага";
    lit "апрел";
    lit "бу ои";
    lit "бугун";
    lit "ноябр";
    lit "сония";
    lit "шанба";
    lit "январ";
    lit "ҳафта";
    lit "ҳозир";
    lit "жума";
    lit "кеча";
    lit "март";
    lit "соат";
    lit "gmt";
    lit "utc";
    lit "авг";
    lit "апр";
    lit "дек";
    lit "душ";
    lit "жум";
    lit "иил";
    lit "июл";
    lit "июн";
    lit "кун";
    lit "маи";
    lit "мар";
    lit "ноя";
    lit "окт";
    lit "паи";
    lit "сен";
    lit "сеш";
    lit "фев";
    lit "чор";
    lit "шан";
    lit "якш";
    lit "янв";
    lit "am";
    lit "pm";
    lit "ои";
    lit "тк";
    lit "то";
    lit " ";
    lit "'";
    lit "+";
    lit ",";
    lit "-";
    lit ".";
    lit "/";
    lit ":";
    lit ";";
    lit "@";
    lit "[";
    lit "]";
    lit "z";
    lit "|"] |}.

(** uz-latn.go:12-122 *)
Definition loc_uz_Latn : locale := Eval vm_compute in
  {| ld_name := lit "uz-Latn"; ld_order := lit "DMY"; ld_nospacing := false; ld_splitter := 0;
    ld_charset := runes (lit "bcdefghijklnorstuvyz‘");
    ld_abbr := [];
    ld_simpl := [];
    ld_trans := [(lit "chorshanba", [lit "wednesday"]);
    (lit "payshanba", [lit "thursday"]);
    (lit "yakshanba", [lit "sunday"]);
    (lit "dushanba", [lit "monday"]);
    (lit "seshanba", [lit "tuesday"]);
    (lit "sentabr", [lit "september"]);
    (lit "avgust", [lit "august"]);
    (lit "daqiqa", [lit "minute"]);
    (lit "dekabr", [lit "december"]);
    (lit "fevral", [lit "february"]);
    (lit "noyabr", [lit "november"]);
    (lit "oktabr", [lit "october"]);
    (lit "shanba", [lit "saturday"]);
    (lit "soniya", [lit "second"]);
    (lit "yanvar", [lit "january"]);
    (lit "aprel", [lit "april"]);
    (lit "hafta", [lit "week"]);
    (lit "chor", [lit "wednesday"]);
    (lit "dush", [lit "monday"]);
    (lit "iyul", [lit "july"]);
    (lit "iyun", [lit "june"]);
    (lit "juma", [lit "friday"]);
    (lit "mart", [lit "march"]);
    (lit "sesh", [lit "tuesday"]);
    (lit "shan", [lit "saturday"]);
    (lit "soat", [lit "hour"]);
    (lit "apr", [lit "april"]);
    (lit "avg", [lit "august"]);
    (lit "daq", [lit "minute"]);
    (lit "dek", [lit "december"]);
    (lit "fev", [lit "february"]);
    (lit "gmt", [lit "gmt"]);
    (lit "iyl", [lit "july"]);
    (lit "iyn", [lit "june"]);
    (lit "jum", [lit "friday"]);
    (lit "kun", [lit "day"]);
    (lit "mar", [lit "march"]);
    (lit "may", [lit "may"]);
    (lit "noy", [lit "november"]);
    (lit "okt", [lit "october"]);
    (lit "pay", [lit "thursday"]);
    (lit "sen", [lit "september"]);
    (lit "son", [lit "second"]);
    (lit "utc", [lit "utc"]);
    (lit "yak", [lit "sunday"]);
    (lit "yan", [lit "january"]);
    (lit "yil", [lit "year"]);
    (lit "am", [lit "am"]);
    (lit "oy", [lit "month"]);
    (lit "pm", [lit "pm"]);
    (lit "tk", [lit "pm"]);
    (lit "to", [lit "am"]);
    (lit " ", [lit " "]);
    (lit "'", [lit ""]);
    (lit "+", [lit "+"]);
    (lit ",", [lit ""]);
    (lit "-", [lit "-"]);
    (lit ".", [lit "."]);
    (lit "/", [lit "/"]);
    (lit ":", [lit ":"]);
    (lit ";", [lit ""]);
    (lit "@", [lit ""]);
    (lit "[", [lit ""]);
    (lit "]", [lit ""]);
    (lit "z", [lit "z"]);
    (lit "|", [lit ""])];
    ld_reltype := [(lit "keyingi hafta", lit "in 1 week");
    (lit "o‘tgan hafta", lit "1 week ago");
    (lit "shu daqiqada", lit "0 minute ago");
    (lit "keyingi yil", lit "in 1 year");
    (lit "keyingi oy", lit "in 1 month");
    (lit "o'tgan yil", lit "1 year ago");
    (lit "o‘tgan yil", lit "1 year ago");
    (lit "shu soatda", lit "0 hour ago");
    (lit "o‘tgan oy", lit "1 month ago");
    (lit "shu hafta", lit "0 week ago");
    (lit "shu yil", lit "0 year ago");
    (lit "bu yil", lit "0 year ago");
    (lit "ertaga", lit "in 1 day");
    (lit "shu oy", lit "0 month ago");
    (lit "bugun", lit "0 day ago");
    (lit "hozir", lit "0 second ago");
    (lit "kecha", lit "1 day ago")];
    ld_relrx := [(rx "(?i)(\d+[.,]?\d*) daqiqadan keyin", lit "in $1 minute");
    (rx "(?i)(\d+[.,]?\d*) soniyadan keyin", lit "in $1 second");
    (rx "(?i)(\d+[.,]?\d*) haftadan keyin", lit "in $1 week");
    (rx "(?i)(\d+[.,]?\d*) soatdan keyin", lit "in $1 hour");
    (rx "(?i)(\d+[.,]?\d*) daqiqa oldin", lit "$1 minute ago");
    (rx "(?i)(\d+[.,]?\d*) kundan keyin", lit "in $1 day");
    (rx "(?i)(\d+[.,]?\d*) soniya oldin", lit "$1 second ago");
    (rx "(?i)(\d+[.,]?\d*) yildan keyin", lit "in $1 year");
    (rx "(?i)(\d+[.,]?\d*) hafta oldin", lit "$1 week ago");
    (rx "(?i)(\d+[.,]?\d*) oydan keyin", lit "in $1 month");
    (rx "(?i)(\d+[.,]?\d*) soat oldin", lit "$1 hour ago");
    (rx "(?i)(\d+[.,]?\d*) kun oldin", lit "$1 day ago");
    (rx "(?i)(\d+[.,]?\d*) yil oldin", lit "$1 year ago");
    (rx "(?i)(\d+[.,]?\d*) oy oldin", lit "$1 month ago")];
    ld_rx := Some (rx "(?i)(\A|[^\pL\pM\d]|_)(\d+[.,]?\d* daqiqadan keyin|\d+[.,]?\d* soniyadan keyin|\d+[.,]?\d* haftadan keyin|\d+[.,]?\d* soatdan keyin|\d+[.,]?\d* daqiqa oldin|\d+[.,]?\d* kundan keyin|\d+[.,]?\d* soniya oldin|\d+[.,]?\d* yildan keyin|\d+[.,]?\d* hafta oldin|\d+[.,]?\d* oydan keyin|\d+[.,]?\d* soat oldin|\d+[.,]?\d* kun oldin|\d+[.,]?\d* yil oldin|\d+[.,]?\d* oy oldin)(\z|[^\pL\pM\d]|_)");
    ld_rx_exact := Some (rx "(?i)^(\d+[.,]?\d* daqiqadan keyin|\d+[.,]?\d* soniyadan keyin|\d+[.,]?\d* haftadan keyin|\d+[.,]?\d* soatdan keyin|\d+[.,]?\d* daqiqa oldin|\d+[.,]?\d* kundan keyin|\d+[.,]?\d* soniya oldin|\d+[.,]?\d* yildan keyin|\d+[.,]?\d* hafta oldin|\d+[.,]?\d* oydan keyin|\d+[.,]?\d* soat oldin|\d+[.,]?\d* kun oldin|\d+[.,]?\d* yil oldin|\d+[.,]?\d* oy oldin)$");
    ld_known := [lit "keyingi hafta";
    lit "o‘tgan hafta";
    lit "shu daqiqada";
    lit "keyingi yil";
    lit "chorshanba";
    lit "keyingi oy";
    lit "o'tgan yil";
    lit "o‘tgan yil";
    lit "shu soatda";
    lit "o‘tgan oy";
    lit "payshanba";
    lit "shu hafta";
    lit "yakshanba";
    lit "dushanba";
    lit "seshanba";
    lit "sentabr";
    lit "shu yil";
    lit "avgust";
    lit "bu yil";
    lit "daqiqa";
    lit "dekabr";
    lit "ertaga";
    lit "fevral";
    lit "noyabr";
    lit "oktabr";
    lit "shanba";
    lit "shu oy";
    lit "soniya";
    lit "yanvar";
    lit "aprel";
    lit "bugun";
    lit "hafta";
    lit "hozir";
    lit "kecha";
    lit "chor";
    lit "dush";
    lit "iyul";
    lit "iyun";
    lit "juma";
    lit "mart";
    lit "sesh";
    lit "shan";
    lit "soat";
    lit "apr";
    lit "avg";
    lit "daq";
    lit "dek";
    lit "fev";
    lit "gmt";
    lit "iyl";
    lit "iyn";
    lit "jum";
    lit "kun";
    lit "mar";
    lit "may";
    lit "noy";
    lit "okt";
    lit "pay";
    lit "sen";
    lit "son";
    lit "utc";
    lit "yak";
    lit "yan";
    lit "yil";
    lit "am";
    lit "oy";
    lit "pm";
    lit "tk";
    lit "to";
    lit " ";
    lit "'";
    lit "+";
    lit ",";
    lit "-";
    lit ".";
    lit "/";
    lit ":";
    lit ";";
    lit "@";
    lit "[";
    lit "]";
    lit "z";
    lit "|"] |}.

(** uz.go:12-122 *)
Definition loc_uz : locale := Eval vm_compute in
  {| ld_name := lit "uz"; ld_order := lit "DMY"; ld_nospacing := false; ld_splitter := 0;
    ld_charset := runes (lit "bcdefghijklnorstuvyz‘");
    ld_abbr := [];
    ld_simpl := [];
    ld_trans := [(lit "chorshanba", [lit "wednesday"]);
    (lit "payshanba", [lit "thursday"]);
    (lit "yakshanba", [lit "sunday"]);
    (lit "dushanba", [lit "monday"]);
    (lit "seshanba", [lit "tuesday"]);
    (lit "sentabr", [lit "september"]);
    (lit "avgust", [lit "august"]);
    (lit "daqiqa", [lit "minute"]);
    (lit "dekabr", [lit "december"]);
    (lit "fevral", [lit "february"]);
    (lit "noyabr", [lit "november"]);
    (lit "oktabr", [lit "october"]);
    (lit "shanba", [lit "saturday"]);
    (lit "soniya", [lit "second"]);
    (lit "yanvar", [lit "january"]);
    (lit "aprel", [lit "april"]);
    (lit "hafta", [lit "week"]);
    (lit "chor", [lit "wednesday"]);
    (lit "dush", [lit "monday"]);
    (lit "iyul", [lit "july"]);
    (lit "iyun", [lit "june"]);
    (lit "juma", [lit "friday"]);
    (lit "mart", [lit "march"]);
    (lit "sesh", [lit "tuesday"]);
    (lit "shan", [lit "saturday"]);
    (lit "soat", [lit "hour"]);
    (lit "apr", [lit "april"]);
    (lit "avg", [lit "august"]);
    (lit "daq", [lit "minute"]);
    (lit "dek", [lit "december"]);
    (lit "fev", [lit "february"]);
    (lit "gmt", [lit "gmt"]);
    (lit "iyl", [lit "july"]);
    (lit "iyn", [lit "june"]);
    (lit "jum", [lit "friday"]);
    (lit "kun", [lit "day"]);
    (lit "mar", [lit "march"]);
    (lit "may", [lit "may"]);
    (lit "noy", [lit "november"]);
    (lit "okt", [lit "october"]);
    (lit "pay", [lit "thursday"]);
    (lit "sen", [lit "september"]);
    (lit "son", [lit "second"]);
    (lit "utc", [lit "utc"]);
    (lit "yak", [lit "sunday"]);
    (lit "yan", [lit "january"]);
    (lit "yil", [lit "year"]);
    (lit "am", [lit "am"]);
    (lit "oy", [lit "month"]);
    (lit "pm", [lit "pm"]);
    (lit "tk", [lit "pm"]);
    (lit "to", [lit "am"]);
    (lit " ", [lit " "]);
    (lit "'", [lit ""]);
    (lit "+", [lit "+"]);
    (lit ",", [lit ""]);
    (lit "-", [lit "-"]);
    (lit ".", [lit "."]);
    (lit "/", [lit "/"]);
    (lit ":", [lit ":"]);
    (lit ";", [lit ""]);
    (lit "@", [lit ""]);
    (lit "[", [lit ""]);
    (lit "]", [lit ""]);
    (lit "z", [lit "z"]);
    (lit "|", [lit ""])];
    ld_reltype := [(lit "keyingi hafta", lit "in 1 week");
    (lit "o‘tgan hafta", lit "1 week ago");
    (lit "shu daqiqada", lit "0 minute ago");
    (lit "keyingi yil", lit "in 1 year");
    (lit "keyingi oy", lit "in 1 month");
    (lit "o'tgan yil", lit "1 year ago");
    (lit "o‘tgan yil", lit "1 year ago");
    (lit "shu soatda", lit "0 hour ago");
    (lit "o‘tgan oy", lit "1 month ago");
    (lit "shu hafta", lit "0 week ago");
    (lit "shu yil", lit "0 year ago");
    (lit "bu yil", lit "0 year ago");
    (lit "ertaga", lit "in 1 day");
    (lit "shu oy", lit "0 month ago");
    (lit "bugun", lit "0 day ago");
    (lit "hozir", lit "0 second ago");
    (lit "kecha", lit "1 day ago")];
    ld_relrx := [(rx "(?i)(\d+[.,]?\d*) daqiqadan keyin", lit "in $1 minute");
    (rx "(?i)(\d+[.,]?\d*) soniyadan keyin", lit "in $1 second");
    (rx "(?i)(\d+[.,]?\d*) haftadan keyin", lit "in $1 week");
    (rx "(?i)(\d+[.,]?\d*) soatdan keyin", lit "in $1 hour");
    (rx "(?i)(\d+[.,]?\d*) daqiqa oldin", lit "$1 minute ago");
    (rx "(?i)(\d+[.,]?\d*) kundan keyin", lit "in $1 day");
    (rx "(?i)(\d+[.,]?\d*) soniya oldin", lit "$1 second ago");
    (rx "(?i)(\d+[.,]?\d*) yildan keyin", lit "in $1 year");
    (rx "(?i)(\d+[.,]?\d*) hafta oldin", lit "$1 week ago");
    (rx "(?i)(\d+[.,]?\d*) oydan keyin", lit "in $1 month");
    (rx "(?i)(\d+[.,]?\d*) soat oldin", lit "$1 hour ago");
    (rx "(?i)(\d+[.,]?\d*) kun oldin", lit "$1 day ago");
    (rx "(?i)(\d+[.,]?\d*) yil oldin", lit "$1 year ago");
    (rx "(?i)(\d+[.,]?\d*) oy oldin", lit "$1 month ago")];
    ld_rx := Some (rx "(?i)(\A|[^\pL\pM\d]|_)(\d+[.,]?\d* daqiqadan keyin|\d+[.,]?\d* soniyadan keyin|\d+[.,]?\d* haftadan keyin|\d+[.,]?\d* soatdan keyin|\d+[.,]?\d* daqiqa oldin|\d+[.,]?\d* kundan keyin|\d+[.,]?\d* soniya oldin|\d+[.,]?\d* yildan keyin|\d+[.,]?\d* hafta oldin|\d+[.,]?\d* oydan keyin|\d+[.,]?\d* soat oldin|\d+[.,]?\d* kun oldin|\d+[.,]?\d* yil oldin|\d+[.,]?\d* oy oldin)(\z|[^\pL\pM\d]|_)");
    ld_rx_exact := Some (rx "(?i)^(\d+[.,]?\d* daqiqadan keyin|\d+[.,]?\d* soniyadan keyin|\d+[.,]?\d* haftadan keyin|\d+[.,]?\d* soatdan keyin|\d+[.,]?\d* daqiqa oldin|\d+[.,]?\d* kundan keyin|\d+[.,]?\d* soniya oldin|\d+[.,]?\d* yildan keyin|\d+[.,]?\d* hafta oldin|\d+[.,]?\d* oydan keyin|\d+[.,]?\d* soat oldin|\d+[.,]?\d* kun oldin|\d+[.,]?\d* yil oldin|\d+[.,]?\d* oy oldin)$");
    ld_known := [lit "keyingi hafta";
    lit "o‘tgan hafta";
    lit "shu daqiqada";
    lit "keyingi yil";
    lit "chorshanba";
    lit "keyingi oy";
    lit "o'tgan yil";
    lit "o‘tgan yil";
    lit "shu soatda";
    lit "o‘tgan oy";
    lit "payshanba";
    lit "shu hafta";
    lit "yakshanba";
    lit "dushanba";
    lit "seshanba";
    lit "sentabr";
    lit "shu yil";
    lit "avgust";
    lit "bu yil";
    lit "daqiqa";
    lit "dekabr";
    lit "ertaga";
    lit "fevral";
    lit "noyabr";
    lit "oktabr";
    lit "shanba";
    lit "shu oy";
    lit "soniya";
    lit "yanvar";
    lit "aprel";
    lit "bugun";
    lit "hafta";
    lit "hozir";
    lit "kecha";
    lit "chor";
    lit "dush";
    lit "iyul";
    lit "iyun";
    lit "juma";
    lit "mart";
    lit "sesh";
    lit "shan";
    lit "soat";
    lit "apr";
    lit "avg";
    lit "daq";
    lit "dek";
    lit "fev";
    lit "gmt";
    lit "iyl";
    lit "iyn";
    lit "jum";
    lit "kun";
    lit "mar";
    lit "may";
    lit "noy";
    lit "okt";
    lit "pay";
    lit "sen";
    lit "son";
    lit "utc";
    lit "yak";
    lit "yan";
    lit "yil";
    lit "am";
    lit "oy";
    lit "pm";
    lit "tk";
    lit "to";
    lit " ";
    lit "'";
    lit "+";
    lit ",";
    lit "-";
    lit ".";
    lit "/";
    lit ":";
    lit ";";
    lit "@";
    lit "[";
    lit "]";
    lit "z";
    lit "|"] |}.

(** vi.go:12-156 *)
Definition loc_vi : locale := Eval vm_compute in
  {| ld_name := lit "vi"; ld_order := lit "DMY"; ld_nospacing := false; ld_splitter := 1;
    ld_charset := runes (lit "bceghilnorstuyzàáâêìíôúăđưạảầậểồổộớờủứ");
    ld_abbr := [];
    ld_simpl := [(rx "(?i)(\A|[^\pL\pM\d_])(?:ngay|nam)\s(\d+[.,]?\d*)(\z|[^\pL\pM\d_])", lit "${1}${2}${3}")];
    ld_trans := [(lit "thang muoi hai", [lit "december"]);
    (lit "thang muoi mot", [lit "november"]);
    (lit "giay đong ho", [lit "second"]);
    (lit "nguyen ban", [lit "minute"]);
    (lit "thang chin", [lit "september"]);
    (lit "thang muoi", [lit "october"]);
    (lit "thang bay", [lit "july"]);
    (lit "thang hai", [lit "february"]);
    (lit "thang mot", [lit "january"]);
    (lit "thang nam", [lit "may"]);
    (lit "thang sau", [lit "june"]);
    (lit "thang tam", [lit "august"]);
    (lit "truoc đay", [lit "ago"]);
    (lit "ban ngay", [lit "day"]);
    (lit "cach đay", [lit "ago"]);
    (lit "chu nhat", [lit "sunday"]);
    (lit "hang nhi", [lit "second"]);
    (lit "thang 10", [lit "october"]);
    (lit "thang 11", [lit "november"]);
    (lit "thang 12", [lit "december"]);
    (lit "thang ba", [lit "march"]);
    (lit "thang tu", [lit "april"]);
    (lit "thang 1", [lit "january"]);
    (lit "thang 2", [lit "february"]);
    (lit "thang 3", [lit "march"]);
    (lit "thang 4", [lit "april"]);
    (lit "thang 5", [lit "may"]);
    (lit "thang 6", [lit "june"]);
    (lit "thang 7", [lit "july"]);
    (lit "thang 8", [lit "august"]);
    (lit "thang 9", [lit "september"]);
    (lit "thu bay", [lit "saturday"]);
    (lit "thu hai", [lit "monday"]);
    (lit "thu nam", [lit "thursday"]);
    (lit "thu sau", [lit "friday"]);
    (lit "tuan le", [lit "week"]);
    (lit "thg 10", [lit "october"]);
    (lit "thg 11", [lit "november"]);
    (lit "thg 12", [lit "december"]);
    (lit "thu ba", [lit "tuesday"]);
    (lit "thu tu", [lit "wednesday"]);
    (lit "thang", [lit "month"]);
    (lit "thg 1", [lit "january"]);
    (lit "thg 2", [lit "february"]);
    (lit "thg 3", [lit "march"]);
    (lit "thg 4", [lit "april"]);
    (lit "thg 5", [lit "may"]);
    (lit "thg 6", [lit "june"]);
    (lit "thg 7", [lit "july"]);
    (lit "thg 8", [lit "august"]);
    (lit "thg 9", [lit "september"]);
    (lit "thu 1", [lit "sunday"]);
    (lit "thu 2", [lit "monday"]);
    (lit "thu 3", [lit "tuesday"]);
    (lit "thu 4", [lit "wednesday"]);
    (lit "thu 5", [lit "thursday"]);
    (lit "thu 6", [lit "friday"]);
    (lit "thu 7", [lit "saturday"]);
    (lit "trong", [lit "in"]);
    (lit "truoc", [lit "ago"]);
    (lit "buoi", [lit "day"]);
    (lit "chut", [lit "minute"]);
    (lit "giay", [lit "second"]);
    (lit "ngay", [lit "day"]);
    (lit "phut", [lit "minute"]);
    (lit "th 2", [lit "monday"]);
    (lit "th 3", [lit "tuesday"]);
    (lit "th 4", [lit "wednesday"]);
    (lit "th 5", [lit "thursday"]);
    (lit "th 6", [lit "friday"]);
    (lit "th 7", [lit "saturday"]);
    (lit "tuan", [lit "week"]);
    (lit "gio", [lit "hour"]);
    (lit "gmt", [lit "gmt"]);
    (lit "lat", [lit "minute"]);
    (lit "luc", [lit ""]);
    (lit "nam", [lit "year"]);
    (lit "thg", [lit "month"]);
    (lit "utc", [lit "utc"]);
    (lit "am", [lit "am"]);
    (lit "ch", [lit "pm"]);
    (lit "cn", [lit "sunday"]);
    (lit "pm", [lit "pm"]);
    (lit "sa", [lit "am"]);
    (lit " ", [lit " "]);
    (lit "'", [lit ""]);
    (lit "+", [lit "+"]);
    (lit ",", [lit ""]);
    (lit "-", [lit "-"]);
    (lit ".", [lit "."]);
    (lit "/", [lit "/"]);
    (lit ":", [lit ":"]);
    (lit ";", [lit ""]);
    (lit "@", [lit ""]);
    (lit "[", [lit ""]);
    (lit "]", [lit ""]);
    (lit "z", [lit "z"]);
    (lit "|", [lit ""])];
    ld_reltype := [(lit "thang truoc", lit "1 month ago");
    (lit "tuan truoc", lit "1 week ago");
    (lit "nam ngoai", lit "1 year ago");
    (lit "thang nay", lit "0 month ago");
    (lit "thang sau", lit "in 1 month");
    (lit "ngay mai", lit "in 1 day");
    (lit "phut nay", lit "0 minute ago");
    (lit "tuan nay", lit "0 week ago");
    (lit "tuan sau", lit "in 1 week");
    (lit "bay gio", lit "0 second ago");
    (lit "gio nay", lit "0 hour ago");
    (lit "hom nay", lit "0 day ago");
    (lit "hom qua", lit "1 day ago");
    (lit "nam nay", lit "0 year ago");
    (lit "nam sau", lit "in 1 year")];
    ld_relrx := [(rx "(?i)sau (\d+[.,]?\d*) thang nua", lit "in $1 month");
    (rx "(?i)sau (\d+[.,]?\d*) giay nua", lit "in $1 second");
    (rx "(?i)sau (\d+[.,]?\d*) ngay nua", lit "in $1 day");
    (rx "(?i)sau (\d+[.,]?\d*) phut nua", lit "in $1 minute");
    (rx "(?i)sau (\d+[.,]?\d*) tuan nua", lit "in $1 week");
    (rx "(?i)(\d+[.,]?\d*) thang truoc", lit "$1 month ago");
    (rx "(?i)sau (\d+[.,]?\d*) gio nua", lit "in $1 hour");
    (rx "(?i)sau (\d+[.,]?\d*) nam nua", lit "in $1 year");
    (rx "(?i)(\d+[.,]?\d*) giay truoc", lit "$1 second ago");
    (rx "(?i)(\d+[.,]?\d*) ngay truoc", lit "$1 day ago");
    (rx "(?i)(\d+[.,]?\d*) phut truoc", lit "$1 minute ago");
    (rx "(?i)(\d+[.,]?\d*) tuan truoc", lit "$1 week ago");
    (rx "(?i)(\d+[.,]?\d*) gio truoc", lit "$1 hour ago");
    (rx "(?i)(\d+[.,]?\d*) nam truoc", lit "$1 year ago")];
    ld_rx := Some (rx "(?i)(\A|[^\pL\pM\d]|_)(sau \d+[.,]?\d* thang nua|sau \d+[.,]?\d* giay nua|sau \d+[.,]?\d* ngay nua|sau \d+[.,]?\d* phut nua|sau \d+[.,]?\d* tuan nua|\d+[.,]?\d* thang truoc|sau \d+[.,]?\d* gio nua|sau \d+[.,]?\d* nam nua|\d+[.,]?\d* giay truoc|\d+[.,]?\d* ngay truoc|\d+[.,]?\d* phut truoc|\d+[.,]?\d* tuan truoc|\d+[.,]?\d* gio truoc|\d+[.,]?\d* nam truoc)(\z|[^\pL\pM\d]|_)");
    ld_rx_exact := Some (rx "(?i)^(sau \d+[.,]?\d* thang nua|sau \d+[.,]?\d* giay nua|sau \d+[.,]?\d* ngay nua|sau \d+[.,]?\d* phut nua|sau \d+[.,]?\d* tuan nua|\d+[.,]?\d* thang truoc|sau \d+[.,]?\d* gio nua|sau \d+[.,]?\d* nam nua|\d+[.,]?\d* giay truoc|\d+[.,]?\d* ngay truoc|\d+[.,]?\d* phut truoc|\d+[.,]?\d* tuan truoc|\d+[.,]?\d* gio truoc|\d+[.,]?\d* nam truoc)$");
    ld_known := [lit "thang muoi hai";
    lit "thang muoi mot";
    lit "giay đong ho";
    lit "thang truoc";
    lit "nguyen ban";
    lit "thang chin";
    lit "thang muoi";
    lit "tuan truoc";
    lit "nam ngoai";
    lit "thang bay";
    lit "thang hai";
    lit "thang mot";
    lit "thang nam";
    lit "thang nay";
    lit "thang sau";
    lit "thang tam";
    lit "truoc đay";
    lit "ban ngay";
    lit "cach đay";
    lit "chu nhat";
    lit "hang nhi";
    lit "ngay mai";
    lit "phut nay";
    lit "thang 10";
    lit "thang 11";
    lit "thang 12";
    lit "thang ba";
    lit "thang tu";
    lit "tuan nay";
    lit "tuan sau";
    lit "bay gio";
    lit "gio nay";
    lit "hom nay";
    lit "hom qua";
    lit "nam nay";
    lit "nam sau";
    lit "thang 1";
    lit "thang 2";
    lit "thang 3";
    lit "thang 4";
    lit "thang 5";
    lit "thang 6";
    lit "thang 7";
    lit "thang 8";
    lit "thang 9";
    lit "thu bay";
    lit "thu hai";
    lit "thu nam";
    lit "thu sau";
    lit "tuan le";
    lit "thg 10";
    lit "thg 11";
    lit "thg 12";
    lit "thu ba";
    lit "thu tu";
    lit "thang";
    lit "thg 1";
    lit "thg 2";
    lit "thg 3";
    lit "thg 4";
    lit "thg 5";
    lit "thg 6";
    lit "thg 7";
    lit "thg 8";
    lit "thg 9";
    lit "thu 1";
    lit "thu 2";
    lit "thu 3";
    lit "thu 4";
    lit "thu 5";
    lit "thu 6";
    lit "thu 7";
    lit "trong";
    lit "truoc";
    lit "buoi";
    lit "chut";
    lit "giay";
    lit "ngay";
    lit "phut";
    lit "th 2";
    lit "th 3";
    lit "th 4";
    lit "th 5";
    lit "th 6";
    lit "th 7";
    lit "tuan";
    lit "gio";
    lit "gmt";
    lit "lat";
    lit "luc";
    lit "nam";
    lit "thg";
    lit "utc";
    lit "am";
    lit "ch";
    lit "cn";
    lit "pm";
    lit "sa";
    lit " ";
    lit "'";
    lit "+";
    lit ",";
    lit "-";
    lit ".";
    lit "/";
    lit ":";
    lit ";";
    lit "@";
    lit "[";
    lit "]";
    lit "z";
    lit "|"] |}.

(** vun.go:10-98 *)
Definition loc_vun : locale := Eval vm_compute in
  {| ld_name := lit "vun"; ld_order := lit "DMY"; ld_nospacing := false; ld_splitter := 0;
    ld_charset := runes (lit "bcdefghijklnorstuvwxyz");
    ld_abbr := [];
    ld_simpl := [];
    ld_trans := [(lit "jumapilyi", [lit "sunday"]);
    (lit "jumatatuu", [lit "monday"]);
    (lit "kyiukonyi", [lit "pm"]);
    (lit "alhamisi", [lit "thursday"]);
    (lit "februari", [lit "february"]);
    (lit "jumamosi", [lit "saturday"]);
    (lit "jumatanu", [lit "wednesday"]);
    (lit "septemba", [lit "september"]);
    (lit "aprilyi", [lit "april"]);
    (lit "dakyika", [lit "minute"]);
    (lit "desemba", [lit "december"]);
    (lit "januari", [lit "january"]);
    (lit "jumanne", [lit "tuesday"]);
    (lit "novemba", [lit "november"]);
    (lit "sekunde", [lit "second"]);
    (lit "agusti", [lit "august"]);
    (lit "ijumaa", [lit "friday"]);
    (lit "julyai", [lit "july"]);
    (lit "oktoba", [lit "october"]);
    (lit "wiikyi", [lit "week"]);
    (lit "junyi", [lit "june"]);
    (lit "machi", [lit "march"]);
    (lit "mfiri", [lit "day"]);
    (lit "utuko", [lit "am"]);
    (lit "maka", [lit "year"]);
    (lit "mori", [lit "month"]);
    (lit "ago", [lit "august"]);
    (lit "alh", [lit "thursday"]);
    (lit "apr", [lit "april"]);
    (lit "des", [lit "december"]);
    (lit "feb", [lit "february"]);
    (lit "gmt", [lit "gmt"]);
    (lit "iju", [lit "friday"]);
    (lit "jan", [lit "january"]);
    (lit "jmo", [lit "saturday"]);
    (lit "jnn", [lit "tuesday"]);
    (lit "jpi", [lit "sunday"]);
    (lit "jtn", [lit "wednesday"]);
    (lit "jtt", [lit "monday"]);
    (lit "jul", [lit "july"]);
    (lit "jun", [lit "june"]);
    (lit "mac", [lit "march"]);
    (lit "mei", [lit "may"]);
    (lit "nov", [lit "november"]);
    (lit "okt", [lit "october"]);
    (lit "saa", [lit "hour"]);
    (lit "sep", [lit "september"]);
    (lit "utc", [lit "utc"]);
    (lit "am", [lit "am"]);
    (lit "pm", [lit "pm"]);
    (lit " ", [lit " "]);
    (lit "'", [lit ""]);
    (lit "+", [lit "+"]);
    (lit ",", [lit ""]);
    (lit "-", [lit "-"]);
    (lit ".", [lit "."]);
    (lit "/", [lit "/"]);
    (lit ":", [lit ":"]);
    (lit ";", [lit ""]);
    (lit "@", [lit ""]);
    (lit "[", [lit ""]);
    (lit "]", [lit ""]);
    (lit "z", [lit "z"]);
    (lit "|", [lit ""])];
    ld_reltype := [(lit "this minute", lit "0 minute ago");
    (lit "last month", lit "1 month ago");
    (lit "next month", lit "in 1 month");
    (lit "this month", lit "0 month ago");
    (lit "last week", lit "1 week ago");
    (lit "last year", lit "1 year ago");
    (lit "next week", lit "in 1 week");
    (lit "next year", lit "in 1 year");
    (lit "this hour", lit "0 hour ago");
    (lit "this week", lit "0 week ago");
    (lit "this year", lit "0 year ago");
    (lit "ngama", lit "in 1 day");
    (lit "ukou", lit "1 day ago");
    (lit "inu", lit "0 day ago");
    (lit "now", lit "0 second ago")];
    ld_relrx := [];
    ld_rx := None;
    ld_rx_exact := None;
    ld_known := [lit "this minute";
    lit "last month";
    lit "next month";
    lit "this month";
    lit "jumapilyi";
    lit "jumatatuu";
    lit "kyiukonyi";
    lit "last week";
    lit "last year";
    lit "next week";
    lit "next year";
    lit "this hour";
    lit "this week";
    lit "this year";
    lit "alhamisi";
    lit "februari";
    lit "jumamosi";
    lit "jumatanu";
    lit "septemba";
    lit "aprilyi";
    lit "dakyika";
    lit "desemba";
    lit "januari";
    lit "jumanne";
    lit "novemba";
    lit "sekunde";
    lit "agusti";
    lit "ijumaa";
    lit "julyai";
    lit "oktoba";
    lit "wiikyi";
    lit "junyi";
    lit "machi";
    lit "mfiri";
    lit "ngama";
    lit "utuko";
    lit "maka";
    lit "mori";
    lit "ukou";
    lit "ago";
    lit "alh";
    lit "apr";
    lit "des";
    lit "feb";
    lit "gmt";
    lit "iju";
    lit "inu";
    lit "jan";
    lit "jmo";
    lit "jnn";
    lit "jpi";
    lit "jtn";
    lit "jtt";
    lit "jul";
    lit "jun";
    lit "mac";
    lit "mei";
    lit "nov";
    lit "now";
    lit "okt";
    lit "saa";
    lit "sep";
    lit "utc";
    lit "am";
    lit "pm";
    lit " ";
    lit "'";
    lit "+";
    lit ",";
    lit "-";
    lit ".";
    lit "/";
    lit ":";
    lit ";";
    lit "@";
    lit "[";
    lit "]";
    lit "z";
    lit "|"] |}.

(** wae.go:12-125 *)
Definition loc_wae : locale := Eval vm_compute in
  {| ld_name := lit "wae"; ld_order := lit "YMD"; ld_nospacing := false; ld_splitter := 0;
    ld_charset := runes (lit "bcdefghijklnorstuwxyzáäíóöüčš");
    ld_abbr := [];
    ld_simpl := [];
    ld_trans := [(lit "christmanet", [lit "december"]);
    (lit "herbstmanet", [lit "september"]);
    (lit "wintermanet", [lit "november"]);
    (lit "abrille", [lit "april"]);
    (lit "frontag", [lit "thursday"]);
    (lit "minutta", [lit "minute"]);
    (lit "mittwuc", [lit "wednesday"]);
    (lit "samstag", [lit "saturday"]);
    (lit "schtund", [lit "hour"]);
    (lit "sekunda", [lit "second"]);
    (lit "sunntag", [lit "sunday"]);
    (lit "wimanet", [lit "october"]);
    (lit "bracet", [lit "june"]);
    (lit "fritag", [lit "friday"]);
    (lit "heiwet", [lit "july"]);
    (lit "hornig", [lit "february"]);
    (lit "jenner", [lit "january"]);
    (lit "mantag", [lit "monday"]);
    (lit "oigste", [lit "august"]);
    (lit "zistag", [lit "tuesday"]);
    (lit "manet", [lit "month"]);
    (lit "marze", [lit "march"]);
    (lit "meije", [lit "may"]);
    (lit "wuca", [lit "week"]);
    (lit "abr", [lit "april"]);
    (lit "bra", [lit "june"]);
    (lit "chr", [lit "december"]);
    (lit "fri", [lit "friday"]);
    (lit "fro", [lit "thursday"]);
    (lit "gmt", [lit "gmt"]);
    (lit "hei", [lit "july"]);
    (lit "her", [lit "september"]);
    (lit "hor", [lit "february"]);
    (lit "jar", [lit "year"]);
    (lit "jen", [lit "january"]);
    (lit "man", [lit "monday"]);
    (lit "mar", [lit "march"]);
    (lit "mei", [lit "may"]);
    (lit "mit", [lit "wednesday"]);
    (lit "oig", [lit "august"]);
    (lit "sam", [lit "saturday"]);
    (lit "sun", [lit "sunday"]);
    (lit "tag", [lit "day"]);
    (lit "utc", [lit "utc"]);
    (lit "wim", [lit "october"]);
    (lit "win", [lit "november"]);
    (lit "zis", [lit "tuesday"]);
    (lit "am", [lit "am"]);
    (lit "pm", [lit "pm"]);
    (lit " ", [lit " "]);
    (lit "'", [lit ""]);
    (lit "+", [lit "+"]);
    (lit ",", [lit ""]);
    (lit "-", [lit "-"]);
    (lit ".", [lit "."]);
    (lit "/", [lit "/"]);
    (lit ":", [lit ":"]);
    (lit ";", [lit ""]);
    (lit "@", [lit ""]);
    (lit "[", [lit ""]);
    (lit "]", [lit ""]);
    (lit "z", [lit "z"]);
    (lit "|", [lit ""])];
    ld_reltype := [(lit "this minute", lit "0 minute ago");
    (lit "last month", lit "1 month ago");
    (lit "next month", lit "in 1 month");
    (lit "this month", lit "0 month ago");
    (lit "last week", lit "1 week ago");
    (lit "last year", lit "1 year ago");
    (lit "next week", lit "in 1 week");
    (lit "next year", lit "in 1 year");
    (lit "this hour", lit "0 hour ago");
    (lit "this week", lit "0 week ago");
    (lit "this year", lit "0 year ago");
    (lit "gester", lit "1 day ago");
    (lit "hitte", lit "0 day ago");
    (lit "more", lit "in 1 day");
    (lit "now", lit "0 second ago")];
    ld_relrx := [(rx "(?i)vor (\d+[.,]?\d*) sekunde", lit "$1 second ago");
    (rx "(?i)vor (\d+[.,]?\d*) minuta", lit "$1 minute ago");
    (rx "(?i)vor (\d+[.,]?\d*) minute", lit "$1 minute ago");
    (rx "(?i)vor (\d+[.,]?\d*) sekund", lit "$1 second ago");
    (rx "(?i)vor (\d+[.,]?\d*) stunde", lit "$1 hour ago");
    (rx "(?i)i (\d+[.,]?\d*) sekunde", lit "in $1 second");
    (rx "(?i)vor (\d+[.,]?\d*) manet", lit "$1 month ago");
    (rx "(?i)vor (\d+[.,]?\d*) stund", lit "$1 hour ago");
    (rx "(?i)cor (\d+[.,]?\d*) wuca", lit "$1 week ago");
    (rx "(?i)i (\d+[.,]?\d*) minuta", lit "in $1 minute");
    (rx "(?i)i (\d+[.,]?\d*) minute", lit "in $1 minute");
    (rx "(?i)i (\d+[.,]?\d*) sekund", lit "in $1 second");
    (rx "(?i)i (\d+[.,]?\d*) stunde", lit "in $1 hour");
    (rx "(?i)vor (\d+[.,]?\d*) wuca", lit "$1 week ago");
    (rx "(?i)cor (\d+[.,]?\d*) jar", lit "$1 year ago");
    (rx "(?i)i (\d+[.,]?\d*) manet", lit "in $1 month");
    (rx "(?i)i (\d+[.,]?\d*) stund", lit "in $1 hour");
    (rx "(?i)vor (\d+[.,]?\d*) jar", lit "$1 year ago");
    (rx "(?i)vor (\d+[.,]?\d*) tag", lit "$1 day ago");
    (rx "(?i)i (\d+[.,]?\d*) wuca", lit "in $1 week");
    (rx "(?i)i (\d+[.,]?\d*) jar", lit "in $1 year");
    (rx "(?i)i (\d+[.,]?\d*) tag", lit "in $1 day")];
    ld_rx := Some (rx "(?i)(\A|[^\pL\pM\d]|_)(vor \d+[.,]?\d* sekunde|vor \d+[.,]?\d* minuta|vor \d+[.,]?\d* minute|vor \d+[.,]?\d* sekund|vor \d+[.,]?\d* stunde|i \d+[.,]?\d* sekunde|vor \d+[.,]?\d* manet|vor \d+[.,]?\d* stund|cor \d+[.,]?\d* wuca|i \d+[.,]?\d* minuta|i \d+[.,]?\d* minute|i \d+[.,]?\d* sekund|i \d+[.,]?\d* stunde|vor \d+[.,]?\d* wuca|cor \d+[.,]?\d* jar|i \d+[.,]?\d* manet|i \d+[.,]?\d* stund|vor \d+[.,]?\d* jar|vor \d+[.,]?\d* tag|i \d+[.,]?\d* wuca|i \d+[.,]?\d* jar|i \d+[.,]?\d* tag)(\z|[^\pL\pM\d]|_)");
    ld_rx_exact := Some (rx "(?i)^(vor \d+[.,]?\d* sekunde|vor \d+[.,]?\d* minuta|vor \d+[.,]?\d* minute|vor \d+[.,]?\d* sekund|vor \d+[.,]?\d* stunde|i \d+[.,]?\d* sekunde|vor \d+[.,]?\d* manet|vor \d+[.,]?\d* stund|cor \d+[.,]?\d* wuca|i \d+[.,]?\d* minuta|i \d+[.,]?\d* minute|i \d+[.,]?\d* sekund|i \d+[.,]?\d* stunde|vor \d+[.,]?\d* wuca|cor \d+[.,]?\d* jar|i \d+[.,]?\d* manet|i \d+[.,]?\d* stund|vor \d+[.,]?\d* jar|vor \d+[.,]?\d* tag|i \d+[.,]?\d* wuca|i \d+[.,]?\d* jar|i \d+[.,]?\d* tag)$");
    ld_known := [lit "christmanet";
    lit "herbstmanet";
    lit "this minute";
    lit "wintermanet";
    lit "last month";
    lit "next month";
    lit "this month";
    lit "last week";
    lit "last year";
    lit "next week";
    lit "next year";
    lit "this hour";
    lit "this week";
    lit "this year";
    lit "abrille";
    lit "frontag";
    lit "minutta";
    lit "mittwuc";
    lit "samstag";
    lit "schtund";
    lit "sekunda";
    lit "sunntag";
    lit "wimanet";
    lit "bracet";
    lit "fritag";
    lit "gester";
    lit "heiwet";
    lit "hornig";
    lit "jenner";
    lit "mantag";
    lit "oigste";
    lit "zistag";
    lit "hitte";
    lit "manet";
    lit "marze";
    lit "meije";
    lit "more";
    lit "wuca";
    lit "abr";
    lit "bra";
    lit "chr";
    lit "fri";
    lit "fro";
    lit "gmt";
    lit "hei";
    lit "her";
    lit "hor";
    lit "jar";
    lit "jen";
    lit "man";
    lit "mar";
    lit "mei";
    lit "mit";
    lit "now";
    lit "oig";
    lit "sam";
    lit "sun";
    lit "tag";
    lit "utc";
    lit "wim";
    lit "win";
    lit "zis";
    lit "am";
    lit "pm";
    lit " ";
    lit "'";
    lit "+";
    lit ",";
    lit "-";
    lit ".";
    lit "/";
    lit ":";
    lit ";";
    lit "@";
    lit "[";
    lit "]";
    lit "z";
    lit "|"] |}.

(** xog.go:10-99 *)
Definition loc_xog : locale := Eval vm_compute in
  {| ld_name := lit "xog"; ld_order := lit "DMY"; ld_nospacing := false; ld_splitter := 0;
    ld_charset := runes (lit "bcdefghijklnorstuvwxyz");
    ld_abbr := [];
    ld_simpl := [];
    ld_trans := [(lit "obutikitiki", [lit "second"]);
    (lit "olokutaanu", [lit "friday"]);
    (lit "olomukaaga", [lit "saturday"]);
    (lit "sebuttemba", [lit "september"]);
    (lit "febwaliyo", [lit "february"]);
    (lit "janwaliyo", [lit "january"]);
    (lit "owokubili", [lit "tuesday"]);
    (lit "owokusatu", [lit "wednesday"]);
    (lit "edakiika", [lit "minute"]);
    (lit "esabiiti", [lit "week"]);
    (lit "okitobba", [lit "october"]);
    (lit "agusito", [lit "august"]);
    (lit "desemba", [lit "december"]);
    (lit "julaayi", [lit "july"]);
    (lit "novemba", [lit "november"]);
    (lit "olokuna", [lit "thursday"]);
    (lit "olunaku", [lit "day"]);
    (lit "sabiiti", [lit "sunday"]);
    (lit "balaza", [lit "monday"]);
    (lit "eigulo", [lit "pm"]);
    (lit "essawa", [lit "hour"]);
    (lit "marisi", [lit "march"]);
    (lit "munkyo", [lit "am"]);
    (lit "omwaka", [lit "year"]);
    (lit "omwezi", [lit "month"]);
    (lit "apuli", [lit "april"]);
    (lit "juuni", [lit "june"]);
    (lit "maayi", [lit "may"]);
    (lit "bala", [lit "monday"]);
    (lit "kubi", [lit "tuesday"]);
    (lit "kuna", [lit "thursday"]);
    (lit "kusa", [lit "wednesday"]);
    (lit "kuta", [lit "friday"]);
    (lit "muka", [lit "saturday"]);
    (lit "sabi", [lit "sunday"]);
    (lit "agu", [lit "august"]);
    (lit "apu", [lit "april"]);
    (lit "des", [lit "december"]);
    (lit "feb", [lit "february"]);
    (lit "gmt", [lit "gmt"]);
    (lit "jan", [lit "january"]);
    (lit "jul", [lit "july"]);
    (lit "juu", [lit "june"]);
    (lit "maa", [lit "may"]);
    (lit "mar", [lit "march"]);
    (lit "nov", [lit "november"]);
    (lit "oki", [lit "october"]);
    (lit "seb", [lit "september"]);
    (lit "utc", [lit "utc"]);
    (lit "am", [lit "am"]);
    (lit "pm", [lit "pm"]);
    (lit " ", [lit " "]);
    (lit "'", [lit ""]);
    (lit "+", [lit "+"]);
    (lit ",", [lit ""]);
    (lit "-", [lit "-"]);
    (lit ".", [lit "."]);
    (lit "/", [lit "/"]);
    (lit ":", [lit ":"]);
    (lit ";", [lit ""]);
    (lit "@", [lit ""]);
    (lit "[", [lit ""]);
    (lit "]", [lit ""]);
    (lit "z", [lit "z"]);
    (lit "|", [lit ""])];
    ld_reltype := [(lit "olwaleelo (leelo)", lit "0 day ago");
    (lit "this minute", lit "0 minute ago");
    (lit "last month", lit "1 month ago");
    (lit "next month", lit "in 1 month");
    (lit "this month", lit "0 month ago");
    (lit "last week", lit "1 week ago");
    (lit "last year", lit "1 year ago");
    (lit "next week", lit "in 1 week");
    (lit "next year", lit "in 1 year");
    (lit "this hour", lit "0 hour ago");
    (lit "this week", lit "0 week ago");
    (lit "this year", lit "0 year ago");
    (lit "enkyo", lit "in 1 day");
    (lit "edho", lit "1 day ago");
    (lit "now", lit "0 second ago")];
    ld_relrx := [];
    ld_rx := None;
    ld_rx_exact := None;
    ld_known := [lit "olwaleelo (leelo)";
    lit "obutikitiki";
    lit "this minute";
    lit "last month";
    lit "next month";
    lit "olokutaanu";
    lit "olomukaaga";
    lit "sebuttemba";
    lit "this month";
    lit "febwaliyo";
    lit "janwaliyo";
    lit "last week";
    lit "last year";
    lit "next week";
    lit "next year";
    lit "owokubili";
    lit "owokusatu";
    lit "this hour";
    lit "this week";
    lit "this year";
    lit "edakiika";
    lit "esabiiti";
    lit "okitobba";
    lit "agusito";
    lit "desemba";
    lit "julaayi";
    lit "novemba";
    lit "olokuna";
    lit "olunaku";
    lit "sabiiti";
    lit "balaza";
    lit "eigulo";
    lit "essawa";
    lit "marisi";
    lit "munkyo";
    lit "omwaka";
    lit "omwezi";
    lit "apuli";
    lit "enkyo";
    lit "juuni";
    lit "maayi";
    lit "bala";
    lit "edho";
    lit "kubi";
    lit "kuna";
    lit "kusa";
    lit "kuta";
    lit "muka";
    lit "sabi";
    lit "agu";
    lit "apu";
    lit "des";
    lit "feb";
    lit "gmt";
    lit "jan";
    lit "jul";
    lit "juu";
    lit "maa";
    lit "mar";
    lit "nov";
    lit "now";
    lit "oki";
    lit "seb";
    lit "utc";
    lit "am";
    lit "pm";
    lit " ";
    lit "'";
    lit "+";
    lit ",";
    lit "-";
    lit ".";
    lit "/";
    lit ":";
    lit ";";
    lit "@";
    lit "[";
    lit "]";
    lit "z";
    lit "|"] |}.

(** yav.go:10-98 *)
Definition loc_yav : locale := Eval vm_compute in
  {| ld_name := lit "yav"; ld_order := lit "DMY"; ld_nospacing := false; ld_splitter := 0;
    ld_charset := runes (lit ",bcdefghiklnorstuwxyzáéíóúŋɔɛ́");
    ld_abbr := [];
    ld_simpl := [];
    ld_trans := [(lit "pikitikitie, ooli u kutuan", [lit "january"]);
    (lit "imɛŋ i putuk,ooli u katiɛ", [lit "october"]);
    (lit "ɔnsumbɔl, ooli u katatuɛ", [lit "march"]);
    (lit "ensil, ooli u katanuɛ", [lit "may"]);
    (lit "siɛyɛ, ooli u kandiɛ", [lit "february"]);
    (lit "mesiŋ, ooli u kenie", [lit "april"]);
    (lit "kupelimetukpiapɛ", [lit "thursday"]);
    (lit "muanyaŋmondie", [lit "tuesday"]);
    (lit "imɛŋ i puɔs", [lit "september"]);
    (lit "metukpiapɛ", [lit "wednesday"]);
    (lit "makandikɛ", [lit "november"]);
    (lit "kisikɛl,", [lit "hour"]);
    (lit "kisɛndɛ", [lit "pm"]);
    (lit "kiɛmɛɛm", [lit "am"]);
    (lit "pilɔndɔ", [lit "december"]);
    (lit "felete", [lit "friday"]);
    (lit "mondie", [lit "monday"]);
    (lit "pisuyu", [lit "august"]);
    (lit "sesele", [lit "saturday"]);
    (lit "sɔndiɛ", [lit "week"; lit "sunday"]);
    (lit "efute", [lit "july"]);
    (lit "minit", [lit "minute"]);
    (lit "puɔsɛ", [lit "day"]);
    (lit "sikɛn", [lit "second"]);
    (lit "ooli", [lit "month"]);
    (lit "yɔɔŋ", [lit "year"]);
    (lit "ɔsɔn", [lit "june"]);
    (lit "gmt", [lit "gmt"]);
    (lit "o10", [lit "october"]);
    (lit "o11", [lit "november"]);
    (lit "o12", [lit "december"]);
    (lit "utc", [lit "utc"]);
    (lit "am", [lit "am"]);
    (lit "et", [lit "wednesday"]);
    (lit "fl", [lit "friday"]);
    (lit "kl", [lit "thursday"]);
    (lit "md", [lit "monday"]);
    (lit "mw", [lit "tuesday"]);
    (lit "o1", [lit "january"]);
    (lit "o2", [lit "february"]);
    (lit "o3", [lit "march"]);
    (lit "o4", [lit "april"]);
    (lit "o5", [lit "may"]);
    (lit "o6", [lit "june"]);
    (lit "o7", [lit "july"]);
    (lit "o8", [lit "august"]);
    (lit "o9", [lit "september"]);
    (lit "pm", [lit "pm"]);
    (lit "sd", [lit "sunday"]);
    (lit "ss", [lit "saturday"]);
    (lit " ", [lit " "]);
    (lit "'", [lit ""]);
    (lit "+", [lit "+"]);
    (lit ",", [lit ""]);
    (lit "-", [lit "-"]);
    (lit ".", [lit "."]);
    (lit "/", [lit "/"]);
    (lit ":", [lit ":"]);
    (lit ";", [lit ""]);
    (lit "@", [lit ""]);
    (lit "[", [lit ""]);
    (lit "]", [lit ""]);
    (lit "z", [lit "z"]);
    (lit "|", [lit ""])];
    ld_reltype := [(lit "this minute", lit "0 minute ago");
    (lit "last month", lit "1 month ago");
    (lit "next month", lit "in 1 month");
    (lit "this month", lit "0 month ago");
    (lit "last week", lit "1 week ago");
    (lit "last year", lit "1 year ago");
    (lit "next week", lit "in 1 week");
    (lit "next year", lit "in 1 year");
    (lit "this hour", lit "0 hour ago");
    (lit "this week", lit "0 week ago");
    (lit "this year", lit "0 year ago");
    (lit "nakinyam", lit "in 1 day");
    (lit "inaan", lit "0 day ago");
    (lit "puyoo", lit "1 day ago");
    (lit "now", lit "0 second ago")];
    ld_relrx := [];
    ld_rx := None;
    ld_rx_exact := None;
    ld_known := [lit "pikitikitie, ooli u kutuan";
    lit "imɛŋ i putuk,ooli u katiɛ";
    lit "ɔnsumbɔl, ooli u katatuɛ";
    lit "ensil, ooli u katanuɛ";
    lit "siɛyɛ, ooli u kandiɛ";
    lit "mesiŋ, ooli u kenie";
    lit "kupelimetukpiapɛ";
    lit "muanyaŋmondie";
    lit "imɛŋ i puɔs";
    lit "this minute";
    lit "last month";
    lit "metukpiapɛ";
    lit "next month";
    lit "this month";
    lit "last week";
    lit "last year";
    lit "makandikɛ";
    lit "next week";
    lit "next year";
    lit "this hour";
    lit "this week";
    lit "this year";
    lit "kisikɛl,";
    lit "nakinyam";
    lit "kisɛndɛ";
    lit "kiɛmɛɛm";
    lit "pilɔndɔ";
    lit "felete";
    lit "mondie";
    lit "pisuyu";
    lit "sesele";
    lit "sɔndiɛ";
    lit "efute";
    lit "inaan";
    lit "minit";
    lit "puyoo";
    lit "puɔsɛ";
    lit "sikɛn";
    lit "ooli";
    lit "yɔɔŋ";
    lit "ɔsɔn";
    lit "gmt";
    lit "now";
    lit "o10";
    lit "o11";
    lit "o12";
    lit "utc";
    lit "am";
    lit "et";
    lit "fl";
    lit "kl";
    lit "md";
    lit "mw";
    lit "o1";
    lit "o2";
    lit "o3";
    lit "o4";
    lit "o5";
    lit "o6";
    lit "o7";
    lit "o8";
    lit "o9";
    lit "pm";
    lit "sd";
    lit "ss";
    lit " ";
    lit "'";
    lit "+";
    lit ",";
    lit "-";
    lit ".";
    lit "/";
    lit ":";
    lit ";";
    lit "@";
    lit "[";
    lit "]";
    lit "z";
    lit "|"] |}.

(** yi.go:12-102 *)
Definition loc_yi : locale := Eval vm_compute in
  {| ld_name := lit "yi"; ld_order := lit "DMY"; ld_nospacing := false; ld_splitter := 0;
    ld_charset := runes (lit "ceghiklnorstuwzַָּֿאבגדהוזחטיךכלםמןנסעפץצקרשתײ");
    ld_abbr := [];
    ld_simpl := [];
    ld_trans := [(lit "דאנערשטיק", [lit "thursday"]);
    (lit "נאוועמבער", [lit "november"]);
    (lit "סעפטעמבער", [lit "september"]);
    (lit "דעצעמבער", [lit "december"]);
    (lit "נאכמיטאג", [lit "pm"]);
    (lit "פארמיטאג", [lit "am"]);
    (lit "אויגוסט", [lit "august"]);
    (lit "אקטאבער", [lit "october"]);
    (lit "דינסטיק", [lit "tuesday"]);
    (lit "מיטוואך", [lit "wednesday"]);
    (lit "סעקונדע", [lit "second"]);
    (lit "פעברואר", [lit "february"]);
    (lit "זונטיק", [lit "sunday"]);
    (lit "יאנואר", [lit "january"]);
    (lit "מאנטיק", [lit "monday"]);
    (lit "פרײטיק", [lit "friday"]);
    (lit "אפריל", [lit "april"]);
    (lit "מאנאט", [lit "month"]);
    (lit "מינוט", [lit "minute"]);
    (lit "אויג", [lit "august"]);
    (lit "וואך", [lit "week"]);
    (lit "יולי", [lit "july"]);
    (lit "יוני", [lit "june"]);
    (lit "מערץ", [lit "march"]);
    (lit "נאוו", [lit "november"]);
    (lit "gmt", [lit "gmt"]);
    (lit "utc", [lit "utc"]);
    (lit "אפר", [lit "april"]);
    (lit "אקט", [lit "october"]);
    (lit "דעצ", [lit "december"]);
    (lit "טאג", [lit "day"]);
    (lit "יאנ", [lit "january"]);
    (lit "יאר", [lit "year"]);
    (lit "מיי", [lit "may"]);
    (lit "סעפ", [lit "september"]);
    (lit "פעב", [lit "february"]);
    (lit "שבת", [lit "saturday"]);
    (lit "שעה", [lit "hour"]);
    (lit "am", [lit "am"]);
    (lit "pm", [lit "pm"]);
    (lit " ", [lit " "]);
    (lit "'", [lit ""]);
    (lit "+", [lit "+"]);
    (lit ",", [lit ""]);
    (lit "-", [lit "-"]);
    (lit ".", [lit "."]);
    (lit "/", [lit "/"]);
    (lit ":", [lit ":"]);
    (lit ";", [lit ""]);
    (lit "@", [lit ""]);
    (lit "[", [lit ""]);
    (lit "]", [lit ""]);
    (lit "z", [lit "z"]);
    (lit "|", [lit ""])];
    ld_reltype := [(lit "פארגאנגענעם חודש", lit "1 month ago");
    (lit "קומענדיקן חודש", lit "in 1 month");
    (lit "איבער אכט טאג", lit "in 1 week");
    (lit "this minute", lit "0 minute ago");
    (lit "איבער א יאר", lit "in 1 year");
    (lit "last week", lit "1 week ago");
    (lit "this hour", lit "0 hour ago");
    (lit "this week", lit "0 week ago");
    (lit "דעם חודש", lit "0 month ago");
    (lit "פאראיאר", lit "1 year ago");
    (lit "הײ יאר", lit "0 year ago");
    (lit "היינט", lit "0 day ago");
    (lit "מארגן", lit "in 1 day");
    (lit "נעכטן", lit "1 day ago");
    (lit "now", lit "0 second ago")];
    ld_relrx := [(rx "(?i)אין (\d+[.,]?\d*) טאג ארום", lit "in $1 day");
    (rx "(?i)אין (\d+[.,]?\d*) טעג ארום", lit "in $1 day");
    (rx "(?i)איבער (\d+[.,]?\d*) חדשים", lit "in $1 month");
    (rx "(?i)איבער (\d+[.,]?\d*) חודש", lit "in $1 month");
    (rx "(?i)איבער (\d+[.,]?\d*) יאר", lit "in $1 year");
    (rx "(?i)פאר (\d+[.,]?\d*) חדשים", lit "$1 month ago");
    (rx "(?i)פאר (\d+[.,]?\d*) חודש", lit "$1 month ago");
    (rx "(?i)פאר (\d+[.,]?\d*) יאר", lit "$1 year ago")];
    ld_rx := Some (rx "(?i)(\A|[^\pL\pM\d]|_)(אין \d+[.,]?\d* טאג ארום|אין \d+[.,]?\d* טעג ארום|איבער \d+[.,]?\d* חדשים|איבער \d+[.,]?\d* חודש|איבער \d+[.,]?\d* יאר|פאר \d+[.,]?\d* חדשים|פאר \d+[.,]?\d* חודש|פאר \d+[.,]?\d* יאר)(\z|[^\pL\pM\d]|_)");
    ld_rx_exact := Some (rx "(?i)^(אין \d+[.,]?\d* טאג ארום|אין \d+[.,]?\d* טעג ארום|איבער \d+[.,]?\d* חדשים|איבער \d+[.,]?\d* חודש|איבער \d+[.,]?\d* יאר|פאר \d+[.,]?\d* חדשים|פאר \d+[.,]?\d* חודש|פאר \d+[.,]?\d* יאר)$");
    ld_known := [lit "פארגאנגענעם חודש";
    lit "קומענדיקן חודש";
    lit "איבער אכט טאג";
    lit "this minute";
    lit "איבער א יאר";
    lit "last week";
    lit "this hour";
    lit "this week";
    lit "דאנערשטיק";
    lit "נאוועמבער";
    lit "סעפטעמבער";
    lit "דעם חודש";
    lit "דעצעמבער";
    lit "נאכמיטאג";
    lit "פארמיטאג";
    lit "אויגוסט";
    lit "אקטאבער";
    lit "דינסטיק";
    lit "מיטוואך";
    lit "סעקונדע";
    lit "פאראיאר";
    lit "פעברואר";
    lit "הײ יאר";
    lit "זונטיק";
    lit "יאנואר";
    lit "מאנטיק";
    lit "פרײטיק";
    lit "אפריל";
    lit "היינט";
    lit "מאנאט";
    lit "מארגן";
    lit "מינוט";
    lit "נעכטן";
    lit "אויג";
    lit "וואך";
    lit "יולי";
    lit "יוני";
    lit "מערץ";
    lit "נאוו";
    lit "gmt";
    lit "now";
    lit "utc";
    lit "אפר";
    lit "אקט";
    lit "דעצ";
    lit "טאג";
    lit "יאנ";
    lit "יאר";
    lit "מיי";
    lit "סעפ";
    lit "פעב";
    lit "שבת";
    lit "שעה";
    lit "am";
    lit "pm";
    lit " ";
    lit "'";
    lit "+";
    lit ",";
    lit "-";
    lit ".";
    lit "/";
    lit ":";
    lit ";";
    lit "@";
    lit "[";
    lit "]";
    lit "z";
    lit "|"] |}.

(** yo.go:11-98 *)
Definition loc_yo : locale := Eval vm_compute in
  {| ld_name := lit "yo"; ld_order := lit "DMY"; ld_nospacing := false; ld_splitter := 0;
    ld_charset := runes (lit "bcdeghijklnorstuwxyzàáèéìíòùú̀́ṣẹọ");
    ld_abbr := [];
    ld_simpl := [];
    ld_trans := [(lit "ojo abameta", [lit "saturday"]);
    (lit "iseju aaya", [lit "second"]);
    (lit "ojo isegun", [lit "tuesday"]);
    (lit "osu agemo", [lit "july"]);
    (lit "osu ebibi", [lit "may"]);
    (lit "osu erele", [lit "february"]);
    (lit "osu erena", [lit "march"]);
    (lit "osu okudu", [lit "june"]);
    (lit "osu owara", [lit "october"]);
    (lit "osu owewe", [lit "september"]);
    (lit "ojo aiku", [lit "sunday"]);
    (lit "osu belu", [lit "november"]);
    (lit "osu igbe", [lit "april"]);
    (lit "osu ogun", [lit "august"]);
    (lit "osu sere", [lit "january"]);
    (lit "abameta", [lit "saturday"]);
    (lit "ojo aje", [lit "monday"]);
    (lit "ojo eti", [lit "friday"]);
    (lit "osu ope", [lit "december"]);
    (lit "isegun", [lit "tuesday"]);
    (lit "wakati", [lit "hour"]);
    (lit "agemo", [lit "july"]);
    (lit "ebibi", [lit "may"]);
    (lit "erele", [lit "february"]);
    (lit "erena", [lit "march"]);
    (lit "iseju", [lit "minute"]);
    (lit "ojobo", [lit "thursday"]);
    (lit "ojoru", [lit "wednesday"]);
    (lit "okudu", [lit "june"]);
    (lit "owara", [lit "october"]);
    (lit "owewe", [lit "september"]);
    (lit "aaro", [lit "am"]);
    (lit "aiku", [lit "sunday"]);
    (lit "belu", [lit "november"]);
    (lit "igbe", [lit "april"]);
    (lit "odun", [lit "year"]);
    (lit "ogun", [lit "august"]);
    (lit "osan", [lit "pm"]);
    (lit "sere", [lit "january"]);
    (lit "aje", [lit "monday"]);
    (lit "eti", [lit "friday"]);
    (lit "gmt", [lit "gmt"]);
    (lit "ojo", [lit "day"]);
    (lit "ope", [lit "december"]);
    (lit "ose", [lit "week"]);
    (lit "osu", [lit "month"]);
    (lit "utc", [lit "utc"]);
    (lit "am", [lit "am"]);
    (lit "pm", [lit "pm"]);
    (lit " ", [lit " "]);
    (lit "'", [lit ""]);
    (lit "+", [lit "+"]);
    (lit ",", [lit ""]);
    (lit "-", [lit "-"]);
    (lit ".", [lit "."]);
    (lit "/", [lit "/"]);
    (lit ":", [lit ":"]);
    (lit ";", [lit ""]);
    (lit "@", [lit ""]);
    (lit "[", [lit ""]);
    (lit "]", [lit ""]);
    (lit "z", [lit "z"]);
    (lit "|", [lit ""])];
    ld_reltype := [(lit "this minute", lit "0 minute ago");
    (lit "last month", lit "1 month ago");
    (lit "next month", lit "in 1 month");
    (lit "this month", lit "0 month ago");
    (lit "last week", lit "1 week ago");
    (lit "last year", lit "1 year ago");
    (lit "next week", lit "in 1 week");
    (lit "next year", lit "in 1 year");
    (lit "this hour", lit "0 hour ago");
    (lit "this week", lit "0 week ago");
    (lit "this year", lit "0 year ago");
    (lit "ana", lit "1 day ago");
    (lit "now", lit "0 second ago");
    (lit "ola", lit "in 1 day");
    (lit "oni", lit "0 day ago")];
    ld_relrx := [];
    ld_rx := None;
    ld_rx_exact := None;
    ld_known := [lit "ojo abameta";
    lit "this minute";
    lit "iseju aaya";
    lit "last month";
    lit "next month";
    lit "ojo isegun";
    lit "this month";
    lit "last week";
    lit "last year";
    lit "next week";
    lit "next year";
    lit "osu agemo";
    lit "osu ebibi";
    lit "osu erele";
    lit "osu erena";
    lit "osu okudu";
    lit "osu owara";
    lit "osu owewe";
    lit "this hour";
    lit "this week";
    lit "this year";
    lit "ojo aiku";
    lit "osu belu";
    lit "osu igbe";
    lit "osu ogun";
    lit "osu sere";
    lit "abameta";
    lit "ojo aje";
    lit "ojo eti";
    lit "osu ope";
    lit "isegun";
    lit "wakati";
    lit "agemo";
    lit "ebibi";
    lit "erele";
    lit "erena";
    lit "iseju";
    lit "ojobo";
    lit "ojoru";
    lit "okudu";
    lit "owara";
    lit "owewe";
    lit "aaro";
    lit "aiku";
    lit "belu";
    lit "igbe";
    lit "odun";
    lit "ogun";
    lit "osan";
    lit "sere";
    lit "aje";
    lit "ana";
    lit "eti";
    lit "gmt";
    lit "now";
    lit "ojo";
    lit "ola";
    lit "oni";
    lit "ope";
    lit "ose";
    lit "osu";
    lit "utc";
    lit "am";
    lit "pm";
    lit " ";
    lit "'";
    lit "+";
    lit ",";
    lit "-";
    lit ".";
    lit "/";
    lit ":";
    lit ";";
    lit "@";
    lit "[";
    lit "]";
    lit "z";
    lit "|"] |}.

(** yo.go:100-145 *)
Definition own_yo_BJ : locale := Eval vm_compute in
  {| ld_name := lit "yo-BJ"; ld_order := lit "DMY"; ld_nospacing := false; ld_splitter := 0;
    ld_charset := runes (lit "ɔɛ");
    ld_abbr := [];
    ld_simpl := [];
    ld_trans := [(lit "ɔjɔ abamɛta", [lit "saturday"]);
    (lit "isɛju aaya", [lit "second"]);
    (lit "oshu agɛmɔ", [lit "july"]);
    (lit "oshu erele", [lit "february"]);
    (lit "oshu okudu", [lit "june"]);
    (lit "oshu owewe", [lit "september"]);
    (lit "oshu shɛrɛ", [lit "january"]);
    (lit "oshu ɔwara", [lit "october"]);
    (lit "oshu ɛbibi", [lit "may"]);
    (lit "oshu ɛrɛna", [lit "march"]);
    (lit "ɔjɔ isɛgun", [lit "tuesday"]);
    (lit "oshu belu", [lit "november"]);
    (lit "oshu igbe", [lit "april"]);
    (lit "oshu ogun", [lit "august"]);
    (lit "oshu ɔpɛ", [lit "december"]);
    (lit "ɔjɔ aiku", [lit "sunday"]);
    (lit "abamɛta", [lit "saturday"]);
    (lit "ɔjɔ aje", [lit "monday"]);
    (lit "ɔjɔ ɛti", [lit "friday"]);
    (lit "isɛgun", [lit "tuesday"]);
    (lit "agɛmɔ", [lit "july"]);
    (lit "isɛju", [lit "minute"]);
    (lit "shɛrɛ", [lit "january"]);
    (lit "ɔjɔbɔ", [lit "thursday"]);
    (lit "ɔjɔru", [lit "wednesday"]);
    (lit "ɔwara", [lit "october"]);
    (lit "ɛbibi", [lit "may"]);
    (lit "ɛrɛna", [lit "march"]);
    (lit "aarɔ", [lit "am"]);
    (lit "ɔdun", [lit "year"]);
    (lit "ɔsan", [lit "pm"]);
    (lit "ɔjɔ", [lit "day"]);
    (lit "ɔpɛ", [lit "december"]);
    (lit "ɔse", [lit "week"]);
    (lit "ɛti", [lit "friday"])];
    ld_reltype := [(lit "ɔla", lit "in 1 day")];
    ld_relrx := [];
    ld_rx := None;
    ld_rx_exact := None;
    ld_known := [lit "ojo abameta";
    lit "this minute";
    lit "ɔjɔ abamɛta";
    lit "iseju aaya";
    lit "isɛju aaya";
    lit "last month";
    lit "next month";
    lit "ojo isegun";
    lit "oshu agɛmɔ";
    lit "oshu erele";
    lit "oshu okudu";
    lit "oshu owewe";
    lit "oshu shɛrɛ";
    lit "oshu ɔwara";
    lit "oshu ɛbibi";
    lit "oshu ɛrɛna";
    lit "this month";
    lit "ɔjɔ isɛgun";
    lit "last week";
    lit "last year";
    lit "next week";
    lit "next year";
    lit "oshu belu";
    lit "oshu igbe";
    lit "oshu ogun";
    lit "osu agemo";
    lit "osu ebibi";
    lit "osu erele";
    lit "osu erena";
    lit "osu okudu";
    lit "osu owara";
    lit "osu owewe";
    lit "this hour";
    lit "this week";
    lit "this year";
    lit "ojo aiku";
    lit "oshu ɔpɛ";
    lit "osu belu";
    lit "osu igbe";
    lit "osu ogun";
    lit "osu sere";
    lit "ɔjɔ aiku";
    lit "abameta";
    lit "abamɛta";
    lit "ojo aje";
    lit "ojo eti";
    lit "osu ope";
    lit "ɔjɔ aje";
    lit "ɔjɔ ɛti";
    lit "isegun";
    lit "isɛgun";
    lit "wakati";
    lit "agemo";
    lit "agɛmɔ";
    lit "ebibi";
    lit "erele";
    lit "erena";
    lit "iseju";
    lit "isɛju";
    lit "ojobo";
    lit "ojoru";
    lit "okudu";
    lit "owara";
    lit "owewe";
    lit "shɛrɛ";
    lit "ɔjɔbɔ";
    lit "ɔjɔru";
    lit "ɔwara";
    lit "ɛbibi";
    lit "ɛrɛna";
    lit "aaro";
    lit "aarɔ";
    lit "aiku";
    lit "belu";
    lit "igbe";
    lit "odun";
    lit "ogun";
    lit "osan";
    lit "sere";
    lit "ɔdun";
    lit "ɔsan";
    lit "aje";
    lit "ana";
    lit "eti";
    lit "gmt";
    lit "now";
    lit "ojo";
    lit "ola";
    lit "oni";
    lit "ope";
    lit "ose";
    lit "osu";
    lit "utc";
    lit "ɔjɔ";
    lit "ɔla";
    lit "ɔpɛ";
    lit "ɔse";
    lit "ɛti";
    lit "am";
    lit "pm";
    lit " ";
    lit "'";
    lit "+";
    lit ",";
    lit "-";
    lit ".";
    lit "/";
    lit ":";
    lit ";";
    lit "@";
    lit "[";
    lit "]";
    lit "z";
    lit "|"] |}.
Definition loc_yo_BJ : locale := merge loc_yo own_yo_BJ.

(** zgh.go:10-99 *)
Definition loc_zgh : locale := Eval vm_compute in
  {| ld_name := lit "zgh"; ld_order := lit "DMY"; ld_nospacing := false; ld_splitter := 0;
    ld_charset := runes (lit "ceghiklnorstuwxyzⴰⴱⴳⴷⴹⴼⴽⵉⵊⵍⵎⵏⵓⵔⵕⵖⵙⵚⵛⵜⵡⵢⵣ");
    ld_abbr := [];
    ld_simpl := [];
    ld_trans := [(lit "ⴷⵓⵊⴰⵏⴱⵉⵔ", [lit "december"]);
    (lit "ⵏⵓⵡⴰⵏⴱⵉⵔ", [lit "november"]);
    (lit "ⵛⵓⵜⴰⵏⴱⵉⵔ", [lit "september"]);
    (lit "ⵜⴰⴷⴳⴳⵡⴰⵜ", [lit "pm"]);
    (lit "ⴰⵙⴳⴳⵡⴰⵙ", [lit "year"]);
    (lit "ⴰⵙⵉⴹⵢⴰⵙ", [lit "saturday"]);
    (lit "ⴰⵙⵉⵎⵡⴰⵙ", [lit "friday"]);
    (lit "ⵉⵎⴰⵍⴰⵙⵙ", [lit "week"]);
    (lit "ⵜⴰⵙⵔⴰⴳⵜ", [lit "hour"]);
    (lit "ⵜⵓⵙⴷⵉⴷⵜ", [lit "minute"]);
    (lit "ⴰⵙⴰⵎⴰⵙ", [lit "sunday"]);
    (lit "ⴰⵙⵉⵏⴰⵙ", [lit "tuesday"]);
    (lit "ⵉⵏⵏⴰⵢⵔ", [lit "january"]);
    (lit "ⵜⴰⵙⵉⵏⵜ", [lit "second"]);
    (lit "ⵜⵉⴼⴰⵡⵜ", [lit "am"]);
    (lit "ⵢⵓⵍⵢⵓⵣ", [lit "july"]);
    (lit "ⴰⴽⵕⴰⵙ", [lit "wednesday"]);
    (lit "ⴰⴽⵡⴰⵙ", [lit "thursday"]);
    (lit "ⴰⵢⵏⴰⵙ", [lit "monday"]);
    (lit "ⴰⵢⵢⵓⵔ", [lit "month"]);
    (lit "ⴱⵕⴰⵢⵕ", [lit "february"]);
    (lit "ⴽⵜⵓⴱⵔ", [lit "october"]);
    (lit "ⵉⴱⵔⵉⵔ", [lit "april"]);
    (lit "ⵎⴰⵢⵢⵓ", [lit "may"]);
    (lit "ⵢⵓⵏⵢⵓ", [lit "june"]);
    (lit "ⴰⵙⵉⴹ", [lit "saturday"]);
    (lit "ⴰⵙⵉⵎ", [lit "friday"]);
    (lit "ⵎⴰⵕⵚ", [lit "march"]);
    (lit "ⵖⵓⵛⵜ", [lit "august"]);
    (lit "gmt", [lit "gmt"]);
    (lit "utc", [lit "utc"]);
    (lit "ⴰⴽⵕ", [lit "wednesday"]);
    (lit "ⴰⴽⵡ", [lit "thursday"]);
    (lit "ⴰⵙⴰ", [lit "sunday"]);
    (lit "ⴰⵙⵉ", [lit "tuesday"]);
    (lit "ⴰⵙⵙ", [lit "day"]);
    (lit "ⴰⵢⵏ", [lit "monday"]);
    (lit "ⴱⵕⴰ", [lit "february"]);
    (lit "ⴷⵓⵊ", [lit "december"]);
    (lit "ⴽⵜⵓ", [lit "october"]);
    (lit "ⵉⴱⵔ", [lit "april"]);
    (lit "ⵉⵏⵏ", [lit "january"]);
    (lit "ⵎⴰⵕ", [lit "march"]);
    (lit "ⵎⴰⵢ", [lit "may"]);
    (lit "ⵏⵓⵡ", [lit "november"]);
    (lit "ⵖⵓⵛ", [lit "august"]);
    (lit "ⵛⵓⵜ", [lit "september"]);
    (lit "ⵢⵓⵍ", [lit "july"]);
    (lit "ⵢⵓⵏ", [lit "june"]);
    (lit "am", [lit "am"]);
    (lit "pm", [lit "pm"]);
    (lit " ", [lit " "]);
    (lit "'", [lit ""]);
    (lit "+", [lit "+"]);
    (lit ",", [lit ""]);
    (lit "-", [lit "-"]);
    (lit ".", [lit "."]);
    (lit "/", [lit "/"]);
    (lit ":", [lit ":"]);
    (lit ";", [lit ""]);
    (lit "@", [lit ""]);
    (lit "[", [lit ""]);
    (lit "]", [lit ""]);
    (lit "z", [lit "z"]);
    (lit "|", [lit ""])];
    ld_reltype := [(lit "this minute", lit "0 minute ago");
    (lit "last month", lit "1 month ago");
    (lit "next month", lit "in 1 month");
    (lit "this month", lit "0 month ago");
    (lit "last week", lit "1 week ago");
    (lit "last year", lit "1 year ago");
    (lit "next week", lit "in 1 week");
    (lit "next year", lit "in 1 year");
    (lit "this hour", lit "0 hour ago");
    (lit "this week", lit "0 week ago");
    (lit "this year", lit "0 year ago");
    (lit "ⴰⵙⴽⴽⴰ", lit "in 1 day");
    (lit "ⵉⴹⵍⵍⵉ", lit "1 day ago");
    (lit "ⴰⵙⵙⴰ", lit "0 day ago");
    (lit "now", lit "0 second ago")];
    ld_relrx := [];
    ld_rx := None;
    ld_rx_exact := None;
    ld_known := [lit "this minute";
    lit "last month";
    lit "next month";
    lit "this month";
    lit "last week";
    lit "last year";
    lit "next week";
    lit "next year";
    lit "this hour";
    lit "this week";
    lit "this year";
    lit "ⴷⵓⵊⴰⵏⴱⵉⵔ";
    lit "ⵏⵓⵡⴰⵏⴱⵉⵔ";
    lit "ⵛⵓⵜⴰⵏⴱⵉⵔ";
    lit "ⵜⴰⴷⴳⴳⵡⴰⵜ";
    lit "ⴰⵙⴳⴳⵡⴰⵙ";
    lit "ⴰⵙⵉⴹⵢⴰⵙ";
    lit "ⴰⵙⵉⵎⵡⴰⵙ";
    lit "ⵉⵎⴰⵍⴰⵙⵙ";
    lit "ⵜⴰⵙⵔⴰⴳⵜ";
    lit "ⵜⵓⵙⴷⵉⴷⵜ";
    lit "ⴰⵙⴰⵎⴰⵙ";
    lit "ⴰⵙⵉⵏⴰⵙ";
    lit "ⵉⵏⵏⴰⵢⵔ";
    lit "ⵜⴰⵙⵉⵏⵜ";
    lit "ⵜⵉⴼⴰⵡⵜ";
    lit "ⵢⵓⵍⵢⵓⵣ";
    lit "ⴰⴽⵕⴰⵙ";
    lit "ⴰⴽⵡⴰⵙ";
    lit "ⴰⵙⴽⴽⴰ";
    lit "ⴰⵢⵏⴰⵙ";
    lit "ⴰⵢⵢⵓⵔ";
    lit "ⴱⵕⴰⵢⵕ";
    lit "ⴽⵜⵓⴱⵔ";
    lit "ⵉⴱⵔⵉⵔ";
    lit "ⵉⴹⵍⵍⵉ";
    lit "ⵎⴰⵢⵢⵓ";
    lit "ⵢⵓⵏⵢⵓ";
    lit "ⴰⵙⵉⴹ";
    lit "ⴰⵙⵉⵎ";
    lit "ⴰⵙⵙⴰ";
    lit "ⵎⴰⵕⵚ";
    lit "ⵖⵓⵛⵜ";
    lit "gmt";
    lit "now";
    lit "utc";
    lit "ⴰⴽⵕ";
    lit "ⴰⴽⵡ";
    lit "ⴰⵙⴰ";
    lit "ⴰⵙⵉ";
    lit "ⴰⵙⵙ";
    lit "ⴰⵢⵏ";
    lit "ⴱⵕⴰ";
    lit "ⴷⵓⵊ";
    lit "ⴽⵜⵓ";
    lit "ⵉⴱⵔ";
    lit "ⵉⵏⵏ";
    lit "ⵎⴰⵕ";
    lit "ⵎⴰⵢ";
    lit "ⵏⵓⵡ";
    lit "ⵖⵓⵛ";
    lit "ⵛⵓⵜ";
    lit "ⵢⵓⵍ";
    lit "ⵢⵓⵏ";
    lit "am";
    lit "pm";
    lit " ";
    lit "'";
    lit "+";
    lit ",";
    lit "-";
    lit ".";
    lit "/";
    lit ":";
    lit ";";
    lit "@";
    lit "[";
    lit "]";
    lit "z";
    lit "|"] |}.

(** zh-hans.go:15-132 *)
Definition loc_zh_Hans : locale := Eval vm_compute in
  {| ld_name := lit "zh-Hans"; ld_order := lit "YMD"; ld_nospacing := true; ld_splitter := 4;
    ld_charset := runes (lit "/cgtuz一七三上下个九二五今八六分刚刻前十午去后周四在天小年日时明星昨月期本此现秒这钟间");
    ld_abbr := [];
    ld_simpl := [];
    ld_trans := [(lit "10月", [lit "october"]);
    (lit "11月", [lit "november"]);
    (lit "12月", [lit "december"]);
    (lit "gmt", [lit "gmt"]);
    (lit "utc", [lit "utc"]);
    (lit "十一月", [lit "november"]);
    (lit "十二月", [lit "december"]);
    (lit "星期一", [lit "monday"]);
    (lit "星期三", [lit "wednesday"]);
    (lit "星期二", [lit "tuesday"]);
    (lit "星期五", [lit "friday"]);
    (lit "星期六", [lit "saturday"]);
    (lit "星期四", [lit "thursday"]);
    (lit "星期日", [lit "sunday"]);
    (lit "1月", [lit "january"]);
    (lit "2月", [lit "february"]);
    (lit "3月", [lit "march"]);
    (lit "4月", [lit "april"]);
    (lit "5月", [lit "may"]);
    (lit "6月", [lit "june"]);
    (lit "7月", [lit "july"]);
    (lit "8月", [lit "august"]);
    (lit "9月", [lit "september"]);
    (lit "am", [lit "am"]);
    (lit "pm", [lit "pm"]);
    (lit "一月", [lit "january"]);
    (lit "七月", [lit "july"]);
    (lit "三月", [lit "march"]);
    (lit "上午", [lit "am"]);
    (lit "下午", [lit "pm"]);
    (lit "九月", [lit "september"]);
    (lit "二月", [lit "february"]);
    (lit "五月", [lit "may"]);
    (lit "八月", [lit "august"]);
    (lit "六月", [lit "june"]);
    (lit "分钟", [lit "minute"]);
    (lit "十月", [lit "october"]);
    (lit "周一", [lit "monday"]);
    (lit "周三", [lit "wednesday"]);
    (lit "周二", [lit "tuesday"]);
    (lit "周五", [lit "friday"]);
    (lit "周六", [lit "saturday"]);
    (lit "周四", [lit "thursday"]);
    (lit "周日", [lit "sunday"]);
    (lit "四月", [lit "april"]);
    (lit "小时", [lit "hour"]);
    (lit " ", [lit " "]);
    (lit "'", [lit ""]);
    (lit "+", [lit "+"]);
    (lit ",", [lit ""]);
    (lit "-", [lit "-"]);
    (lit ".", [lit "."]);
    (lit "/", [lit "/"]);
    (lit ":", [lit ":"]);
    (lit ";", [lit ""]);
    (lit "@", [lit ""]);
    (lit "[", [lit ""]);
    (lit "]", [lit ""]);
    (lit "z", [lit "z"]);
    (lit "|", [lit ""]);
    (lit "分", [lit "minute"]);
    (lit "周", [lit "week"]);
    (lit "年", [lit "year"]);
    (lit "日", [lit "day"]);
    (lit "月", [lit "month"]);
    (lit "秒", [lit "second"])];
    ld_reltype := [(lit "这一时间 / 此时", lit "0 hour ago");
    (lit "这一时间", lit "0 hour ago");
    (lit "上个月", lit "1 month ago");
    (lit "下个月", lit "in 1 month");
    (lit "上周", lit "1 week ago");
    (lit "下周", lit "in 1 week");
    (lit "今天", lit "0 day ago");
    (lit "今年", lit "0 year ago");
    (lit "刚刚", lit "0 second ago");
    (lit "前天", lit "2 day ago");
    (lit "去年", lit "1 year ago");
    (lit "后天", lit "in 2 days");
    (lit "明天", lit "in 1 day");
    (lit "明年", lit "in 1 year");
    (lit "昨天", lit "1 day ago");
    (lit "本周", lit "0 week ago");
    (lit "本月", lit "0 month ago");
    (lit "此刻", lit "0 minute ago");
    (lit "此时", lit "0 hour ago");
    (lit "现在", lit "0 second ago")];
    ld_relrx := [(rx "(?i)(\d+[.,]?\d*)个月前", lit "$1 month ago");
    (rx "(?i)(\d+[.,]?\d*)个月后", lit "in $1 month");
    (rx "(?i)(\d+[.,]?\d*)分钟前", lit "$1 minute ago");
    (rx "(?i)(\d+[.,]?\d*)分钟后", lit "in $1 minute");
    (rx "(?i)(\d+[.,]?\d*)小时前", lit "$1 hour ago");
    (rx "(?i)(\d+[.,]?\d*)小时后", lit "in $1 hour");
    (rx "(?i)(\d+[.,]?\d*)秒钟前", lit "$1 second ago");
    (rx "(?i)(\d+[.,]?\d*)秒钟后", lit "in $1 second");
    (rx "(?i)(\d+[.,]?\d*)周前", lit "$1 week ago");
    (rx "(?i)(\d+[.,]?\d*)周后", lit "in $1 week");
    (rx "(?i)(\d+[.,]?\d*)天前", lit "$1 day ago");
    (rx "(?i)(\d+[.,]?\d*)天后", lit "in $1 day");
    (rx "(?i)(\d+[.,]?\d*)年前", lit "$1 year ago");
    (rx "(?i)(\d+[.,]?\d*)年后", lit "in $1 year");
    (rx "(?i)(\d+[.,]?\d*)秒前", lit "$1 second ago");
    (rx "(?i)(\d+[.,]?\d*)秒后", lit "in $1 second")];
    ld_rx := Some (rx "(?i)(\d+[.,]?\d*个月前|\d+[.,]?\d*个月后|\d+[.,]?\d*分钟前|\d+[.,]?\d*分钟后|\d+[.,]?\d*小时前|\d+[.,]?\d*小时后|\d+[.,]?\d*秒钟前|\d+[.,]?\d*秒钟后|\d+[.,]?\d*周前|\d+[.,]?\d*周后|\d+[.,]?\d*天前|\d+[.,]?\d*天后|\d+[.,]?\d*年前|\d+[.,]?\d*年后|\d+[.,]?\d*秒前|\d+[.,]?\d*秒后)");
    ld_rx_exact := Some (rx "(?i)^(\d+[.,]?\d*个月前|\d+[.,]?\d*个月后|\d+[.,]?\d*分钟前|\d+[.,]?\d*分钟后|\d+[.,]?\d*小时前|\d+[.,]?\d*小时后|\d+[.,]?\d*秒钟前|\d+[.,]?\d*秒钟后|\d+[.,]?\d*周前|\d+[.,]?\d*周后|\d+[.,]?\d*天前|\d+[.,]?\d*天后|\d+[.,]?\d*年前|\d+[.,]?\d*年后|\d+[.,]?\d*秒前|\d+[.,]?\d*秒后)$");
    ld_known := [lit "这一时间 / 此时";
    lit "这一时间";
    lit "10月";
    lit "11月";
    lit "12月";
    lit "gmt";
    lit "utc";
    lit "上个月";
    lit "下个月";
    lit "十一月";
    lit "十二月";
    lit "星期一";
    lit "星期三";
    lit "星期二";
    lit "星期五";
    lit "星期六";
    lit "星期四";
    lit "星期日";
    lit "1月";
    lit "2月";
    lit "3月";
    lit "4月";
    lit "5月";
    lit "6月";
    lit "7月";
    lit "8月";
    lit "9月";
    lit "am";
    lit "pm";
    lit "一月";
    lit "七月";
    lit "三月";
    lit "上午";
    lit "上周";
    lit "下午";
    lit "下周";
    lit "九月";
    lit "二月";
    lit "五月";
    lit "今天";
    lit "今年";
    lit "八月";
    lit "六月";
    lit "分钟";
    lit "刚刚";
    lit "前天";
    lit "十月";
    lit "去年";
    lit "后天";
    lit "周一";
    lit "周三";
    lit "周二";
    lit "周五";
    lit "周六";
    lit "周四";
    lit "周日";
    lit "四月";
    lit "小时";
    lit "明天";
    lit "明年";
    lit "昨天";
    lit "本周";
    lit "本月";
    lit "此刻";
    lit "此时";
    lit "现在";
    lit " ";
    lit "'";
    lit "+";
    lit ",";
    lit "-";
    lit ".";
    lit "/";
    lit ":";
    lit ";";
    lit "@";
    lit "[";
    lit "]";
    lit "z";
    lit "|";
    lit "分";
    lit "周";
    lit "年";
    lit "日";
    lit "月";
    lit "秒"] |}.

(** zh-hans.go:134-138 *)
Definition own_zh_Hans_HK : locale := Eval vm_compute in
  {| ld_name := lit "zh-Hans-HK"; ld_order := lit "DMY"; ld_nospacing := true; ld_splitter := 0;
    ld_charset := runes (lit "");
    ld_abbr := [];
    ld_simpl := [];
    ld_trans := [];
    ld_reltype := [];
    ld_relrx := [];
    ld_rx := None;
    ld_rx_exact := None;
    ld_known := [] |}.
Definition loc_zh_Hans_HK : locale := merge loc_zh_Hans own_zh_Hans_HK.

(** zh-hans.go:140-144 *)
Definition own_zh_Hans_MO : locale := Eval vm_compute in
  {| ld_name := lit "zh-Hans-MO"; ld_order := lit "DMY"; ld_nospacing := true; ld_splitter := 0;
    ld_charset := runes (lit "");
    ld_abbr := [];
    ld_simpl := [];
    ld_trans := [];
    ld_reltype := [];
    ld_relrx := [];
    ld_rx := None;
    ld_rx_exact := None;
    ld_known := [] |}.
Definition loc_zh_Hans_MO : locale := merge loc_zh_Hans own_zh_Hans_MO.

(** zh-hans.go:146-150 *)
Definition own_zh_Hans_SG : locale := Eval vm_compute in
  {| ld_name := lit "zh-Hans-SG"; ld_order := lit "DMY"; ld_nospacing := true; ld_splitter := 0;
    ld_charset := runes (lit "");
    ld_abbr := [];
    ld_simpl := [];
    ld_trans := [];
    ld_reltype := [];
    ld_relrx := [];
    ld_rx := None;
    ld_rx_exact := None;
    ld_known := [] |}.
Definition loc_zh_Hans_SG : locale := merge loc_zh_Hans own_zh_Hans_SG.

(** all patterns above are accepted by the syntax parser *)
Example patterns_ok : forallb (fun s => match parse_regex s with Some _ => true | None => false end)
  [lit "(?i)(\A|[^\pL\pM\d]|_)(\d+[.,]?\d* dakika sonra|\d+[.,]?\d* saniye sonra|\d+[.,]?\d* dakika once|\d+[.,]?\d* hafta sonra|\d+[.,]?\d* saniye once|\d+[.,]?\d* hafta once|\d+[.,]?\d* saat sonra|\d+[.,]?\d* gun sonra|\d+[.,]?\d* saat once|\d+[.,]?\d* yıl sonra|\d+[.,]?\d* ay sonra|\d+[.,]?\d* dk sonra|\d+[.,]?\d* gun once|\d+[.,]?\d* hf sonra|\d+[.,]?\d* sa sonra|\d+[.,]?\d* sn sonra|\d+[.,]?\d* yıl once|\d+[.,]?\d* ay once|\d+[.,]?\d* dk once|\d+[.,]?\d* hf once|\d+[.,]?\d* sa once|\d+[.,]?\d* sn once)(\z|[^\pL\pM\d]|_)";
  lit "(?i)(\A|[^\pL\pM\d]|_)(\d+[.,]?\d* daqiqadan keyin|\d+[.,]?\d* soniyadan keyin|\d+[.,]?\d* haftadan keyin|\d+[.,]?\d* soatdan keyin|\d+[.,]?\d* daqiqa oldin|\d+[.,]?\d* kundan keyin|\d+[.,]?\d* soniya oldin|\d+[.,]?\d* yildan keyin|\d+[.,]?\d* hafta oldin|\d+[.,]?\d* oydan keyin|\d+[.,]?\d* soat oldin|\d+[.,]?\d* kun oldin|\d+[.,]?\d* yil oldin|\d+[.,]?\d* oy oldin)(\z|[^\pL\pM\d]|_)";
  lit "(?i)(\A|[^\pL\pM\d]|_)(\d+[.,]?\d* дақиқадан сунг|\d+[.,]?\d* сониядан сунг|\d+[.,]?\d* ҳафтадан сунг|\d+[.,]?\d* дақиқа олдин|\d+[.,]?\d* соатдан сунг|\d+[.,]?\d* иилдан сунг|\d+[.,]?\d* кундан сунг|\d+[.,]?\d* сония олдин|\d+[.,]?\d* ҳафта олдин|\d+[.,]?\d* оидан сунг|\d+[.,]?\d* соат олдин|\d+[.,]?\d* иил аввал|\d+[.,]?\d* кун олдин|\d+[.,]?\d* ои аввал)(\z|[^\pL\pM\d]|_)";
  lit "(?i)(\A|[^\pL\pM\d]|_)(\d+[.,]?\d* سالوں پہلے|\d+[.,]?\d* سیکنڈ پہلے|\d+[.,]?\d* مہینہ پہلے|\d+[.,]?\d* مہینے پہلے|\d+[.,]?\d* گھنٹوں میں|\d+[.,]?\d* گھنٹہ پہلے|\d+[.,]?\d* گھنٹے پہلے|\d+[.,]?\d* دنوں پہلے|\d+[.,]?\d* سالوں میں|\d+[.,]?\d* سیکنڈ قبل|\d+[.,]?\d* سیکنڈ میں|\d+[.,]?\d* مہینہ میں|\d+[.,]?\d* مہینے میں|\d+[.,]?\d* گھنٹہ قبل|\d+[.,]?\d* گھنٹہ میں|\d+[.,]?\d* گھنٹے قبل|\d+[.,]?\d* گھنٹے میں|\d+[.,]?\d* ہفتوں میں|\d+[.,]?\d* ہفتہ پہلے|\d+[.,]?\d* ہفتے پہلے|\d+[.,]?\d* دنوں میں|\d+[.,]?\d* سال پہلے|\d+[.,]?\d* ماہ پہلے|\d+[.,]?\d* منٹ پہلے|\d+[.,]?\d* ہفتہ قبل|\d+[.,]?\d* ہفتہ میں|\d+[.,]?\d* ہفتے قبل|\d+[.,]?\d* ہفتے میں|\d+[.,]?\d* دن پہلے|\d+[.,]?\d* سال میں|\d+[.,]?\d* ماہ قبل|\d+[.,]?\d* ماہ میں|\d+[.,]?\d* منٹ قبل|\d+[.,]?\d* منٹ میں|\d+[.,]?\d* دن قبل|\d+[.,]?\d* دن میں)(\z|[^\pL\pM\d]|_)";
  lit "(?i)(\A|[^\pL\pM\d]|_)(\d+[.,]?\d* سیکنڈ پہلے|\d+[.,]?\d* مہینہ پہلے|\d+[.,]?\d* مہینے پہلے|\d+[.,]?\d* گھنٹوں میں|\d+[.,]?\d* گھنٹہ پہلے|\d+[.,]?\d* گھنٹے پہلے|\d+[.,]?\d* دنوں پہلے|\d+[.,]?\d* سیکنڈ میں|\d+[.,]?\d* مہینہ میں|\d+[.,]?\d* مہینے میں|\d+[.,]?\d* گھنٹہ میں|\d+[.,]?\d* گھنٹے میں|\d+[.,]?\d* ہفتہ پہلے|\d+[.,]?\d* ہفتے پہلے|\d+[.,]?\d* دنوں میں|\d+[.,]?\d* سال پہلے|\d+[.,]?\d* ماہ پہلے|\d+[.,]?\d* منٹ پہلے|\d+[.,]?\d* ہفتہ میں|\d+[.,]?\d* ہفتے میں|\d+[.,]?\d* دن پہلے|\d+[.,]?\d* سال میں|\d+[.,]?\d* ماہ قبل|\d+[.,]?\d* ماہ میں|\d+[.,]?\d* منٹ میں|\d+[.,]?\d* دن میں)(\z|[^\pL\pM\d]|_)";
  lit "(?i)(\A|[^\pL\pM\d]|_)(\d+[.,]?\d* سېكۇنتتىن كېيىن|\d+[.,]?\d* سايەتتىن كېيىن|\d+[.,]?\d* سېكۇنت يىلگىرى|\d+[.,]?\d* مىنۇتتىن كېيىن|\d+[.,]?\d* ھەپتىدىن كېيىن|\d+[.,]?\d* سايەت يىلگىرى|\d+[.,]?\d* مىنۇت يىلگىرى|\d+[.,]?\d* ھەپتە يىلگىرى|\d+[.,]?\d* كۈندىن كېيىن|\d+[.,]?\d* يايدىن كېيىن|\d+[.,]?\d* يىلدىن كېيىن|\d+[.,]?\d* كۈن يىلگىرى|\d+[.,]?\d* ياي يىلگىرى|\d+[.,]?\d* يىل يىلگىرى)(\z|[^\pL\pM\d]|_)";
  lit "(?i)(\A|[^\pL\pM\d]|_)(sau \d+[.,]?\d* thang nua|sau \d+[.,]?\d* giay nua|sau \d+[.,]?\d* ngay nua|sau \d+[.,]?\d* phut nua|sau \d+[.,]?\d* tuan nua|\d+[.,]?\d* thang truoc|sau \d+[.,]?\d* gio nua|sau \d+[.,]?\d* nam nua|\d+[.,]?\d* giay truoc|\d+[.,]?\d* ngay truoc|\d+[.,]?\d* phut truoc|\d+[.,]?\d* tuan truoc|\d+[.,]?\d* gio truoc|\d+[.,]?\d* nam truoc)(\z|[^\pL\pM\d]|_)";
  lit "(?i)(\A|[^\pL\pM\d]|_)(vor \d+[.,]?\d* sekunde|vor \d+[.,]?\d* minuta|vor \d+[.,]?\d* minute|vor \d+[.,]?\d* sekund|vor \d+[.,]?\d* stunde|i \d+[.,]?\d* sekunde|vor \d+[.,]?\d* manet|vor \d+[.,]?\d* stund|cor \d+[.,]?\d* wuca|i \d+[.,]?\d* minuta|i \d+[.,]?\d* minute|i \d+[.,]?\d* sekund|i \d+[.,]?\d* stunde|vor \d+[.,]?\d* wuca|cor \d+[.,]?\d* jar|i \d+[.,]?\d* manet|i \d+[.,]?\d* stund|vor \d+[.,]?\d* jar|vor \d+[.,]?\d* tag|i \d+[.,]?\d* wuca|i \d+[.,]?\d* jar|i \d+[.,]?\d* tag)(\z|[^\pL\pM\d]|_)";
  lit "(?i)(\A|[^\pL\pM\d]|_)(через \d+[.,]?\d* секунди|через \d+[.,]?\d* секунду|через \d+[.,]?\d* тиждень|через \d+[.,]?\d* хвилини|через \d+[.,]?\d* хвилину|\d+[.,]?\d* секунда тому|\d+[.,]?\d* секунди тому|\d+[.,]?\d* секунду тому|\d+[.,]?\d* тиждень тому|\d+[.,]?\d* хвилина тому|\d+[.,]?\d* хвилини тому|\d+[.,]?\d* хвилину тому|через \d+[.,]?\d* години|через \d+[.,]?\d* годину|через \d+[.,]?\d* місяць|через \d+[.,]?\d* місяця|\d+[.,]?\d* година тому|\d+[.,]?\d* години тому|\d+[.,]?\d* годину тому|\d+[.,]?\d* місяць тому|\d+[.,]?\d* місяця тому|через \d+[.,]?\d* тижня|\d+[.,]?\d* тижня тому|через \d+[.,]?\d* день|через \d+[.,]?\d* року|\d+[.,]?\d* день тому|\d+[.,]?\d* року тому|через \d+[.,]?\d* год|через \d+[.,]?\d* дня|через \d+[.,]?\d* міс|через \d+[.,]?\d* рік|через \d+[.,]?\d* тиж|\d+[.,]?\d* год тому|\d+[.,]?\d* дня тому|\d+[.,]?\d* міс тому|\d+[.,]?\d* рік тому|\d+[.,]?\d* тиж тому|через \d+[.,]?\d* дн|через \d+[.,]?\d* хв|\d+[.,]?\d* дн тому|\d+[.,]?\d* хв тому|через \d+[.,]?\d* р|через \d+[.,]?\d* с|\d+[.,]?\d* д тому|\d+[.,]?\d* р тому|\d+[.,]?\d* с тому|за \d+[.,]?\d* год|за \d+[.,]?\d* міс|за \d+[.,]?\d* тиж|за \d+[.,]?\d* хв|за \d+[.,]?\d* д|за \d+[.,]?\d* р|за \d+[.,]?\d* с)(\z|[^\pL\pM\d]|_)";
  lit "(?i)(\A|[^\pL\pM\d]|_)(אין \d+[.,]?\d* טאג ארום|אין \d+[.,]?\d* טעג ארום|איבער \d+[.,]?\d* חדשים|איבער \d+[.,]?\d* חודש|איבער \d+[.,]?\d* יאר|פאר \d+[.,]?\d* חדשים|פאר \d+[.,]?\d* חודש|פאר \d+[.,]?\d* יאר)(\z|[^\pL\pM\d]|_)";
  lit "(?i)(\A|[^\pL\pM\d_])(?:ngay|nam)\s(\d+[.,]?\d*)(\z|[^\pL\pM\d_])";
  lit "(?i)(\A|[^\pL\pM\d_])^година(\z|[^\pL\pM\d_])";
  lit "(?i)(\A|[^\pL\pM\d_])^годину(\z|[^\pL\pM\d_])";
  lit "(?i)(\A|[^\pL\pM\d_])^секунду(\z|[^\pL\pM\d_])";
  lit "(?i)(\A|[^\pL\pM\d_])^хвилину(\z|[^\pL\pM\d_])";
  lit "(?i)(\A|[^\pL\pM\d_])вісім(\z|[^\pL\pM\d_])";
  lit "(?i)(\A|[^\pL\pM\d_])дв(а|і|оє|ох)(\z|[^\pL\pM\d_])";
  lit "(?i)(\A|[^\pL\pM\d_])двадцять(\z|[^\pL\pM\d_])";
  lit "(?i)(\A|[^\pL\pM\d_])дванадцять(\z|[^\pL\pM\d_])";
  lit "(?i)(\A|[^\pL\pM\d_])дев'ять(\z|[^\pL\pM\d_])";
  lit "(?i)(\A|[^\pL\pM\d_])десять(\z|[^\pL\pM\d_])";
  lit "(?i)(\A|[^\pL\pM\d_])за чверть(\z|[^\pL\pM\d_])";
  lit "(?i)(\A|[^\pL\pM\d_])кілька секунд(\z|[^\pL\pM\d_])";
  lit "(?i)(\A|[^\pL\pM\d_])кілька хвилин(\z|[^\pL\pM\d_])";
  lit "(?i)(\A|[^\pL\pM\d_])од(на|ну|ні|ноі|нієі|ин|ніи)(\z|[^\pL\pM\d_])";
  lit "(?i)(\A|[^\pL\pM\d_])одинадцять(\z|[^\pL\pM\d_])";
  lit "(?i)(\A|[^\pL\pM\d_])опів на(\z|[^\pL\pM\d_])";
  lit "(?i)(\A|[^\pL\pM\d_])п'ятдесят(\z|[^\pL\pM\d_])";
  lit "(?i)(\A|[^\pL\pM\d_])п'ятнадцять(\z|[^\pL\pM\d_])";
  lit "(?i)(\A|[^\pL\pM\d_])п'ять(\z|[^\pL\pM\d_])";
  lit "(?i)(\A|[^\pL\pM\d_])пар[ауі](\z|[^\pL\pM\d_])";
  lit "(?i)(\A|[^\pL\pM\d_])пів години(\z|[^\pL\pM\d_])";
  lit "(?i)(\A|[^\pL\pM\d_])пів року(\z|[^\pL\pM\d_])";
  lit "(?i)(\A|[^\pL\pM\d_])півгодини(\z|[^\pL\pM\d_])";
  lit "(?i)(\A|[^\pL\pM\d_])півроку(\z|[^\pL\pM\d_])";
  lit "(?i)(\A|[^\pL\pM\d_])півтора року(\z|[^\pL\pM\d_])";
  lit "(?i)(\A|[^\pL\pM\d_])півтори години(\z|[^\pL\pM\d_])";
  lit "(?i)(\A|[^\pL\pM\d_])сорок(\z|[^\pL\pM\d_])";
  lit "(?i)(\A|[^\pL\pM\d_])сім(\z|[^\pL\pM\d_])";
  lit "(?i)(\A|[^\pL\pM\d_])три(\z|[^\pL\pM\d_])";
  lit "(?i)(\A|[^\pL\pM\d_])тридцять(\z|[^\pL\pM\d_])";
  lit "(?i)(\A|[^\pL\pM\d_])чотири(\z|[^\pL\pM\d_])";
  lit "(?i)(\A|[^\pL\pM\d_])шість(\z|[^\pL\pM\d_])";
  lit "(?i)(\d+[.,]?\d*) ay once";
  lit "(?i)(\d+[.,]?\d*) ay sonra";
  lit "(?i)(\d+[.,]?\d*) dakika once";
  lit "(?i)(\d+[.,]?\d*) dakika sonra";
  lit "(?i)(\d+[.,]?\d*) daqiqa oldin";
  lit "(?i)(\d+[.,]?\d*) daqiqadan keyin";
  lit "(?i)(\d+[.,]?\d*) dk once";
  lit "(?i)(\d+[.,]?\d*) dk sonra";
  lit "(?i)(\d+[.,]?\d*) giay truoc";
  lit "(?i)(\d+[.,]?\d*) gio truoc";
  lit "(?i)(\d+[.,]?\d*) gun once";
  lit "(?i)(\d+[.,]?\d*) gun sonra";
  lit "(?i)(\d+[.,]?\d*) hafta oldin";
  lit "(?i)(\d+[.,]?\d*) hafta once";
  lit "(?i)(\d+[.,]?\d*) hafta sonra";
  lit "(?i)(\d+[.,]?\d*) haftadan keyin";
  lit "(?i)(\d+[.,]?\d*) hf once";
  lit "(?i)(\d+[.,]?\d*) hf sonra";
  lit "(?i)(\d+[.,]?\d*) kun oldin";
  lit "(?i)(\d+[.,]?\d*) kundan keyin";
  lit "(?i)(\d+[.,]?\d*) nam truoc";
  lit "(?i)(\d+[.,]?\d*) ngay truoc";
  lit "(?i)(\d+[.,]?\d*) oy oldin";
  lit "(?i)(\d+[.,]?\d*) oydan keyin";
  lit "(?i)(\d+[.,]?\d*) phut truoc";
  lit "(?i)(\d+[.,]?\d*) sa once";
  lit "(?i)(\d+[.,]?\d*) sa sonra";
  lit "(?i)(\d+[.,]?\d*) saat once";
  lit "(?i)(\d+[.,]?\d*) saat sonra";
  lit "(?i)(\d+[.,]?\d*) saniye once";
  lit "(?i)(\d+[.,]?\d*) saniye sonra";
  lit "(?i)(\d+[.,]?\d*) sn once";
  lit "(?i)(\d+[.,]?\d*) sn sonra";
  lit "(?i)(\d+[.,]?\d*) soat oldin";
  lit "(?i)(\d+[.,]?\d*) soatdan keyin";
  lit "(?i)(\d+[.,]?\d*) soniya oldin";
  lit "(?i)(\d+[.,]?\d*) soniyadan keyin";
  lit "(?i)(\d+[.,]?\d*) thang truoc";
  lit "(?i)(\d+[.,]?\d*) tuan truoc";
  lit "(?i)(\d+[.,]?\d*) yil oldin";
  lit "(?i)(\d+[.,]?\d*) yildan keyin";
  lit "(?i)(\d+[.,]?\d*) yıl once";
  lit "(?i)(\d+[.,]?\d*) yıl sonra";
  lit "(?i)(\d+[.,]?\d*) год тому";
  lit "(?i)(\d+[.,]?\d*) година тому";
  lit "(?i)(\d+[.,]?\d*) години тому";
  lit "(?i)(\d+[.,]?\d*) годину тому";
  lit "(?i)(\d+[.,]?\d*) д тому";
  lit "(?i)(\d+[.,]?\d*) дақиқа олдин";
  lit "(?i)(\d+[.,]?\d*) дақиқадан сунг";
  lit "(?i)(\d+[.,]?\d*) день тому";
  lit "(?i)(\d+[.,]?\d*) дн тому";
  lit "(?i)(\d+[.,]?\d*) дня тому";
  lit "(?i)(\d+[.,]?\d*) иил аввал";
  lit "(?i)(\d+[.,]?\d*) иилдан сунг";
  lit "(?i)(\d+[.,]?\d*) кун олдин";
  lit "(?i)(\d+[.,]?\d*) кундан сунг";
  lit "(?i)(\d+[.,]?\d*) міс тому";
  lit "(?i)(\d+[.,]?\d*) місяць тому";
  lit "(?i)(\d+[.,]?\d*) місяця тому";
  lit "(?i)(\d+[.,]?\d*) ои аввал";
  lit "(?i)(\d+[.,]?\d*) оидан сунг";
  lit "(?i)(\d+[.,]?\d*) р тому";
  lit "(?i)(\d+[.,]?\d*) року тому";
  lit "(?i)(\d+[.,]?\d*) рік тому";
  lit "(?i)(\d+[.,]?\d*) с тому";
  lit "(?i)(\d+[.,]?\d*) секунда тому";
  lit "(?i)(\d+[.,]?\d*) секунди тому";
  lit "(?i)(\d+[.,]?\d*) секунду тому";
  lit "(?i)(\d+[.,]?\d*) соат олдин";
  lit "(?i)(\d+[.,]?\d*) соатдан сунг";
  lit "(?i)(\d+[.,]?\d*) сония олдин";
  lit "(?i)(\d+[.,]?\d*) сониядан сунг";
  lit "(?i)(\d+[.,]?\d*) тиж тому";
  lit "(?i)(\d+[.,]?\d*) тиждень тому";
  lit "(?i)(\d+[.,]?\d*) тижня тому";
  lit "(?i)(\d+[.,]?\d*) хв тому";
  lit "(?i)(\d+[.,]?\d*) хвилина тому";
  lit "(?i)(\d+[.,]?\d*) хвилини тому";
  lit "(?i)(\d+[.,]?\d*) хвилину тому";
  lit "(?i)(\d+[.,]?\d*) ҳафта олдин";
  lit "(?i)(\d+[.,]?\d*) ҳафтадан сунг";
  lit "(?i)(\d+[.,]?\d*) دن قبل";
  lit "(?i)(\d+[.,]?\d*) دن میں";
  lit "(?i)(\d+[.,]?\d*) دن پہلے";
  lit "(?i)(\d+[.,]?\d*) دنوں میں";
  lit "(?i)(\d+[.,]?\d*) دنوں پہلے";
  lit "(?i)(\d+[.,]?\d*) سال میں";
  lit "(?i)(\d+[.,]?\d*) سال پہلے";
  lit "(?i)(\d+[.,]?\d*) سالوں میں";
  lit "(?i)(\d+[.,]?\d*) سالوں پہلے";
  lit "(?i)(\d+[.,]?\d*) سايەت يىلگىرى";
  lit "(?i)(\d+[.,]?\d*) سايەتتىن كېيىن";
  lit "(?i)(\d+[.,]?\d*) سیکنڈ قبل";
  lit "(?i)(\d+[.,]?\d*) سیکنڈ میں";
  lit "(?i)(\d+[.,]?\d*) سیکنڈ پہلے";
  lit "(?i)(\d+[.,]?\d*) سېكۇنت يىلگىرى";
  lit "(?i)(\d+[.,]?\d*) سېكۇنتتىن كېيىن";
  lit "(?i)(\d+[.,]?\d*) كۈن يىلگىرى";
  lit "(?i)(\d+[.,]?\d*) كۈندىن كېيىن";
  lit "(?i)(\d+[.,]?\d*) ماہ قبل";
  lit "(?i)(\d+[.,]?\d*) ماہ میں";
  lit "(?i)(\d+[.,]?\d*) ماہ پہلے";
  lit "(?i)(\d+[.,]?\d*) منٹ قبل";
  lit "(?i)(\d+[.,]?\d*) منٹ میں";
  lit "(?i)(\d+[.,]?\d*) منٹ پہلے";
  lit "(?i)(\d+[.,]?\d*) مىنۇت يىلگىرى";
  lit "(?i)(\d+[.,]?\d*) مىنۇتتىن كېيىن";
  lit "(?i)(\d+[.,]?\d*) مہینہ میں";
  lit "(?i)(\d+[.,]?\d*) مہینہ پہلے";
  lit "(?i)(\d+[.,]?\d*) مہینے میں";
  lit "(?i)(\d+[.,]?\d*) مہینے پہلے";
  lit "(?i)(\d+[.,]?\d*) ياي يىلگىرى";
  lit "(?i)(\d+[.,]?\d*) يايدىن كېيىن";
  lit "(?i)(\d+[.,]?\d*) يىل يىلگىرى";
  lit "(?i)(\d+[.,]?\d*) يىلدىن كېيىن";
  lit "(?i)(\d+[.,]?\d*) گھنٹوں میں";
  lit "(?i)(\d+[.,]?\d*) گھنٹہ قبل";
  lit "(?i)(\d+[.,]?\d*) گھنٹہ میں";
  lit "(?i)(\d+[.,]?\d*) گھنٹہ پہلے";
  lit "(?i)(\d+[.,]?\d*) گھنٹے قبل";
  lit "(?i)(\d+[.,]?\d*) گھنٹے میں";
  lit "(?i)(\d+[.,]?\d*) گھنٹے پہلے";
  lit "(?i)(\d+[.,]?\d*) ھەپتىدىن كېيىن";
  lit "(?i)(\d+[.,]?\d*) ھەپتە يىلگىرى";
  lit "(?i)(\d+[.,]?\d*) ہفتوں میں";
  lit "(?i)(\d+[.,]?\d*) ہفتہ قبل";
  lit "(?i)(\d+[.,]?\d*) ہفتہ میں";
  lit "(?i)(\d+[.,]?\d*) ہفتہ پہلے";
  lit "(?i)(\d+[.,]?\d*) ہفتے قبل";
  lit "(?i)(\d+[.,]?\d*) ہفتے میں";
  lit "(?i)(\d+[.,]?\d*) ہفتے پہلے";
  lit "(?i)(\d+[.,]?\d*)个月前";
  lit "(?i)(\d+[.,]?\d*)个月后";
  lit "(?i)(\d+[.,]?\d*)分钟前";
  lit "(?i)(\d+[.,]?\d*)分钟后";
  lit "(?i)(\d+[.,]?\d*)周前";
  lit "(?i)(\d+[.,]?\d*)周后";
  lit "(?i)(\d+[.,]?\d*)天前";
  lit "(?i)(\d+[.,]?\d*)天后";
  lit "(?i)(\d+[.,]?\d*)小时前";
  lit "(?i)(\d+[.,]?\d*)小时后";
  lit "(?i)(\d+[.,]?\d*)年前";
  lit "(?i)(\d+[.,]?\d*)年后";
  lit "(?i)(\d+[.,]?\d*)秒前";
  lit "(?i)(\d+[.,]?\d*)秒后";
  lit "(?i)(\d+[.,]?\d*)秒钟前";
  lit "(?i)(\d+[.,]?\d*)秒钟后";
  lit "(?i)(\d+[.,]?\d*个月前|\d+[.,]?\d*个月后|\d+[.,]?\d*分钟前|\d+[.,]?\d*分钟后|\d+[.,]?\d*小时前|\d+[.,]?\d*小时后|\d+[.,]?\d*秒钟前|\d+[.,]?\d*秒钟后|\d+[.,]?\d*周前|\d+[.,]?\d*周后|\d+[.,]?\d*天前|\d+[.,]?\d*天后|\d+[.,]?\d*年前|\d+[.,]?\d*年后|\d+[.,]?\d*秒前|\d+[.,]?\d*秒后)";
  lit "(?i)^(\d+[.,]?\d* dakika sonra|\d+[.,]?\d* saniye sonra|\d+[.,]?\d* dakika once|\d+[.,]?\d* hafta sonra|\d+[.,]?\d* saniye once|\d+[.,]?\d* hafta once|\d+[.,]?\d* saat sonra|\d+[.,]?\d* gun sonra|\d+[.,]?\d* saat once|\d+[.,]?\d* yıl sonra|\d+[.,]?\d* ay sonra|\d+[.,]?\d* dk sonra|\d+[.,]?\d* gun once|\d+[.,]?\d* hf sonra|\d+[.,]?\d* sa sonra|\d+[.,]?\d* sn sonra|\d+[.,]?\d* yıl once|\d+[.,]?\d* ay once|\d+[.,]?\d* dk once|\d+[.,]?\d* hf once|\d+[.,]?\d* sa once|\d+[.,]?\d* sn once)$";
  lit "(?i)^(\d+[.,]?\d* daqiqadan keyin|\d+[.,]?\d* soniyadan keyin|\d+[.,]?\d* haftadan keyin|\d+[.,]?\d* soatdan keyin|\d+[.,]?\d* daqiqa oldin|\d+[.,]?\d* kundan keyin|\d+[.,]?\d* soniya oldin|\d+[.,]?\d* yildan keyin|\d+[.,]?\d* hafta oldin|\d+[.,]?\d* oydan keyin|\d+[.,]?\d* soat oldin|\d+[.,]?\d* kun oldin|\d+[.,]?\d* yil oldin|\d+[.,]?\d* oy oldin)$";
  lit "(?i)^(\d+[.,]?\d* дақиқадан сунг|\d+[.,]?\d* сониядан сунг|\d+[.,]?\d* ҳафтадан сунг|\d+[.,]?\d* дақиқа олдин|\d+[.,]?\d* соатдан сунг|\d+[.,]?\d* иилдан сунг|\d+[.,]?\d* кундан сунг|\d+[.,]?\d* сония олдин|\d+[.,]?\d* ҳафта олдин|\d+[.,]?\d* оидан сунг|\d+[.,]?\d* соат олдин|\d+[.,]?\d* иил аввал|\d+[.,]?\d* кун олдин|\d+[.,]?\d* ои аввал)$";
  lit "(?i)^(\d+[.,]?\d* سالوں پہلے|\d+[.,]?\d* سیکنڈ پہلے|\d+[.,]?\d* مہینہ پہلے|\d+[.,]?\d* مہینے پہلے|\d+[.,]?\d* گھنٹوں میں|\d+[.,]?\d* گھنٹہ پہلے|\d+[.,]?\d* گھنٹے پہلے|\d+[.,]?\d* دنوں پہلے|\d+[.,]?\d* سالوں میں|\d+[.,]?\d* سیکنڈ قبل|\d+[.,]?\d* سیکنڈ میں|\d+[.,]?\d* مہینہ میں|\d+[.,]?\d* مہینے میں|\d+[.,]?\d* گھنٹہ قبل|\d+[.,]?\d* گھنٹہ میں|\d+[.,]?\d* گھنٹے قبل|\d+[.,]?\d* گھنٹے میں|\d+[.,]?\d* ہفتوں میں|\d+[.,]?\d* ہفتہ پہلے|\d+[.,]?\d* ہفتے پہلے|\d+[.,]?\d* دنوں میں|\d+[.,]?\d* سال پہلے|\d+[.,]?\d* ماہ پہلے|\d+[.,]?\d* منٹ پہلے|\d+[.,]?\d* ہفتہ قبل|\d+[.,]?\d* ہفتہ میں|\d+[.,]?\d* ہفتے قبل|\d+[.,]?\d* ہفتے میں|\d+[.,]?\d* دن پہلے|\d+[.,]?\d* سال میں|\d+[.,]?\d* ماہ قبل|\d+[.,]?\d* ماہ میں|\d+[.,]?\d* منٹ قبل|\d+[.,]?\d* منٹ میں|\d+[.,]?\d* دن قبل|\d+[.,]?\d* دن میں)$";
  lit "(?i)^(\d+[.,]?\d* سیکنڈ پہلے|\d+[.,]?\d* مہینہ پہلے|\d+[.,]?\d* مہینے پہلے|\d+[.,]?\d* گھنٹوں میں|\d+[.,]?\d* گھنٹہ پہلے|\d+[.,]?\d* گھنٹے پہلے|\d+[.,]?\d* دنوں پہلے|\d+[.,]?\d* سیکنڈ میں|\d+[.,]?\d* مہینہ میں|\d+[.,]?\d* مہینے میں|\d+[.,]?\d* گھنٹہ میں|\d+[.,]?\d* گھنٹے میں|\d+[.,]?\d* ہفتہ پہلے|\d+[.,]?\d* ہفتے پہلے|\d+[.,]?\d* دنوں میں|\d+[.,]?\d* سال پہلے|\d+[.,]?\d* ماہ پہلے|\d+[.,]?\d* منٹ پہلے|\d+[.,]?\d* ہفتہ میں|\d+[.,]?\d* ہفتے میں|\d+[.,]?\d* دن پہلے|\d+[.,]?\d* سال میں|\d+[.,]?\d* ماہ قبل|\d+[.,]?\d* ماہ میں|\d+[.,]?\d* منٹ میں|\d+[.,]?\d* دن میں)$";
  lit "(?i)^(\d+[.,]?\d* سېكۇنتتىن كېيىن|\d+[.,]?\d* سايەتتىن كېيىن|\d+[.,]?\d* سېكۇنت يىلگىرى|\d+[.,]?\d* مىنۇتتىن كېيىن|\d+[.,]?\d* ھەپتىدىن كېيىن|\d+[.,]?\d* سايەت يىلگىرى|\d+[.,]?\d* مىنۇت يىلگىرى|\d+[.,]?\d* ھەپتە يىلگىرى|\d+[.,]?\d* كۈندىن كېيىن|\d+[.,]?\d* يايدىن كېيىن|\d+[.,]?\d* يىلدىن كېيىن|\d+[.,]?\d* كۈن يىلگىرى|\d+[.,]?\d* ياي يىلگىرى|\d+[.,]?\d* يىل يىلگىرى)$";
  lit "(?i)^(\d+[.,]?\d*个月前|\d+[.,]?\d*个月后|\d+[.,]?\d*分钟前|\d+[.,]?\d*分钟后|\d+[.,]?\d*小时前|\d+[.,]?\d*小时后|\d+[.,]?\d*秒钟前|\d+[.,]?\d*秒钟后|\d+[.,]?\d*周前|\d+[.,]?\d*周后|\d+[.,]?\d*天前|\d+[.,]?\d*天后|\d+[.,]?\d*年前|\d+[.,]?\d*年后|\d+[.,]?\d*秒前|\d+[.,]?\d*秒后)$";
  lit "(?i)^(sau \d+[.,]?\d* thang nua|sau \d+[.,]?\d* giay nua|sau \d+[.,]?\d* ngay nua|sau \d+[.,]?\d* phut nua|sau \d+[.,]?\d* tuan nua|\d+[.,]?\d* thang truoc|sau \d+[.,]?\d* gio nua|sau \d+[.,]?\d* nam nua|\d+[.,]?\d* giay truoc|\d+[.,]?\d* ngay truoc|\d+[.,]?\d* phut truoc|\d+[.,]?\d* tuan truoc|\d+[.,]?\d* gio truoc|\d+[.,]?\d* nam truoc)$";
  lit "(?i)^(vor \d+[.,]?\d* sekunde|vor \d+[.,]?\d* minuta|vor \d+[.,]?\d* minute|vor \d+[.,]?\d* sekund|vor \d+[.,]?\d* stunde|i \d+[.,]?\d* sekunde|vor \d+[.,]?\d* manet|vor \d+[.,]?\d* stund|cor \d+[.,]?\d* wuca|i \d+[.,]?\d* minuta|i \d+[.,]?\d* minute|i \d+[.,]?\d* sekund|i \d+[.,]?\d* stunde|vor \d+[.,]?\d* wuca|cor \d+[.,]?\d* jar|i \d+[.,]?\d* manet|i \d+[.,]?\d* stund|vor \d+[.,]?\d* jar|vor \d+[.,]?\d* tag|i \d+[.,]?\d* wuca|i \d+[.,]?\d* jar|i \d+[.,]?\d* tag)$";
  lit "(?i)^(через \d+[.,]?\d* секунди|через \d+[.,]?\d* секунду|через \d+[.,]?\d* тиждень|через \d+[.,]?\d* хвилини|через \d+[.,]?\d* хвилину|\d+[.,]?\d* секунда тому|\d+[.,]?\d* секунди тому|\d+[.,]?\d* секунду тому|\d+[.,]?\d* тиждень тому|\d+[.,]?\d* хвилина тому|\d+[.,]?\d* хвилини тому|\d+[.,]?\d* хвилину тому|через \d+[.,]?\d* години|через \d+[.,]?\d* годину|через \d+[.,]?\d* місяць|через \d+[.,]?\d* місяця|\d+[.,]?\d* година тому|\d+[.,]?\d* години тому|\d+[.,]?\d* годину тому|\d+[.,]?\d* місяць тому|\d+[.,]?\d* місяця тому|через \d+[.,]?\d* тижня|\d+[.,]?\d* тижня тому|через \d+[.,]?\d* день|через \d+[.,]?\d* року|\d+[.,]?\d* день тому|\d+[.,]?\d* року тому|через \d+[.,]?\d* год|через \d+[.,]?\d* дня|через \d+[.,]?\d* міс|через \d+[.,]?\d* рік|через \d+[.,]?\d* тиж|\d+[.,]?\d* год тому|\d+[.,]?\d* дня тому|\d+[.,]?\d* міс тому|\d+[.,]?\d* рік тому|\d+[.,]?\d* тиж тому|через \d+[.,]?\d* дн|через \d+[.,]?\d* хв|\d+[.,]?\d* дн тому|\d+[.,]?\d* хв тому|через \d+[.,]?\d* р|через \d+[.,]?\d* с|\d+[.,]?\d* д тому|\d+[.,]?\d* р тому|\d+[.,]?\d* с тому|за \d+[.,]?\d* год|за \d+[.,]?\d* міс|за \d+[.,]?\d* тиж|за \d+[.,]?\d* хв|за \d+[.,]?\d* д|за \d+[.,]?\d* р|за \d+[.,]?\d* с)$";
  lit "(?i)^(אין \d+[.,]?\d* טאג ארום|אין \d+[.,]?\d* טעג ארום|איבער \d+[.,]?\d* חדשים|איבער \d+[.,]?\d* חודש|איבער \d+[.,]?\d* יאר|פאר \d+[.,]?\d* חדשים|פאר \d+[.,]?\d* חודש|פאר \d+[.,]?\d* יאר)$";
  lit "(?i)cor (\d+[.,]?\d*) jar";
  lit "(?i)cor (\d+[.,]?\d*) wuca";
  lit "(?i)i (\d+[.,]?\d*) jar";
  lit "(?i)i (\d+[.,]?\d*) manet";
  lit "(?i)i (\d+[.,]?\d*) minuta";
  lit "(?i)i (\d+[.,]?\d*) minute";
  lit "(?i)i (\d+[.,]?\d*) sekund";
  lit "(?i)i (\d+[.,]?\d*) sekunde";
  lit "(?i)i (\d+[.,]?\d*) stund";
  lit "(?i)i (\d+[.,]?\d*) stunde";
  lit "(?i)i (\d+[.,]?\d*) tag";
  lit "(?i)i (\d+[.,]?\d*) wuca";
  lit "(?i)sau (\d+[.,]?\d*) giay nua";
  lit "(?i)sau (\d+[.,]?\d*) gio nua";
  lit "(?i)sau (\d+[.,]?\d*) nam nua";
  lit "(?i)sau (\d+[.,]?\d*) ngay nua";
  lit "(?i)sau (\d+[.,]?\d*) phut nua";
  lit "(?i)sau (\d+[.,]?\d*) thang nua";
  lit "(?i)sau (\d+[.,]?\d*) tuan nua";
  lit "(?i)vor (\d+[.,]?\d*) jar";
  lit "(?i)vor (\d+[.,]?\d*) manet";
  lit "(?i)vor (\d+[.,]?\d*) minuta";
  lit "(?i)vor (\d+[.,]?\d*) minute";
  lit "(?i)vor (\d+[.,]?\d*) sekund";
  lit "(?i)vor (\d+[.,]?\d*) sekunde";
  lit "(?i)vor (\d+[.,]?\d*) stund";
  lit "(?i)vor (\d+[.,]?\d*) stunde";
  lit "(?i)vor (\d+[.,]?\d*) tag";
  lit "(?i)vor (\d+[.,]?\d*) wuca";
  lit "(?i)за (\d+[.,]?\d*) год";
  lit "(?i)за (\d+[.,]?\d*) д";
  lit "(?i)за (\d+[.,]?\d*) міс";
  lit "(?i)за (\d+[.,]?\d*) р";
  lit "(?i)за (\d+[.,]?\d*) с";
  lit "(?i)за (\d+[.,]?\d*) тиж";
  lit "(?i)за (\d+[.,]?\d*) хв";
  lit "(?i)через (\d+[.,]?\d*) год";
  lit "(?i)через (\d+[.,]?\d*) години";
  lit "(?i)через (\d+[.,]?\d*) годину";
  lit "(?i)через (\d+[.,]?\d*) день";
  lit "(?i)через (\d+[.,]?\d*) дн";
  lit "(?i)через (\d+[.,]?\d*) дня";
  lit "(?i)через (\d+[.,]?\d*) міс";
  lit "(?i)через (\d+[.,]?\d*) місяць";
  lit "(?i)через (\d+[.,]?\d*) місяця";
  lit "(?i)через (\d+[.,]?\d*) р";
  lit "(?i)через (\d+[.,]?\d*) року";
  lit "(?i)через (\d+[.,]?\d*) рік";
  lit "(?i)через (\d+[.,]?\d*) с";
  lit "(?i)через (\d+[.,]?\d*) секунди";
  lit "(?i)через (\d+[.,]?\d*) секунду";
  lit "(?i)через (\d+[.,]?\d*) тиж";
  lit "(?i)через (\d+[.,]?\d*) тиждень";
  lit "(?i)через (\d+[.,]?\d*) тижня";
  lit "(?i)через (\d+[.,]?\d*) хв";
  lit "(?i)через (\d+[.,]?\d*) хвилини";
  lit "(?i)через (\d+[.,]?\d*) хвилину";
  lit "(?i)איבער (\d+[.,]?\d*) חדשים";
  lit "(?i)איבער (\d+[.,]?\d*) חודש";
  lit "(?i)איבער (\d+[.,]?\d*) יאר";
  lit "(?i)אין (\d+[.,]?\d*) טאג ארום";
  lit "(?i)אין (\d+[.,]?\d*) טעג ארום";
  lit "(?i)פאר (\d+[.,]?\d*) חדשים";
  lit "(?i)פאר (\d+[.,]?\d*) חודש";
  lit "(?i)פאר (\d+[.,]?\d*) יאר"] = true.
Proof. vm_compute. reflexivity. Qed.

Definition table_12 : list (str * locale) :=
  [(lit "tr", loc_tr);
   (lit "tr-CY", loc_tr_CY);
   (lit "twq", loc_twq);
   (lit "tzm", loc_tzm);
   (lit "ug", loc_ug);
   (lit "uk", loc_uk);
   (lit "ur", loc_ur);
   (lit "ur-IN", loc_ur_IN);
   (lit "uz-Arab", loc_uz_Arab);
   (lit "uz-Cyrl", loc_uz_Cyrl);
   (lit "uz-Latn", loc_uz_Latn);
   (lit "uz", loc_uz);
   (lit "vi", loc_vi);
   (lit "vun", loc_vun);
   (lit "wae", loc_wae);
   (lit "xog", loc_xog);
   (lit "yav", loc_yav);
   (lit "yi", loc_yi);
   (lit "yo", loc_yo);
   (lit "yo-BJ", loc_yo_BJ);
   (lit "yue", loc_yue);
   (lit "zgh", loc_zgh);
   (lit "zh-Hans", loc_zh_Hans);
   (lit "zh-Hans-HK", loc_zh_Hans_HK);
   (lit "zh-Hans-MO", loc_zh_Hans_MO);
   (lit "zh-Hans-SG", loc_zh_Hans_SG)].

(** each region with its language *)
Definition regions_12 : list (str * str) :=
  [(lit "tr-CY", lit "tr");
   (lit "ur-IN", lit "ur");
   (lit "yo-BJ", lit "yo");
   (lit "zh-Hans-HK", lit "zh-Hans");
   (lit "zh-Hans-MO", lit "zh-Hans");
   (lit "zh-Hans-SG", lit "zh-Hans")].
