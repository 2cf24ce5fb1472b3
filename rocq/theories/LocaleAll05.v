(** Generated by tools/gen_all_locales.py from /repo/internal/data. Do not edit. *)
From Verif Require Import GoBase SMap Regex Language LocaleData.

(** ga.go:12-142 *)
Definition loc_ga : locale := Eval vm_compute in
  {| ld_name := lit "ga"; ld_order := lit "DMY"; ld_nospacing := false; ld_splitter := 0;
    ld_charset := runes (lit "bcdefghilnorstuzáéíóú");
    ld_abbr := [];
    ld_simpl := [];
    ld_trans := [(lit "deireadh fomhair", [lit "october"]);
    (lit "de domhnaigh", [lit "sunday"]);
    (lit "mean fomhair", [lit "september"]);
    (lit "de ceadaoin", [lit "wednesday"]);
    (lit "de sathairn", [lit "saturday"]);
    (lit "bealtaine", [lit "may"]);
    (lit "de haoine", [lit "friday"]);
    (lit "deardaoin", [lit "thursday"]);
    (lit "meitheamh", [lit "june"]);
    (lit "seachtain", [lit "week"]);
    (lit "de luain", [lit "monday"]);
    (lit "de mairt", [lit "tuesday"]);
    (lit "aibrean", [lit "april"]);
    (lit "feabhra", [lit "february"]);
    (lit "noimead", [lit "minute"]);
    (lit "nollaig", [lit "december"]);
    (lit "samhain", [lit "november"]);
    (lit "soicind", [lit "second"]);
    (lit "bliain", [lit "year"]);
    (lit "eanair", [lit "january"]);
    (lit "lunasa", [lit "august"]);
    (lit "aoine", [lit "friday"]);
    (lit "dfomh", [lit "october"]);
    (lit "feabh", [lit "february"]);
    (lit "mairt", [lit "tuesday"]);
    (lit "marta", [lit "march"]);
    (lit "meith", [lit "june"]);
    (lit "mfomh", [lit "september"]);
    (lit "beal", [lit "may"]);
    (lit "cead", [lit "wednesday"]);
    (lit "dear", [lit "thursday"]);
    (lit "domh", [lit "sunday"]);
    (lit "iuil", [lit "july"]);
    (lit "luan", [lit "monday"]);
    (lit "noim", [lit "minute"]);
    (lit "noll", [lit "december"]);
    (lit "samh", [lit "november"]);
    (lit "sath", [lit "saturday"]);
    (lit "scht", [lit "week"]);
    (lit "soic", [lit "second"]);
    (lit "uair", [lit "hour"]);
    (lit "aib", [lit "april"]);
    (lit "ean", [lit "january"]);
    (lit "gmt", [lit "gmt"]);
    (lit "lun", [lit "august"]);
    (lit "utc", [lit "utc"]);
    (lit "am", [lit "am"]);
    (lit "bl", [lit "year"]);
    (lit "la", [lit "day"]);
    (lit "mi", [lit "month"]);
    (lit "pm", [lit "pm"]);
    (lit " ", [lit " "]);
    (lit "'", [lit ""]);
    (lit "+", [lit "+"]);
    (lit ",", [lit ""]);
    (lit "-", [lit "-"]);
    (lit ".", [lit "."]);
    (lit "/", [lit "/"]);
    (lit ":", [lit ":"]);
    (lit ";", [lit ""]);
    (lit "@", [lit ""]);
    (lit "[", [lit ""]);
    (lit "]", [lit ""]);
    (lit "n", [lit "minute"]);
    (lit "s", [lit "second"]);
    (lit "u", [lit "hour"]);
    (lit "z", [lit "z"]);
    (lit "|", [lit ""])];
    ld_reltype := [(lit "an tseachtain seo chugainn", lit "in 1 week");
    (lit "an bhliain seo chugainn", lit "in 1 year");
    (lit "an tseachtain seo caite", lit "1 week ago");
    (lit "an tscht seo chugainn", lit "in 1 week");
    (lit "an bhl seo chugainn", lit "in 1 year");
    (lit "an mhi seo chugainn", lit "in 1 month");
    (lit "an tscht seo caite", lit "1 week ago");
    (lit "an tseachtain seo", lit "0 week ago");
    (lit "an mhi seo caite", lit "1 month ago");
    (lit "an bhliain seo", lit "0 year ago");
    (lit "an noimead seo", lit "0 minute ago");
    (lit "an tscht seo", lit "0 week ago");
    (lit "an uair seo", lit "0 hour ago");
    (lit "an bhl seo", lit "0 year ago");
    (lit "an mhi seo", lit "0 month ago");
    (lit "anuraidh", lit "1 year ago");
    (lit "amarach", lit "in 1 day");
    (lit "anois", lit "0 second ago");
    (lit "inniu", lit "0 day ago");
    (lit "inne", lit "1 day ago")];
    ld_relrx := [(rx "(?i)i gceann (\d+[.,]?\d*) uair an chloig", lit "in $1 hour");
    (rx "(?i)(\d+[.,]?\d*) uair an chloig o shin", lit "$1 hour ago");
    (rx "(?i)i gceann (\d+[.,]?\d*) seachtain", lit "in $1 week");
    (rx "(?i)(\d+[.,]?\d*) seachtain o shin", lit "$1 week ago");
    (rx "(?i)i gceann (\d+[.,]?\d*) bhliain", lit "in $1 year");
    (rx "(?i)i gceann (\d+[.,]?\d*) noimead", lit "in $1 minute");
    (rx "(?i)i gceann (\d+[.,]?\d*) soicind", lit "in $1 second");
    (rx "(?i)i gceann (\d+[.,]?\d*) bliain", lit "in $1 year");
    (rx "(?i)(\d+[.,]?\d*) bhliain o shin", lit "$1 year ago");
    (rx "(?i)(\d+[.,]?\d*) noimead o shin", lit "$1 minute ago");
    (rx "(?i)(\d+[.,]?\d*) soicind o shin", lit "$1 second ago");
    (rx "(?i)(\d+[.,]?\d*) bliain o shin", lit "$1 year ago");
    (rx "(?i)i gceann (\d+[.,]?\d*) noim", lit "in $1 minute");
    (rx "(?i)i gceann (\d+[.,]?\d*) scht", lit "in $1 week");
    (rx "(?i)i gceann (\d+[.,]?\d*) soic", lit "in $1 second");
    (rx "(?i)i gceann (\d+[.,]?\d*) uair", lit "in $1 hour");
    (rx "(?i)i gceann (\d+[.,]?\d*) mhi", lit "in $1 month");
    (rx "(?i)(\d+[.,]?\d*) noim o shin", lit "$1 minute ago");
    (rx "(?i)(\d+[.,]?\d*) scht o shin", lit "$1 week ago");
    (rx "(?i)(\d+[.,]?\d*) soic o shin", lit "$1 second ago");
    (rx "(?i)(\d+[.,]?\d*) uair o shin", lit "$1 hour ago");
    (rx "(?i)i gceann (\d+[.,]?\d*) bl", lit "in $1 year");
    (rx "(?i)i gceann (\d+[.,]?\d*) la", lit "in $1 day");
    (rx "(?i)i gceann (\d+[.,]?\d*) mi", lit "in $1 month");
    (rx "(?i)(\d+[.,]?\d*) bhl o shin", lit "$1 year ago");
    (rx "(?i)(\d+[.,]?\d*) mhi o shin", lit "$1 month ago");
    (rx "(?i)(\d+[.,]?\d*) bl o shin", lit "$1 year ago");
    (rx "(?i)(\d+[.,]?\d*) la o shin", lit "$1 day ago");
    (rx "(?i)(\d+[.,]?\d*) mi o shin", lit "$1 month ago")];
    ld_rx := Some (rx "(?i)(\A|[^\pL\pM\d]|_)(i gceann \d+[.,]?\d* uair an chloig|\d+[.,]?\d* uair an chloig o shin|i gceann \d+[.,]?\d* seachtain|\d+[.,]?\d* seachtain o shin|i gceann \d+[.,]?\d* bhliain|i gceann \d+[.,]?\d* noimead|i gceann \d+[.,]?\d* soicind|i gceann \d+[.,]?\d* bliain|\d+[.,]?\d* bhliain o shin|\d+[.,]?\d* noimead o shin|\d+[.,]?\d* soicind o shin|\d+[.,]?\d* bliain o shin|i gceann \d+[.,]?\d* noim|i gceann \d+[.,]?\d* scht|i gceann \d+[.,]?\d* soic|i gceann \d+[.,]?\d* uair|i gceann \d+[.,]?\d* mhi|\d+[.,]?\d* noim o shin|\d+[.,]?\d* scht o shin|\d+[.,]?\d* soic o shin|\d+[.,]?\d* uair o shin|i gceann \d+[.,]?\d* bl|i gceann \d+[.,]?\d* la|i gceann \d+[.,]?\d* mi|\d+[.,]?\d* bhl o shin|\d+[.,]?\d* mhi o shin|\d+[.,]?\d* bl o shin|\d+[.,]?\d* la o shin|\d+[.,]?\d* mi o shin)(\z|[^\pL\pM\d]|_)");
    ld_rx_exact := Some (rx "(?i)^(i gceann \d+[.,]?\d* uair an chloig|\d+[.,]?\d* uair an chloig o shin|i gceann \d+[.,]?\d* seachtain|\d+[.,]?\d* seachtain o shin|i gceann \d+[.,]?\d* bhliain|i gceann \d+[.,]?\d* noimead|i gceann \d+[.,]?\d* soicind|i gceann \d+[.,]?\d* bliain|\d+[.,]?\d* bhliain o shin|\d+[.,]?\d* noimead o shin|\d+[.,]?\d* soicind o shin|\d+[.,]?\d* bliain o shin|i gceann \d+[.,]?\d* noim|i gceann \d+[.,]?\d* scht|i gceann \d+[.,]?\d* soic|i gceann \d+[.,]?\d* uair|i gceann \d+[.,]?\d* mhi|\d+[.,]?\d* noim o shin|\d+[.,]?\d* scht o shin|\d+[.,]?\d* soic o shin|\d+[.,]?\d* uair o shin|i gceann \d+[.,]?\d* bl|i gceann \d+[.,]?\d* la|i gceann \d+[.,]?\d* mi|\d+[.,]?\d* bhl o shin|\d+[.,]?\d* mhi o shin|\d+[.,]?\d* bl o shin|\d+[.,]?\d* la o shin|\d+[.,]?\d* mi o shin)$");
    ld_known := [lit "an tseachtain seo chugainn";
    lit "an bhliain seo chugainn";
    lit "an tseachtain seo caite";
    lit "an tscht seo chugainn";
    lit "an bhl seo chugainn";
    lit "an mhi seo chugainn";
    lit "an tscht seo caite";
    lit "an tseachtain seo";
    lit "an mhi seo caite";
    lit "deireadh fomhair";
    lit "an bhliain seo";
    lit "an noimead seo";
    lit "an tscht seo";
    lit "de domhnaigh";
    lit "mean fomhair";
    lit "an uair seo";
    lit "de ceadaoin";
    lit "de sathairn";
    lit "an bhl seo";
    lit "an mhi seo";
    lit "bealtaine";
    lit "de haoine";
    lit "deardaoin";
    lit "meitheamh";
    lit "seachtain";
    lit "anuraidh";
    lit "de luain";
    lit "de mairt";
    lit "aibrean";
    lit "amarach";
    lit "feabhra";
    lit "noimead";
    lit "nollaig";
    lit "samhain";
    lit "soicind";
    lit "bliain";
    lit "eanair";
    lit "lunasa";
    lit "anois";
    lit "aoine";
    lit "dfomh";
    lit "feabh";
    lit "inniu";
    lit "mairt";
    lit "marta";
    lit "meith";
    lit "mfomh";
    lit "beal";
    lit "cead";
    lit "dear";
    lit "domh";
    lit "inne";
    lit "iuil";
    lit "luan";
    lit "noim";
    lit "noll";
    lit "samh";
    lit "sath";
    lit "scht";
    lit "soic";
    lit "uair";
    lit "aib";
    lit "ean";
    lit "gmt";
    lit "lun";
    lit "utc";
    lit "am";
    lit "bl";
    lit "la";
    lit "mi";
    lit "pm";
    lit " ";
    lit "'";
    lit "+";
    lit ",";
    lit "-";
    lit ".";
    lit "/";
    lit ":";
    lit ";";
    lit "@";
    lit "[";
    lit "]";
    lit "n";
    lit "s";
    lit "u";
    lit "z";
    lit "|"] |}.

(** gd.go:12-182 *)
Definition loc_gd : locale := Eval vm_compute in
  {| ld_name := lit "gd"; ld_order := lit "DMY"; ld_nospacing := false; ld_splitter := 0;
    ld_charset := runes (lit "-bcdefghilnorstuzàèìòù");
    ld_abbr := [];
    ld_simpl := [];
    ld_trans := [(lit "dhen fhaoilleach", [lit "january"]);
    (lit "dhen dubhlachd", [lit "december"]);
    (lit "dhen t-samhain", [lit "november"]);
    (lit "dhen t-sultain", [lit "september"]);
    (lit "am faoilleach", [lit "january"]);
    (lit "dhen cheitean", [lit "may"]);
    (lit "dhen ghearran", [lit "february"]);
    (lit "dhen ghiblean", [lit "april"]);
    (lit "dhen lunastal", [lit "august"]);
    (lit "an dubhlachd", [lit "december"]);
    (lit "an t-ogmhios", [lit "june"]);
    (lit "an t-samhain", [lit "november"]);
    (lit "an t-sultain", [lit "september"]);
    (lit "dhen damhair", [lit "october"]);
    (lit "dhen ogmhios", [lit "june"]);
    (lit "uair a thide", [lit "hour"]);
    (lit "an lunastal", [lit "august"]);
    (lit "an t-iuchar", [lit "july"]);
    (lit "dhen iuchar", [lit "july"]);
    (lit "didomhnaich", [lit "sunday"]);
    (lit "disathairne", [lit "saturday"]);
    (lit "an ceitean", [lit "may"]);
    (lit "an damhair", [lit "october"]);
    (lit "an gearran", [lit "february"]);
    (lit "an giblean", [lit "april"]);
    (lit "dhen mhart", [lit "march"]);
    (lit "diardaoin", [lit "thursday"]);
    (lit "diciadain", [lit "wednesday"]);
    (lit "seachdain", [lit "week"]);
    (lit "bliadhna", [lit "year"]);
    (lit "dihaoine", [lit "friday"]);
    (lit "am mart", [lit "march"]);
    (lit "diluain", [lit "monday"]);
    (lit "dimairt", [lit "tuesday"]);
    (lit "mionaid", [lit "minute"]);
    (lit "seachd", [lit "week"]);
    (lit "gearr", [lit "february"]);
    (lit "latha", [lit "day"]);
    (lit "blia", [lit "year"]);
    (lit "ceit", [lit "may"]);
    (lit "damh", [lit "october"]);
    (lit "diog", [lit "second"]);
    (lit "dubh", [lit "december"]);
    (lit "faoi", [lit "january"]);
    (lit "gibl", [lit "april"]);
    (lit "iuch", [lit "july"]);
    (lit "luna", [lit "august"]);
    (lit "mart", [lit "march"]);
    (lit "mion", [lit "minute"]);
    (lit "mios", [lit "month"]);
    (lit "ogmh", [lit "june"]);
    (lit "samh", [lit "november"]);
    (lit "sult", [lit "september"]);
    (lit "uair", [lit "hour"]);
    (lit "dia", [lit "thursday"]);
    (lit "dic", [lit "wednesday"]);
    (lit "did", [lit "sunday"]);
    (lit "dih", [lit "friday"]);
    (lit "dil", [lit "monday"]);
    (lit "dim", [lit "tuesday"]);
    (lit "dis", [lit "saturday"]);
    (lit "gmt", [lit "gmt"]);
    (lit "utc", [lit "utc"]);
    (lit "am", [lit "am"]);
    (lit "bl", [lit "year"]);
    (lit "la", [lit "day"]);
    (lit "mi", [lit "month"]);
    (lit "pm", [lit "pm"]);
    (lit "sn", [lit "week"]);
    (lit " ", [lit " "]);
    (lit "'", [lit ""]);
    (lit "+", [lit "+"]);
    (lit ",", [lit ""]);
    (lit "-", [lit "-"]);
    (lit ".", [lit "."]);
    (lit "/", [lit "/"]);
    (lit ":", [lit ":"]);
    (lit ";", [lit ""]);
    (lit "@", [lit ""]);
    (lit "[", [lit ""]);
    (lit "]", [lit ""]);
    (lit "d", [lit "second"]);
    (lit "f", [lit "pm"]);
    (lit "m", [lit "am"; lit "minute"]);
    (lit "u", [lit "hour"]);
    (lit "z", [lit "z"]);
    (lit "|", [lit ""])];
    ld_reltype := [(lit "an t-seachdain seo chaidh", lit "1 week ago");
    (lit "am mios seo chaidh", lit "1 month ago");
    (lit "an t-seachdain seo", lit "0 week ago");
    (lit "am mios sa chaidh", lit "1 month ago");
    (lit "an ath-sheachdain", lit "in 1 week");
    (lit "an ath-bhliadhna", lit "in 1 year");
    (lit "seachd sa chaidh", lit "1 week ago");
    (lit "an t-seachd seo", lit "0 week ago");
    (lit "an ath-sheachd", lit "in 1 week");
    (lit "an ath-mhios", lit "in 1 month");
    (lit "am bliadhna", lit "0 year ago");
    (lit "am mios seo", lit "0 month ago");
    (lit "an t-sn seo", lit "0 week ago");
    (lit "this minute", lit "0 minute ago");
    (lit "a-maireach", lit "in 1 day");
    (lit "an ath-bhl", lit "in 1 year");
    (lit "am mi seo", lit "0 month ago");
    (lit "an-drasta", lit "0 second ago");
    (lit "an-uiridh", lit "1 year ago");
    (lit "this hour", lit "0 hour ago");
    (lit "an-diugh", lit "0 day ago");
    (lit "ath-mhi", lit "in 1 month");
    (lit "ath-shn", lit "in 1 week");
    (lit "an-uir", lit "1 year ago");
    (lit "am bl", lit "0 year ago");
    (lit "an-de", lit "1 day ago");
    (lit "mi ch", lit "1 month ago");
    (lit "sn ch", lit "1 week ago")];
    ld_relrx := [(rx "(?i)an ceann (\d+[.,]?\d*) uair a thide", lit "in $1 hour");
    (rx "(?i)(\d+[.,]?\d*) uair a thide air ais", lit "$1 hour ago");
    (rx "(?i)an ceann (\d+[.,]?\d*) bhliadhna", lit "in $1 year");
    (rx "(?i)an ceann (\d+[.,]?\d*) seachdain", lit "in $1 week");
    (rx "(?i)(\d+[.,]?\d*) bhliadhna air ais", lit "$1 year ago");
    (rx "(?i)(\d+[.,]?\d*) seachdain air ais", lit "$1 week ago");
    (rx "(?i)an ceann (\d+[.,]?\d*) bliadhna", lit "in $1 year");
    (rx "(?i)an ceann (\d+[.,]?\d*) mhionaid", lit "in $1 minute");
    (rx "(?i)(\d+[.,]?\d*) bliadhna air ais", lit "$1 year ago");
    (rx "(?i)(\d+[.,]?\d*) mhionaid air ais", lit "$1 minute ago");
    (rx "(?i)an ceann (\d+[.,]?\d*) mionaid", lit "in $1 minute");
    (rx "(?i)(\d+[.,]?\d*) mionaid air ais", lit "$1 minute ago");
    (rx "(?i)an ceann (\d+[.,]?\d*) mhiosa", lit "in $1 month");
    (rx "(?i)an ceann (\d+[.,]?\d*) latha", lit "in $1 day");
    (rx "(?i)an ceann (\d+[.,]?\d*) miosa", lit "in $1 month");
    (rx "(?i)(\d+[.,]?\d*) latha air ais", lit "$1 day ago");
    (rx "(?i)(\d+[.,]?\d*) mhios air ais", lit "$1 month ago");
    (rx "(?i)an ceann (\d+[.,]?\d*) diog", lit "in $1 second");
    (rx "(?i)(\d+[.,]?\d*) diog air ais", lit "$1 second ago");
    (rx "(?i)(\d+[.,]?\d*) mios air ais", lit "$1 month ago");
    (rx "(?i)an (\d+[.,]?\d*) sheachd", lit "in $1 week");
    (rx "(?i)an (\d+[.,]?\d*) seachd", lit "in $1 week");
    (rx "(?i)o (\d+[.,]?\d*) sheachd", lit "$1 week ago");
    (rx "(?i)an (\d+[.,]?\d*) bhlia", lit "in $1 year");
    (rx "(?i)an (\d+[.,]?\d*) mhion", lit "in $1 minute");
    (rx "(?i)an (\d+[.,]?\d*) mhios", lit "in $1 month");
    (rx "(?i)o (\d+[.,]?\d*) seachd", lit "$1 week ago");
    (rx "(?i)an (\d+[.,]?\d*) blia", lit "in $1 year");
    (rx "(?i)an (\d+[.,]?\d*) diog", lit "in $1 second");
    (rx "(?i)an (\d+[.,]?\d*) mion", lit "in $1 minute");
    (rx "(?i)an (\d+[.,]?\d*) mios", lit "in $1 month");
    (rx "(?i)an (\d+[.,]?\d*) uair", lit "in $1 hour");
    (rx "(?i)o (\d+[.,]?\d*) bhlia", lit "$1 year ago");
    (rx "(?i)o (\d+[.,]?\d*) mhion", lit "$1 minute ago");
    (rx "(?i)o (\d+[.,]?\d*) mhios", lit "$1 month ago");
    (rx "(?i)o (\d+[.,]?\d*) blia", lit "$1 year ago");
    (rx "(?i)o (\d+[.,]?\d*) diog", lit "$1 second ago");
    (rx "(?i)o (\d+[.,]?\d*) mion", lit "$1 minute ago");
    (rx "(?i)o (\d+[.,]?\d*) mios", lit "$1 month ago");
    (rx "(?i)o (\d+[.,]?\d*) uair", lit "$1 hour ago");
    (rx "(?i)an (\d+[.,]?\d*) la", lit "in $1 day");
    (rx "(?i)o (\d+[.,]?\d*) la", lit "$1 day ago")];
    ld_rx := Some (rx "(?i)(\A|[^\pL\pM\d]|_)(an ceann \d+[.,]?\d* uair a thide|\d+[.,]?\d* uair a thide air ais|an ceann \d+[.,]?\d* bhliadhna|an ceann \d+[.,]?\d* seachdain|\d+[.,]?\d* bhliadhna air ais|\d+[.,]?\d* seachdain air ais|an ceann \d+[.,]?\d* bliadhna|an ceann \d+[.,]?\d* mhionaid|\d+[.,]?\d* bliadhna air ais|\d+[.,]?\d* mhionaid air ais|an ceann \d+[.,]?\d* mionaid|\d+[.,]?\d* mionaid air ais|an ceann \d+[.,]?\d* mhiosa|an ceann \d+[.,]?\d* latha|an ceann \d+[.,]?\d* miosa|\d+[.,]?\d* latha air ais|\d+[.,]?\d* mhios air ais|an ceann \d+[.,]?\d* diog|\d+[.,]?\d* diog air ais|\d+[.,]?\d* mios air ais|an \d+[.,]?\d* sheachd|an \d+[.,]?\d* seachd|o \d+[.,]?\d* sheachd|an \d+[.,]?\d* bhlia|an \d+[.,]?\d* mhion|an \d+[.,]?\d* mhios|o \d+[.,]?\d* seachd|an \d+[.,]?\d* blia|an \d+[.,]?\d* diog|an \d+[.,]?\d* mion|an \d+[.,]?\d* mios|an \d+[.,]?\d* uair|o \d+[.,]?\d* bhlia|o \d+[.,]?\d* mhion|o \d+[.,]?\d* mhios|o \d+[.,]?\d* blia|o \d+[.,]?\d* diog|o \d+[.,]?\d* mion|o \d+[.,]?\d* mios|o \d+[.,]?\d* uair|an \d+[.,]?\d* la|o \d+[.,]?\d* la)(\z|[^\pL\pM\d]|_)");
    ld_rx_exact := Some (rx "(?i)^(an ceann \d+[.,]?\d* uair a thide|\d+[.,]?\d* uair a thide air ais|an ceann \d+[.,]?\d* bhliadhna|an ceann \d+[.,]?\d* seachdain|\d+[.,]?\d* bhliadhna air ais|\d+[.,]?\d* seachdain air ais|an ceann \d+[.,]?\d* bliadhna|an ceann \d+[.,]?\d* mhionaid|\d+[.,]?\d* bliadhna air ais|\d+[.,]?\d* mhionaid air ais|an ceann \d+[.,]?\d* mionaid|\d+[.,]?\d* mionaid air ais|an ceann \d+[.,]?\d* mhiosa|an ceann \d+[.,]?\d* latha|an ceann \d+[.,]?\d* miosa|\d+[.,]?\d* latha air ais|\d+[.,]?\d* mhios air ais|an ceann \d+[.,]?\d* diog|\d+[.,]?\d* diog air ais|\d+[.,]?\d* mios air ais|an \d+[.,]?\d* sheachd|an \d+[.,]?\d* seachd|o \d+[.,]?\d* sheachd|an \d+[.,]?\d* bhlia|an \d+[.,]?\d* mhion|an \d+[.,]?\d* mhios|o \d+[.,]?\d* seachd|an \d+[.,]?\d* blia|an \d+[.,]?\d* diog|an \d+[.,]?\d* mion|an \d+[.,]?\d* mios|an \d+[.,]?\d* uair|o \d+[.,]?\d* bhlia|o \d+[.,]?\d* mhion|o \d+[.,]?\d* mhios|o \d+[.,]?\d* blia|o \d+[.,]?\d* diog|o \d+[.,]?\d* mion|o \d+[.,]?\d* mios|o \d+[.,]?\d* uair|an \d+[.,]?\d* la|o \d+[.,]?\d* la)$");
    ld_known := [lit "an t-seachdain seo chaidh";
    lit "am mios seo chaidh";
    lit "an t-seachdain seo";
    lit "am mios sa chaidh";
    lit "an ath-sheachdain";
    lit "an ath-bhliadhna";
    lit "dhen fhaoilleach";
    lit "seachd sa chaidh";
    lit "an t-seachd seo";
    lit "an ath-sheachd";
    lit "dhen dubhlachd";
    lit "dhen t-samhain";
    lit "dhen t-sultain";
    lit "am faoilleach";
    lit "dhen cheitean";
    lit "dhen ghearran";
    lit "dhen ghiblean";
    lit "dhen lunastal";
    lit "an ath-mhios";
    lit "an dubhlachd";
    lit "an t-ogmhios";
    lit "an t-samhain";
    lit "an t-sultain";
    lit "dhen damhair";
    lit "dhen ogmhios";
    lit "uair a thide";
    lit "am bliadhna";
    lit "am mios seo";
    lit "an lunastal";
    lit "an t-iuchar";
    lit "an t-sn seo";
    lit "dhen iuchar";
    lit "didomhnaich";
    lit "disathairne";
    lit "this minute";
    lit "a-maireach";
    lit "an ath-bhl";
    lit "an ceitean";
    lit "an damhair";
    lit "an gearran";
    lit "an giblean";
    lit "dhen mhart";
    lit "am mi seo";
    lit "an-drasta";
    lit "an-uiridh";
    lit "diardaoin";
    lit "diciadain";
    lit "seachdain";
    lit "this hour";
    lit "an-diugh";
    lit "bliadhna";
    lit "dihaoine";
    lit "am mart";
    lit "ath-mhi";
    lit "ath-shn";
    lit "diluain";
    lit "dimairt";
    lit "mionaid";
    lit "an-uir";
    lit "seachd";
    lit "am bl";
    lit "an-de";
    lit "gearr";
    lit "latha";
    lit "mi ch";
    lit "sn ch";
    lit "blia";
    lit "ceit";
    lit "damh";
    lit "diog";
    lit "dubh";
    lit "faoi";
    lit "gibl";
    lit "iuch";
    lit "luna";
    lit "mart";
    lit "mion";
    lit "mios";
    lit "ogmh";
    lit "samh";
    lit "sult";
    lit "uair";
    lit "dia";
    lit "dic";
    lit "did";
    lit "dih";
    lit "dil";
    lit "dim";
    lit "dis";
    lit "gmt";
    lit "utc";
    lit "am";
    lit "bl";
    lit "la";
    lit "mi";
    lit "pm";
    lit "sn";
    lit " ";
    lit "'";
    lit "+";
    lit ",";
    lit "-";
    lit ".";
    lit "/";
    lit ":";
    lit ";";
    lit "@";
    lit "[";
    lit "]";
    lit "d";
    lit "f";
    lit "m";
    lit "u";
    lit "z";
    lit "|"] |}.

(** gl.go:12-156 *)
Definition loc_gl : locale := Eval vm_compute in
  {| ld_name := lit "gl"; ld_order := lit "DMY"; ld_nospacing := false; ld_splitter := 0;
    ld_charset := runes (lit "bcdefghilnorstuvxzáéíñó");
    ld_abbr := [];
    ld_simpl := [];
    ld_trans := [(lit "decembro", [lit "december"]);
    (lit "febreiro", [lit "february"]);
    (lit "mercores", [lit "wednesday"]);
    (lit "novembro", [lit "november"]);
    (lit "setembro", [lit "september"]);
    (lit "domingo", [lit "sunday"]);
    (lit "outubro", [lit "october"]);
    (lit "segundo", [lit "second"]);
    (lit "xaneiro", [lit "january"]);
    (lit "agosto", [lit "august"]);
    (lit "martes", [lit "tuesday"]);
    (lit "minuto", [lit "minute"]);
    (lit "sabado", [lit "saturday"]);
    (lit "semana", [lit "week"]);
    (lit "venres", [lit "friday"]);
    (lit "abril", [lit "april"]);
    (lit "marzo", [lit "march"]);
    (lit "xoves", [lit "thursday"]);
    (lit "xullo", [lit "july"]);
    (lit "hora", [lit "hour"]);
    (lit "luns", [lit "monday"]);
    (lit "maio", [lit "may"]);
    (lit "xuno", [lit "june"]);
    (lit "abr", [lit "april"]);
    (lit "ago", [lit "august"]);
    (lit "ano", [lit "year"]);
    (lit "dec", [lit "december"]);
    (lit "dia", [lit "day"]);
    (lit "dom", [lit "sunday"]);
    (lit "feb", [lit "february"]);
    (lit "gmt", [lit "gmt"]);
    (lit "mar", [lit "march"; lit "tuesday"]);
    (lit "mer", [lit "wednesday"]);
    (lit "mes", [lit "month"]);
    (lit "min", [lit "minute"]);
    (lit "nov", [lit "november"]);
    (lit "out", [lit "october"]);
    (lit "sab", [lit "saturday"]);
    (lit "sem", [lit "week"]);
    (lit "set", [lit "september"]);
    (lit "utc", [lit "utc"]);
    (lit "ven", [lit "friday"]);
    (lit "xan", [lit "january"]);
    (lit "xov", [lit "thursday"]);
    (lit "xul", [lit "july"]);
    (lit "am", [lit "am"]);
    (lit "pm", [lit "pm"]);
    (lit " ", [lit " "]);
    (lit "'", [lit ""]);
    (lit "+", [lit "+"]);
    (lit ",", [lit ""]);
    (lit "-", [lit "-"]);
    (lit ".", [lit "."]);
    (lit "/", [lit "/"]);
    (lit ":", [lit ":"]);
    (lit ";", [lit ""]);
    (lit "@", [lit ""]);
    (lit "[", [lit ""]);
    (lit "]", [lit ""]);
    (lit "a", [lit "year"]);
    (lit "d", [lit "day"]);
    (lit "h", [lit "hour"]);
    (lit "m", [lit "month"]);
    (lit "s", [lit "second"]);
    (lit "z", [lit "z"]);
    (lit "|", [lit ""])];
    ld_reltype := [(lit "a proxima semana", lit "in 1 week");
    (lit "a semana pasada", lit "1 week ago");
    (lit "o proximo ano", lit "in 1 year");
    (lit "o proximo mes", lit "in 1 month");
    (lit "neste minuto", lit "0 minute ago");
    (lit "o ano pasado", lit "1 year ago");
    (lit "o mes pasado", lit "1 month ago");
    (lit "seguinte ano", lit "in 1 year");
    (lit "sem seguinte", lit "in 1 week");
    (lit "esta semana", lit "0 week ago");
    (lit "ano pasado", lit "1 year ago");
    (lit "m seguinte", lit "in 1 month");
    (lit "nesta hora", lit "0 hour ago");
    (lit "sem pasada", lit "1 week ago");
    (lit "esta sem", lit "0 week ago");
    (lit "este ano", lit "0 year ago");
    (lit "este mes", lit "0 month ago");
    (lit "m pasado", lit "1 month ago");
    (lit "este m", lit "0 month ago");
    (lit "agora", lit "0 second ago");
    (lit "hoxe", lit "0 day ago");
    (lit "mana", lit "in 1 day");
    (lit "onte", lit "1 day ago")];
    ld_relrx := [(rx "(?i)hai (\d+[.,]?\d*) segundos", lit "$1 second ago");
    (rx "(?i)en (\d+[.,]?\d*) segundos", lit "in $1 second");
    (rx "(?i)hai (\d+[.,]?\d*) minutos", lit "$1 minute ago");
    (rx "(?i)hai (\d+[.,]?\d*) segundo", lit "$1 second ago");
    (rx "(?i)hai (\d+[.,]?\d*) semanas", lit "$1 week ago");
    (rx "(?i)en (\d+[.,]?\d*) minutos", lit "in $1 minute");
    (rx "(?i)en (\d+[.,]?\d*) segundo", lit "in $1 second");
    (rx "(?i)en (\d+[.,]?\d*) semanas", lit "in $1 week");
    (rx "(?i)hai (\d+[.,]?\d*) minuto", lit "$1 minute ago");
    (rx "(?i)hai (\d+[.,]?\d*) semana", lit "$1 week ago");
    (rx "(?i)en (\d+[.,]?\d*) minuto", lit "in $1 minute");
    (rx "(?i)en (\d+[.,]?\d*) semana", lit "in $1 week");
    (rx "(?i)hai (\d+[.,]?\d*) horas", lit "$1 hour ago");
    (rx "(?i)hai (\d+[.,]?\d*) meses", lit "$1 month ago");
    (rx "(?i)en (\d+[.,]?\d*) horas", lit "in $1 hour");
    (rx "(?i)en (\d+[.,]?\d*) meses", lit "in $1 month");
    (rx "(?i)hai (\d+[.,]?\d*) anos", lit "$1 year ago");
    (rx "(?i)hai (\d+[.,]?\d*) dias", lit "$1 day ago");
    (rx "(?i)hai (\d+[.,]?\d*) hora", lit "$1 hour ago");
    (rx "(?i)en (\d+[.,]?\d*) anos", lit "in $1 year");
    (rx "(?i)en (\d+[.,]?\d*) dias", lit "in $1 day");
    (rx "(?i)en (\d+[.,]?\d*) hora", lit "in $1 hour");
    (rx "(?i)hai (\d+[.,]?\d*) ano", lit "$1 year ago");
    (rx "(?i)hai (\d+[.,]?\d*) dia", lit "$1 day ago");
    (rx "(?i)hai (\d+[.,]?\d*) mes", lit "$1 month ago");
    (rx "(?i)hai (\d+[.,]?\d*) min", lit "$1 minute ago");
    (rx "(?i)hai (\d+[.,]?\d*) sem", lit "$1 week ago");
    (rx "(?i)en (\d+[.,]?\d*) ano", lit "in $1 year");
    (rx "(?i)en (\d+[.,]?\d*) dia", lit "in $1 day");
    (rx "(?i)en (\d+[.,]?\d*) mes", lit "in $1 month");
    (rx "(?i)en (\d+[.,]?\d*) min", lit "in $1 minute");
    (rx "(?i)en (\d+[.,]?\d*) sem", lit "in $1 week");
    (rx "(?i)hai (\d+[.,]?\d*) a", lit "$1 year ago");
    (rx "(?i)hai (\d+[.,]?\d*) d", lit "$1 day ago");
    (rx "(?i)hai (\d+[.,]?\d*) h", lit "$1 hour ago");
    (rx "(?i)hai (\d+[.,]?\d*) m", lit "$1 month ago");
    (rx "(?i)hai (\d+[.,]?\d*) s", lit "$1 second ago");
    (rx "(?i)en (\d+[.,]?\d*) a", lit "in $1 year");
    (rx "(?i)en (\d+[.,]?\d*) d", lit "in $1 day");
    (rx "(?i)en (\d+[.,]?\d*) h", lit "in $1 hour");
    (rx "(?i)en (\d+[.,]?\d*) m", lit "in $1 month");
    (rx "(?i)en (\d+[.,]?\d*) s", lit "in $1 second")];
    ld_rx := Some (rx "(?i)(\A|[^\pL\pM\d]|_)(hai \d+[.,]?\d* segundos|en \d+[.,]?\d* segundos|hai \d+[.,]?\d* minutos|hai \d+[.,]?\d* segundo|hai \d+[.,]?\d* semanas|en \d+[.,]?\d* minutos|en \d+[.,]?\d* segundo|en \d+[.,]?\d* semanas|hai \d+[.,]?\d* minuto|hai \d+[.,]?\d* semana|en \d+[.,]?\d* minuto|en \d+[.,]?\d* semana|hai \d+[.,]?\d* horas|hai \d+[.,]?\d* meses|en \d+[.,]?\d* horas|en \d+[.,]?\d* meses|hai \d+[.,]?\d* anos|hai \d+[.,]?\d* dias|hai \d+[.,]?\d* hora|en \d+[.,]?\d* anos|en \d+[.,]?\d* dias|en \d+[.,]?\d* hora|hai \d+[.,]?\d* ano|hai \d+[.,]?\d* dia|hai \d+[.,]?\d* mes|hai \d+[.,]?\d* min|hai \d+[.,]?\d* sem|en \d+[.,]?\d* ano|en \d+[.,]?\d* dia|en \d+[.,]?\d* mes|en \d+[.,]?\d* min|en \d+[.,]?\d* sem|hai \d+[.,]?\d* a|hai \d+[.,]?\d* d|hai \d+[.,]?\d* h|hai \d+[.,]?\d* m|hai \d+[.,]?\d* s|en \d+[.,]?\d* a|en \d+[.,]?\d* d|en \d+[.,]?\d* h|en \d+[.,]?\d* m|en \d+[.,]?\d* s)(\z|[^\pL\pM\d]|_)");
    ld_rx_exact := Some (rx "(?i)^(hai \d+[.,]?\d* segundos|en \d+[.,]?\d* segundos|hai \d+[.,]?\d* minutos|hai \d+[.,]?\d* segundo|hai \d+[.,]?\d* semanas|en \d+[.,]?\d* minutos|en \d+[.,]?\d* segundo|en \d+[.,]?\d* semanas|hai \d+[.,]?\d* minuto|hai \d+[.,]?\d* semana|en \d+[.,]?\d* minuto|en \d+[.,]?\d* semana|hai \d+[.,]?\d* horas|hai \d+[.,]?\d* meses|en \d+[.,]?\d* horas|en \d+[.,]?\d* meses|hai \d+[.,]?\d* anos|hai \d+[.,]?\d* dias|hai \d+[.,]?\d* hora|en \d+[.,]?\d* anos|en \d+[.,]?\d* dias|en \d+[.,]?\d* hora|hai \d+[.,]?\d* ano|hai \d+[.,]?\d* dia|hai \d+[.,]?\d* mes|hai \d+[.,]?\d* min|hai \d+[.,]?\d* sem|en \d+[.,]?\d* ano|en \d+[.,]?\d* dia|en \d+[.,]?\d* mes|en \d+[.,]?\d* min|en \d+[.,]?\d* sem|hai \d+[.,]?\d* a|hai \d+[.,]?\d* d|hai \d+[.,]?\d* h|hai \d+[.,]?\d* m|hai \d+[.,]?\d* s|en \d+[.,]?\d* a|en \d+[.,]?\d* d|en \d+[.,]?\d* h|en \d+[.,]?\d* m|en \d+[.,]?\d* s)$");
    ld_known := [lit "a proxima semana";
    lit "a semana pasada";
    lit "o proximo ano";
    lit "o proximo mes";
    lit "neste minuto";
    lit "o ano pasado";
    lit "o mes pasado";
    lit "seguinte ano";
    lit "sem seguinte";
    lit "esta semana";
    lit "ano pasado";
    lit "m seguinte";
    lit "nesta hora";
    lit "sem pasada";
    lit "decembro";
    lit "esta sem";
    lit "este ano";
    lit "este mes";
    lit "febreiro";
    lit "m pasado";
    lit "mercores";
    lit "novembro";
    lit "setembro";
    lit "domingo";
    lit "outubro";
    lit "segundo";
    lit "xaneiro";
    lit "agosto";
    lit "este m";
    lit "martes";
    lit "minuto";
    lit "sabado";
    lit "semana";
    lit "venres";
    lit "abril";
    lit "agora";
    lit "marzo";
    lit "xoves";
    lit "xullo";
    lit "hora";
    lit "hoxe";
    lit "luns";
    lit "maio";
    lit "mana";
    lit "onte";
    lit "xuno";
    lit "abr";
    lit "ago";
    lit "ano";
    lit "dec";
    lit "dia";
    lit "dom";
    lit "feb";
    lit "gmt";
    lit "mar";
    lit "mer";
    lit "mes";
    lit "min";
    lit "nov";
    lit "out";
    lit "sab";
    lit "sem";
    lit "set";
    lit "utc";
    lit "ven";
    lit "xan";
    lit "xov";
    lit "xul";
    lit "am";
    lit "pm";
    lit " ";
    lit "'";
    lit "+";
    lit ",";
    lit "-";
    lit ".";
    lit "/";
    lit ":";
    lit ";";
    lit "@";
    lit "[";
    lit "]";
    lit "a";
    lit "d";
    lit "h";
    lit "m";
    lit "s";
    lit "z";
    lit "|"] |}.

(** gsw.go:12-104 *)
Definition loc_gsw : locale := Eval vm_compute in
  {| ld_name := lit "gsw"; ld_order := lit "DMY"; ld_nospacing := false; ld_splitter := 0;
    ld_charset := runes (lit "bcdefghijklnorstuvwxyzäü");
    ld_abbr := [];
    ld_simpl := [];
    ld_trans := [(lit "am vormittag", [lit "am"]);
    (lit "am namittag", [lit "pm"]);
    (lit "dunschtig", [lit "thursday"]);
    (lit "samschtig", [lit "saturday"]);
    (lit "septamber", [lit "september"]);
    (lit "vormittag", [lit "am"]);
    (lit "ziischtig", [lit "tuesday"]);
    (lit "auguscht", [lit "august"]);
    (lit "dezamber", [lit "december"]);
    (lit "mittwuch", [lit "wednesday"]);
    (lit "namittag", [lit "pm"]);
    (lit "novamber", [lit "november"]);
    (lit "oktoober", [lit "october"]);
    (lit "februar", [lit "february"]);
    (lit "friitig", [lit "friday"]);
    (lit "maantig", [lit "monday"]);
    (lit "minuute", [lit "minute"]);
    (lit "schtund", [lit "hour"]);
    (lit "sekunde", [lit "second"]);
    (lit "sunntig", [lit "sunday"]);
    (lit "januar", [lit "january"]);
    (lit "april", [lit "april"]);
    (lit "monet", [lit "month"]);
    (lit "wuche", [lit "week"]);
    (lit "jaar", [lit "year"]);
    (lit "juli", [lit "july"]);
    (lit "juni", [lit "june"]);
    (lit "marz", [lit "march"]);
    (lit "vorm", [lit "am"]);
    (lit "apr", [lit "april"]);
    (lit "aug", [lit "august"]);
    (lit "dez", [lit "december"]);
    (lit "feb", [lit "february"]);
    (lit "gmt", [lit "gmt"]);
    (lit "jan", [lit "january"]);
    (lit "jul", [lit "july"]);
    (lit "jun", [lit "june"]);
    (lit "mai", [lit "may"]);
    (lit "mar", [lit "march"]);
    (lit "nam", [lit "pm"]);
    (lit "nov", [lit "november"]);
    (lit "okt", [lit "october"]);
    (lit "sep", [lit "september"]);
    (lit "tag", [lit "day"]);
    (lit "utc", [lit "utc"]);
    (lit "am", [lit "am"]);
    (lit "du", [lit "thursday"]);
    (lit "fr", [lit "friday"]);
    (lit "ma", [lit "monday"]);
    (lit "mi", [lit "wednesday"]);
    (lit "pm", [lit "pm"]);
    (lit "sa", [lit "saturday"]);
    (lit "su", [lit "sunday"]);
    (lit "zi", [lit "tuesday"]);
    (lit " ", [lit " "]);
    (lit "'", [lit ""]);
    (lit "+", [lit "+"]);
    (lit ",", [lit ""]);
    (lit "-", [lit "-"]);
    (lit ".", [lit "."]);
    (lit "/", [lit "/"]);
    (lit ":", [lit ":"]);
    (lit ";", [lit ""]);
    (lit "@", [lit ""]);
    (lit "[", [lit ""]);
    (lit "]", [lit ""]);
    (lit "z", [lit "z"]);
    (lit "|", [lit ""])];
    ld_reltype := [(lit "this minute", lit "0 minute ago");
    (lit "last month", lit "1 month ago");
    (lit "next month", lit "in 1 month");
    (lit "this month", lit "0 month ago");
    (lit "last week", lit "1 week ago");
    (lit "last year", lit "1 year ago");
    (lit "next week", lit "in 1 week");
    (lit "next year", lit "in 1 year");
    (lit "this hour", lit "0 hour ago");
    (lit "this week", lit "0 week ago");
    (lit "this year", lit "0 year ago");
    (lit "geschter", lit "1 day ago");
    (lit "moorn", lit "in 1 day");
    (lit "hut", lit "0 day ago");
    (lit "now", lit "0 second ago")];
    ld_relrx := [];
    ld_rx := None;
    ld_rx_exact := None;
    ld_known := [lit "am vormittag";
    lit "am namittag";
    lit "this minute";
    lit "last month";
    lit "next month";
    lit "this month";
    lit "dunschtig";
    lit "last week";
    lit "last year";
    lit "next week";
    lit "next year";
    lit "samschtig";
    lit "septamber";
    lit "this hour";
    lit "this week";
    lit "this year";
    lit "vormittag";
    lit "ziischtig";
    lit "auguscht";
    lit "dezamber";
    lit "geschter";
    lit "mittwuch";
    lit "namittag";
    lit "novamber";
    lit "oktoober";
    lit "februar";
    lit "friitig";
    lit "maantig";
    lit "minuute";
    lit "schtund";
    lit "sekunde";
    lit "sunntig";
    lit "januar";
    lit "april";
    lit "monet";
    lit "moorn";
    lit "wuche";
    lit "jaar";
    lit "juli";
    lit "juni";
    lit "marz";
    lit "vorm";
    lit "apr";
    lit "aug";
    lit "dez";
    lit "feb";
    lit "gmt";
    lit "hut";
    lit "jan";
    lit "jul";
    lit "jun";
    lit "mai";
    lit "mar";
    lit "nam";
    lit "nov";
    lit "now";
    lit "okt";
    lit "sep";
    lit "tag";
    lit "utc";
    lit "am";
    lit "du";
    lit "fr";
    lit "ma";
    lit "mi";
    lit "pm";
    lit "sa";
    lit "su";
    lit "zi";
    lit " ";
    lit "'";
    lit "+";
    lit ",";
    lit "-";
    lit ".";
    lit "/";
    lit ":";
    lit ";";
    lit "@";
    lit "[";
    lit "]";
    lit "z";
    lit "|"] |}.

(** gsw.go:106-109 *)
Definition own_gsw_FR : locale := Eval vm_compute in
  {| ld_name := lit "gsw-FR"; ld_order := lit "DMY"; ld_nospacing := false; ld_splitter := 0;
    ld_charset := runes (lit "");
    ld_abbr := [];
    ld_simpl := [];
    ld_trans := [];
    ld_reltype := [];
    ld_relrx := [];
    ld_rx := None;
    ld_rx_exact := None;
    ld_known := [] |}.
Definition loc_gsw_FR : locale := merge loc_gsw own_gsw_FR.

(** gsw.go:111-114 *)
Definition own_gsw_LI : locale := Eval vm_compute in
  {| ld_name := lit "gsw-LI"; ld_order := lit "DMY"; ld_nospacing := false; ld_splitter := 0;
    ld_charset := runes (lit "");
    ld_abbr := [];
    ld_simpl := [];
    ld_trans := [];
    ld_reltype := [];
    ld_relrx := [];
    ld_rx := None;
    ld_rx_exact := None;
    ld_known := [] |}.
Definition loc_gsw_LI : locale := merge loc_gsw own_gsw_LI.

(** gu.go:12-118 *)
Definition loc_gu : locale := Eval vm_compute in
  {| ld_name := lit "gu"; ld_order := lit "DMY"; ld_nospacing := false; ld_splitter := 0;
    ld_charset := runes (lit "cgtuzંઅઆઈએઑકગચજટઠડણતદધનપફબમયરલળવશષસહાિીુૂેો્");
    ld_abbr := [];
    ld_simpl := [];
    ld_trans := [(lit "અઠવાડિય", [lit "week"]);
    (lit "જાનયઆરી", [lit "january"]);
    (lit "ઑકટોબર", [lit "october"]);
    (lit "ડિસમબર", [lit "december"]);
    (lit "ફબરઆરી", [lit "february"]);
    (lit "મગળવાર", [lit "tuesday"]);
    (lit "રવિવાર", [lit "sunday"]);
    (lit "શકરવાર", [lit "friday"]);
    (lit "શનિવાર", [lit "saturday"]);
    (lit "સપટમબર", [lit "september"]);
    (lit "સોમવાર", [lit "monday"]);
    (lit "એપરિલ", [lit "april"]);
    (lit "ગરવાર", [lit "thursday"]);
    (lit "નવમબર", [lit "november"]);
    (lit "બધવાર", [lit "wednesday"]);
    (lit "મહિનો", [lit "month"]);
    (lit "મિનિટ", [lit "minute"]);
    (lit "ઑકટો", [lit "october"]);
    (lit "ઑગસટ", [lit "august"]);
    (lit "કલાક", [lit "hour"]);
    (lit "જલાઈ", [lit "july"]);
    (lit "જાનય", [lit "january"]);
    (lit "દિવસ", [lit "day"]);
    (lit "મારચ", [lit "march"]);
    (lit "સકનડ", [lit "second"]);
    (lit "gmt", [lit "gmt"]);
    (lit "utc", [lit "utc"]);
    (lit "ડિસ", [lit "december"]);
    (lit "ફબર", [lit "february"]);
    (lit "મગળ", [lit "tuesday"]);
    (lit "રવિ", [lit "sunday"]);
    (lit "વરષ", [lit "year"]);
    (lit "શકર", [lit "friday"]);
    (lit "શનિ", [lit "saturday"]);
    (lit "સપટ", [lit "september"]);
    (lit "સોમ", [lit "monday"]);
    (lit "am", [lit "am"]);
    (lit "pm", [lit "pm"]);
    (lit "અઠ", [lit "week"]);
    (lit "ગર", [lit "thursday"]);
    (lit "જન", [lit "june"]);
    (lit "નવ", [lit "november"]);
    (lit "બધ", [lit "wednesday"]);
    (lit "મિ", [lit "minute"]);
    (lit " ", [lit " "]);
    (lit "'", [lit ""]);
    (lit "+", [lit "+"]);
    (lit ",", [lit ""]);
    (lit "-", [lit "-"]);
    (lit ".", [lit "."]);
    (lit "/", [lit "/"]);
    (lit ":", [lit ":"]);
    (lit ";", [lit ""]);
    (lit "@", [lit ""]);
    (lit "[", [lit ""]);
    (lit "]", [lit ""]);
    (lit "z", [lit "z"]);
    (lit "|", [lit ""]);
    (lit "ક", [lit "hour"]);
    (lit "મ", [lit "may"; lit "month"]);
    (lit "વ", [lit "year"]);
    (lit "સ", [lit "second"])];
    ld_reltype := [(lit "આવતા અઠવાડિય", lit "in 1 week");
    (lit "ગયા અઠવાડિય", lit "1 week ago");
    (lit "આ અઠવાડિય", lit "0 week ago");
    (lit "આવતા મહિન", lit "in 1 month");
    (lit "આવતા વરષ", lit "in 1 year");
    (lit "ગયા મહિન", lit "1 month ago");
    (lit "આ મિનિટ", lit "0 minute ago");
    (lit "આવતીકાલ", lit "in 1 day");
    (lit "ગયા વરષ", lit "1 year ago");
    (lit "આ કલાક", lit "0 hour ago");
    (lit "આ મહિન", lit "0 month ago");
    (lit "આ વરષ", lit "0 year ago");
    (lit "ગઈકાલ", lit "1 day ago");
    (lit "હમણા", lit "0 second ago");
    (lit "આજ", lit "0 day ago")];
    ld_relrx := [(rx "(?i)(\d+[.,]?\d*) અઠવાડિયા પહલા", lit "$1 week ago");
    (rx "(?i)(\d+[.,]?\d*) અઠવાડિયામા", lit "in $1 week");
    (rx "(?i)(\d+[.,]?\d*) મહિના પહલા", lit "$1 month ago");
    (rx "(?i)(\d+[.,]?\d*) મિનિટ પહલા", lit "$1 minute ago");
    (rx "(?i)(\d+[.,]?\d*) કલાક પહલા", lit "$1 hour ago");
    (rx "(?i)(\d+[.,]?\d*) દિવસ પહલા", lit "$1 day ago");
    (rx "(?i)(\d+[.,]?\d*) વરષ પહલા", lit "$1 year ago");
    (rx "(?i)(\d+[.,]?\d*) સકડ પહલા", lit "$1 second ago");
    (rx "(?i)(\d+[.,]?\d*) અઠ પહલા", lit "$1 week ago");
    (rx "(?i)(\d+[.,]?\d*) મહિનામા", lit "in $1 month");
    (rx "(?i)(\d+[.,]?\d*) મિનિટમા", lit "in $1 minute");
    (rx "(?i)(\d+[.,]?\d*) કલાકમા", lit "in $1 hour");
    (rx "(?i)(\d+[.,]?\d*) દિવસમા", lit "in $1 day");
    (rx "(?i)(\d+[.,]?\d*) અઠ મા", lit "in $1 week");
    (rx "(?i)(\d+[.,]?\d*) વરષમા", lit "in $1 year");
    (rx "(?i)(\d+[.,]?\d*) સકડમા", lit "in $1 second")];
    ld_rx := Some (rx "(?i)(\A|[^\pL\pM\d]|_)(\d+[.,]?\d* અઠવાડિયા પહલા|\d+[.,]?\d* અઠવાડિયામા|\d+[.,]?\d* મહિના પહલા|\d+[.,]?\d* મિનિટ પહલા|\d+[.,]?\d* કલાક પહલા|\d+[.,]?\d* દિવસ પહલા|\d+[.,]?\d* વરષ પહલા|\d+[.,]?\d* સકડ પહલા|\d+[.,]?\d* અઠ પહલા|\d+[.,]?\d* મહિનામા|\d+[.,]?\d* મિનિટમા|\d+[.,]?\d* કલાકમા|\d+[.,]?\d* દિવસમા|\d+[.,]?\d* અઠ મા|\d+[.,]?\d* વરષમા|\d+[.,]?\d* સકડમા)(\z|[^\pL\pM\d]|_)");
    ld_rx_exact := Some (rx "(?i)^(\d+[.,]?\d* અઠવાડિયા પહલા|\d+[.,]?\d* અઠવાડિયામા|\d+[.,]?\d* મહિના પહલા|\d+[.,]?\d* મિનિટ પહલા|\d+[.,]?\d* કલાક પહલા|\d+[.,]?\d* દિવસ પહલા|\d+[.,]?\d* વરષ પહલા|\d+[.,]?\d* સકડ પહલા|\d+[.,]?\d* અઠ પહલા|\d+[.,]?\d* મહિનામા|\d+[.,]?\d* મિનિટમા|\d+[.,]?\d* કલાકમા|\d+[.,]?\d* દિવસમા|\d+[.,]?\d* અઠ મા|\d+[.,]?\d* વરષમા|\d+[.,]?\d* સકડમા)$");
    ld_known := [lit "આવતા અઠવાડિય";
    lit "ગયા અઠવાડિય";
    lit "આ અઠવાડિય";
    lit "આવતા મહિન";
    lit "આવતા વરષ";
    lit "ગયા મહિન";
    lit "અઠવાડિય";
    lit "આ મિનિટ";
    lit "આવતીકાલ";
    lit "ગયા વરષ";
    lit "જાનયઆરી";
    lit "આ કલાક";
    lit "આ મહિન";
    lit "ઑકટોબર";
    lit "ડિસમબર";
    lit "ફબરઆરી";
    lit "મગળવાર";
    lit "રવિવાર";
    lit "શકરવાર";
    lit "શનિવાર";
    lit "સપટમબર";
    lit "સોમવાર";
    lit "આ વરષ";
    lit "એપરિલ";
    lit "ગઈકાલ";
    lit "ગરવાર";
    lit "નવમબર";
    lit "બધવાર";
    lit "મહિનો";
    lit "મિનિટ";
    lit "ઑકટો";
    lit "ઑગસટ";
    lit "કલાક";
    lit "જલાઈ";
    lit "જાનય";
    lit "દિવસ";
    lit "મારચ";
    lit "સકનડ";
    lit "હમણા";
    lit "gmt";
    lit "utc";
    lit "ડિસ";
    lit "ફબર";
    lit "મગળ";
    lit "રવિ";
    lit "વરષ";
    lit "શકર";
    lit "શનિ";
    lit "સપટ";
    lit "સોમ";
    lit "am";
    lit "pm";
    lit "અઠ";
    lit "આજ";
    lit "ગર";
    lit "જન";
    lit "નવ";
    lit "બધ";
    lit "મિ";
    lit " ";
    lit "'";
    lit "+";
    lit ",";
    lit "-";
    lit ".";
    lit "/";
    lit ":";
    lit ";";
    lit "@";
    lit "[";
    lit "]";
    lit "z";
    lit "|";
    lit "ક";
    lit "મ";
    lit "વ";
    lit "સ"] |}.

(** guz.go:10-100 *)
Definition loc_guz : locale := Eval vm_compute in
  {| ld_name := lit "guz"; ld_order := lit "DMY"; ld_nospacing := false; ld_splitter := 0;
    ld_charset := runes (lit "bcdefghijklnorstuwxyz");
    ld_abbr := [];
    ld_simpl := [];
    ld_trans := [(lit "chumapiri", [lit "sunday"]);
    (lit "chumatano", [lit "wednesday"]);
    (lit "chumatato", [lit "monday"]);
    (lit "omotienyi", [lit "month"]);
    (lit "chanuari", [lit "january"]);
    (lit "chumaine", [lit "tuesday"]);
    (lit "esekendi", [lit "second"]);
    (lit "feburari", [lit "february"]);
    (lit "omokubio", [lit "week"]);
    (lit "septemba", [lit "september"]);
    (lit "apiriri", [lit "april"]);
    (lit "aramisi", [lit "thursday"]);
    (lit "disemba", [lit "december"]);
    (lit "edakika", [lit "minute"]);
    (lit "esabato", [lit "saturday"]);
    (lit "nobemba", [lit "november"]);
    (lit "okitoba", [lit "october"]);
    (lit "agosti", [lit "august"]);
    (lit "chulai", [lit "july"]);
    (lit "ichuma", [lit "friday"]);
    (lit "mambia", [lit "am"]);
    (lit "omwaka", [lit "year"]);
    (lit "rituko", [lit "day"]);
    (lit "machi", [lit "march"]);
    (lit "ensa", [lit "hour"]);
    (lit "juni", [lit "june"]);
    (lit "agt", [lit "august"]);
    (lit "apr", [lit "april"]);
    (lit "ars", [lit "thursday"]);
    (lit "can", [lit "january"]);
    (lit "cmn", [lit "tuesday"]);
    (lit "cmt", [lit "wednesday"]);
    (lit "cpr", [lit "sunday"]);
    (lit "ctt", [lit "monday"]);
    (lit "cul", [lit "july"]);
    (lit "dis", [lit "december"]);
    (lit "est", [lit "saturday"]);
    (lit "feb", [lit "february"]);
    (lit "gmt", [lit "gmt"]);
    (lit "icm", [lit "friday"]);
    (lit "jun", [lit "june"]);
    (lit "mac", [lit "march"]);
    (lit "mei", [lit "may"]);
    (lit "mog", [lit "pm"]);
    (lit "nob", [lit "november"]);
    (lit "okt", [lit "october"]);
    (lit "sep", [lit "september"]);
    (lit "utc", [lit "utc"]);
    (lit "am", [lit "am"]);
    (lit "ma", [lit "am"]);
    (lit "mo", [lit "pm"]);
    (lit "pm", [lit "pm"]);
    (lit " ", [lit " "]);
    (lit "'", [lit ""]);
    (lit "+", [lit "+"]);
    (lit ",", [lit ""]);
    (lit "-", [lit "-"]);
    (lit ".", [lit "."]);
    (lit "/", [lit "/"]);
    (lit ":", [lit ":"]);
    (lit ";", [lit ""]);
    (lit "@", [lit ""]);
    (lit "[", [lit ""]);
    (lit "]", [lit ""]);
    (lit "z", [lit "z"]);
    (lit "|", [lit ""])];
    ld_reltype := [(lit "this minute", lit "0 minute ago");
    (lit "last month", lit "1 month ago");
    (lit "next month", lit "in 1 month");
    (lit "this month", lit "0 month ago");
    (lit "last week", lit "1 week ago");
    (lit "last year", lit "1 year ago");
    (lit "next week", lit "in 1 week");
    (lit "next year", lit "in 1 year");
    (lit "this hour", lit "0 hour ago");
    (lit "this week", lit "0 week ago");
    (lit "this year", lit "0 year ago");
    (lit "mambia", lit "in 1 day");
    (lit "igoro", lit "1 day ago");
    (lit "rero", lit "0 day ago");
    (lit "now", lit "0 second ago")];
    ld_relrx := [];
    ld_rx := None;
    ld_rx_exact := None;
    ld_known := [lit "this minute";
    lit "last month";
    lit "next month";
    lit "this month";
    lit "chumapiri";
    lit "chumatano";
    lit "chumatato";
    lit "last week";
    lit "last year";
    lit "next week";
    lit "next year";
    lit "omotienyi";
    lit "this hour";
    lit "this week";
    lit "this year";
    lit "chanuari";
    lit "chumaine";
    lit "esekendi";
    lit "feburari";
    lit "omokubio";
    lit "septemba";
    lit "apiriri";
    lit "aramisi";
    lit "disemba";
    lit "edakika";
    lit "esabato";
    lit "nobemba";
    lit "okitoba";
    lit "agosti";
    lit "chulai";
    lit "ichuma";
    lit "mambia";
    lit "omwaka";
    lit "rituko";
    lit "igoro";
    lit "machi";
    lit "ensa";
    lit "juni";
    lit "rero";
    lit "agt";
    lit "apr";
    lit "ars";
    lit "can";
    lit "cmn";
    lit "cmt";
    lit "cpr";
    lit "ctt";
    lit "cul";
    lit "dis";
    lit "est";
    lit "feb";
    lit "gmt";
    lit "icm";
    lit "jun";
    lit "mac";
    lit "mei";
    lit "mog";
    lit "nob";
    lit "now";
    lit "okt";
    lit "sep";
    lit "utc";
    lit "am";
    lit "ma";
    lit "mo";
    lit "pm";
    lit " ";
    lit "'";
    lit "+";
    lit ",";
    lit "-";
    lit ".";
    lit "/";
    lit ":";
    lit ";";
    lit "@";
    lit "[";
    lit "]";
    lit "z";
    lit "|"] |}.

(** gv.go:10-94 *)
Definition loc_gv : locale := Eval vm_compute in
  {| ld_name := lit "gv"; ld_order := lit "YMD"; ld_nospacing := false; ld_splitter := 0;
    ld_charset := runes (lit "-bcdefghijklnorstuvwxyz");
    ld_abbr := [];
    ld_simpl := [];
    ld_trans := [(lit "toshiaght-arree", [lit "february"]);
    (lit "mee ny nollick", [lit "december"]);
    (lit "jerrey-fouyir", [lit "october"]);
    (lit "jerrey-geuree", [lit "january"]);
    (lit "jerrey-souree", [lit "july"]);
    (lit "mean-fouyir", [lit "september"]);
    (lit "mean-souree", [lit "june"]);
    (lit "mee houney", [lit "november"]);
    (lit "luanistyn", [lit "august"]);
    (lit "m-nollick", [lit "december"]);
    (lit "j-fouyir", [lit "october"]);
    (lit "j-souree", [lit "july"]);
    (lit "jedoonee", [lit "sunday"]);
    (lit "jeheiney", [lit "friday"]);
    (lit "m-fouyir", [lit "september"]);
    (lit "m-houney", [lit "november"]);
    (lit "m-souree", [lit "june"]);
    (lit "boaldyn", [lit "may"]);
    (lit "jelhein", [lit "monday"]);
    (lit "jemayrt", [lit "tuesday"]);
    (lit "jercean", [lit "wednesday"]);
    (lit "jerdein", [lit "thursday"]);
    (lit "t-arree", [lit "february"]);
    (lit "averil", [lit "april"]);
    (lit "avrril", [lit "april"]);
    (lit "j-guer", [lit "january"]);
    (lit "jesarn", [lit "saturday"]);
    (lit "mayrnt", [lit "march"]);
    (lit "minute", [lit "minute"]);
    (lit "second", [lit "second"]);
    (lit "month", [lit "month"]);
    (lit "hour", [lit "hour"]);
    (lit "jerc", [lit "wednesday"]);
    (lit "jerd", [lit "thursday"]);
    (lit "week", [lit "week"]);
    (lit "year", [lit "year"]);
    (lit "day", [lit "day"]);
    (lit "gmt", [lit "gmt"]);
    (lit "jed", [lit "sunday"]);
    (lit "jeh", [lit "friday"]);
    (lit "jel", [lit "monday"]);
    (lit "jem", [lit "tuesday"]);
    (lit "jes", [lit "saturday"]);
    (lit "utc", [lit "utc"]);
    (lit "am", [lit "am"]);
    (lit "pm", [lit "pm"]);
    (lit " ", [lit " "]);
    (lit "'", [lit ""]);
    (lit "+", [lit "+"]);
    (lit ",", [lit ""]);
    (lit "-", [lit "-"]);
    (lit ".", [lit "."]);
    (lit "/", [lit "/"]);
    (lit ":", [lit ":"]);
    (lit ";", [lit ""]);
    (lit "@", [lit ""]);
    (lit "[", [lit ""]);
    (lit "]", [lit ""]);
    (lit "z", [lit "z"]);
    (lit "|", [lit ""])];
    ld_reltype := [(lit "this minute", lit "0 minute ago");
    (lit "last month", lit "1 month ago");
    (lit "next month", lit "in 1 month");
    (lit "this month", lit "0 month ago");
    (lit "last week", lit "1 week ago");
    (lit "last year", lit "1 year ago");
    (lit "next week", lit "in 1 week");
    (lit "next year", lit "in 1 year");
    (lit "this hour", lit "0 hour ago");
    (lit "this week", lit "0 week ago");
    (lit "this year", lit "0 year ago");
    (lit "yesterday", lit "1 day ago");
    (lit "tomorrow", lit "in 1 day");
    (lit "today", lit "0 day ago");
    (lit "now", lit "0 second ago")];
    ld_relrx := [];
    ld_rx := None;
    ld_rx_exact := None;
    ld_known := [lit "toshiaght-arree";
    lit "mee ny nollick";
    lit "jerrey-fouyir";
    lit "jerrey-geuree";
    lit "jerrey-souree";
    lit "mean-fouyir";
    lit "mean-souree";
    lit "this minute";
    lit "last month";
    lit "mee houney";
    lit "next month";
    lit "this month";
    lit "last week";
    lit "last year";
    lit "luanistyn";
    lit "m-nollick";
    lit "next week";
    lit "next year";
    lit "this hour";
    lit "this week";
    lit "this year";
    lit "yesterday";
    lit "j-fouyir";
    lit "j-souree";
    lit "jedoonee";
    lit "jeheiney";
    lit "m-fouyir";
    lit "m-houney";
    lit "m-souree";
    lit "tomorrow";
    lit "boaldyn";
    lit "jelhein";
    lit "jemayrt";
    lit "jercean";
    lit "jerdein";
    lit "t-arree";
    lit "averil";
    lit "avrril";
    lit "j-guer";
    lit "jesarn";
    lit "mayrnt";
    lit "minute";
    lit "second";
    lit "month";
    lit "today";
    lit "hour";
    lit "jerc";
    lit "jerd";
    lit "week";
    lit "year";
    lit "day";
    lit "gmt";
    lit "jed";
    lit "jeh";
    lit "jel";
    lit "jem";
    lit "jes";
    lit "now";
    lit "utc";
    lit "am";
    lit "pm";
    lit " ";
    lit "'";
    lit "+";
    lit ",";
    lit "-";
    lit ".";
    lit "/";
    lit ":";
    lit ";";
    lit "@";
    lit "[";
    lit "]";
    lit "z";
    lit "|"] |}.

(** ha.go:12-99 *)
Definition loc_ha : locale := Eval vm_compute in
  {| ld_name := lit "ha"; ld_order := lit "DMY"; ld_nospacing := false; ld_splitter := 0;
    ld_charset := runes (lit "bcdefghijklnorstuwxyzƙ");
    ld_abbr := [];
    ld_simpl := [];
    ld_trans := [(lit "faburairu", [lit "february"]);
    (lit "afirilu", [lit "april"]);
    (lit "alhamis", [lit "thursday"]);
    (lit "disamba", [lit "december"]);
    (lit "janairu", [lit "january"]);
    (lit "jumma'a", [lit "friday"]);
    (lit "litinin", [lit "monday"]);
    (lit "nuwamba", [lit "november"]);
    (lit "satumba", [lit "september"]);
    (lit "shekara", [lit "year"]);
    (lit "agusta", [lit "august"]);
    (lit "asabar", [lit "saturday"]);
    (lit "daƙiƙa", [lit "second"]);
    (lit "lahadi", [lit "sunday"]);
    (lit "laraba", [lit "wednesday"]);
    (lit "oktoba", [lit "october"]);
    (lit "talata", [lit "tuesday"]);
    (lit "kwana", [lit "day"]);
    (lit "maris", [lit "march"]);
    (lit "minti", [lit "minute"]);
    (lit "mako", [lit "week"]);
    (lit "mayu", [lit "may"]);
    (lit "wata", [lit "month"]);
    (lit "yuli", [lit "july"]);
    (lit "yuni", [lit "june"]);
    (lit "afi", [lit "april"]);
    (lit "agu", [lit "august"]);
    (lit "alh", [lit "thursday"]);
    (lit "asa", [lit "saturday"]);
    (lit "awa", [lit "hour"]);
    (lit "dis", [lit "december"]);
    (lit "fab", [lit "february"]);
    (lit "gmt", [lit "gmt"]);
    (lit "jan", [lit "january"]);
    (lit "jum", [lit "friday"]);
    (lit "lah", [lit "sunday"]);
    (lit "lar", [lit "wednesday"]);
    (lit "lit", [lit "monday"]);
    (lit "mar", [lit "march"]);
    (lit "may", [lit "may"]);
    (lit "nuw", [lit "november"]);
    (lit "okt", [lit "october"]);
    (lit "sat", [lit "september"]);
    (lit "tal", [lit "tuesday"]);
    (lit "utc", [lit "utc"]);
    (lit "yul", [lit "july"]);
    (lit "yun", [lit "june"]);
    (lit "am", [lit "am"]);
    (lit "pm", [lit "pm"]);
    (lit " ", [lit " "]);
    (lit "'", [lit ""]);
    (lit "+", [lit "+"]);
    (lit ",", [lit ""]);
    (lit "-", [lit "-"]);
    (lit ".", [lit "."]);
    (lit "/", [lit "/"]);
    (lit ":", [lit ":"]);
    (lit ";", [lit ""]);
    (lit "@", [lit ""]);
    (lit "[", [lit ""]);
    (lit "]", [lit ""]);
    (lit "z", [lit "z"]);
    (lit "|", [lit ""])];
    ld_reltype := [(lit "this minute", lit "0 minute ago");
    (lit "last month", lit "1 month ago");
    (lit "next month", lit "in 1 month");
    (lit "this month", lit "0 month ago");
    (lit "last week", lit "1 week ago");
    (lit "last year", lit "1 year ago");
    (lit "next week", lit "in 1 week");
    (lit "next year", lit "in 1 year");
    (lit "this hour", lit "0 hour ago");
    (lit "this week", lit "0 week ago");
    (lit "this year", lit "0 year ago");
    (lit "gobe", lit "in 1 day");
    (lit "jiya", lit "1 day ago");
    (lit "now", lit "0 second ago");
    (lit "yau", lit "0 day ago")];
    ld_relrx := [];
    ld_rx := None;
    ld_rx_exact := None;
    ld_known := [lit "this minute";
    lit "last month";
    lit "next month";
    lit "this month";
    lit "faburairu";
    lit "last week";
    lit "last year";
    lit "next week";
    lit "next year";
    lit "this hour";
    lit "this week";
    lit "this year";
    lit "afirilu";
    lit "alhamis";
    lit "disamba";
    lit "janairu";
    lit "jumma'a";
    lit "litinin";
    lit "nuwamba";
    lit "satumba";
    lit "shekara";
    lit "agusta";
    lit "asabar";
    lit "daƙiƙa";
    lit "lahadi";
    lit "laraba";
    lit "oktoba";
    lit "talata";
    lit "kwana";
    lit "maris";
    lit "minti";
    lit "gobe";
    lit "jiya";
    lit "mako";
    lit "mayu";
    lit "wata";
    lit "yuli";
    lit "yuni";
    lit "afi";
    lit "agu";
    lit "alh";
    lit "asa";
    lit "awa";
    lit "dis";
    lit "fab";
    lit "gmt";
    lit "jan";
    lit "jum";
    lit "lah";
    lit "lar";
    lit "lit";
    lit "mar";
    lit "may";
    lit "now";
    lit "nuw";
    lit "okt";
    lit "sat";
    lit "tal";
    lit "utc";
    lit "yau";
    lit "yul";
    lit "yun";
    lit "am";
    lit "pm";
    lit " ";
    lit "'";
    lit "+";
    lit ",";
    lit "-";
    lit ".";
    lit "/";
    lit ":";
    lit ";";
    lit "@";
    lit "[";
    lit "]";
    lit "z";
    lit "|"] |}.

(** ha.go:101-104 *)
Definition own_ha_GH : locale := Eval vm_compute in
  {| ld_name := lit "ha-GH"; ld_order := lit "DMY"; ld_nospacing := false; ld_splitter := 0;
    ld_charset := runes (lit "");
    ld_abbr := [];
    ld_simpl := [];
    ld_trans := [];
    ld_reltype := [];
    ld_relrx := [];
    ld_rx := None;
    ld_rx_exact := None;
    ld_known := [] |}.
Definition loc_ha_GH : locale := merge loc_ha own_ha_GH.

(** ha.go:106-109 *)
Definition own_ha_NE : locale := Eval vm_compute in
  {| ld_name := lit "ha-NE"; ld_order := lit "DMY"; ld_nospacing := false; ld_splitter := 0;
    ld_charset := runes (lit "");
    ld_abbr := [];
    ld_simpl := [];
    ld_trans := [];
    ld_reltype := [];
    ld_relrx := [];
    ld_rx := None;
    ld_rx_exact := None;
    ld_known := [] |}.
Definition loc_ha_NE : locale := merge loc_ha own_ha_NE.

(** haw.go:10-96 *)
Definition loc_haw : locale := Eval vm_compute in
  {| ld_name := lit "haw"; ld_order := lit "DMY"; ld_nospacing := false; ld_splitter := 0;
    ld_charset := runes (lit "cdeghiklnorstuwxyzā");
    ld_abbr := [];
    ld_simpl := [];
    ld_trans := [(lit "kepakemapa", [lit "september"]);
    (lit "pepeluali", [lit "february"]);
    (lit "'apelila", [lit "april"]);
    (lit "'okakopa", [lit "october"]);
    (lit "kekemapa", [lit "december"]);
    (lit "nowemapa", [lit "november"]);
    (lit "po'akahi", [lit "monday"]);
    (lit "po'akolu", [lit "wednesday"]);
    (lit "po'alima", [lit "friday"]);
    (lit "'aukake", [lit "august"]);
    (lit "ianuali", [lit "january"]);
    (lit "po'alua", [lit "tuesday"]);
    (lit "po'aono", [lit "saturday"]);
    (lit "lapule", [lit "sunday"]);
    (lit "malaki", [lit "march"]);
    (lit "minute", [lit "minute"]);
    (lit "po'aha", [lit "thursday"]);
    (lit "second", [lit "second"]);
    (lit "iulai", [lit "july"]);
    (lit "month", [lit "month"]);
    (lit "hour", [lit "hour"]);
    (lit "iune", [lit "june"]);
    (lit "week", [lit "week"]);
    (lit "year", [lit "year"]);
    (lit "'ap", [lit "april"]);
    (lit "'au", [lit "august"]);
    (lit "'ok", [lit "october"]);
    (lit "day", [lit "day"]);
    (lit "gmt", [lit "gmt"]);
    (lit "ian", [lit "january"]);
    (lit "iul", [lit "july"]);
    (lit "iun", [lit "june"]);
    (lit "kek", [lit "december"]);
    (lit "kep", [lit "september"]);
    (lit "mal", [lit "march"]);
    (lit "mei", [lit "may"]);
    (lit "now", [lit "november"]);
    (lit "pep", [lit "february"]);
    (lit "utc", [lit "utc"]);
    (lit "am", [lit "am"]);
    (lit "lp", [lit "sunday"]);
    (lit "p1", [lit "monday"]);
    (lit "p2", [lit "tuesday"]);
    (lit "p3", [lit "wednesday"]);
    (lit "p4", [lit "thursday"]);
    (lit "p5", [lit "friday"]);
    (lit "p6", [lit "saturday"]);
    (lit "pm", [lit "pm"]);
    (lit " ", [lit " "]);
    (lit "'", [lit ""]);
    (lit "+", [lit "+"]);
    (lit ",", [lit ""]);
    (lit "-", [lit "-"]);
    (lit ".", [lit "."]);
    (lit "/", [lit "/"]);
    (lit ":", [lit ":"]);
    (lit ";", [lit ""]);
    (lit "@", [lit ""]);
    (lit "[", [lit ""]);
    (lit "]", [lit ""]);
    (lit "z", [lit "z"]);
    (lit "|", [lit ""])];
    ld_reltype := [(lit "this minute", lit "0 minute ago");
    (lit "last month", lit "1 month ago");
    (lit "next month", lit "in 1 month");
    (lit "this month", lit "0 month ago");
    (lit "last week", lit "1 week ago");
    (lit "last year", lit "1 year ago");
    (lit "next week", lit "in 1 week");
    (lit "next year", lit "in 1 year");
    (lit "this hour", lit "0 hour ago");
    (lit "this week", lit "0 week ago");
    (lit "this year", lit "0 year ago");
    (lit "yesterday", lit "1 day ago");
    (lit "tomorrow", lit "in 1 day");
    (lit "today", lit "0 day ago");
    (lit "now", lit "0 second ago")];
    ld_relrx := [];
    ld_rx := None;
    ld_rx_exact := None;
    ld_known := [lit "this minute";
    lit "kepakemapa";
    lit "last month";
    lit "next month";
    lit "this month";
    lit "last week";
    lit "last year";
    lit "next week";
    lit "next year";
    lit "pepeluali";
    lit "this hour";
    lit "this week";
    lit "this year";
    lit "yesterday";
    lit "'apelila";
    lit "'okakopa";
    lit "kekemapa";
    lit "nowemapa";
    lit "po'akahi";
    lit "po'akolu";
    lit "po'alima";
    lit "tomorrow";
    lit "'aukake";
    lit "ianuali";
    lit "po'alua";
    lit "po'aono";
    lit "lapule";
    lit "malaki";
    lit "minute";
    lit "po'aha";
    lit "second";
    lit "iulai";
    lit "month";
    lit "today";
    lit "hour";
    lit "iune";
    lit "week";
    lit "year";
    lit "'ap";
    lit "'au";
    lit "'ok";
    lit "day";
    lit "gmt";
    lit "ian";
    lit "iul";
    lit "iun";
    lit "kek";
    lit "kep";
    lit "mal";
    lit "mei";
    lit "now";
    lit "pep";
    lit "utc";
    lit "am";
    lit "lp";
    lit "p1";
    lit "p2";
    lit "p3";
    lit "p4";
    lit "p5";
    lit "p6";
    lit "pm";
    lit " ";
    lit "'";
    lit "+";
    lit ",";
    lit "-";
    lit ".";
    lit "/";
    lit ":";
    lit ";";
    lit "@";
    lit "[";
    lit "]";
    lit "z";
    lit "|"] |}.

(** he.go:12-230 *)
Definition loc_he : locale := Eval vm_compute in
  {| ld_name := lit "he"; ld_order := lit "DMY"; ld_nospacing := false; ld_splitter := 1;
    ld_charset := runes (lit "-cgtuzאבגדהוזחטיךכלםמןנסעפץצקרשת׳״");
    ld_abbr := [];
    ld_simpl := [(rx "(?i)(\A|[^\pL\pM\d_])ויום(\z|[^\pL\pM\d_])", lit "${1}1 יום${2}");
    (rx "(?i)(\A|[^\pL\pM\d_])ושבוע(\z|[^\pL\pM\d_])", lit "${1}1 שבוע${2}");
    (rx "(?i)(\A|[^\pL\pM\d_])וחודש(\z|[^\pL\pM\d_])", lit "${1}1 חודש${2}");
    (rx "(?i)(\A|[^\pL\pM\d_])ושנה(\z|[^\pL\pM\d_])", lit "${1}1 שנה${2}");
    (rx "(?i)(\A|[^\pL\pM\d_])ו([\pL\pM\d_]+)(\z|[^\pL\pM\d_])", lit "${1}${2}${3}");
    (rx "(?i)(\A|[^\pL\pM\d_])שנתיי?ם(\z|[^\pL\pM\d_])", lit "${1}2 שנים${2}");
    (rx "(?i)(\A|[^\pL\pM\d_])חודשיים(\z|[^\pL\pM\d_])", lit "${1}2 חודשים${2}");
    (rx "(?i)(\A|[^\pL\pM\d_])שבועיי?ם(\z|[^\pL\pM\d_])", lit "${1}2 שבועות${2}");
    (rx "(?i)(\A|[^\pL\pM\d_])יומיי?ם(\z|[^\pL\pM\d_])", lit "${1}2 ימים${2}");
    (rx "(?i)(\A|[^\pL\pM\d_])שעתיי?ם(\z|[^\pL\pM\d_])", lit "${1}2 שעות${2}");
    (rx "(?i)(\A|[^\pL\pM\d_])שלשום(\z|[^\pL\pM\d_])", lit "${1}2 ימים${2}");
    (rx "(?i)(\A|[^\pL\pM\d_])מחר(\z|[^\pL\pM\d_])", lit "${1}בעוד 1 יום${2}");
    (rx "(?i)(\A|[^\pL\pM\d_])אחר חצות(\z|[^\pL\pM\d_])", lit "${1}am${2}");
    (rx "(?i)(\A|[^\pL\pM\d_])חצות(\z|[^\pL\pM\d_])", lit "${1}12 am${2}");
    (rx "(?i)(\A|[^\pL\pM\d_])לפנות בוקר(\z|[^\pL\pM\d_])", lit "${1}am${2}");
    (rx "(?i)(\A|[^\pL\pM\d_])בבוקר(\z|[^\pL\pM\d_])", lit "${1}am${2}");
    (rx "(?i)(\A|[^\pL\pM\d_])בצהריי?ם(\z|[^\pL\pM\d_])", lit "${1}pm${2}");
    (rx "(?i)(\A|[^\pL\pM\d_])אחרי ה?צהריי?ם(\z|[^\pL\pM\d_])", lit "${1}pm${2}");
    (rx "(?i)(\A|[^\pL\pM\d_])אחה""צ(\z|[^\pL\pM\d_])", lit "${1}pm${2}");
    (rx "(?i)(\A|[^\pL\pM\d_])לפנות ערב(\z|[^\pL\pM\d_])", lit "${1}pm${2}");
    (rx "(?i)(\A|[^\pL\pM\d_])בערב(\z|[^\pL\pM\d_])", lit "${1}pm${2}")];
    ld_trans := [(lit "יום חמישי", [lit "thursday"]);
    (lit "יום ראשון", [lit "sunday"]);
    (lit "יום רביעי", [lit "wednesday"]);
    (lit "יום שלישי", [lit "tuesday"]);
    (lit "באוקטובר", [lit "october"]);
    (lit "יום שישי", [lit "friday"]);
    (lit "לאוקטובר", [lit "october"]);
    (lit "אוקטובר", [lit "october"]);
    (lit "באוגוסט", [lit "august"]);
    (lit "בנובמבר", [lit "november"]);
    (lit "בסביבות", [lit ""]);
    (lit "בספטמבר", [lit "september"]);
    (lit "בפברואר", [lit "february"]);
    (lit "יום שבת", [lit "saturday"]);
    (lit "יום שני", [lit "monday"]);
    (lit "לאוגוסט", [lit "august"]);
    (lit "לנובמבר", [lit "november"]);
    (lit "לספטמבר", [lit "september"]);
    (lit "לפברואר", [lit "february"]);
    (lit "אוגוסט", [lit "august"]);
    (lit "באפריל", [lit "april"]);
    (lit "בדצמבר", [lit "december"]);
    (lit "בינואר", [lit "january"]);
    (lit "בקירוב", [lit ""]);
    (lit "חודשים", [lit "month"]);
    (lit "יום א׳", [lit "sunday"]);
    (lit "יום ב׳", [lit "monday"]);
    (lit "יום ג׳", [lit "tuesday"]);
    (lit "יום ד׳", [lit "wednesday"]);
    (lit "יום ה׳", [lit "thursday"]);
    (lit "יום ו׳", [lit "friday"]);
    (lit "לאפריל", [lit "april"]);
    (lit "לדצמבר", [lit "december"]);
    (lit "לינואר", [lit "january"]);
    (lit "לפנה״צ", [lit "am"]);
    (lit "נובמבר", [lit "november"]);
    (lit "ספטמבר", [lit "september"]);
    (lit "פברואר", [lit "february"]);
    (lit "שבועות", [lit "week"]);
    (lit "אחה״צ", [lit "pm"]);
    (lit "אפריל", [lit "april"]);
    (lit "בחודש", [lit "month"]);
    (lit "ביולי", [lit "july"]);
    (lit "ביוני", [lit "june"]);
    (lit "במארס", [lit "march"]);
    (lit "דצמבר", [lit "december"]);
    (lit "חמישי", [lit "thursday"]);
    (lit "יום א", [lit "sunday"]);
    (lit "יום ב", [lit "monday"]);
    (lit "יום ג", [lit "tuesday"]);
    (lit "יום ד", [lit "wednesday"]);
    (lit "יום ה", [lit "thursday"]);
    (lit "יום ו", [lit "friday"]);
    (lit "ינואר", [lit "january"]);
    (lit "ליולי", [lit "july"]);
    (lit "ליוני", [lit "june"]);
    (lit "למארס", [lit "march"]);
    (lit "ראשון", [lit "sunday"]);
    (lit "רביעי", [lit "wednesday"]);
    (lit "שלישי", [lit "tuesday"]);
    (lit "שניות", [lit "second"]);
    (lit "שנייה", [lit "second"]);
    (lit "אוג׳", [lit "august"]);
    (lit "אוק׳", [lit "october"]);
    (lit "אפר׳", [lit "april"]);
    (lit "ביום", [lit "day"]);
    (lit "במאי", [lit "may"]);
    (lit "במרס", [lit "march"]);
    (lit "במרץ", [lit "march"]);
    (lit "בעוד", [lit "in"]);
    (lit "בערך", [lit ""]);
    (lit "בשנה", [lit "year"]);
    (lit "בשעה", [lit ""]);
    (lit "דצמ׳", [lit "december"]);
    (lit "דקות", [lit "minute"]);
    (lit "חודש", [lit "month"]);
    (lit "יולי", [lit "july"]);
    (lit "יוני", [lit "june"]);
    (lit "ימים", [lit "day"]);
    (lit "ינו׳", [lit "january"]);
    (lit "למאי", [lit "may"]);
    (lit "למרס", [lit "march"]);
    (lit "למרץ", [lit "march"]);
    (lit "לפני", [lit "ago"]);
    (lit "מארס", [lit "march"]);
    (lit "נוב׳", [lit "november"]);
    (lit "ספט׳", [lit "september"]);
    (lit "פבר׳", [lit "february"]);
    (lit "שבוע", [lit "week"]);
    (lit "שישי", [lit "friday"]);
    (lit "שניה", [lit "second"]);
    (lit "שנים", [lit "year"]);
    (lit "שעות", [lit "hour"]);
    (lit "gmt", [lit "gmt"]);
    (lit "utc", [lit "utc"]);
    (lit "אוג", [lit "august"]);
    (lit "אוק", [lit "october"]);
    (lit "אפר", [lit "april"]);
    (lit "דצמ", [lit "december"]);
    (lit "דקה", [lit "minute"]);
    (lit "דק׳", [lit "minute"]);
    (lit "חו׳", [lit "month"]);
    (lit "יול", [lit "july"]);
    (lit "יום", [lit "day"]);
    (lit "יונ", [lit "june"]);
    (lit "ינו", [lit "january"]);
    (lit "מאי", [lit "may"]);
    (lit "מרס", [lit "march"]);
    (lit "מרץ", [lit "march"]);
    (lit "נוב", [lit "november"]);
    (lit "ספט", [lit "september"]);
    (lit "עוד", [lit "in"]);
    (lit "פבר", [lit "february"]);
    (lit "שבת", [lit "saturday"]);
    (lit "שב׳", [lit "week"]);
    (lit "שנה", [lit "year"]);
    (lit "שני", [lit "monday"]);
    (lit "שנ׳", [lit "year"; lit "second"]);
    (lit "שעה", [lit "hour"]);
    (lit "שע׳", [lit "hour"]);
    (lit "am", [lit "am"]);
    (lit "pm", [lit "pm"]);
    (lit "ב-", [lit ""]);
    (lit "ה-", [lit ""]);
    (lit " ", [lit " "]);
    (lit "'", [lit ""]);
    (lit "+", [lit "+"]);
    (lit ",", [lit ""]);
    (lit "-", [lit "-"]);
    (lit ".", [lit "."]);
    (lit "/", [lit "/"]);
    (lit ":", [lit ":"]);
    (lit ";", [lit ""]);
    (lit "@", [lit ""]);
    (lit "[", [lit ""]);
    (lit "]", [lit ""]);
    (lit "z", [lit "z"]);
    (lit "|", [lit ""])];
    ld_reltype := [(lit "החודש שעבר", lit "1 month ago");
    (lit "השבוע שעבר", lit "1 week ago");
    (lit "השנה שעברה", lit "1 year ago");
    (lit "החודש הבא", lit "in 1 month");
    (lit "השבוע הבא", lit "in 1 week");
    (lit "השנה הבאה", lit "in 1 year");
    (lit "בדקה זו", lit "0 minute ago");
    (lit "בשעה זו", lit "0 hour ago");
    (lit "אתמול", lit "1 day ago");
    (lit "החודש", lit "0 month ago");
    (lit "השבוע", lit "0 week ago");
    (lit "עכשיו", lit "0 second ago");
    (lit "היום", lit "0 day ago");
    (lit "השנה", lit "0 year ago");
    (lit "מחר", lit "in 1 day")];
    ld_relrx := [(rx "(?i)בעוד (\d+[.,]?\d*) חודשים", lit "in $1 month");
    (rx "(?i)בעוד (\d+[.,]?\d*) שבועות", lit "in $1 week");
    (rx "(?i)לפני (\d+[.,]?\d*) חודשים", lit "$1 month ago");
    (rx "(?i)לפני (\d+[.,]?\d*) שבועות", lit "$1 week ago");
    (rx "(?i)בעוד (\d+[.,]?\d*) שניות", lit "in $1 second");
    (rx "(?i)לפני (\d+[.,]?\d*) שניות", lit "$1 second ago");
    (rx "(?i)בעוד (\d+[.,]?\d*) דקות", lit "in $1 minute");
    (rx "(?i)בעוד (\d+[.,]?\d*) ימים", lit "in $1 day");
    (rx "(?i)בעוד (\d+[.,]?\d*) שנים", lit "in $1 year");
    (rx "(?i)בעוד (\d+[.,]?\d*) שעות", lit "in $1 hour");
    (rx "(?i)לפני (\d+[.,]?\d*) דקות", lit "$1 minute ago");
    (rx "(?i)לפני (\d+[.,]?\d*) ימים", lit "$1 day ago");
    (rx "(?i)לפני (\d+[.,]?\d*) שנים", lit "$1 year ago");
    (rx "(?i)לפני (\d+[.,]?\d*) שעות", lit "$1 hour ago");
    (rx "(?i)בעוד (\d+[.,]?\d*) דק׳", lit "in $1 minute");
    (rx "(?i)בעוד (\d+[.,]?\d*) חו׳", lit "in $1 month");
    (rx "(?i)בעוד (\d+[.,]?\d*) ימ׳", lit "in $1 day");
    (rx "(?i)בעוד (\d+[.,]?\d*) שב׳", lit "in $1 week");
    (rx "(?i)בעוד (\d+[.,]?\d*) שנ׳", lit "in $1 second");
    (rx "(?i)בעוד (\d+[.,]?\d*) שע׳", lit "in $1 hour");
    (rx "(?i)בעוד יום (\d+[.,]?\d*)", lit "in $1 day");
    (rx "(?i)לפני (\d+[.,]?\d*) דק׳", lit "$1 minute ago");
    (rx "(?i)לפני (\d+[.,]?\d*) חו׳", lit "$1 month ago");
    (rx "(?i)לפני (\d+[.,]?\d*) ימ׳", lit "$1 day ago");
    (rx "(?i)לפני (\d+[.,]?\d*) שב׳", lit "$1 week ago");
    (rx "(?i)לפני (\d+[.,]?\d*) שנ׳", lit "$1 second ago");
    (rx "(?i)לפני (\d+[.,]?\d*) שע׳", lit "$1 hour ago");
    (rx "(?i)לפני יום (\d+[.,]?\d*)", lit "$1 day ago")];
    ld_rx := Some (rx "(?i)(\A|[^\pL\pM\d]|_)(בעוד \d+[.,]?\d* חודשים|בעוד \d+[.,]?\d* שבועות|לפני \d+[.,]?\d* חודשים|לפני \d+[.,]?\d* שבועות|בעוד \d+[.,]?\d* שניות|לפני \d+[.,]?\d* שניות|בעוד \d+[.,]?\d* דקות|בעוד \d+[.,]?\d* ימים|בעוד \d+[.,]?\d* שנים|בעוד \d+[.,]?\d* שעות|לפני \d+[.,]?\d* דקות|לפני \d+[.,]?\d* ימים|לפני \d+[.,]?\d* שנים|לפני \d+[.,]?\d* שעות|בעוד \d+[.,]?\d* דק׳|בעוד \d+[.,]?\d* חו׳|בעוד \d+[.,]?\d* ימ׳|בעוד \d+[.,]?\d* שב׳|בעוד \d+[.,]?\d* שנ׳|בעוד \d+[.,]?\d* שע׳|בעוד יום \d+[.,]?\d*|לפני \d+[.,]?\d* דק׳|לפני \d+[.,]?\d* חו׳|לפני \d+[.,]?\d* ימ׳|לפני \d+[.,]?\d* שב׳|לפני \d+[.,]?\d* שנ׳|לפני \d+[.,]?\d* שע׳|לפני יום \d+[.,]?\d*)(\z|[^\pL\pM\d]|_)");
    ld_rx_exact := Some (rx "(?i)^(בעוד \d+[.,]?\d* חודשים|בעוד \d+[.,]?\d* שבועות|לפני \d+[.,]?\d* חודשים|לפני \d+[.,]?\d* שבועות|בעוד \d+[.,]?\d* שניות|לפני \d+[.,]?\d* שניות|בעוד \d+[.,]?\d* דקות|בעוד \d+[.,]?\d* ימים|בעוד \d+[.,]?\d* שנים|בעוד \d+[.,]?\d* שעות|לפני \d+[.,]?\d* דקות|לפני \d+[.,]?\d* ימים|לפני \d+[.,]?\d* שנים|לפני \d+[.,]?\d* שעות|בעוד \d+[.,]?\d* דק׳|בעוד \d+[.,]?\d* חו׳|בעוד \d+[.,]?\d* ימ׳|בעוד \d+[.,]?\d* שב׳|בעוד \d+[.,]?\d* שנ׳|בעוד \d+[.,]?\d* שע׳|בעוד יום \d+[.,]?\d*|לפני \d+[.,]?\d* דק׳|לפני \d+[.,]?\d* חו׳|לפני \d+[.,]?\d* ימ׳|לפני \d+[.,]?\d* שב׳|לפני \d+[.,]?\d* שנ׳|לפני \d+[.,]?\d* שע׳|לפני יום \d+[.,]?\d*)$");
    ld_known := [lit "החודש שעבר";
    lit "השבוע שעבר";
    lit "השנה שעברה";
    lit "החודש הבא";
    lit "השבוע הבא";
    lit "השנה הבאה";
    lit "יום חמישי";
    lit "יום ראשון";
    lit "יום רביעי";
    lit "יום שלישי";
    lit "באוקטובר";
    lit "יום שישי";
    lit "לאוקטובר";
    lit "אוקטובר";
    lit "באוגוסט";
    lit "בדקה זו";
    lit "בנובמבר";
    lit "בסביבות";
    lit "בספטמבר";
    lit "בפברואר";
    lit "בשעה זו";
    lit "יום שבת";
    lit "יום שני";
    lit "לאוגוסט";
    lit "לנובמבר";
    lit "לספטמבר";
    lit "לפברואר";
    lit "אוגוסט";
    lit "באפריל";
    lit "בדצמבר";
    lit "בינואר";
    lit "בקירוב";
    lit "חודשים";
    lit "יום א׳";
    lit "יום ב׳";
    lit "יום ג׳";
    lit "יום ד׳";
    lit "יום ה׳";
    lit "יום ו׳";
    lit "לאפריל";
    lit "לדצמבר";
    lit "לינואר";
    lit "לפנה״צ";
    lit "נובמבר";
    lit "ספטמבר";
    lit "פברואר";
    lit "שבועות";
    lit "אחה״צ";
    lit "אפריל";
    lit "אתמול";
    lit "בחודש";
    lit "ביולי";
    lit "ביוני";
    lit "במארס";
    lit "דצמבר";
    lit "החודש";
    lit "השבוע";
    lit "חמישי";
    lit "יום א";
    lit "יום ב";
    lit "יום ג";
    lit "יום ד";
    lit "יום ה";
    lit "יום ו";
    lit "ינואר";
    lit "ליולי";
    lit "ליוני";
    lit "למארס";
    lit "עכשיו";
    lit "ראשון";
    lit "רביעי";
    lit "שלישי";
    lit "שניות";
    lit "שנייה";
    lit "אוג׳";
    lit "אוק׳";
    lit "אפר׳";
    lit "ביום";
    lit "במאי";
    lit "במרס";
    lit "במרץ";
    lit "בעוד";
    lit "בערך";
    lit "בשנה";
    lit "בשעה";
    lit "דצמ׳";
    lit "דקות";
    lit "היום";
    lit "השנה";
    lit "חודש";
    lit "יולי";
    lit "יוני";
    lit "ימים";
    lit "ינו׳";
    lit "למאי";
    lit "למרס";
    lit "למרץ";
    lit "לפני";
    lit "מארס";
    lit "נוב׳";
    lit "ספט׳";
    lit "פבר׳";
    lit "שבוע";
    lit "שישי";
    lit "שניה";
    lit "שנים";
    lit "שעות";
    lit "gmt";
    lit "utc";
    lit "אוג";
    lit "אוק";
    lit "אפר";
    lit "דצמ";
    lit "דקה";
    lit "דק׳";
    lit "חו׳";
    lit "יול";
    lit "יום";
    lit "יונ";
    lit "ינו";
    lit "מאי";
    lit "מחר";
    lit "מרס";
    lit "מרץ";
    lit "נוב";
    lit "ספט";
    lit "עוד";
    lit "פבר";
    lit "שבת";
    lit "שב׳";
    lit "שנה";
    lit "שני";
    lit "שנ׳";
    lit "שעה";
    lit "שע׳";
    lit "am";
    lit "pm";
    lit "ב-";
    lit "ה-";
    lit " ";
    lit "'";
    lit "+";
    lit ",";
    lit "-";
    lit ".";
    lit "/";
    lit ":";
    lit ";";
    lit "@";
    lit "[";
    lit "]";
    lit "z";
    lit "|"] |}.

(** hi.go:12-149 *)
Definition loc_hi : locale := Eval vm_compute in
  {| ld_name := lit "hi"; ld_order := lit "DMY"; ld_nospacing := false; ld_splitter := 3;
    ld_charset := runes (lit "cgtuzंअआइईकगघचछजटडतदधनपफबमयरलवशषसह़ािीुूेैो्॰");
    ld_abbr := [];
    ld_simpl := [];
    ld_trans := [(lit "अपराहन", [lit "pm"]);
    (lit "दिसमबर", [lit "december"]);
    (lit "परवाहन", [lit "am"]);
    (lit "मगलवार", [lit "tuesday"]);
    (lit "रविवार", [lit "sunday"]);
    (lit "शकरवार", [lit "friday"]);
    (lit "शनिवार", [lit "saturday"]);
    (lit "सितमबर", [lit "september"]);
    (lit "सोमवार", [lit "monday"]);
    (lit "अकटबर", [lit "october"]);
    (lit "अकतबर", [lit "october"]);
    (lit "गरवार", [lit "thursday"]);
    (lit "जनवरी", [lit "january"]);
    (lit "दिसबर", [lit "december"]);
    (lit "नवमबर", [lit "november"]);
    (lit "फरवरी", [lit "february"]);
    (lit "बधवार", [lit "wednesday"]);
    (lit "महीना", [lit "month"]);
    (lit "सपताह", [lit "week"]);
    (lit "सितबर", [lit "september"]);
    (lit "अकत॰", [lit "october"]);
    (lit "अगसत", [lit "august"]);
    (lit "अपरल", [lit "april"]);
    (lit "जलाई", [lit "july"]);
    (lit "दिवस", [lit "day"]);
    (lit "दिस॰", [lit "december"]);
    (lit "नवबर", [lit "november"]);
    (lit "महीन", [lit "month"]);
    (lit "मारच", [lit "march"]);
    (lit "मिनट", [lit "minute"]);
    (lit "वरषो", [lit "year"]);
    (lit "सित॰", [lit "september"]);
    (lit "gmt", [lit "gmt"]);
    (lit "utc", [lit "utc"]);
    (lit "अग॰", [lit "august"]);
    (lit "घटा", [lit "hour"]);
    (lit "जन॰", [lit "january"]);
    (lit "जल॰", [lit "july"]);
    (lit "दशक", [lit "decade"]);
    (lit "दिन", [lit "day"]);
    (lit "नव॰", [lit "november"]);
    (lit "परव", [lit "ago"]);
    (lit "पहल", [lit "ago"]);
    (lit "फर॰", [lit "february"]);
    (lit "बाद", [lit "in"]);
    (lit "मगल", [lit "tuesday"]);
    (lit "मास", [lit "month"]);
    (lit "माह", [lit "month"]);
    (lit "रवि", [lit "sunday"]);
    (lit "वरष", [lit "year"]);
    (lit "शकर", [lit "friday"]);
    (lit "शनि", [lit "saturday"]);
    (lit "सकड", [lit "second"]);
    (lit "साल", [lit "year"]);
    (lit "सोम", [lit "monday"]);
    (lit "am", [lit "am"]);
    (lit "pm", [lit "pm"]);
    (lit "को", [lit ""]);
    (lit "गर", [lit "thursday"]);
    (lit "घट", [lit "hour"]);
    (lit "जन", [lit "june"]);
    (lit "बज", [lit ""]);
    (lit "बध", [lit "wednesday"]);
    (lit "मई", [lit "may"]);
    (lit "मि", [lit "minute"]);
    (lit "सन", [lit ""]);
    (lit " ", [lit " "]);
    (lit "'", [lit ""]);
    (lit "+", [lit "+"]);
    (lit ",", [lit ""]);
    (lit "-", [lit "-"]);
    (lit ".", [lit "."]);
    (lit "/", [lit "/"]);
    (lit ":", [lit ":"]);
    (lit ";", [lit ""]);
    (lit "@", [lit ""]);
    (lit "[", [lit ""]);
    (lit "]", [lit ""]);
    (lit "z", [lit "z"]);
    (lit "|", [lit ""]);
    (lit "क", [lit ""]);
    (lit "घ", [lit "hour"]);
    (lit "म", [lit "in"]);
    (lit "स", [lit ""])];
    ld_reltype := [(lit "पिछला सपताह", lit "1 week ago");
    (lit "अगला सपताह", lit "in 1 week");
    (lit "पिछला दशक", lit "1 decade ago");
    (lit "पिछला माह", lit "1 month ago");
    (lit "पिछला वरष", lit "1 year ago");
    (lit "अगला दशक", lit "in 1 decade");
    (lit "अगला माह", lit "in 1 month");
    (lit "अगला वरष", lit "in 1 year");
    (lit "इस सपताह", lit "0 week ago");
    (lit "यह मिनट", lit "0 minute ago");
    (lit "इस माह", lit "0 month ago");
    (lit "इस वरष", lit "0 year ago");
    (lit "यह घटा", lit "0 hour ago");
    (lit "परसो", lit "2 day ago");
    (lit "अब", lit "0 second ago");
    (lit "आज", lit "0 day ago");
    (lit "कल", lit "1 day ago")];
    ld_relrx := [(rx "(?i)(\d+[.,]?\d*) सपताह पहल", lit "$1 week ago");
    (rx "(?i)(\d+[.,]?\d*) मिनट पहल", lit "$1 minute ago");
    (rx "(?i)(\d+[.,]?\d*) दशक पहल", lit "${1} decade ago");
    (rx "(?i)(\d+[.,]?\d*) दिन पहल", lit "$1 day ago");
    (rx "(?i)(\d+[.,]?\d*) माह पहल", lit "$1 month ago");
    (rx "(?i)(\d+[.,]?\d*) वरष पहल", lit "$1 year ago");
    (rx "(?i)(\d+[.,]?\d*) सकड पहल", lit "$1 second ago");
    (rx "(?i)(\d+[.,]?\d*) सपताह म", lit "in $1 week");
    (rx "(?i)(\d+[.,]?\d*) घट पहल", lit "$1 hour ago");
    (rx "(?i)(\d+[.,]?\d*) मि पहल", lit "$1 minute ago");
    (rx "(?i)(\d+[.,]?\d*) मिनट म", lit "in $1 minute");
    (rx "(?i)(\d+[.,]?\d*) घ पहल", lit "$1 hour ago");
    (rx "(?i)(\d+[.,]?\d*) दशक म", lit "in ${1} decade");
    (rx "(?i)(\d+[.,]?\d*) दिन म", lit "in $1 day");
    (rx "(?i)(\d+[.,]?\d*) माह म", lit "in $1 month");
    (rx "(?i)(\d+[.,]?\d*) वरष म", lit "in $1 year");
    (rx "(?i)(\d+[.,]?\d*) स पहल", lit "$1 second ago");
    (rx "(?i)(\d+[.,]?\d*) सकड म", lit "in $1 second");
    (rx "(?i)(\d+[.,]?\d*) घट म", lit "in $1 hour");
    (rx "(?i)(\d+[.,]?\d*) मि म", lit "in $1 minute");
    (rx "(?i)(\d+[.,]?\d*) घ म", lit "in $1 hour");
    (rx "(?i)(\d+[.,]?\d*) स म", lit "in $1 second")];
    ld_rx := Some (rx "(?i)(\A|[^\pL\pM\d]|_)(\d+[.,]?\d* सपताह पहल|\d+[.,]?\d* मिनट पहल|\d+[.,]?\d* दशक पहल|\d+[.,]?\d* दिन पहल|\d+[.,]?\d* माह पहल|\d+[.,]?\d* वरष पहल|\d+[.,]?\d* सकड पहल|\d+[.,]?\d* सपताह म|\d+[.,]?\d* घट पहल|\d+[.,]?\d* मि पहल|\d+[.,]?\d* मिनट म|\d+[.,]?\d* घ पहल|\d+[.,]?\d* दशक म|\d+[.,]?\d* दिन म|\d+[.,]?\d* माह म|\d+[.,]?\d* वरष म|\d+[.,]?\d* स पहल|\d+[.,]?\d* सकड म|\d+[.,]?\d* घट म|\d+[.,]?\d* मि म|\d+[.,]?\d* घ म|\d+[.,]?\d* स म)(\z|[^\pL\pM\d]|_)");
    ld_rx_exact := Some (rx "(?i)^(\d+[.,]?\d* सपताह पहल|\d+[.,]?\d* मिनट पहल|\d+[.,]?\d* दशक पहल|\d+[.,]?\d* दिन पहल|\d+[.,]?\d* माह पहल|\d+[.,]?\d* वरष पहल|\d+[.,]?\d* सकड पहल|\d+[.,]?\d* सपताह म|\d+[.,]?\d* घट पहल|\d+[.,]?\d* मि पहल|\d+[.,]?\d* मिनट म|\d+[.,]?\d* घ पहल|\d+[.,]?\d* दशक म|\d+[.,]?\d* दिन म|\d+[.,]?\d* माह म|\d+[.,]?\d* वरष म|\d+[.,]?\d* स पहल|\d+[.,]?\d* सकड म|\d+[.,]?\d* घट म|\d+[.,]?\d* मि म|\d+[.,]?\d* घ म|\d+[.,]?\d* स म)$");
    ld_known := [lit "पिछला सपताह";
    lit "अगला सपताह";
    lit "पिछला दशक";
    lit "पिछला माह";
    lit "पिछला वरष";
    lit "अगला दशक";
    lit "अगला माह";
    lit "अगला वरष";
    lit "इस सपताह";
    lit "यह मिनट";
    lit "अपराहन";
    lit "इस माह";
    lit "इस वरष";
    lit "दिसमबर";
    lit "परवाहन";
    lit "मगलवार";
    lit "यह घटा";
    lit "रविवार";
    lit "शकरवार";
    lit "शनिवार";
    lit "सितमबर";
    lit "सोमवार";
    lit "अकटबर";
    lit "अकतबर";
    lit "गरवार";
    lit "जनवरी";
    lit "दिसबर";
    lit "नवमबर";
    lit "फरवरी";
    lit "बधवार";
    lit "महीना";
    lit "सपताह";
    lit "सितबर";
    lit "अकत॰";
    lit "अगसत";
    lit "अपरल";
    lit "जलाई";
    lit "दिवस";
    lit "दिस॰";
    lit "नवबर";
    lit "परसो";
    lit "महीन";
    lit "मारच";
    lit "मिनट";
    lit "वरषो";
    lit "सित॰";
    lit "gmt";
    lit "utc";
    lit "अग॰";
    lit "घटा";
    lit "जन॰";
    lit "जल॰";
    lit "दशक";
    lit "दिन";
    lit "नव॰";
    lit "परव";
    lit "पहल";
    lit "फर॰";
    lit "बाद";
    lit "मगल";
    lit "मास";
    lit "माह";
    lit "रवि";
    lit "वरष";
    lit "शकर";
    lit "शनि";
    lit "सकड";
    lit "साल";
    lit "सोम";
    lit "am";
    lit "pm";
    lit "अब";
    lit "आज";
    lit "कल";
    lit "को";
    lit "गर";
    lit "घट";
    lit "जन";
    lit "बज";
    lit "बध";
    lit "मई";
    lit "मि";
    lit "सन";
    lit " ";
    lit "'";
    lit "+";
    lit ",";
    lit "-";
    lit ".";
    lit "/";
    lit ":";
    lit ";";
    lit "@";
    lit "[";
    lit "]";
    lit "z";
    lit "|";
    lit "क";
    lit "घ";
    lit "म";
    lit "स"] |}.

(** hr.go:13-263 *)
Definition loc_hr : locale := Eval vm_compute in
  {| ld_name := lit "hr"; ld_order := lit "DMY."; ld_nospacing := false; ld_splitter := 0;
    ld_charset := runes (lit "bcdeghijklnorstuvzćčšž");
    ld_abbr := [];
    ld_simpl := [(rx "(?i)(\A|[^\pL\pM\d_])podne(\z|[^\pL\pM\d_])", lit "${1}12:00${2}");
    (rx "(?i)(\A|[^\pL\pM\d_])ponoc(\z|[^\pL\pM\d_])", lit "${1}00:00${2}")];
    ld_trans := [(lit "ponedjeljak", [lit "monday"]);
    (lit "listopadom", [lit "october"]);
    (lit "kolovozom", [lit "august"]);
    (lit "listopada", [lit "october"]);
    (lit "listopadu", [lit "october"]);
    (lit "prosincem", [lit "december"]);
    (lit "sijecnjem", [lit "january"]);
    (lit "studenoga", [lit "november"]);
    (lit "studenome", [lit "november"]);
    (lit "studenomu", [lit "november"]);
    (lit "cetvrtak", [lit "thursday"]);
    (lit "kolovoza", [lit "august"]);
    (lit "kolovozu", [lit "august"]);
    (lit "listopad", [lit "october"]);
    (lit "nedjelja", [lit "sunday"]);
    (lit "prosinac", [lit "december"]);
    (lit "prosinca", [lit "december"]);
    (lit "prosincu", [lit "december"]);
    (lit "sijecanj", [lit "january"]);
    (lit "sijecnja", [lit "january"]);
    (lit "sijecnju", [lit "january"]);
    (lit "studenim", [lit "november"]);
    (lit "studenog", [lit "november"]);
    (lit "studenom", [lit "november"]);
    (lit "svibnjem", [lit "may"]);
    (lit "travnjem", [lit "april"]);
    (lit "veljacom", [lit "february"]);
    (lit "kolovoz", [lit "august"]);
    (lit "lipnjem", [lit "june"]);
    (lit "ozujkom", [lit "march"]);
    (lit "sekunda", [lit "second"]);
    (lit "srijeda", [lit "wednesday"]);
    (lit "srpnjem", [lit "july"]);
    (lit "studeni", [lit "november"]);
    (lit "svibanj", [lit "may"]);
    (lit "svibnja", [lit "may"]);
    (lit "svibnju", [lit "may"]);
    (lit "travanj", [lit "april"]);
    (lit "travnja", [lit "april"]);
    (lit "travnju", [lit "april"]);
    (lit "veljaca", [lit "february"]);
    (lit "veljace", [lit "february"]);
    (lit "veljaci", [lit "february"]);
    (lit "godina", [lit "year"]);
    (lit "lipanj", [lit "june"]);
    (lit "lipnja", [lit "june"]);
    (lit "lipnju", [lit "june"]);
    (lit "minuta", [lit "minute"]);
    (lit "mjesec", [lit "month"]);
    (lit "ozujak", [lit "march"]);
    (lit "ozujka", [lit "march"]);
    (lit "ozujku", [lit "march"]);
    (lit "rujnom", [lit "september"]);
    (lit "srpanj", [lit "july"]);
    (lit "srpnja", [lit "july"]);
    (lit "srpnju", [lit "july"]);
    (lit "subota", [lit "saturday"]);
    (lit "tjedan", [lit "week"]);
    (lit "utorak", [lit "tuesday"]);
    (lit "petak", [lit "friday"]);
    (lit "rujan", [lit "september"]);
    (lit "rujna", [lit "september"]);
    (lit "rujnu", [lit "september"]);
    (lit "velj", [lit "february"]);
    (lit "cet", [lit "thursday"]);
    (lit "dan", [lit "day"]);
    (lit "gmt", [lit "gmt"]);
    (lit "kol", [lit "august"]);
    (lit "lip", [lit "june"]);
    (lit "lis", [lit "october"]);
    (lit "min", [lit "minute"]);
    (lit "ned", [lit "sunday"]);
    (lit "ozu", [lit "march"]);
    (lit "pet", [lit "friday"]);
    (lit "pon", [lit "monday"]);
    (lit "pro", [lit "december"]);
    (lit "ruj", [lit "september"]);
    (lit "sat", [lit "hour"]);
    (lit "sij", [lit "january"]);
    (lit "sri", [lit "wednesday"]);
    (lit "srp", [lit "july"]);
    (lit "stu", [lit "november"]);
    (lit "sub", [lit "saturday"]);
    (lit "svi", [lit "may"]);
    (lit "tra", [lit "april"]);
    (lit "utc", [lit "utc"]);
    (lit "uto", [lit "tuesday"]);
    (lit "am", [lit "am"]);
    (lit "mj", [lit "month"]);
    (lit "pm", [lit "pm"]);
    (lit "tj", [lit "week"]);
    (lit " ", [lit " "]);
    (lit "'", [lit ""]);
    (lit "+", [lit "+"]);
    (lit ",", [lit ""]);
    (lit "-", [lit "-"]);
    (lit ".", [lit "."]);
    (lit "/", [lit "/"]);
    (lit ":", [lit ":"]);
    (lit ";", [lit ""]);
    (lit "@", [lit ""]);
    (lit "[", [lit ""]);
    (lit "]", [lit ""]);
    (lit "d", [lit "day"]);
    (lit "g", [lit "year"]);
    (lit "h", [lit "hour"]);
    (lit "m", [lit "month"]);
    (lit "s", [lit "second"]);
    (lit "u", [lit "in"]);
    (lit "z", [lit "z"]);
    (lit "|", [lit ""])];
    ld_reltype := [(lit "sljedeceg mjeseca", lit "in 1 month");
    (lit "sljedecem mjesecu", lit "in 1 month");
    (lit "sljedeceg tjedna", lit "in 1 week");
    (lit "sljedecem tjednu", lit "in 1 week");
    (lit "sljedecoj godini", lit "in 1 year");
    (lit "proslog mjeseca", lit "1 month ago");
    (lit "proslom mjesecu", lit "1 month ago");
    (lit "sljedeca godina", lit "in 1 year");
    (lit "sljedece godine", lit "in 1 year");
    (lit "sljedeci mjesec", lit "in 1 month");
    (lit "sljedeci tjedan", lit "in 1 week");
    (lit "iduceg mjeseca", lit "in 1 month");
    (lit "iducem mjesecu", lit "in 1 month");
    (lit "proslog tjedna", lit "1 week ago");
    (lit "prosloj godini", lit "1 year ago");
    (lit "proslom tjednu", lit "1 week ago");
    (lit "iduceg tjedna", lit "in 1 week");
    (lit "iducem tjednu", lit "in 1 week");
    (lit "iducoj godini", lit "in 1 year");
    (lit "prosla godina", lit "1 year ago");
    (lit "prosle godine", lit "1 year ago");
    (lit "prosli mjesec", lit "1 month ago");
    (lit "prosli tjedan", lit "1 week ago");
    (lit "iduca godina", lit "in 1 year");
    (lit "iduce godine", lit "in 1 year");
    (lit "iduci mjesec", lit "in 1 month");
    (lit "iduci tjedan", lit "in 1 week");
    (lit "sljedeca god", lit "in 1 year");
    (lit "sljedece god", lit "in 1 year");
    (lit "ovaj mjesec", lit "0 month ago");
    (lit "ovaj tjedan", lit "0 week ago");
    (lit "sljedeci mj", lit "in 1 month");
    (lit "sljedeci tj", lit "in 1 week");
    (lit "iducoj god", lit "in 1 year");
    (lit "ova minuta", lit "0 minute ago");
    (lit "ove godine", lit "0 year ago");
    (lit "prekosutra", lit "in 2 day");
    (lit "prosle god", lit "1 year ago");
    (lit "sljedeca g", lit "in 1 year");
    (lit "sljedece g", lit "in 1 year");
    (lit "iduca god", lit "in 1 year");
    (lit "iduce god", lit "in 1 year");
    (lit "iduceg mj", lit "in 1 month");
    (lit "iduceg tj", lit "in 1 week");
    (lit "iducem mj", lit "in 1 month");
    (lit "iducem tj", lit "in 1 week");
    (lit "prekjucer", lit "2 day ago");
    (lit "prosli mj", lit "1 month ago");
    (lit "prosli tj", lit "1 week ago");
    (lit "dogodine", lit "in 1 year");
    (lit "iduci mj", lit "in 1 month");
    (lit "iduci tj", lit "in 1 week");
    (lit "iducoj g", lit "in 1 year");
    (lit "nagodinu", lit "in 1 year");
    (lit "ovaj sat", lit "0 hour ago");
    (lit "preklani", lit "2 year ago");
    (lit "prosle g", lit "1 year ago");
    (lit "iduca g", lit "in 1 year");
    (lit "iduce g", lit "in 1 year");
    (lit "ovaj mj", lit "0 month ago");
    (lit "ovaj tj", lit "0 week ago");
    (lit "ove god", lit "0 year ago");
    (lit "danas", lit "0 day ago");
    (lit "jucer", lit "1 day ago");
    (lit "ove g", lit "0 year ago");
    (lit "sutra", lit "in 1 day");
    (lit "lani", lit "1 year ago");
    (lit "sad", lit "0 second ago")];
    ld_relrx := [(rx "(?i)prije (\d+[.,]?\d*) mjeseca", lit "${1} month ago");
    (rx "(?i)prije (\d+[.,]?\d*) mjeseci", lit "$1 month ago");
    (rx "(?i)prije (\d+[.,]?\d*) sekunde", lit "${1} second ago");
    (rx "(?i)prije (\d+[.,]?\d*) sekundi", lit "$1 second ago");
    (rx "(?i)prije (\d+[.,]?\d*) sekundu", lit "${1} second ago");
    (rx "(?i)prije (\d+[.,]?\d*) tjedana", lit "$1 week ago");
    (rx "(?i)prije (\d+[.,]?\d*) godina", lit "$1 year ago");
    (rx "(?i)prije (\d+[.,]?\d*) godine", lit "${1} year ago");
    (rx "(?i)prije (\d+[.,]?\d*) godinu", lit "$1 year ago");
    (rx "(?i)prije (\d+[.,]?\d*) minuta", lit "$1 minute ago");
    (rx "(?i)prije (\d+[.,]?\d*) minute", lit "${1} minute ago");
    (rx "(?i)prije (\d+[.,]?\d*) minutu", lit "$1 minute ago");
    (rx "(?i)prije (\d+[.,]?\d*) mjesec", lit "$1 month ago");
    (rx "(?i)prije (\d+[.,]?\d*) tjedan", lit "$1 week ago");
    (rx "(?i)prije (\d+[.,]?\d*) tjedna", lit "${1} week ago");
    (rx "(?i)prije (\d+[.,]?\d*) dana", lit "$1 day ago");
    (rx "(?i)prije (\d+[.,]?\d*) sata", lit "${1} hour ago");
    (rx "(?i)prije (\d+[.,]?\d*) sati", lit "$1 hour ago");
    (rx "(?i)za (\d+[.,]?\d*) mjeseca", lit "in ${1} month");
    (rx "(?i)za (\d+[.,]?\d*) mjeseci", lit "in $1 month");
    (rx "(?i)za (\d+[.,]?\d*) sekunde", lit "in ${1} second");
    (rx "(?i)za (\d+[.,]?\d*) sekundi", lit "in $1 second");
    (rx "(?i)za (\d+[.,]?\d*) sekundu", lit "in ${1} second");
    (rx "(?i)za (\d+[.,]?\d*) tjedana", lit "in $1 week");
    (rx "(?i)prije (\d+[.,]?\d*) dan", lit "$1 day ago");
    (rx "(?i)prije (\d+[.,]?\d*) min", lit "$1 minute ago");
    (rx "(?i)prije (\d+[.,]?\d*) sat", lit "$1 hour ago");
    (rx "(?i)za (\d+[.,]?\d*) godina", lit "in $1 year");
    (rx "(?i)za (\d+[.,]?\d*) godine", lit "in ${1} year");
    (rx "(?i)za (\d+[.,]?\d*) godinu", lit "in $1 year");
    (rx "(?i)za (\d+[.,]?\d*) minuta", lit "in $1 minute");
    (rx "(?i)za (\d+[.,]?\d*) minute", lit "in ${1} minute");
    (rx "(?i)za (\d+[.,]?\d*) minutu", lit "in $1 minute");
    (rx "(?i)za (\d+[.,]?\d*) mjesec", lit "in $1 month");
    (rx "(?i)za (\d+[.,]?\d*) tjedan", lit "in $1 week");
    (rx "(?i)za (\d+[.,]?\d*) tjedna", lit "in ${1} week");
    (rx "(?i)prije (\d+[.,]?\d*) mj", lit "$1 month ago");
    (rx "(?i)prije (\d+[.,]?\d*) tj", lit "$1 week ago");
    (rx "(?i)prije (\d+[.,]?\d*) d", lit "$1 day ago");
    (rx "(?i)prije (\d+[.,]?\d*) g", lit "$1 year ago");
    (rx "(?i)prije (\d+[.,]?\d*) h", lit "$1 hour ago");
    (rx "(?i)prije (\d+[.,]?\d*) s", lit "$1 second ago");
    (rx "(?i)za (\d+[.,]?\d*) dana", lit "in $1 day");
    (rx "(?i)za (\d+[.,]?\d*) sata", lit "in ${1} hour");
    (rx "(?i)za (\d+[.,]?\d*) sati", lit "in $1 hour");
    (rx "(?i)za (\d+[.,]?\d*) dan", lit "in $1 day");
    (rx "(?i)za (\d+[.,]?\d*) min", lit "in $1 minute");
    (rx "(?i)za (\d+[.,]?\d*) sat", lit "in $1 hour");
    (rx "(?i)za (\d+[.,]?\d*) mj", lit "in $1 month");
    (rx "(?i)za (\d+[.,]?\d*) tj", lit "in $1 week");
    (rx "(?i)za (\d+[.,]?\d*) d", lit "in $1 day");
    (rx "(?i)za (\d+[.,]?\d*) g", lit "in $1 year");
    (rx "(?i)za (\d+[.,]?\d*) h", lit "in $1 hour");
    (rx "(?i)za (\d+[.,]?\d*) s", lit "in $1 second")];
    ld_rx := Some (rx "(?i)(\A|[^\pL\pM\d]|_)(prije \d+[.,]?\d* mjeseca|prije \d+[.,]?\d* mjeseci|prije \d+[.,]?\d* sekunde|prije \d+[.,]?\d* sekundi|prije \d+[.,]?\d* sekundu|prije \d+[.,]?\d* tjedana|prije \d+[.,]?\d* godina|prije \d+[.,]?\d* godine|prije \d+[.,]?\d* godinu|prije \d+[.,]?\d* minuta|prije \d+[.,]?\d* minute|prije \d+[.,]?\d* minutu|prije \d+[.,]?\d* mjesec|prije \d+[.,]?\d* tjedan|prije \d+[.,]?\d* tjedna|prije \d+[.,]?\d* dana|prije \d+[.,]?\d* sata|prije \d+[.,]?\d* sati|za \d+[.,]?\d* mjeseca|za \d+[.,]?\d* mjeseci|za \d+[.,]?\d* sekunde|za \d+[.,]?\d* sekundi|za \d+[.,]?\d* sekundu|za \d+[.,]?\d* tjedana|prije \d+[.,]?\d* dan|prije \d+[.,]?\d* min|prije \d+[.,]?\d* sat|za \d+[.,]?\d* godina|za \d+[.,]?\d* godine|za \d+[.,]?\d* godinu|za \d+[.,]?\d* minuta|za \d+[.,]?\d* minute|za \d+[.,]?\d* minutu|za \d+[.,]?\d* mjesec|za \d+[.,]?\d* tjedan|za \d+[.,]?\d* tjedna|prije \d+[.,]?\d* mj|prije \d+[.,]?\d* tj|prije \d+[.,]?\d* d|prije \d+[.,]?\d* g|prije \d+[.,]?\d* h|prije \d+[.,]?\d* s|za \d+[.,]?\d* dana|za \d+[.,]?\d* sata|za \d+[.,]?\d* sati|za \d+[.,]?\d* dan|za \d+[.,]?\d* min|za \d+[.,]?\d* sat|za \d+[.,]?\d* mj|za \d+[.,]?\d* tj|za \d+[.,]?\d* d|za \d+[.,]?\d* g|za \d+[.,]?\d* h|za \d+[.,]?\d* s)(\z|[^\pL\pM\d]|_)");
    ld_rx_exact := Some (rx "(?i)^(prije \d+[.,]?\d* mjeseca|prije \d+[.,]?\d* mjeseci|prije \d+[.,]?\d* sekunde|prije \d+[.,]?\d* sekundi|prije \d+[.,]?\d* sekundu|prije \d+[.,]?\d* tjedana|prije \d+[.,]?\d* godina|prije \d+[.,]?\d* godine|prije \d+[.,]?\d* godinu|prije \d+[.,]?\d* minuta|prije \d+[.,]?\d* minute|prije \d+[.,]?\d* minutu|prije \d+[.,]?\d* mjesec|prije \d+[.,]?\d* tjedan|prije \d+[.,]?\d* tjedna|prije \d+[.,]?\d* dana|prije \d+[.,]?\d* sata|prije \d+[.,]?\d* sati|za \d+[.,]?\d* mjeseca|za \d+[.,]?\d* mjeseci|za \d+[.,]?\d* sekunde|za \d+[.,]?\d* sekundi|za \d+[.,]?\d* sekundu|za \d+[.,]?\d* tjedana|prije \d+[.,]?\d* dan|prije \d+[.,]?\d* min|prije \d+[.,]?\d* sat|za \d+[.,]?\d* godina|za \d+[.,]?\d* godine|za \d+[.,]?\d* godinu|za \d+[.,]?\d* minuta|za \d+[.,]?\d* minute|za \d+[.,]?\d* minutu|za \d+[.,]?\d* mjesec|za \d+[.,]?\d* tjedan|za \d+[.,]?\d* tjedna|prije \d+[.,]?\d* mj|prije \d+[.,]?\d* tj|prije \d+[.,]?\d* d|prije \d+[.,]?\d* g|prije \d+[.,]?\d* h|prije \d+[.,]?\d* s|za \d+[.,]?\d* dana|za \d+[.,]?\d* sata|za \d+[.,]?\d* sati|za \d+[.,]?\d* dan|za \d+[.,]?\d* min|za \d+[.,]?\d* sat|za \d+[.,]?\d* mj|za \d+[.,]?\d* tj|za \d+[.,]?\d* d|za \d+[.,]?\d* g|za \d+[.,]?\d* h|za \d+[.,]?\d* s)$");
    ld_known := [lit "sljedeceg mjeseca";
    lit "sljedecem mjesecu";
    lit "sljedeceg tjedna";
    lit "sljedecem tjednu";
    lit "sljedecoj godini";
    lit "proslog mjeseca";
    lit "proslom mjesecu";
    lit "sljedeca godina";
    lit "sljedece godine";
    lit "sljedeci mjesec";
    lit "sljedeci tjedan";
    lit "iduceg mjeseca";
    lit "iducem mjesecu";
    lit "proslog tjedna";
    lit "prosloj godini";
    lit "proslom tjednu";
    lit "iduceg tjedna";
    lit "iducem tjednu";
    lit "iducoj godini";
    lit "prosla godina";
    lit "prosle godine";
    lit "prosli mjesec";
    lit "prosli tjedan";
    lit "iduca godina";
    lit "iduce godine";
    lit "iduci mjesec";
    lit "iduci tjedan";
    lit "sljedeca god";
    lit "sljedece god";
    lit "ovaj mjesec";
    lit "ovaj tjedan";
    lit "ponedjeljak";
    lit "sljedeci mj";
    lit "sljedeci tj";
    lit "iducoj god";
    lit "listopadom";
    lit "ova minuta";
    lit "ove godine";
    lit "prekosutra";
    lit "prosle god";
    lit "sljedeca g";
    lit "sljedece g";
    lit "iduca god";
    lit "iduce god";
    lit "iduceg mj";
    lit "iduceg tj";
    lit "iducem mj";
    lit "iducem tj";
    lit "kolovozom";
    lit "listopada";
    lit "listopadu";
    lit "prekjucer";
    lit "prosincem";
    lit "prosli mj";
    lit "prosli tj";
    lit "sijecnjem";
    lit "studenoga";
    lit "studenome";
    lit "studenomu";
    lit "cetvrtak";
    lit "dogodine";
    lit "iduci mj";
    lit "iduci tj";
    lit "iducoj g";
    lit "kolovoza";
    lit "kolovozu";
    lit "listopad";
    lit "nagodinu";
    lit "nedjelja";
    lit "ovaj sat";
    lit "preklani";
    lit "prosinac";
    lit "prosinca";
    lit "prosincu";
    lit "prosle g";
    lit "sijecanj";
    lit "sijecnja";
    lit "sijecnju";
    lit "studenim";
    lit "studenog";
    lit "studenom";
    lit "svibnjem";
    lit "travnjem";
    lit "veljacom";
    lit "iduca g";
    lit "iduce g";
    lit "kolovoz";
    lit "lipnjem";
    lit "ovaj mj";
    lit "ovaj tj";
    lit "ove god";
    lit "ozujkom";
    lit "sekunda";
    lit "srijeda";
    lit "srpnjem";
    lit "studeni";
    lit "svibanj";
    lit "svibnja";
    lit "svibnju";
    lit "travanj";
    lit "travnja";
    lit "travnju";
    lit "veljaca";
    lit "veljace";
    lit "veljaci";
    lit "godina";
    lit "lipanj";
    lit "lipnja";
    lit "lipnju";
    lit "minuta";
    lit "mjesec";
    lit "ozujak";
    lit "ozujka";
    lit "ozujku";
    lit "rujnom";
    lit "srpanj";
    lit "srpnja";
    lit "srpnju";
    lit "subota";
    lit "tjedan";
    lit "utorak";
    lit "danas";
    lit "jucer";
    lit "ove g";
    lit "petak";
    lit "rujan";
    lit "rujna";
    lit "rujnu";
    lit "sutra";
    lit "lani";
    lit "velj";
    lit "cet";
    lit "dan";
    lit "gmt";
    lit "kol";
    lit "lip";
    lit "lis";
    lit "min";
    lit "ned";
    lit "ozu";
    lit "pet";
    lit "pon";
    lit "pro";
    lit "ruj";
    lit "sad";
    lit "sat";
    lit "sij";
    lit "sri";
    lit "srp";
    lit "stu";
    lit "sub";
    lit "svi";
    lit "tra";
    lit "utc";
    lit "uto";
    lit "am";
    lit "mj";
    lit "pm";
    lit "tj";
    lit " ";
    lit "'";
    lit "+";
    lit ",";
    lit "-";
    lit ".";
    lit "/";
    lit ":";
    lit ";";
    lit "@";
    lit "[";
    lit "]";
    lit "d";
    lit "g";
    lit "h";
    lit "m";
    lit "s";
    lit "u";
    lit "z";
    lit "|"] |}.

(** hr.go:265-268 *)
Definition own_hr_BA : locale := Eval vm_compute in
  {| ld_name := lit "hr-BA"; ld_order := lit "DMY."; ld_nospacing := false; ld_splitter := 0;
    ld_charset := runes (lit "");
    ld_abbr := [];
    ld_simpl := [];
    ld_trans := [];
    ld_reltype := [];
    ld_relrx := [];
    ld_rx := None;
    ld_rx_exact := None;
    ld_known := [] |}.
Definition loc_hr_BA : locale := merge loc_hr own_hr_BA.

(** hsb.go:12-177 *)
Definition loc_hsb : locale := Eval vm_compute in
  {| ld_name := lit "hsb"; ld_order := lit "DMY"; ld_nospacing := false; ld_splitter := 0;
    ld_charset := runes (lit "bcdefghijklnorstuwyzóčěłńřšź");
    ld_abbr := [];
    ld_simpl := [];
    ld_trans := [(lit "dopołdnja", [lit "am"]);
    (lit "popołdnju", [lit "pm"]);
    (lit "september", [lit "september"]);
    (lit "septembra", [lit "september"]);
    (lit "december", [lit "december"]);
    (lit "decembra", [lit "december"]);
    (lit "februara", [lit "february"]);
    (lit "njedzela", [lit "sunday"]);
    (lit "nowember", [lit "november"]);
    (lit "nowembra", [lit "november"]);
    (lit "pondzela", [lit "monday"]);
    (lit "awgusta", [lit "august"]);
    (lit "februar", [lit "february"]);
    (lit "hodzina", [lit "hour"]);
    (lit "januara", [lit "january"]);
    (lit "oktober", [lit "october"]);
    (lit "oktobra", [lit "october"]);
    (lit "sekunda", [lit "second"]);
    (lit "stwortk", [lit "thursday"]);
    (lit "apryla", [lit "april"]);
    (lit "awgust", [lit "august"]);
    (lit "januar", [lit "january"]);
    (lit "julija", [lit "july"]);
    (lit "junija", [lit "june"]);
    (lit "minuta", [lit "minute"]);
    (lit "sobota", [lit "saturday"]);
    (lit "srjeda", [lit "wednesday"]);
    (lit "tydzen", [lit "week"]);
    (lit "wutora", [lit "tuesday"]);
    (lit "apryl", [lit "april"]);
    (lit "julij", [lit "july"]);
    (lit "junij", [lit "june"]);
    (lit "merca", [lit "march"]);
    (lit "mesac", [lit "month"]);
    (lit "pjatk", [lit "friday"]);
    (lit "dzen", [lit "day"]);
    (lit "hodz", [lit "hour"]);
    (lit "leto", [lit "year"]);
    (lit "meja", [lit "may"]);
    (lit "meje", [lit "may"]);
    (lit "merc", [lit "march"]);
    (lit "tydz", [lit "week"]);
    (lit "apr", [lit "april"]);
    (lit "awg", [lit "august"]);
    (lit "dec", [lit "december"]);
    (lit "feb", [lit "february"]);
    (lit "gmt", [lit "gmt"]);
    (lit "jan", [lit "january"]);
    (lit "jul", [lit "july"]);
    (lit "jun", [lit "june"]);
    (lit "mej", [lit "may"]);
    (lit "mer", [lit "march"]);
    (lit "mes", [lit "month"]);
    (lit "min", [lit "minute"]);
    (lit "nje", [lit "sunday"]);
    (lit "now", [lit "november"]);
    (lit "okt", [lit "october"]);
    (lit "pja", [lit "friday"]);
    (lit "pon", [lit "monday"]);
    (lit "sek", [lit "second"]);
    (lit "sep", [lit "september"]);
    (lit "sob", [lit "saturday"]);
    (lit "srj", [lit "wednesday"]);
    (lit "stw", [lit "thursday"]);
    (lit "utc", [lit "utc"]);
    (lit "wut", [lit "tuesday"]);
    (lit "am", [lit "am"]);
    (lit "pm", [lit "pm"]);
    (lit " ", [lit " "]);
    (lit "'", [lit ""]);
    (lit "+", [lit "+"]);
    (lit ",", [lit ""]);
    (lit "-", [lit "-"]);
    (lit ".", [lit "."]);
    (lit "/", [lit "/"]);
    (lit ":", [lit ":"]);
    (lit ";", [lit ""]);
    (lit "@", [lit ""]);
    (lit "[", [lit ""]);
    (lit "]", [lit ""]);
    (lit "d", [lit "day"]);
    (lit "h", [lit "hour"]);
    (lit "l", [lit "year"]);
    (lit "m", [lit "minute"]);
    (lit "s", [lit "second"]);
    (lit "z", [lit "z"]);
    (lit "|", [lit ""])];
    ld_reltype := [(lit "prichodny tydzen", lit "in 1 week");
    (lit "prichodny mesac", lit "in 1 month");
    (lit "tuton tydzen", lit "0 week ago");
    (lit "zasły tydzen", lit "1 week ago");
    (lit "this minute", lit "0 minute ago");
    (lit "tuton mesac", lit "0 month ago");
    (lit "zasły mesac", lit "1 month ago");
    (lit "this hour", lit "0 hour ago");
    (lit "dzensa", lit "0 day ago");
    (lit "jutre", lit "in 1 day");
    (lit "kletu", lit "in 1 year");
    (lit "letsa", lit "0 year ago");
    (lit "wcera", lit "1 day ago");
    (lit "loni", lit "1 year ago");
    (lit "now", lit "0 second ago")];
    ld_relrx := [(rx "(?i)pred (\d+[.,]?\d*) tydzenjemi", lit "$1 week ago");
    (rx "(?i)pred (\d+[.,]?\d*) hodzinami", lit "$1 hour ago");
    (rx "(?i)pred (\d+[.,]?\d*) sekundami", lit "$1 second ago");
    (rx "(?i)pred (\d+[.,]?\d*) tydzenjom", lit "$1 week ago");
    (rx "(?i)pred (\d+[.,]?\d*) mesacami", lit "$1 month ago");
    (rx "(?i)pred (\d+[.,]?\d*) minutami", lit "$1 minute ago");
    (rx "(?i)pred (\d+[.,]?\d*) hodzinu", lit "$1 hour ago");
    (rx "(?i)pred (\d+[.,]?\d*) mesacom", lit "$1 month ago");
    (rx "(?i)pred (\d+[.,]?\d*) sekundu", lit "$1 second ago");
    (rx "(?i)za (\d+[.,]?\d*) tydzenjow", lit "in $1 week");
    (rx "(?i)pred (\d+[.,]?\d*) dnjemi", lit "$1 day ago");
    (rx "(?i)pred (\d+[.,]?\d*) letami", lit "$1 year ago");
    (rx "(?i)pred (\d+[.,]?\d*) minutu", lit "$1 minute ago");
    (rx "(?i)za (\d+[.,]?\d*) sekundow", lit "in $1 second");
    (rx "(?i)pred (\d+[.,]?\d*) dnjom", lit "$1 day ago");
    (rx "(?i)pred (\d+[.,]?\d*) letom", lit "$1 year ago");
    (rx "(?i)za (\d+[.,]?\d*) hodzinu", lit "in $1 hour");
    (rx "(?i)za (\d+[.,]?\d*) mesacow", lit "in $1 month");
    (rx "(?i)za (\d+[.,]?\d*) minutow", lit "in $1 minute");
    (rx "(?i)za (\d+[.,]?\d*) sekundu", lit "in $1 second");
    (rx "(?i)pred (\d+[.,]?\d*) hodz", lit "$1 hour ago");
    (rx "(?i)pred (\d+[.,]?\d*) tydz", lit "$1 week ago");
    (rx "(?i)za (\d+[.,]?\d*) hodzin", lit "in $1 hour");
    (rx "(?i)za (\d+[.,]?\d*) minutu", lit "in $1 minute");
    (rx "(?i)za (\d+[.,]?\d*) tydzen", lit "in $1 week");
    (rx "(?i)pred (\d+[.,]?\d*) dnj", lit "$1 day ago");
    (rx "(?i)pred (\d+[.,]?\d*) mes", lit "$1 month ago");
    (rx "(?i)pred (\d+[.,]?\d*) min", lit "$1 minute ago");
    (rx "(?i)pred (\d+[.,]?\d*) sek", lit "$1 second ago");
    (rx "(?i)za (\d+[.,]?\d*) dnjow", lit "in $1 day");
    (rx "(?i)za (\d+[.,]?\d*) mesac", lit "in $1 month");
    (rx "(?i)za (\d+[.,]?\d*) dzen", lit "in $1 day");
    (rx "(?i)za (\d+[.,]?\d*) hodz", lit "in $1 hour");
    (rx "(?i)za (\d+[.,]?\d*) leto", lit "in $1 year");
    (rx "(?i)za (\d+[.,]?\d*) tydz", lit "in $1 week");
    (rx "(?i)pred (\d+[.,]?\d*) d", lit "$1 day ago");
    (rx "(?i)pred (\d+[.,]?\d*) h", lit "$1 hour ago");
    (rx "(?i)pred (\d+[.,]?\d*) l", lit "$1 year ago");
    (rx "(?i)pred (\d+[.,]?\d*) m", lit "$1 minute ago");
    (rx "(?i)pred (\d+[.,]?\d*) s", lit "$1 second ago");
    (rx "(?i)za (\d+[.,]?\d*) dnj", lit "in $1 day");
    (rx "(?i)za (\d+[.,]?\d*) let", lit "in $1 year");
    (rx "(?i)za (\d+[.,]?\d*) mes", lit "in $1 month");
    (rx "(?i)za (\d+[.,]?\d*) min", lit "in $1 minute");
    (rx "(?i)za (\d+[.,]?\d*) sek", lit "in $1 second");
    (rx "(?i)za (\d+[.,]?\d*) d", lit "in $1 day");
    (rx "(?i)za (\d+[.,]?\d*) h", lit "in $1 hour");
    (rx "(?i)za (\d+[.,]?\d*) l", lit "in $1 year");
    (rx "(?i)za (\d+[.,]?\d*) m", lit "in $1 minute");
    (rx "(?i)za (\d+[.,]?\d*) s", lit "in $1 second")];
    ld_rx := Some (rx "(?i)(\A|[^\pL\pM\d]|_)(pred \d+[.,]?\d* tydzenjemi|pred \d+[.,]?\d* hodzinami|pred \d+[.,]?\d* sekundami|pred \d+[.,]?\d* tydzenjom|pred \d+[.,]?\d* mesacami|pred \d+[.,]?\d* minutami|pred \d+[.,]?\d* hodzinu|pred \d+[.,]?\d* mesacom|pred \d+[.,]?\d* sekundu|za \d+[.,]?\d* tydzenjow|pred \d+[.,]?\d* dnjemi|pred \d+[.,]?\d* letami|pred \d+[.,]?\d* minutu|za \d+[.,]?\d* sekundow|pred \d+[.,]?\d* dnjom|pred \d+[.,]?\d* letom|za \d+[.,]?\d* hodzinu|za \d+[.,]?\d* mesacow|za \d+[.,]?\d* minutow|za \d+[.,]?\d* sekundu|pred \d+[.,]?\d* hodz|pred \d+[.,]?\d* tydz|za \d+[.,]?\d* hodzin|za \d+[.,]?\d* minutu|za \d+[.,]?\d* tydzen|pred \d+[.,]?\d* dnj|pred \d+[.,]?\d* mes|pred \d+[.,]?\d* min|pred \d+[.,]?\d* sek|za \d+[.,]?\d* dnjow|za \d+[.,]?\d* mesac|za \d+[.,]?\d* dzen|za \d+[.,]?\d* hodz|za \d+[.,]?\d* leto|za \d+[.,]?\d* tydz|pred \d+[.,]?\d* d|pred \d+[.,]?\d* h|pred \d+[.,]?\d* l|pred \d+[.,]?\d* m|pred \d+[.,]?\d* s|za \d+[.,]?\d* dnj|za \d+[.,]?\d* let|za \d+[.,]?\d* mes|za \d+[.,]?\d* min|za \d+[.,]?\d* sek|za \d+[.,]?\d* d|za \d+[.,]?\d* h|za \d+[.,]?\d* l|za \d+[.,]?\d* m|za \d+[.,]?\d* s)(\z|[^\pL\pM\d]|_)");
    ld_rx_exact := Some (rx "(?i)^(pred \d+[.,]?\d* tydzenjemi|pred \d+[.,]?\d* hodzinami|pred \d+[.,]?\d* sekundami|pred \d+[.,]?\d* tydzenjom|pred \d+[.,]?\d* mesacami|pred \d+[.,]?\d* minutami|pred \d+[.,]?\d* hodzinu|pred \d+[.,]?\d* mesacom|pred \d+[.,]?\d* sekundu|za \d+[.,]?\d* tydzenjow|pred \d+[.,]?\d* dnjemi|pred \d+[.,]?\d* letami|pred \d+[.,]?\d* minutu|za \d+[.,]?\d* sekundow|pred \d+[.,]?\d* dnjom|pred \d+[.,]?\d* letom|za \d+[.,]?\d* hodzinu|za \d+[.,]?\d* mesacow|za \d+[.,]?\d* minutow|za \d+[.,]?\d* sekundu|pred \d+[.,]?\d* hodz|pred \d+[.,]?\d* tydz|za \d+[.,]?\d* hodzin|za \d+[.,]?\d* minutu|za \d+[.,]?\d* tydzen|pred \d+[.,]?\d* dnj|pred \d+[.,]?\d* mes|pred \d+[.,]?\d* min|pred \d+[.,]?\d* sek|za \d+[.,]?\d* dnjow|za \d+[.,]?\d* mesac|za \d+[.,]?\d* dzen|za \d+[.,]?\d* hodz|za \d+[.,]?\d* leto|za \d+[.,]?\d* tydz|pred \d+[.,]?\d* d|pred \d+[.,]?\d* h|pred \d+[.,]?\d* l|pred \d+[.,]?\d* m|pred \d+[.,]?\d* s|za \d+[.,]?\d* dnj|za \d+[.,]?\d* let|za \d+[.,]?\d* mes|za \d+[.,]?\d* min|za \d+[.,]?\d* sek|za \d+[.,]?\d* d|za \d+[.,]?\d* h|za \d+[.,]?\d* l|za \d+[.,]?\d* m|za \d+[.,]?\d* s)$");
    ld_known := [lit "prichodny tydzen";
    lit "prichodny mesac";
    lit "tuton tydzen";
    lit "zasły tydzen";
    lit "this minute";
    lit "tuton mesac";
    lit "zasły mesac";
    lit "dopołdnja";
    lit "popołdnju";
    lit "september";
    lit "septembra";
    lit "this hour";
    lit "december";
    lit "decembra";
    lit "februara";
    lit "njedzela";
    lit "nowember";
    lit "nowembra";
    lit "pondzela";
    lit "awgusta";
    lit "februar";
    lit "hodzina";
    lit "januara";
    lit "oktober";
    lit "oktobra";
    lit "sekunda";
    lit "stwortk";
    lit "apryla";
    lit "awgust";
    lit "dzensa";
    lit "januar";
    lit "julija";
    lit "junija";
    lit "minuta";
    lit "sobota";
    lit "srjeda";
    lit "tydzen";
    lit "wutora";
    lit "apryl";
    lit "julij";
    lit "junij";
    lit "jutre";
    lit "kletu";
    lit "letsa";
    lit "merca";
    lit "mesac";
    lit "pjatk";
    lit "wcera";
    lit "dzen";
    lit "hodz";
    lit "leto";
    lit "loni";
    lit "meja";
    lit "meje";
    lit "merc";
    lit "tydz";
    lit "apr";
    lit "awg";
    lit "dec";
    lit "feb";
    lit "gmt";
    lit "jan";
    lit "jul";
    lit "jun";
    lit "mej";
    lit "mer";
    lit "mes";
    lit "min";
    lit "nje";
    lit "now";
    lit "okt";
    lit "pja";
    lit "pon";
    lit "sek";
    lit "sep";
    lit "sob";
    lit "srj";
    lit "stw";
    lit "utc";
    lit "wut";
    lit "am";
    lit "pm";
    lit " ";
    lit "'";
    lit "+";
    lit ",";
    lit "-";
    lit ".";
    lit "/";
    lit ":";
    lit ";";
    lit "@";
    lit "[";
    lit "]";
    lit "d";
    lit "h";
    lit "l";
    lit "m";
    lit "s";
    lit "z";
    lit "|"] |}.

(** hu.go:12-192 *)
Definition loc_hu : locale := Eval vm_compute in
  {| ld_name := lit "hu"; ld_order := lit "YMD."; ld_nospacing := false; ld_splitter := 1;
    ld_charset := runes (lit "-bcdefghijklnorstuvxzáéóöúüő");
    ld_abbr := [];
    ld_simpl := [(rx "(?i)(\A|[^\pL\pM\d_])egy(\z|[^\pL\pM\d_])", lit "${1}1${2}")];
    ld_trans := [(lit "masodperccel", [lit "second"]);
    (lit "masodperctol", [lit "second"]);
    (lit "masodpercek", [lit "second"]);
    (lit "masodpercig", [lit "second"]);
    (lit "masodperce", [lit "second"]);
    (lit "szeptember", [lit "september"]);
    (lit "augusztus", [lit "august"]);
    (lit "csutortok", [lit "thursday"]);
    (lit "masodperc", [lit "second"]);
    (lit "december", [lit "december"]);
    (lit "honappal", [lit "month"]);
    (lit "november", [lit "november"]);
    (lit "vasarnap", [lit "sunday"]);
    (lit "aprilis", [lit "april"]);
    (lit "ezelott", [lit "ago"]);
    (lit "februar", [lit "february"]);
    (lit "honapja", [lit "month"]);
    (lit "honapok", [lit "month"]);
    (lit "marcius", [lit "march"]);
    (lit "oktober", [lit "october"]);
    (lit "perccel", [lit "minute"]);
    (lit "perctol", [lit "minute"]);
    (lit "szombat", [lit "saturday"]);
    (lit "hettel", [lit "week"]);
    (lit "januar", [lit "january"]);
    (lit "julius", [lit "july"]);
    (lit "junius", [lit "june"]);
    (lit "nappal", [lit "day"]);
    (lit "oratol", [lit "hour"]);
    (lit "oraval", [lit "hour"]);
    (lit "pentek", [lit "friday"]);
    (lit "percek", [lit "minute"]);
    (lit "percig", [lit "minute"]);
    (lit "szerda", [lit "wednesday"]);
    (lit "-akor", [lit ""]);
    (lit "-atol", [lit ""]);
    (lit "-ekor", [lit ""]);
    (lit "-etol", [lit ""]);
    (lit "evvel", [lit "year"]);
    (lit "hetek", [lit "week"]);
    (lit "hetfo", [lit "monday"]);
    (lit "honap", [lit "month"]);
    (lit "majus", [lit "may"]);
    (lit "mulva", [lit "in"]);
    (lit "napja", [lit "day"]);
    (lit "napok", [lit "day"]);
    (lit "oraig", [lit "hour"]);
    (lit "oraja", [lit "hour"]);
    (lit "perce", [lit "minute"]);
    (lit "szept", [lit "september"]);
    (lit "-aig", [lit ""]);
    (lit "-eig", [lit ""]);
    (lit "-jei", [lit ""]);
    (lit "-kor", [lit ""]);
    (lit "-tol", [lit ""]);
    (lit "evek", [lit "year"]);
    (lit "febr", [lit "february"]);
    (lit "hete", [lit "week"]);
    (lit "kedd", [lit "tuesday"]);
    (lit "marc", [lit "march"]);
    (lit "orak", [lit "hour"]);
    (lit "perc", [lit "minute"]);
    (lit "viii", [lit "august"]);
    (lit "-ai", [lit ""]);
    (lit "-an", [lit ""]);
    (lit "-ei", [lit ""]);
    (lit "-en", [lit ""]);
    (lit "-es", [lit ""]);
    (lit "-ig", [lit ""]);
    (lit "-je", [lit ""]);
    (lit "-ji", [lit ""]);
    (lit "-os", [lit ""]);
    (lit "apr", [lit "april"]);
    (lit "aug", [lit "august"]);
    (lit "dec", [lit "december"]);
    (lit "eve", [lit "year"]);
    (lit "feb", [lit "february"]);
    (lit "gmt", [lit "gmt"]);
    (lit "het", [lit "week"]);
    (lit "iii", [lit "march"]);
    (lit "jan", [lit "january"]);
    (lit "jul", [lit "july"]);
    (lit "jun", [lit "june"]);
    (lit "maj", [lit "may"]);
    (lit "mar", [lit "march"]);
    (lit "nap", [lit "day"]);
    (lit "nov", [lit "november"]);
    (lit "okt", [lit "october"]);
    (lit "ora", [lit "hour"]);
    (lit "sze", [lit "wednesday"]);
    (lit "szo", [lit "saturday"]);
    (lit "utc", [lit "utc"]);
    (lit "vas", [lit "sunday"]);
    (lit "vii", [lit "july"]);
    (lit "xii", [lit "december"]);
    (lit "-a", [lit ""]);
    (lit "-e", [lit ""]);
    (lit "-i", [lit ""]);
    (lit "am", [lit "am"]);
    (lit "cs", [lit "thursday"]);
    (lit "de", [lit "am"]);
    (lit "du", [lit "pm"]);
    (lit "ev", [lit "year"]);
    (lit "ho", [lit "month"]);
    (lit "ii", [lit "february"]);
    (lit "iv", [lit "april"]);
    (lit "ix", [lit "september"]);
    (lit "mp", [lit "second"]);
    (lit "pm", [lit "pm"]);
    (lit "vi", [lit "june"]);
    (lit "xi", [lit "november"]);
    (lit " ", [lit " "]);
    (lit "'", [lit ""]);
    (lit "+", [lit "+"]);
    (lit ",", [lit ""]);
    (lit "-", [lit "-"]);
    (lit ".", [lit "."]);
    (lit "/", [lit "/"]);
    (lit ":", [lit ":"]);
    (lit ";", [lit ""]);
    (lit "@", [lit ""]);
    (lit "[", [lit ""]);
    (lit "]", [lit ""]);
    (lit "h", [lit "monday"]);
    (lit "i", [lit "january"]);
    (lit "k", [lit "tuesday"]);
    (lit "o", [lit "hour"]);
    (lit "p", [lit "friday"; lit "minute"]);
    (lit "v", [lit "may"; lit "sunday"]);
    (lit "x", [lit "october"]);
    (lit "z", [lit "z"]);
    (lit "|", [lit ""])];
    ld_reltype := [(lit "ebben a percben", lit "0 minute ago");
    (lit "ebben az oraban", lit "0 hour ago");
    (lit "kovetkezo honap", lit "in 1 month");
    (lit "kovetkezo het", lit "in 1 week");
    (lit "kovetkezo ev", lit "in 1 year");
    (lit "elozo honap", lit "1 month ago");
    (lit "tegnapelott", lit "2 day ago");
    (lit "ez a honap", lit "0 month ago");
    (lit "elozo het", lit "1 week ago");
    (lit "elozo ev", lit "1 year ago");
    (lit "ez a het", lit "0 week ago");
    (lit "ez az ev", lit "0 year ago");
    (lit "holnap", lit "in 1 day");
    (lit "tegnap", lit "1 day ago");
    (lit "most", lit "0 second ago");
    (lit "ma", lit "0 day ago")];
    ld_relrx := [(rx "(?i)(\d+[.,]?\d*) masodperccel ezelott", lit "$1 second ago");
    (rx "(?i)(\d+[.,]?\d*) honappal ezelott", lit "$1 month ago");
    (rx "(?i)(\d+[.,]?\d*) masodperc mulva", lit "in $1 second");
    (rx "(?i)(\d+[.,]?\d*) perccel ezelott", lit "$1 minute ago");
    (rx "(?i)(\d+[.,]?\d*) hettel ezelott", lit "$1 week ago");
    (rx "(?i)(\d+[.,]?\d*) nappal ezelott", lit "$1 day ago");
    (rx "(?i)(\d+[.,]?\d*) oraval ezelott", lit "$1 hour ago");
    (rx "(?i)(\d+[.,]?\d*) evvel ezelott", lit "$1 year ago");
    (rx "(?i)(\d+[.,]?\d*) honap mulva", lit "in $1 month");
    (rx "(?i)(\d+[.,]?\d*) perc mulva", lit "in $1 minute");
    (rx "(?i)(\d+[.,]?\d*) het mulva", lit "in $1 week");
    (rx "(?i)(\d+[.,]?\d*) nap mulva", lit "in $1 day");
    (rx "(?i)(\d+[.,]?\d*) ora mulva", lit "in $1 hour");
    (rx "(?i)(\d+[.,]?\d*) ev mulva", lit "in $1 year");
    (rx "(?i)(\d+[.,]?\d*) napja", lit "$1 day ago")];
    ld_rx := Some (rx "(?i)(\A|[^\pL\pM\d]|_)(\d+[.,]?\d* masodperccel ezelott|\d+[.,]?\d* honappal ezelott|\d+[.,]?\d* masodperc mulva|\d+[.,]?\d* perccel ezelott|\d+[.,]?\d* hettel ezelott|\d+[.,]?\d* nappal ezelott|\d+[.,]?\d* oraval ezelott|\d+[.,]?\d* evvel ezelott|\d+[.,]?\d* honap mulva|\d+[.,]?\d* perc mulva|\d+[.,]?\d* het mulva|\d+[.,]?\d* nap mulva|\d+[.,]?\d* ora mulva|\d+[.,]?\d* ev mulva|\d+[.,]?\d* napja)(\z|[^\pL\pM\d]|_)");
    ld_rx_exact := Some (rx "(?i)^(\d+[.,]?\d* masodperccel ezelott|\d+[.,]?\d* honappal ezelott|\d+[.,]?\d* masodperc mulva|\d+[.,]?\d* perccel ezelott|\d+[.,]?\d* hettel ezelott|\d+[.,]?\d* nappal ezelott|\d+[.,]?\d* oraval ezelott|\d+[.,]?\d* evvel ezelott|\d+[.,]?\d* honap mulva|\d+[.,]?\d* perc mulva|\d+[.,]?\d* het mulva|\d+[.,]?\d* nap mulva|\d+[.,]?\d* ora mulva|\d+[.,]?\d* ev mulva|\d+[.,]?\d* napja)$");
    ld_known := [lit "ebben a percben";
    lit "ebben az oraban";
    lit "kovetkezo honap";
    lit "kovetkezo het";
    lit "kovetkezo ev";
    lit "masodperccel";
    lit "masodperctol";
    lit "elozo honap";
    lit "masodpercek";
    lit "masodpercig";
    lit "tegnapelott";
    lit "ez a honap";
    lit "masodperce";
    lit "szeptember";
    lit "augusztus";
    lit "csutortok";
    lit "elozo het";
    lit "masodperc";
    lit "december";
    lit "elozo ev";
    lit "ez a het";
    lit "ez az ev";
    lit "honappal";
    lit "november";
    lit "vasarnap";
    lit "aprilis";
    lit "ezelott";
    lit "februar";
    lit "honapja";
    lit "honapok";
    lit "marcius";
    lit "oktober";
    lit "perccel";
    lit "perctol";
    lit "szombat";
    lit "hettel";
    lit "holnap";
    lit "januar";
    lit "julius";
    lit "junius";
    lit "nappal";
    lit "oratol";
    lit "oraval";
    lit "pentek";
    lit "percek";
    lit "percig";
    lit "szerda";
    lit "tegnap";
    lit "-akor";
    lit "-atol";
    lit "-ekor";
    lit "-etol";
    lit "evvel";
    lit "hetek";
    lit "hetfo";
    lit "honap";
    lit "majus";
    lit "mulva";
    lit "napja";
    lit "napok";
    lit "oraig";
    lit "oraja";
    lit "perce";
    lit "szept";
    lit "-aig";
    lit "-eig";
    lit "-jei";
    lit "-kor";
    lit "-tol";
    lit "evek";
    lit "febr";
    lit "hete";
    lit "kedd";
    lit "marc";
    lit "most";
    lit "orak";
    lit "perc";
    lit "viii";
    lit "-ai";
    lit "-an";
    lit "-ei";
    lit "-en";
    lit "-es";
    lit "-ig";
    lit "-je";
    lit "-ji";
    lit "-os";
    lit "apr";
    lit "aug";
    lit "dec";
    lit "eve";
    lit "feb";
    lit "gmt";
    lit "het";
    lit "iii";
    lit "jan";
    lit "jul";
    lit "jun";
    lit "maj";
    lit "mar";
    lit "nap";
    lit "nov";
    lit "okt";
    lit "ora";
    lit "sze";
    lit "szo";
    lit "utc";
    lit "vas";
    lit "vii";
    lit "xii";
    lit "-a";
    lit "-e";
    lit "-i";
    lit "am";
    lit "cs";
    lit "de";
    lit "du";
    lit "ev";
    lit "ho";
    lit "ii";
    lit "iv";
    lit "ix";
    lit "ma";
    lit "mp";
    lit "pm";
    lit "vi";
    lit "xi";
    lit " ";
    lit "'";
    lit "+";
    lit ",";
    lit "-";
    lit ".";
    lit "/";
    lit ":";
    lit ";";
    lit "@";
    lit "[";
    lit "]";
    lit "h";
    lit "i";
    lit "k";
    lit "o";
    lit "p";
    lit "v";
    lit "x";
    lit "z";
    lit "|"] |}.

(** hy.go:12-149 *)
Definition loc_hy : locale := Eval vm_compute in
  {| ld_name := lit "hy"; ld_order := lit "DMY"; ld_nospacing := false; ld_splitter := 0;
    ld_charset := runes (lit "cgtuzաբգդեըթժիլխկհղմյնշոչպջսվտրցւփքօ");
    ld_abbr := [];
    ld_simpl := [];
    ld_trans := [(lit "դեկտեմբերի", [lit "december"]);
    (lit "երկուշաբթի", [lit "monday"]);
    (lit "հոկտեմբերի", [lit "october"]);
    (lit "չորեքշաբթի", [lit "wednesday"]);
    (lit "սեպտեմբերի", [lit "september"]);
    (lit "դեկտեմբեր", [lit "december"]);
    (lit "երեքշաբթի", [lit "tuesday"]);
    (lit "հինգշաբթի", [lit "thursday"]);
    (lit "հոկտեմբեր", [lit "october"]);
    (lit "նոյեմբերի", [lit "november"]);
    (lit "սեպտեմբեր", [lit "september"]);
    (lit "հունվարի", [lit "january"]);
    (lit "նոյեմբեր", [lit "november"]);
    (lit "վայրկյան", [lit "second"]);
    (lit "փետրվարի", [lit "february"]);
    (lit "օգոստոսի", [lit "august"]);
    (lit "հուլիսի", [lit "july"]);
    (lit "հունիսի", [lit "june"]);
    (lit "հունվար", [lit "january"]);
    (lit "փետրվար", [lit "february"]);
    (lit "օգոստոս", [lit "august"]);
    (lit "ապրիլի", [lit "april"]);
    (lit "կիրակի", [lit "sunday"]);
    (lit "հուլիս", [lit "july"]);
    (lit "հունիս", [lit "june"]);
    (lit "մայիսի", [lit "may"]);
    (lit "ուրբաթ", [lit "friday"]);
    (lit "ապրիլ", [lit "april"]);
    (lit "մայիս", [lit "may"]);
    (lit "մարտի", [lit "march"]);
    (lit "շաբաթ", [lit "week"; lit "saturday"]);
    (lit "ամիս", [lit "month"]);
    (lit "մարտ", [lit "march"]);
    (lit "տարի", [lit "year"]);
    (lit "րոպե", [lit "minute"]);
    (lit "gmt", [lit "gmt"]);
    (lit "utc", [lit "utc"]);
    (lit "ամս", [lit "month"]);
    (lit "ապր", [lit "april"]);
    (lit "դեկ", [lit "december"]);
    (lit "երկ", [lit "monday"]);
    (lit "երք", [lit "tuesday"]);
    (lit "ժամ", [lit "hour"]);
    (lit "կիր", [lit "sunday"]);
    (lit "հլս", [lit "july"]);
    (lit "հնգ", [lit "thursday"]);
    (lit "հնս", [lit "june"]);
    (lit "հնվ", [lit "january"]);
    (lit "հոկ", [lit "october"]);
    (lit "մյս", [lit "may"]);
    (lit "մրտ", [lit "march"]);
    (lit "նոյ", [lit "november"]);
    (lit "շաբ", [lit "week"]);
    (lit "շբթ", [lit "saturday"]);
    (lit "ուր", [lit "friday"]);
    (lit "չրք", [lit "wednesday"]);
    (lit "սեպ", [lit "september"]);
    (lit "փտվ", [lit "february"]);
    (lit "օգս", [lit "august"]);
    (lit "am", [lit "am"]);
    (lit "pm", [lit "pm"]);
    (lit "կա", [lit "am"]);
    (lit "կհ", [lit "pm"]);
    (lit "օր", [lit "day"]);
    (lit " ", [lit " "]);
    (lit "'", [lit ""]);
    (lit "+", [lit "+"]);
    (lit ",", [lit ""]);
    (lit "-", [lit "-"]);
    (lit ".", [lit "."]);
    (lit "/", [lit "/"]);
    (lit ":", [lit ":"]);
    (lit ";", [lit ""]);
    (lit "@", [lit ""]);
    (lit "[", [lit ""]);
    (lit "]", [lit ""]);
    (lit "z", [lit "z"]);
    (lit "|", [lit ""]);
    (lit "ժ", [lit "hour"]);
    (lit "վ", [lit "second"]);
    (lit "տ", [lit "year"]);
    (lit "ր", [lit "minute"])];
    ld_reltype := [(lit "հաջորդ շաբաթ", lit "in 1 week");
    (lit "նախորդ շաբաթ", lit "1 week ago");
    (lit "անցյալ ամիս", lit "1 month ago");
    (lit "հաջորդ ամիս", lit "in 1 month");
    (lit "հաջորդ տարի", lit "in 1 year");
    (lit "նախորդ ամիս", lit "1 month ago");
    (lit "նախորդ տարի", lit "1 year ago");
    (lit "այս րոպեին", lit "0 minute ago");
    (lit "այս ժամին", lit "0 hour ago");
    (lit "այս շաբաթ", lit "0 week ago");
    (lit "այս ամիս", lit "0 month ago");
    (lit "այս տարի", lit "0 year ago");
    (lit "այսօր", lit "0 day ago");
    (lit "այժմ", lit "0 second ago");
    (lit "երեկ", lit "1 day ago");
    (lit "վաղը", lit "in 1 day")];
    ld_relrx := [(rx "(?i)(\d+[.,]?\d*) վայրկյան առաջ", lit "$1 second ago");
    (rx "(?i)(\d+[.,]?\d*) շաբաթ առաջ", lit "$1 week ago");
    (rx "(?i)(\d+[.,]?\d*) վայրկյանից", lit "in $1 second");
    (rx "(?i)(\d+[.,]?\d*) ամիս առաջ", lit "$1 month ago");
    (rx "(?i)(\d+[.,]?\d*) տարի առաջ", lit "$1 year ago");
    (rx "(?i)(\d+[.,]?\d*) րոպե առաջ", lit "$1 minute ago");
    (rx "(?i)(\d+[.,]?\d*) ժամ առաջ", lit "$1 hour ago");
    (rx "(?i)(\d+[.,]?\d*) շաբ առաջ", lit "$1 week ago");
    (rx "(?i)(\d+[.,]?\d*) վրկ առաջ", lit "$1 second ago");
    (rx "(?i)(\d+[.,]?\d*) շաբ անց", lit "in $1 week");
    (rx "(?i)(\d+[.,]?\d*) շաբաթից", lit "in $1 week");
    (rx "(?i)(\d+[.,]?\d*) օր առաջ", lit "$1 day ago");
    (rx "(?i)(\d+[.,]?\d*) ժ առաջ", lit "$1 hour ago");
    (rx "(?i)(\d+[.,]?\d*) շաբ-ից", lit "in $1 week");
    (rx "(?i)(\d+[.,]?\d*) վ առաջ", lit "$1 second ago");
    (rx "(?i)(\d+[.,]?\d*) վրկ-ից", lit "in $1 second");
    (rx "(?i)(\d+[.,]?\d*) տ առաջ", lit "$1 year ago");
    (rx "(?i)(\d+[.,]?\d*) տարուց", lit "in $1 year");
    (rx "(?i)(\d+[.,]?\d*) ր առաջ", lit "$1 minute ago");
    (rx "(?i)(\d+[.,]?\d*) րոպեից", lit "in $1 minute");
    (rx "(?i)(\d+[.,]?\d*) ամսից", lit "in $1 month");
    (rx "(?i)(\d+[.,]?\d*) ժամից", lit "in $1 hour");
    (rx "(?i)(\d+[.,]?\d*) ժ-ից", lit "in $1 hour");
    (rx "(?i)(\d+[.,]?\d*) վ-ից", lit "in $1 second");
    (rx "(?i)(\d+[.,]?\d*) ր-ից", lit "in $1 minute");
    (rx "(?i)(\d+[.,]?\d*) օրից", lit "in $1 day")];
    ld_rx := Some (rx "(?i)(\A|[^\pL\pM\d]|_)(\d+[.,]?\d* վայրկյան առաջ|\d+[.,]?\d* շաբաթ առաջ|\d+[.,]?\d* վայրկյանից|\d+[.,]?\d* ամիս առաջ|\d+[.,]?\d* տարի առաջ|\d+[.,]?\d* րոպե առաջ|\d+[.,]?\d* ժամ առաջ|\d+[.,]?\d* շաբ առաջ|\d+[.,]?\d* վրկ առաջ|\d+[.,]?\d* շաբ անց|\d+[.,]?\d* շաբաթից|\d+[.,]?\d* օր առաջ|\d+[.,]?\d* ժ առաջ|\d+[.,]?\d* շաբ-ից|\d+[.,]?\d* վ առաջ|\d+[.,]?\d* վրկ-ից|\d+[.,]?\d* տ առաջ|\d+[.,]?\d* տարուց|\d+[.,]?\d* ր առաջ|\d+[.,]?\d* րոպեից|\d+[.,]?\d* ամսից|\d+[.,]?\d* ժամից|\d+[.,]?\d* ժ-ից|\d+[.,]?\d* վ-ից|\d+[.,]?\d* ր-ից|\d+[.,]?\d* օրից)(\z|[^\pL\pM\d]|_)");
    ld_rx_exact := Some (rx "(?i)^(\d+[.,]?\d* վայրկյան առաջ|\d+[.,]?\d* շաբաթ առաջ|\d+[.,]?\d* վայրկյանից|\d+[.,]?\d* ամիս առաջ|\d+[.,]?\d* տարի առաջ|\d+[.,]?\d* րոպե առաջ|\d+[.,]?\d* ժամ առաջ|\d+[.,]?\d* շաբ առաջ|\d+[.,]?\d* վրկ առաջ|\d+[.,]?\d* շաբ անց|\d+[.,]?\d* շաբաթից|\d+[.,]?\d* օր առաջ|\d+[.,]?\d* ժ առաջ|\d+[.,]?\d* շաբ-ից|\d+[.,]?\d* վ առաջ|\d+[.,]?\d* վրկ-ից|\d+[.,]?\d* տ առաջ|\d+[.,]?\d* տարուց|\d+[.,]?\d* ր առաջ|\d+[.,]?\d* րոպեից|\d+[.,]?\d* ամսից|\d+[.,]?\d* ժամից|\d+[.,]?\d* ժ-ից|\d+[.,]?\d* վ-ից|\d+[.,]?\d* ր-ից|\d+[.,]?\d* օրից)$");
    ld_known := [lit "հաջորդ շաբաթ";
    lit "նախորդ շաբաթ";
    lit "անցյալ ամիս";
    lit "հաջորդ ամիս";
    lit "հաջորդ տարի";
    lit "նախորդ ամիս";
    lit "նախորդ տարի";
    lit "այս րոպեին";
    lit "դեկտեմբերի";
    lit "երկուշաբթի";
    lit "հոկտեմբերի";
    lit "չորեքշաբթի";
    lit "սեպտեմբերի";
    lit "այս ժամին";
    lit "այս շաբաթ";
    lit "դեկտեմբեր";
    lit "երեքշաբթի";
    lit "հինգշաբթի";
    lit "հոկտեմբեր";
    lit "նոյեմբերի";
    lit "սեպտեմբեր";
    lit "այս ամիս";
    lit "այս տարի";
    lit "հունվարի";
    lit "նոյեմբեր";
    lit "վայրկյան";
    lit "փետրվարի";
    lit "օգոստոսի";
    lit "հուլիսի";
    lit "հունիսի";
    lit "հունվար";
    lit "փետրվար";
    lit "օգոստոս";
    lit "ապրիլի";
    lit "կիրակի";
    lit "հուլիս";
    lit "հունիս";
    lit "մայիսի";
    lit "ուրբաթ";
    lit "այսօր";
    lit "ապրիլ";
    lit "մայիս";
    lit "մարտի";
    lit "շաբաթ";
    lit "ամիս";
    lit "այժմ";
    lit "երեկ";
    lit "մարտ";
    lit "վաղը";
    lit "տարի";
    lit "րոպե";
    lit "gmt";
    lit "utc";
    lit "ամս";
    lit "ապր";
    lit "դեկ";
    lit "երկ";
    lit "երք";
    lit "ժամ";
    lit "կիր";
    lit "հլս";
    lit "հնգ";
    lit "հնս";
    lit "հնվ";
    lit "հոկ";
    lit "մյս";
    lit "մրտ";
    lit "նոյ";
    lit "շաբ";
    lit "շբթ";
    lit "ուր";
    lit "չրք";
    lit "սեպ";
    lit "փտվ";
    lit "օգս";
    lit "am";
    lit "pm";
    lit "կա";
    lit "կհ";
    lit "օր";
    lit " ";
    lit "'";
    lit "+";
    lit ",";
    lit "-";
    lit ".";
    lit "/";
    lit ":";
    lit ";";
    lit "@";
    lit "[";
    lit "]";
    lit "z";
    lit "|";
    lit "ժ";
    lit "վ";
    lit "տ";
    lit "ր"] |}.

(** all patterns above are accepted by the syntax parser *)
Example patterns_ok : forallb (fun s => match parse_regex s with Some _ => true | None => false end)
  [lit "(?i)(\A|[^\pL\pM\d]|_)(\d+[.,]?\d* masodperccel ezelott|\d+[.,]?\d* honappal ezelott|\d+[.,]?\d* masodperc mulva|\d+[.,]?\d* perccel ezelott|\d+[.,]?\d* hettel ezelott|\d+[.,]?\d* nappal ezelott|\d+[.,]?\d* oraval ezelott|\d+[.,]?\d* evvel ezelott|\d+[.,]?\d* honap mulva|\d+[.,]?\d* perc mulva|\d+[.,]?\d* het mulva|\d+[.,]?\d* nap mulva|\d+[.,]?\d* ora mulva|\d+[.,]?\d* ev mulva|\d+[.,]?\d* napja)(\z|[^\pL\pM\d]|_)";
  lit "(?i)(\A|[^\pL\pM\d]|_)(\d+[.,]?\d* վայրկյան առաջ|\d+[.,]?\d* շաբաթ առաջ|\d+[.,]?\d* վայրկյանից|\d+[.,]?\d* ամիս առաջ|\d+[.,]?\d* տարի առաջ|\d+[.,]?\d* րոպե առաջ|\d+[.,]?\d* ժամ առաջ|\d+[.,]?\d* շաբ առաջ|\d+[.,]?\d* վրկ առաջ|\d+[.,]?\d* շաբ անց|\d+[.,]?\d* շաբաթից|\d+[.,]?\d* օր առաջ|\d+[.,]?\d* ժ առաջ|\d+[.,]?\d* շաբ-ից|\d+[.,]?\d* վ առաջ|\d+[.,]?\d* վրկ-ից|\d+[.,]?\d* տ առաջ|\d+[.,]?\d* տարուց|\d+[.,]?\d* ր առաջ|\d+[.,]?\d* րոպեից|\d+[.,]?\d* ամսից|\d+[.,]?\d* ժամից|\d+[.,]?\d* ժ-ից|\d+[.,]?\d* վ-ից|\d+[.,]?\d* ր-ից|\d+[.,]?\d* օրից)(\z|[^\pL\pM\d]|_)";
  lit "(?i)(\A|[^\pL\pM\d]|_)(\d+[.,]?\d* सपताह पहल|\d+[.,]?\d* मिनट पहल|\d+[.,]?\d* दशक पहल|\d+[.,]?\d* दिन पहल|\d+[.,]?\d* माह पहल|\d+[.,]?\d* वरष पहल|\d+[.,]?\d* सकड पहल|\d+[.,]?\d* सपताह म|\d+[.,]?\d* घट पहल|\d+[.,]?\d* मि पहल|\d+[.,]?\d* मिनट म|\d+[.,]?\d* घ पहल|\d+[.,]?\d* दशक म|\d+[.,]?\d* दिन म|\d+[.,]?\d* माह म|\d+[.,]?\d* वरष म|\d+[.,]?\d* स पहल|\d+[.,]?\d* सकड म|\d+[.,]?\d* घट म|\d+[.,]?\d* मि म|\d+[.,]?\d* घ म|\d+[.,]?\d* स म)(\z|[^\pL\pM\d]|_)";
  lit "(?i)(\A|[^\pL\pM\d]|_)(\d+[.,]?\d* અઠવાડિયા પહલા|\d+[.,]?\d* અઠવાડિયામા|\d+[.,]?\d* મહિના પહલા|\d+[.,]?\d* મિનિટ પહલા|\d+[.,]?\d* કલાક પહલા|\d+[.,]?\d* દિવસ પહલા|\d+[.,]?\d* વરષ પહલા|\d+[.,]?\d* સકડ પહલા|\d+[.,]?\d* અઠ પહલા|\d+[.,]?\d* મહિનામા|\d+[.,]?\d* મિનિટમા|\d+[.,]?\d* કલાકમા|\d+[.,]?\d* દિવસમા|\d+[.,]?\d* અઠ મા|\d+[.,]?\d* વરષમા|\d+[.,]?\d* સકડમા)(\z|[^\pL\pM\d]|_)";
  lit "(?i)(\A|[^\pL\pM\d]|_)(an ceann \d+[.,]?\d* uair a thide|\d+[.,]?\d* uair a thide air ais|an ceann \d+[.,]?\d* bhliadhna|an ceann \d+[.,]?\d* seachdain|\d+[.,]?\d* bhliadhna air ais|\d+[.,]?\d* seachdain air ais|an ceann \d+[.,]?\d* bliadhna|an ceann \d+[.,]?\d* mhionaid|\d+[.,]?\d* bliadhna air ais|\d+[.,]?\d* mhionaid air ais|an ceann \d+[.,]?\d* mionaid|\d+[.,]?\d* mionaid air ais|an ceann \d+[.,]?\d* mhiosa|an ceann \d+[.,]?\d* latha|an ceann \d+[.,]?\d* miosa|\d+[.,]?\d* latha air ais|\d+[.,]?\d* mhios air ais|an ceann \d+[.,]?\d* diog|\d+[.,]?\d* diog air ais|\d+[.,]?\d* mios air ais|an \d+[.,]?\d* sheachd|an \d+[.,]?\d* seachd|o \d+[.,]?\d* sheachd|an \d+[.,]?\d* bhlia|an \d+[.,]?\d* mhion|an \d+[.,]?\d* mhios|o \d+[.,]?\d* seachd|an \d+[.,]?\d* blia|an \d+[.,]?\d* diog|an \d+[.,]?\d* mion|an \d+[.,]?\d* mios|an \d+[.,]?\d* uair|o \d+[.,]?\d* bhlia|o \d+[.,]?\d* mhion|o \d+[.,]?\d* mhios|o \d+[.,]?\d* blia|o \d+[.,]?\d* diog|o \d+[.,]?\d* mion|o \d+[.,]?\d* mios|o \d+[.,]?\d* uair|an \d+[.,]?\d* la|o \d+[.,]?\d* la)(\z|[^\pL\pM\d]|_)";
  lit "(?i)(\A|[^\pL\pM\d]|_)(hai \d+[.,]?\d* segundos|en \d+[.,]?\d* segundos|hai \d+[.,]?\d* minutos|hai \d+[.,]?\d* segundo|hai \d+[.,]?\d* semanas|en \d+[.,]?\d* minutos|en \d+[.,]?\d* segundo|en \d+[.,]?\d* semanas|hai \d+[.,]?\d* minuto|hai \d+[.,]?\d* semana|en \d+[.,]?\d* minuto|en \d+[.,]?\d* semana|hai \d+[.,]?\d* horas|hai \d+[.,]?\d* meses|en \d+[.,]?\d* horas|en \d+[.,]?\d* meses|hai \d+[.,]?\d* anos|hai \d+[.,]?\d* dias|hai \d+[.,]?\d* hora|en \d+[.,]?\d* anos|en \d+[.,]?\d* dias|en \d+[.,]?\d* hora|hai \d+[.,]?\d* ano|hai \d+[.,]?\d* dia|hai \d+[.,]?\d* mes|hai \d+[.,]?\d* min|hai \d+[.,]?\d* sem|en \d+[.,]?\d* ano|en \d+[.,]?\d* dia|en \d+[.,]?\d* mes|en \d+[.,]?\d* min|en \d+[.,]?\d* sem|hai \d+[.,]?\d* a|hai \d+[.,]?\d* d|hai \d+[.,]?\d* h|hai \d+[.,]?\d* m|hai \d+[.,]?\d* s|en \d+[.,]?\d* a|en \d+[.,]?\d* d|en \d+[.,]?\d* h|en \d+[.,]?\d* m|en \d+[.,]?\d* s)(\z|[^\pL\pM\d]|_)";
  lit "(?i)(\A|[^\pL\pM\d]|_)(i gceann \d+[.,]?\d* uair an chloig|\d+[.,]?\d* uair an chloig o shin|i gceann \d+[.,]?\d* seachtain|\d+[.,]?\d* seachtain o shin|i gceann \d+[.,]?\d* bhliain|i gceann \d+[.,]?\d* noimead|i gceann \d+[.,]?\d* soicind|i gceann \d+[.,]?\d* bliain|\d+[.,]?\d* bhliain o shin|\d+[.,]?\d* noimead o shin|\d+[.,]?\d* soicind o shin|\d+[.,]?\d* bliain o shin|i gceann \d+[.,]?\d* noim|i gceann \d+[.,]?\d* scht|i gceann \d+[.,]?\d* soic|i gceann \d+[.,]?\d* uair|i gceann \d+[.,]?\d* mhi|\d+[.,]?\d* noim o shin|\d+[.,]?\d* scht o shin|\d+[.,]?\d* soic o shin|\d+[.,]?\d* uair o shin|i gceann \d+[.,]?\d* bl|i gceann \d+[.,]?\d* la|i gceann \d+[.,]?\d* mi|\d+[.,]?\d* bhl o shin|\d+[.,]?\d* mhi o shin|\d+[.,]?\d* bl o shin|\d+[.,]?\d* la o shin|\d+[.,]?\d* mi o shin)(\z|[^\pL\pM\d]|_)";
  lit "(?i)(\A|[^\pL\pM\d]|_)(pred \d+[.,]?\d* tydzenjemi|pred \d+[.,]?\d* hodzinami|pred \d+[.,]?\d* sekundami|pred \d+[.,]?\d* tydzenjom|pred \d+[.,]?\d* mesacami|pred \d+[.,]?\d* minutami|pred \d+[.,]?\d* hodzinu|pred \d+[.,]?\d* mesacom|pred \d+[.,]?\d* sekundu|za \d+[.,]?\d* tydzenjow|pred \d+[.,]?\d* dnjemi|pred \d+[.,]?\d* letami|pred \d+[.,]?\d* minutu|za \d+[.,]?\d* sekundow|pred \d+[.,]?\d* dnjom|pred \d+[.,]?\d* letom|za \d+[.,]?\d* hodzinu|za \d+[.,]?\d* mesacow|za \d+[.,]?\d* minutow|za \d+[.,]?\d* sekundu|pred \d+[.,]?\d* hodz|pred \d+[.,]?\d* tydz|za \d+[.,]?\d* hodzin|za \d+[.,]?\d* minutu|za \d+[.,]?\d* tydzen|pred \d+[.,]?\d* dnj|pred \d+[.,]?\d* mes|pred \d+[.,]?\d* min|pred \d+[.,]?\d* sek|za \d+[.,]?\d* dnjow|za \d+[.,]?\d* mesac|za \d+[.,]?\d* dzen|za \d+[.,]?\d* hodz|za \d+[.,]?\d* leto|za \d+[.,]?\d* tydz|pred \d+[.,]?\d* d|pred \d+[.,]?\d* h|pred \d+[.,]?\d* l|pred \d+[.,]?\d* m|pred \d+[.,]?\d* s|za \d+[.,]?\d* dnj|za \d+[.,]?\d* let|za \d+[.,]?\d* mes|za \d+[.,]?\d* min|za \d+[.,]?\d* sek|za \d+[.,]?\d* d|za \d+[.,]?\d* h|za \d+[.,]?\d* l|za \d+[.,]?\d* m|za \d+[.,]?\d* s)(\z|[^\pL\pM\d]|_)";
  lit "(?i)(\A|[^\pL\pM\d]|_)(prije \d+[.,]?\d* mjeseca|prije \d+[.,]?\d* mjeseci|prije \d+[.,]?\d* sekunde|prije \d+[.,]?\d* sekundi|prije \d+[.,]?\d* sekundu|prije \d+[.,]?\d* tjedana|prije \d+[.,]?\d* godina|prije \d+[.,]?\d* godine|prije \d+[.,]?\d* godinu|prije \d+[.,]?\d* minuta|prije \d+[.,]?\d* minute|prije \d+[.,]?\d* minutu|prije \d+[.,]?\d* mjesec|prije \d+[.,]?\d* tjedan|prije \d+[.,]?\d* tjedna|prije \d+[.,]?\d* dana|prije \d+[.,]?\d* sata|prije \d+[.,]?\d* sati|za \d+[.,]?\d* mjeseca|za \d+[.,]?\d* mjeseci|za \d+[.,]?\d* sekunde|za \d+[.,]?\d* sekundi|za \d+[.,]?\d* sekundu|za \d+[.,]?\d* tjedana|prije \d+[.,]?\d* dan|prije \d+[.,]?\d* min|prije \d+[.,]?\d* sat|za \d+[.,]?\d* godina|za \d+[.,]?\d* godine|za \d+[.,]?\d* godinu|za \d+[.,]?\d* minuta|za \d+[.,]?\d* minute|za \d+[.,]?\d* minutu|za \d+[.,]?\d* mjesec|za \d+[.,]?\d* tjedan|za \d+[.,]?\d* tjedna|prije \d+[.,]?\d* mj|prije \d+[.,]?\d* tj|prije \d+[.,]?\d* d|prije \d+[.,]?\d* g|prije \d+[.,]?\d* h|prije \d+[.,]?\d* s|za \d+[.,]?\d* dana|za \d+[.,]?\d* sata|za \d+[.,]?\d* sati|za \d+[.,]?\d* dan|za \d+[.,]?\d* min|za \d+[.,]?\d* sat|za \d+[.,]?\d* mj|za \d+[.,]?\d* tj|za \d+[.,]?\d* d|za \d+[.,]?\d* g|za \d+[.,]?\d* h|za \d+[.,]?\d* s)(\z|[^\pL\pM\d]|_)";
  lit "(?i)(\A|[^\pL\pM\d]|_)(בעוד \d+[.,]?\d* חודשים|בעוד \d+[.,]?\d* שבועות|לפני \d+[.,]?\d* חודשים|לפני \d+[.,]?\d* שבועות|בעוד \d+[.,]?\d* שניות|לפני \d+[.,]?\d* שניות|בעוד \d+[.,]?\d* דקות|בעוד \d+[.,]?\d* ימים|בעוד \d+[.,]?\d* שנים|בעוד \d+[.,]?\d* שעות|לפני \d+[.,]?\d* דקות|לפני \d+[.,]?\d* ימים|לפני \d+[.,]?\d* שנים|לפני \d+[.,]?\d* שעות|בעוד \d+[.,]?\d* דק׳|בעוד \d+[.,]?\d* חו׳|בעוד \d+[.,]?\d* ימ׳|בעוד \d+[.,]?\d* שב׳|בעוד \d+[.,]?\d* שנ׳|בעוד \d+[.,]?\d* שע׳|בעוד יום \d+[.,]?\d*|לפני \d+[.,]?\d* דק׳|לפני \d+[.,]?\d* חו׳|לפני \d+[.,]?\d* ימ׳|לפני \d+[.,]?\d* שב׳|לפני \d+[.,]?\d* שנ׳|לפני \d+[.,]?\d* שע׳|לפני יום \d+[.,]?\d*)(\z|[^\pL\pM\d]|_)";
  lit "(?i)(\A|[^\pL\pM\d_])egy(\z|[^\pL\pM\d_])";
  lit "(?i)(\A|[^\pL\pM\d_])podne(\z|[^\pL\pM\d_])";
  lit "(?i)(\A|[^\pL\pM\d_])ponoc(\z|[^\pL\pM\d_])";
  lit "(?i)(\A|[^\pL\pM\d_])אחה""צ(\z|[^\pL\pM\d_])";
  lit "(?i)(\A|[^\pL\pM\d_])אחר חצות(\z|[^\pL\pM\d_])";
  lit "(?i)(\A|[^\pL\pM\d_])אחרי ה?צהריי?ם(\z|[^\pL\pM\d_])";
  lit "(?i)(\A|[^\pL\pM\d_])בבוקר(\z|[^\pL\pM\d_])";
  lit "(?i)(\A|[^\pL\pM\d_])בערב(\z|[^\pL\pM\d_])";
  lit "(?i)(\A|[^\pL\pM\d_])בצהריי?ם(\z|[^\pL\pM\d_])";
  lit "(?i)(\A|[^\pL\pM\d_])ו([\pL\pM\d_]+)(\z|[^\pL\pM\d_])";
  lit "(?i)(\A|[^\pL\pM\d_])וחודש(\z|[^\pL\pM\d_])";
  lit "(?i)(\A|[^\pL\pM\d_])ויום(\z|[^\pL\pM\d_])";
  lit "(?i)(\A|[^\pL\pM\d_])ושבוע(\z|[^\pL\pM\d_])";
  lit "(?i)(\A|[^\pL\pM\d_])ושנה(\z|[^\pL\pM\d_])";
  lit "(?i)(\A|[^\pL\pM\d_])חודשיים(\z|[^\pL\pM\d_])";
  lit "(?i)(\A|[^\pL\pM\d_])חצות(\z|[^\pL\pM\d_])";
  lit "(?i)(\A|[^\pL\pM\d_])יומיי?ם(\z|[^\pL\pM\d_])";
  lit "(?i)(\A|[^\pL\pM\d_])לפנות בוקר(\z|[^\pL\pM\d_])";
  lit "(?i)(\A|[^\pL\pM\d_])לפנות ערב(\z|[^\pL\pM\d_])";
  lit "(?i)(\A|[^\pL\pM\d_])מחר(\z|[^\pL\pM\d_])";
  lit "(?i)(\A|[^\pL\pM\d_])שבועיי?ם(\z|[^\pL\pM\d_])";
  lit "(?i)(\A|[^\pL\pM\d_])שלשום(\z|[^\pL\pM\d_])";
  lit "(?i)(\A|[^\pL\pM\d_])שנתיי?ם(\z|[^\pL\pM\d_])";
  lit "(?i)(\A|[^\pL\pM\d_])שעתיי?ם(\z|[^\pL\pM\d_])";
  lit "(?i)(\d+[.,]?\d*) bhl o shin";
  lit "(?i)(\d+[.,]?\d*) bhliadhna air ais";
  lit "(?i)(\d+[.,]?\d*) bhliain o shin";
  lit "(?i)(\d+[.,]?\d*) bl o shin";
  lit "(?i)(\d+[.,]?\d*) bliadhna air ais";
  lit "(?i)(\d+[.,]?\d*) bliain o shin";
  lit "(?i)(\d+[.,]?\d*) diog air ais";
  lit "(?i)(\d+[.,]?\d*) ev mulva";
  lit "(?i)(\d+[.,]?\d*) evvel ezelott";
  lit "(?i)(\d+[.,]?\d*) het mulva";
  lit "(?i)(\d+[.,]?\d*) hettel ezelott";
  lit "(?i)(\d+[.,]?\d*) honap mulva";
  lit "(?i)(\d+[.,]?\d*) honappal ezelott";
  lit "(?i)(\d+[.,]?\d*) la o shin";
  lit "(?i)(\d+[.,]?\d*) latha air ais";
  lit "(?i)(\d+[.,]?\d*) masodperc mulva";
  lit "(?i)(\d+[.,]?\d*) masodperccel ezelott";
  lit "(?i)(\d+[.,]?\d*) mhi o shin";
  lit "(?i)(\d+[.,]?\d*) mhionaid air ais";
  lit "(?i)(\d+[.,]?\d*) mhios air ais";
  lit "(?i)(\d+[.,]?\d*) mi o shin";
  lit "(?i)(\d+[.,]?\d*) mionaid air ais";
  lit "(?i)(\d+[.,]?\d*) mios air ais";
  lit "(?i)(\d+[.,]?\d*) nap mulva";
  lit "(?i)(\d+[.,]?\d*) napja";
  lit "(?i)(\d+[.,]?\d*) nappal ezelott";
  lit "(?i)(\d+[.,]?\d*) noim o shin";
  lit "(?i)(\d+[.,]?\d*) noimead o shin";
  lit "(?i)(\d+[.,]?\d*) ora mulva";
  lit "(?i)(\d+[.,]?\d*) oraval ezelott";
  lit "(?i)(\d+[.,]?\d*) perc mulva";
  lit "(?i)(\d+[.,]?\d*) perccel ezelott";
  lit "(?i)(\d+[.,]?\d*) scht o shin";
  lit "(?i)(\d+[.,]?\d*) seachdain air ais";
  lit "(?i)(\d+[.,]?\d*) seachtain o shin";
  lit "(?i)(\d+[.,]?\d*) soic o shin";
  lit "(?i)(\d+[.,]?\d*) soicind o shin";
  lit "(?i)(\d+[.,]?\d*) uair a thide air ais";
  lit "(?i)(\d+[.,]?\d*) uair an chloig o shin";
  lit "(?i)(\d+[.,]?\d*) uair o shin";
  lit "(?i)(\d+[.,]?\d*) ամիս առաջ";
  lit "(?i)(\d+[.,]?\d*) ամսից";
  lit "(?i)(\d+[.,]?\d*) ժ առաջ";
  lit "(?i)(\d+[.,]?\d*) ժ-ից";
  lit "(?i)(\d+[.,]?\d*) ժամ առաջ";
  lit "(?i)(\d+[.,]?\d*) ժամից";
  lit "(?i)(\d+[.,]?\d*) շաբ անց";
  lit "(?i)(\d+[.,]?\d*) շաբ առաջ";
  lit "(?i)(\d+[.,]?\d*) շաբ-ից";
  lit "(?i)(\d+[.,]?\d*) շաբաթ առաջ";
  lit "(?i)(\d+[.,]?\d*) շաբաթից";
  lit "(?i)(\d+[.,]?\d*) վ առաջ";
  lit "(?i)(\d+[.,]?\d*) վ-ից";
  lit "(?i)(\d+[.,]?\d*) վայրկյան առաջ";
  lit "(?i)(\d+[.,]?\d*) վայրկյանից";
  lit "(?i)(\d+[.,]?\d*) վրկ առաջ";
  lit "(?i)(\d+[.,]?\d*) վրկ-ից";
  lit "(?i)(\d+[.,]?\d*) տ առաջ";
  lit "(?i)(\d+[.,]?\d*) տարի առաջ";
  lit "(?i)(\d+[.,]?\d*) տարուց";
  lit "(?i)(\d+[.,]?\d*) ր առաջ";
  lit "(?i)(\d+[.,]?\d*) ր-ից";
  lit "(?i)(\d+[.,]?\d*) րոպե առաջ";
  lit "(?i)(\d+[.,]?\d*) րոպեից";
  lit "(?i)(\d+[.,]?\d*) օր առաջ";
  lit "(?i)(\d+[.,]?\d*) օրից";
  lit "(?i)(\d+[.,]?\d*) घ पहल";
  lit "(?i)(\d+[.,]?\d*) घ म";
  lit "(?i)(\d+[.,]?\d*) घट पहल";
  lit "(?i)(\d+[.,]?\d*) घट म";
  lit "(?i)(\d+[.,]?\d*) दशक पहल";
  lit "(?i)(\d+[.,]?\d*) दशक म";
  lit "(?i)(\d+[.,]?\d*) दिन पहल";
  lit "(?i)(\d+[.,]?\d*) दिन म";
  lit "(?i)(\d+[.,]?\d*) माह पहल";
  lit "(?i)(\d+[.,]?\d*) माह म";
  lit "(?i)(\d+[.,]?\d*) मि पहल";
  lit "(?i)(\d+[.,]?\d*) मि म";
  lit "(?i)(\d+[.,]?\d*) मिनट पहल";
  lit "(?i)(\d+[.,]?\d*) मिनट म";
  lit "(?i)(\d+[.,]?\d*) वरष पहल";
  lit "(?i)(\d+[.,]?\d*) वरष म";
  lit "(?i)(\d+[.,]?\d*) स पहल";
  lit "(?i)(\d+[.,]?\d*) स म";
  lit "(?i)(\d+[.,]?\d*) सकड पहल";
  lit "(?i)(\d+[.,]?\d*) सकड म";
  lit "(?i)(\d+[.,]?\d*) सपताह पहल";
  lit "(?i)(\d+[.,]?\d*) सपताह म";
  lit "(?i)(\d+[.,]?\d*) અઠ પહલા";
  lit "(?i)(\d+[.,]?\d*) અઠ મા";
  lit "(?i)(\d+[.,]?\d*) અઠવાડિયા પહલા";
  lit "(?i)(\d+[.,]?\d*) અઠવાડિયામા";
  lit "(?i)(\d+[.,]?\d*) કલાક પહલા";
  lit "(?i)(\d+[.,]?\d*) કલાકમા";
  lit "(?i)(\d+[.,]?\d*) દિવસ પહલા";
  lit "(?i)(\d+[.,]?\d*) દિવસમા";
  lit "(?i)(\d+[.,]?\d*) મહિના પહલા";
  lit "(?i)(\d+[.,]?\d*) મહિનામા";
  lit "(?i)(\d+[.,]?\d*) મિનિટ પહલા";
  lit "(?i)(\d+[.,]?\d*) મિનિટમા";
  lit "(?i)(\d+[.,]?\d*) વરષ પહલા";
  lit "(?i)(\d+[.,]?\d*) વરષમા";
  lit "(?i)(\d+[.,]?\d*) સકડ પહલા";
  lit "(?i)(\d+[.,]?\d*) સકડમા";
  lit "(?i)^(\d+[.,]?\d* masodperccel ezelott|\d+[.,]?\d* honappal ezelott|\d+[.,]?\d* masodperc mulva|\d+[.,]?\d* perccel ezelott|\d+[.,]?\d* hettel ezelott|\d+[.,]?\d* nappal ezelott|\d+[.,]?\d* oraval ezelott|\d+[.,]?\d* evvel ezelott|\d+[.,]?\d* honap mulva|\d+[.,]?\d* perc mulva|\d+[.,]?\d* het mulva|\d+[.,]?\d* nap mulva|\d+[.,]?\d* ora mulva|\d+[.,]?\d* ev mulva|\d+[.,]?\d* napja)$";
  lit "(?i)^(\d+[.,]?\d* վայրկյան առաջ|\d+[.,]?\d* շաբաթ առաջ|\d+[.,]?\d* վայրկյանից|\d+[.,]?\d* ամիս առաջ|\d+[.,]?\d* տարի առաջ|\d+[.,]?\d* րոպե առաջ|\d+[.,]?\d* ժամ առաջ|\d+[.,]?\d* շաբ առաջ|\d+[.,]?\d* վրկ առաջ|\d+[.,]?\d* շաբ անց|\d+[.,]?\d* շաբաթից|\d+[.,]?\d* օր առաջ|\d+[.,]?\d* ժ առաջ|\d+[.,]?\d* շաբ-ից|\d+[.,]?\d* վ առաջ|\d+[.,]?\d* վրկ-ից|\d+[.,]?\d* տ առաջ|\d+[.,]?\d* տարուց|\d+[.,]?\d* ր առաջ|\d+[.,]?\d* րոպեից|\d+[.,]?\d* ամսից|\d+[.,]?\d* ժամից|\d+[.,]?\d* ժ-ից|\d+[.,]?\d* վ-ից|\d+[.,]?\d* ր-ից|\d+[.,]?\d* օրից)$";
  lit "(?i)^(\d+[.,]?\d* सपताह पहल|\d+[.,]?\d* मिनट पहल|\d+[.,]?\d* दशक पहल|\d+[.,]?\d* दिन पहल|\d+[.,]?\d* माह पहल|\d+[.,]?\d* वरष पहल|\d+[.,]?\d* सकड पहल|\d+[.,]?\d* सपताह म|\d+[.,]?\d* घट पहल|\d+[.,]?\d* मि पहल|\d+[.,]?\d* मिनट म|\d+[.,]?\d* घ पहल|\d+[.,]?\d* दशक म|\d+[.,]?\d* दिन म|\d+[.,]?\d* माह म|\d+[.,]?\d* वरष म|\d+[.,]?\d* स पहल|\d+[.,]?\d* सकड म|\d+[.,]?\d* घट म|\d+[.,]?\d* मि म|\d+[.,]?\d* घ म|\d+[.,]?\d* स म)$";
  lit "(?i)^(\d+[.,]?\d* અઠવાડિયા પહલા|\d+[.,]?\d* અઠવાડિયામા|\d+[.,]?\d* મહિના પહલા|\d+[.,]?\d* મિનિટ પહલા|\d+[.,]?\d* કલાક પહલા|\d+[.,]?\d* દિવસ પહલા|\d+[.,]?\d* વરષ પહલા|\d+[.,]?\d* સકડ પહલા|\d+[.,]?\d* અઠ પહલા|\d+[.,]?\d* મહિનામા|\d+[.,]?\d* મિનિટમા|\d+[.,]?\d* કલાકમા|\d+[.,]?\d* દિવસમા|\d+[.,]?\d* અઠ મા|\d+[.,]?\d* વરષમા|\d+[.,]?\d* સકડમા)$";
  lit "(?i)^(an ceann \d+[.,]?\d* uair a thide|\d+[.,]?\d* uair a thide air ais|an ceann \d+[.,]?\d* bhliadhna|an ceann \d+[.,]?\d* seachdain|\d+[.,]?\d* bhliadhna air ais|\d+[.,]?\d* seachdain air ais|an ceann \d+[.,]?\d* bliadhna|an ceann \d+[.,]?\d* mhionaid|\d+[.,]?\d* bliadhna air ais|\d+[.,]?\d* mhionaid air ais|an ceann \d+[.,]?\d* mionaid|\d+[.,]?\d* mionaid air ais|an ceann \d+[.,]?\d* mhiosa|an ceann \d+[.,]?\d* latha|an ceann \d+[.,]?\d* miosa|\d+[.,]?\d* latha air ais|\d+[.,]?\d* mhios air ais|an ceann \d+[.,]?\d* diog|\d+[.,]?\d* diog air ais|\d+[.,]?\d* mios air ais|an \d+[.,]?\d* sheachd|an \d+[.,]?\d* seachd|o \d+[.,]?\d* sheachd|an \d+[.,]?\d* bhlia|an \d+[.,]?\d* mhion|an \d+[.,]?\d* mhios|o \d+[.,]?\d* seachd|an \d+[.,]?\d* blia|an \d+[.,]?\d* diog|an \d+[.,]?\d* mion|an \d+[.,]?\d* mios|an \d+[.,]?\d* uair|o \d+[.,]?\d* bhlia|o \d+[.,]?\d* mhion|o \d+[.,]?\d* mhios|o \d+[.,]?\d* blia|o \d+[.,]?\d* diog|o \d+[.,]?\d* mion|o \d+[.,]?\d* mios|o \d+[.,]?\d* uair|an \d+[.,]?\d* la|o \d+[.,]?\d* la)$";
  lit "(?i)^(hai \d+[.,]?\d* segundos|en \d+[.,]?\d* segundos|hai \d+[.,]?\d* minutos|hai \d+[.,]?\d* segundo|hai \d+[.,]?\d* semanas|en \d+[.,]?\d* minutos|en \d+[.,]?\d* segundo|en \d+[.,]?\d* semanas|hai \d+[.,]?\d* minuto|hai \d+[.,]?\d* semana|en \d+[.,]?\d* minuto|en \d+[.,]?\d* semana|hai \d+[.,]?\d* horas|hai \d+[.,]?\d* meses|en \d+[.,]?\d* horas|en \d+[.,]?\d* meses|hai \d+[.,]?\d* anos|hai \d+[.,]?\d* dias|hai \d+[.,]?\d* hora|en \d+[.,]?\d* anos|en \d+[.,]?\d* dias|en \d+[.,]?\d* hora|hai \d+[.,]?\d* ano|hai \d+[.,]?\d* dia|hai \d+[.,]?\d* mes|hai \d+[.,]?\d* min|hai \d+[.,]?\d* sem|en \d+[.,]?\d* ano|en \d+[.,]?\d* dia|en \d+[.,]?\d* mes|en \d+[.,]?\d* min|en \d+[.,]?\d* sem|hai \d+[.,]?\d* a|hai \d+[.,]?\d* d|hai \d+[.,]?\d* h|hai \d+[.,]?\d* m|hai \d+[.,]?\d* s|en \d+[.,]?\d* a|en \d+[.,]?\d* d|en \d+[.,]?\d* h|en \d+[.,]?\d* m|en \d+[.,]?\d* s)$";
  lit "(?i)^(i gceann \d+[.,]?\d* uair an chloig|\d+[.,]?\d* uair an chloig o shin|i gceann \d+[.,]?\d* seachtain|\d+[.,]?\d* seachtain o shin|i gceann \d+[.,]?\d* bhliain|i gceann \d+[.,]?\d* noimead|i gceann \d+[.,]?\d* soicind|i gceann \d+[.,]?\d* bliain|\d+[.,]?\d* bhliain o shin|\d+[.,]?\d* noimead o shin|\d+[.,]?\d* soicind o shin|\d+[.,]?\d* bliain o shin|i gceann \d+[.,]?\d* noim|i gceann \d+[.,]?\d* scht|i gceann \d+[.,]?\d* soic|i gceann \d+[.,]?\d* uair|i gceann \d+[.,]?\d* mhi|\d+[.,]?\d* noim o shin|\d+[.,]?\d* scht o shin|\d+[.,]?\d* soic o shin|\d+[.,]?\d* uair o shin|i gceann \d+[.,]?\d* bl|i gceann \d+[.,]?\d* la|i gceann \d+[.,]?\d* mi|\d+[.,]?\d* bhl o shin|\d+[.,]?\d* mhi o shin|\d+[.,]?\d* bl o shin|\d+[.,]?\d* la o shin|\d+[.,]?\d* mi o shin)$";
  lit "(?i)^(pred \d+[.,]?\d* tydzenjemi|pred \d+[.,]?\d* hodzinami|pred \d+[.,]?\d* sekundami|pred \d+[.,]?\d* tydzenjom|pred \d+[.,]?\d* mesacami|pred \d+[.,]?\d* minutami|pred \d+[.,]?\d* hodzinu|pred \d+[.,]?\d* mesacom|pred \d+[.,]?\d* sekundu|za \d+[.,]?\d* tydzenjow|pred \d+[.,]?\d* dnjemi|pred \d+[.,]?\d* letami|pred \d+[.,]?\d* minutu|za \d+[.,]?\d* sekundow|pred \d+[.,]?\d* dnjom|pred \d+[.,]?\d* letom|za \d+[.,]?\d* hodzinu|za \d+[.,]?\d* mesacow|za \d+[.,]?\d* minutow|za \d+[.,]?\d* sekundu|pred \d+[.,]?\d* hodz|pred \d+[.,]?\d* tydz|za \d+[.,]?\d* hodzin|za \d+[.,]?\d* minutu|za \d+[.,]?\d* tydzen|pred \d+[.,]?\d* dnj|pred \d+[.,]?\d* mes|pred \d+[.,]?\d* min|pred \d+[.,]?\d* sek|za \d+[.,]?\d* dnjow|za \d+[.,]?\d* mesac|za \d+[.,]?\d* dzen|za \d+[.,]?\d* hodz|za \d+[.,]?\d* leto|za \d+[.,]?\d* tydz|pred \d+[.,]?\d* d|pred \d+[.,]?\d* h|pred \d+[.,]?\d* l|pred \d+[.,]?\d* m|pred \d+[.,]?\d* s|za \d+[.,]?\d* dnj|za \d+[.,]?\d* let|za \d+[.,]?\d* mes|za \d+[.,]?\d* min|za \d+[.,]?\d* sek|za \d+[.,]?\d* d|za \d+[.,]?\d* h|za \d+[.,]?\d* l|za \d+[.,]?\d* m|za \d+[.,]?\d* s)$";
  lit "(?i)^(prije \d+[.,]?\d* mjeseca|prije \d+[.,]?\d* mjeseci|prije \d+[.,]?\d* sekunde|prije \d+[.,]?\d* sekundi|prije \d+[.,]?\d* sekundu|prije \d+[.,]?\d* tjedana|prije \d+[.,]?\d* godina|prije \d+[.,]?\d* godine|prije \d+[.,]?\d* godinu|prije \d+[.,]?\d* minuta|prije \d+[.,]?\d* minute|prije \d+[.,]?\d* minutu|prije \d+[.,]?\d* mjesec|prije \d+[.,]?\d* tjedan|prije \d+[.,]?\d* tjedna|prije \d+[.,]?\d* dana|prije \d+[.,]?\d* sata|prije \d+[.,]?\d* sati|za \d+[.,]?\d* mjeseca|za \d+[.,]?\d* mjeseci|za \d+[.,]?\d* sekunde|za \d+[.,]?\d* sekundi|za \d+[.,]?\d* sekundu|za \d+[.,]?\d* tjedana|prije \d+[.,]?\d* dan|prije \d+[.,]?\d* min|prije \d+[.,]?\d* sat|za \d+[.,]?\d* godina|za \d+[.,]?\d* godine|za \d+[.,]?\d* godinu|za \d+[.,]?\d* minuta|za \d+[.,]?\d* minute|za \d+[.,]?\d* minutu|za \d+[.,]?\d* mjesec|za \d+[.,]?\d* tjedan|za \d+[.,]?\d* tjedna|prije \d+[.,]?\d* mj|prije \d+[.,]?\d* tj|prije \d+[.,]?\d* d|prije \d+[.,]?\d* g|prije \d+[.,]?\d* h|prije \d+[.,]?\d* s|za \d+[.,]?\d* dana|za \d+[.,]?\d* sata|za \d+[.,]?\d* sati|za \d+[.,]?\d* dan|za \d+[.,]?\d* min|za \d+[.,]?\d* sat|za \d+[.,]?\d* mj|za \d+[.,]?\d* tj|za \d+[.,]?\d* d|za \d+[.,]?\d* g|za \d+[.,]?\d* h|za \d+[.,]?\d* s)$";
  lit "(?i)^(בעוד \d+[.,]?\d* חודשים|בעוד \d+[.,]?\d* שבועות|לפני \d+[.,]?\d* חודשים|לפני \d+[.,]?\d* שבועות|בעוד \d+[.,]?\d* שניות|לפני \d+[.,]?\d* שניות|בעוד \d+[.,]?\d* דקות|בעוד \d+[.,]?\d* ימים|בעוד \d+[.,]?\d* שנים|בעוד \d+[.,]?\d* שעות|לפני \d+[.,]?\d* דקות|לפני \d+[.,]?\d* ימים|לפני \d+[.,]?\d* שנים|לפני \d+[.,]?\d* שעות|בעוד \d+[.,]?\d* דק׳|בעוד \d+[.,]?\d* חו׳|בעוד \d+[.,]?\d* ימ׳|בעוד \d+[.,]?\d* שב׳|בעוד \d+[.,]?\d* שנ׳|בעוד \d+[.,]?\d* שע׳|בעוד יום \d+[.,]?\d*|לפני \d+[.,]?\d* דק׳|לפני \d+[.,]?\d* חו׳|לפני \d+[.,]?\d* ימ׳|לפני \d+[.,]?\d* שב׳|לפני \d+[.,]?\d* שנ׳|לפני \d+[.,]?\d* שע׳|לפני יום \d+[.,]?\d*)$";
  lit "(?i)an (\d+[.,]?\d*) bhlia";
  lit "(?i)an (\d+[.,]?\d*) blia";
  lit "(?i)an (\d+[.,]?\d*) diog";
  lit "(?i)an (\d+[.,]?\d*) la";
  lit "(?i)an (\d+[.,]?\d*) mhion";
  lit "(?i)an (\d+[.,]?\d*) mhios";
  lit "(?i)an (\d+[.,]?\d*) mion";
  lit "(?i)an (\d+[.,]?\d*) mios";
  lit "(?i)an (\d+[.,]?\d*) seachd";
  lit "(?i)an (\d+[.,]?\d*) sheachd";
  lit "(?i)an (\d+[.,]?\d*) uair";
  lit "(?i)an ceann (\d+[.,]?\d*) bhliadhna";
  lit "(?i)an ceann (\d+[.,]?\d*) bliadhna";
  lit "(?i)an ceann (\d+[.,]?\d*) diog";
  lit "(?i)an ceann (\d+[.,]?\d*) latha";
  lit "(?i)an ceann (\d+[.,]?\d*) mhionaid";
  lit "(?i)an ceann (\d+[.,]?\d*) mhiosa";
  lit "(?i)an ceann (\d+[.,]?\d*) mionaid";
  lit "(?i)an ceann (\d+[.,]?\d*) miosa";
  lit "(?i)an ceann (\d+[.,]?\d*) seachdain";
  lit "(?i)an ceann (\d+[.,]?\d*) uair a thide";
  lit "(?i)en (\d+[.,]?\d*) a";
  lit "(?i)en (\d+[.,]?\d*) ano";
  lit "(?i)en (\d+[.,]?\d*) anos";
  lit "(?i)en (\d+[.,]?\d*) d";
  lit "(?i)en (\d+[.,]?\d*) dia";
  lit "(?i)en (\d+[.,]?\d*) dias";
  lit "(?i)en (\d+[.,]?\d*) h";
  lit "(?i)en (\d+[.,]?\d*) hora";
  lit "(?i)en (\d+[.,]?\d*) horas";
  lit "(?i)en (\d+[.,]?\d*) m";
  lit "(?i)en (\d+[.,]?\d*) mes";
  lit "(?i)en (\d+[.,]?\d*) meses";
  lit "(?i)en (\d+[.,]?\d*) min";
  lit "(?i)en (\d+[.,]?\d*) minuto";
  lit "(?i)en (\d+[.,]?\d*) minutos";
  lit "(?i)en (\d+[.,]?\d*) s";
  lit "(?i)en (\d+[.,]?\d*) segundo";
  lit "(?i)en (\d+[.,]?\d*) segundos";
  lit "(?i)en (\d+[.,]?\d*) sem";
  lit "(?i)en (\d+[.,]?\d*) semana";
  lit "(?i)en (\d+[.,]?\d*) semanas";
  lit "(?i)hai (\d+[.,]?\d*) a";
  lit "(?i)hai (\d+[.,]?\d*) ano";
  lit "(?i)hai (\d+[.,]?\d*) anos";
  lit "(?i)hai (\d+[.,]?\d*) d";
  lit "(?i)hai (\d+[.,]?\d*) dia";
  lit "(?i)hai (\d+[.,]?\d*) dias";
  lit "(?i)hai (\d+[.,]?\d*) h";
  lit "(?i)hai (\d+[.,]?\d*) hora";
  lit "(?i)hai (\d+[.,]?\d*) horas";
  lit "(?i)hai (\d+[.,]?\d*) m";
  lit "(?i)hai (\d+[.,]?\d*) mes";
  lit "(?i)hai (\d+[.,]?\d*) meses";
  lit "(?i)hai (\d+[.,]?\d*) min";
  lit "(?i)hai (\d+[.,]?\d*) minuto";
  lit "(?i)hai (\d+[.,]?\d*) minutos";
  lit "(?i)hai (\d+[.,]?\d*) s";
  lit "(?i)hai (\d+[.,]?\d*) segundo";
  lit "(?i)hai (\d+[.,]?\d*) segundos";
  lit "(?i)hai (\d+[.,]?\d*) sem";
  lit "(?i)hai (\d+[.,]?\d*) semana";
  lit "(?i)hai (\d+[.,]?\d*) semanas";
  lit "(?i)i gceann (\d+[.,]?\d*) bhliain";
  lit "(?i)i gceann (\d+[.,]?\d*) bl";
  lit "(?i)i gceann (\d+[.,]?\d*) bliain";
  lit "(?i)i gceann (\d+[.,]?\d*) la";
  lit "(?i)i gceann (\d+[.,]?\d*) mhi";
  lit "(?i)i gceann (\d+[.,]?\d*) mi";
  lit "(?i)i gceann (\d+[.,]?\d*) noim";
  lit "(?i)i gceann (\d+[.,]?\d*) noimead";
  lit "(?i)i gceann (\d+[.,]?\d*) scht";
  lit "(?i)i gceann (\d+[.,]?\d*) seachtain";
  lit "(?i)i gceann (\d+[.,]?\d*) soic";
  lit "(?i)i gceann (\d+[.,]?\d*) soicind";
  lit "(?i)i gceann (\d+[.,]?\d*) uair";
  lit "(?i)i gceann (\d+[.,]?\d*) uair an chloig";
  lit "(?i)o (\d+[.,]?\d*) bhlia";
  lit "(?i)o (\d+[.,]?\d*) blia";
  lit "(?i)o (\d+[.,]?\d*) diog";
  lit "(?i)o (\d+[.,]?\d*) la";
  lit "(?i)o (\d+[.,]?\d*) mhion";
  lit "(?i)o (\d+[.,]?\d*) mhios";
  lit "(?i)o (\d+[.,]?\d*) mion";
  lit "(?i)o (\d+[.,]?\d*) mios";
  lit "(?i)o (\d+[.,]?\d*) seachd";
  lit "(?i)o (\d+[.,]?\d*) sheachd";
  lit "(?i)o (\d+[.,]?\d*) uair";
  lit "(?i)pred (\d+[.,]?\d*) d";
  lit "(?i)pred (\d+[.,]?\d*) dnj";
  lit "(?i)pred (\d+[.,]?\d*) dnjemi";
  lit "(?i)pred (\d+[.,]?\d*) dnjom";
  lit "(?i)pred (\d+[.,]?\d*) h";
  lit "(?i)pred (\d+[.,]?\d*) hodz";
  lit "(?i)pred (\d+[.,]?\d*) hodzinami";
  lit "(?i)pred (\d+[.,]?\d*) hodzinu";
  lit "(?i)pred (\d+[.,]?\d*) l";
  lit "(?i)pred (\d+[.,]?\d*) letami";
  lit "(?i)pred (\d+[.,]?\d*) letom";
  lit "(?i)pred (\d+[.,]?\d*) m";
  lit "(?i)pred (\d+[.,]?\d*) mes";
  lit "(?i)pred (\d+[.,]?\d*) mesacami";
  lit "(?i)pred (\d+[.,]?\d*) mesacom";
  lit "(?i)pred (\d+[.,]?\d*) min";
  lit "(?i)pred (\d+[.,]?\d*) minutami";
  lit "(?i)pred (\d+[.,]?\d*) minutu";
  lit "(?i)pred (\d+[.,]?\d*) s";
  lit "(?i)pred (\d+[.,]?\d*) sek";
  lit "(?i)pred (\d+[.,]?\d*) sekundami";
  lit "(?i)pred (\d+[.,]?\d*) sekundu";
  lit "(?i)pred (\d+[.,]?\d*) tydz";
  lit "(?i)pred (\d+[.,]?\d*) tydzenjemi";
  lit "(?i)pred (\d+[.,]?\d*) tydzenjom";
  lit "(?i)prije (\d+[.,]?\d*) d";
  lit "(?i)prije (\d+[.,]?\d*) dan";
  lit "(?i)prije (\d+[.,]?\d*) dana";
  lit "(?i)prije (\d+[.,]?\d*) g";
  lit "(?i)prije (\d+[.,]?\d*) godina";
  lit "(?i)prije (\d+[.,]?\d*) godine";
  lit "(?i)prije (\d+[.,]?\d*) godinu";
  lit "(?i)prije (\d+[.,]?\d*) h";
  lit "(?i)prije (\d+[.,]?\d*) min";
  lit "(?i)prije (\d+[.,]?\d*) minuta";
  lit "(?i)prije (\d+[.,]?\d*) minute";
  lit "(?i)prije (\d+[.,]?\d*) minutu";
  lit "(?i)prije (\d+[.,]?\d*) mj";
  lit "(?i)prije (\d+[.,]?\d*) mjesec";
  lit "(?i)prije (\d+[.,]?\d*) mjeseca";
  lit "(?i)prije (\d+[.,]?\d*) mjeseci";
  lit "(?i)prije (\d+[.,]?\d*) s";
  lit "(?i)prije (\d+[.,]?\d*) sat";
  lit "(?i)prije (\d+[.,]?\d*) sata";
  lit "(?i)prije (\d+[.,]?\d*) sati";
  lit "(?i)prije (\d+[.,]?\d*) sekunde";
  lit "(?i)prije (\d+[.,]?\d*) sekundi";
  lit "(?i)prije (\d+[.,]?\d*) sekundu";
  lit "(?i)prije (\d+[.,]?\d*) tj";
  lit "(?i)prije (\d+[.,]?\d*) tjedan";
  lit "(?i)prije (\d+[.,]?\d*) tjedana";
  lit "(?i)prije (\d+[.,]?\d*) tjedna";
  lit "(?i)za (\d+[.,]?\d*) d";
  lit "(?i)za (\d+[.,]?\d*) dan";
  lit "(?i)za (\d+[.,]?\d*) dana";
  lit "(?i)za (\d+[.,]?\d*) dnj";
  lit "(?i)za (\d+[.,]?\d*) dnjow";
  lit "(?i)za (\d+[.,]?\d*) dzen";
  lit "(?i)za (\d+[.,]?\d*) g";
  lit "(?i)za (\d+[.,]?\d*) godina";
  lit "(?i)za (\d+[.,]?\d*) godine";
  lit "(?i)za (\d+[.,]?\d*) godinu";
  lit "(?i)za (\d+[.,]?\d*) h";
  lit "(?i)za (\d+[.,]?\d*) hodz";
  lit "(?i)za (\d+[.,]?\d*) hodzin";
  lit "(?i)za (\d+[.,]?\d*) hodzinu";
  lit "(?i)za (\d+[.,]?\d*) l";
  lit "(?i)za (\d+[.,]?\d*) let";
  lit "(?i)za (\d+[.,]?\d*) leto";
  lit "(?i)za (\d+[.,]?\d*) m";
  lit "(?i)za (\d+[.,]?\d*) mes";
  lit "(?i)za (\d+[.,]?\d*) mesac";
  lit "(?i)za (\d+[.,]?\d*) mesacow";
  lit "(?i)za (\d+[.,]?\d*) min";
  lit "(?i)za (\d+[.,]?\d*) minuta";
  lit "(?i)za (\d+[.,]?\d*) minute";
  lit "(?i)za (\d+[.,]?\d*) minutow";
  lit "(?i)za (\d+[.,]?\d*) minutu";
  lit "(?i)za (\d+[.,]?\d*) mj";
  lit "(?i)za (\d+[.,]?\d*) mjesec";
  lit "(?i)za (\d+[.,]?\d*) mjeseca";
  lit "(?i)za (\d+[.,]?\d*) mjeseci";
  lit "(?i)za (\d+[.,]?\d*) s";
  lit "(?i)za (\d+[.,]?\d*) sat";
  lit "(?i)za (\d+[.,]?\d*) sata";
  lit "(?i)za (\d+[.,]?\d*) sati";
  lit "(?i)za (\d+[.,]?\d*) sek";
  lit "(?i)za (\d+[.,]?\d*) sekunde";
  lit "(?i)za (\d+[.,]?\d*) sekundi";
  lit "(?i)za (\d+[.,]?\d*) sekundow";
  lit "(?i)za (\d+[.,]?\d*) sekundu";
  lit "(?i)za (\d+[.,]?\d*) tj";
  lit "(?i)za (\d+[.,]?\d*) tjedan";
  lit "(?i)za (\d+[.,]?\d*) tjedana";
  lit "(?i)za (\d+[.,]?\d*) tjedna";
  lit "(?i)za (\d+[.,]?\d*) tydz";
  lit "(?i)za (\d+[.,]?\d*) tydzen";
  lit "(?i)za (\d+[.,]?\d*) tydzenjow";
  lit "(?i)בעוד (\d+[.,]?\d*) דקות";
  lit "(?i)בעוד (\d+[.,]?\d*) דק׳";
  lit "(?i)בעוד (\d+[.,]?\d*) חודשים";
  lit "(?i)בעוד (\d+[.,]?\d*) חו׳";
  lit "(?i)בעוד (\d+[.,]?\d*) ימים";
  lit "(?i)בעוד (\d+[.,]?\d*) ימ׳";
  lit "(?i)בעוד (\d+[.,]?\d*) שבועות";
  lit "(?i)בעוד (\d+[.,]?\d*) שב׳";
  lit "(?i)בעוד (\d+[.,]?\d*) שניות";
  lit "(?i)בעוד (\d+[.,]?\d*) שנים";
  lit "(?i)בעוד (\d+[.,]?\d*) שנ׳";
  lit "(?i)בעוד (\d+[.,]?\d*) שעות";
  lit "(?i)בעוד (\d+[.,]?\d*) שע׳";
  lit "(?i)בעוד יום (\d+[.,]?\d*)";
  lit "(?i)לפני (\d+[.,]?\d*) דקות";
  lit "(?i)לפני (\d+[.,]?\d*) דק׳";
  lit "(?i)לפני (\d+[.,]?\d*) חודשים";
  lit "(?i)לפני (\d+[.,]?\d*) חו׳";
  lit "(?i)לפני (\d+[.,]?\d*) ימים";
  lit "(?i)לפני (\d+[.,]?\d*) ימ׳";
  lit "(?i)לפני (\d+[.,]?\d*) שבועות";
  lit "(?i)לפני (\d+[.,]?\d*) שב׳";
  lit "(?i)לפני (\d+[.,]?\d*) שניות";
  lit "(?i)לפני (\d+[.,]?\d*) שנים";
  lit "(?i)לפני (\d+[.,]?\d*) שנ׳";
  lit "(?i)לפני (\d+[.,]?\d*) שעות";
  lit "(?i)לפני (\d+[.,]?\d*) שע׳";
  lit "(?i)לפני יום (\d+[.,]?\d*)"] = true.
Proof. vm_compute. reflexivity. Qed.

Definition table_05 : list (str * locale) :=
  [(lit "ga", loc_ga);
   (lit "gd", loc_gd);
   (lit "gl", loc_gl);
   (lit "gsw", loc_gsw);
   (lit "gsw-FR", loc_gsw_FR);
   (lit "gsw-LI", loc_gsw_LI);
   (lit "gu", loc_gu);
   (lit "guz", loc_guz);
   (lit "gv", loc_gv);
   (lit "ha", loc_ha);
   (lit "ha-GH", loc_ha_GH);
   (lit "ha-NE", loc_ha_NE);
   (lit "haw", loc_haw);
   (lit "he", loc_he);
   (lit "hi", loc_hi);
   (lit "hr", loc_hr);
   (lit "hr-BA", loc_hr_BA);
   (lit "hsb", loc_hsb);
   (lit "hu", loc_hu);
   (lit "hy", loc_hy)].

(** each region with its language *)
Definition regions_05 : list (str * str) :=
  [(lit "gsw-FR", lit "gsw");
   (lit "gsw-LI", lit "gsw");
   (lit "ha-GH", lit "ha");
   (lit "ha-NE", lit "ha");
   (lit "hr-BA", lit "hr")].
