(** Generated by tools/gen_all_locales.py from /repo/internal/data. Do not edit. *)
From Verif Require Import GoBase SMap Regex Language LocaleData.

(** ks.go:10-79 *)
Definition loc_ks : locale := Eval vm_compute in
  {| ld_name := lit "ks"; ld_order := lit "MDY"; ld_nospacing := false; ld_splitter := 0;
    ld_charset := runes (lit "ceghiklnorstuwxyzآؤابتجدرزسفلمنؤَُِٕٗٚٛٮٲٹپچڑژکگھہۄی۪");
    ld_abbr := [];
    ld_simpl := [];
    ld_trans := [(lit "ژندرروار", [lit "monday"]);
    (lit "برٮسوار", [lit "thursday"]);
    (lit "ژندروار", [lit "monday"]);
    (lit "اتھوار", [lit "sunday"]);
    (lit "اکتوبر", [lit "october"]);
    (lit "بودوار", [lit "wednesday"]);
    (lit "بوموار", [lit "tuesday"]);
    (lit "جولایی", [lit "july"]);
    (lit "اپریل", [lit "april"]);
    (lit "بٹوار", [lit "saturday"]);
    (lit "جنوری", [lit "january"]);
    (lit "دسمبر", [lit "december"]);
    (lit "ستمبر", [lit "september"]);
    (lit "سٮکنڑ", [lit "second"]);
    (lit "فروری", [lit "february"]);
    (lit "نومبر", [lit "november"]);
    (lit "گٲنٹہ", [lit "hour"]);
    (lit "اگست", [lit "august"]);
    (lit "رٮتھ", [lit "month"]);
    (lit "مارچ", [lit "march"]);
    (lit "ہفتہ", [lit "week"]);
    (lit "gmt", [lit "gmt"]);
    (lit "utc", [lit "utc"]);
    (lit "جمہ", [lit "friday"]);
    (lit "جون", [lit "june"]);
    (lit "دۄہ", [lit "day"]);
    (lit "منٹ", [lit "minute"]);
    (lit "وری", [lit "year"]);
    (lit "am", [lit "am"]);
    (lit "pm", [lit "pm"]);
    (lit "می", [lit "may"]);
    (lit " ", [lit " "]);
    (lit "'", [lit ""]);
    (lit "+", [lit "+"]);
    (lit ",", [lit ""]);
    (lit "-", [lit "-"]);
    (lit ".", [lit "."]);
    (lit "/", [lit "/"]);
    (lit ":", [lit ":"]);
    (lit ";", [lit ""]);
    (lit "@", [lit ""]);
    (lit "[", [lit ""]);
    (lit "]", [lit ""]);
    (lit "z", [lit "z"]);
    (lit "|", [lit ""])];
    ld_reltype := [(lit "this minute", lit "0 minute ago");
    (lit "last month", lit "1 month ago");
    (lit "next month", lit "in 1 month");
    (lit "this month", lit "0 month ago");
    (lit "last week", lit "1 week ago");
    (lit "last year", lit "1 year ago");
    (lit "next week", lit "in 1 week");
    (lit "next year", lit "in 1 year");
    (lit "this hour", lit "0 hour ago");
    (lit "this week", lit "0 week ago");
    (lit "this year", lit "0 year ago");
    (lit "راتھ", lit "1 day ago");
    (lit "پگاہ", lit "in 1 day");
    (lit "now", lit "0 second ago");
    (lit "از", lit "0 day ago")];
    ld_relrx := [];
    ld_rx := None;
    ld_rx_exact := None;
    ld_known := [lit "this minute";
    lit "last month";
    lit "next month";
    lit "this month";
    lit "last week";
    lit "last year";
    lit "next week";
    lit "next year";
    lit "this hour";
    lit "this week";
    lit "this year";
    lit "ژندرروار";
    lit "برٮسوار";
    lit "ژندروار";
    lit "اتھوار";
    lit "اکتوبر";
    lit "بودوار";
    lit "بوموار";
    lit "جولایی";
    lit "اپریل";
    lit "بٹوار";
    lit "جنوری";
    lit "دسمبر";
    lit "ستمبر";
    lit "سٮکنڑ";
    lit "فروری";
    lit "نومبر";
    lit "گٲنٹہ";
    lit "اگست";
    lit "راتھ";
    lit "رٮتھ";
    lit "مارچ";
    lit "پگاہ";
    lit "ہفتہ";
    lit "gmt";
    lit "now";
    lit "utc";
    lit "جمہ";
    lit "جون";
    lit "دۄہ";
    lit "منٹ";
    lit "وری";
    lit "am";
    lit "pm";
    lit "از";
    lit "می";
    lit " ";
    lit "'";
    lit "+";
    lit ",";
    lit "-";
    lit ".";
    lit "/";
    lit ":";
    lit ";";
    lit "@";
    lit "[";
    lit "]";
    lit "z";
    lit "|"] |}.

(** ksb.go:10-98 *)
Definition loc_ksb : locale := Eval vm_compute in
  {| ld_name := lit "ksb"; ld_order := lit "DMY"; ld_nospacing := false; ld_splitter := 0;
    ld_charset := runes (lit "bcdefghijklnorstuvwxyz");
    ld_abbr := [];
    ld_simpl := [];
    ld_trans := [(lit "jumaamosi", [lit "saturday"]);
    (lit "jumaatano", [lit "wednesday"]);
    (lit "jumaatatu", [lit "monday"]);
    (lit "alhamisi", [lit "thursday"]);
    (lit "febluali", [lit "february"]);
    (lit "jumaapii", [lit "sunday"]);
    (lit "nyiaghuo", [lit "pm"]);
    (lit "septemba", [lit "september"]);
    (lit "desemba", [lit "december"]);
    (lit "januali", [lit "january"]);
    (lit "jumaane", [lit "tuesday"]);
    (lit "ng'waka", [lit "year"]);
    (lit "novemba", [lit "november"]);
    (lit "sekunde", [lit "second"]);
    (lit "agosti", [lit "august"]);
    (lit "aplili", [lit "april"]);
    (lit "dakika", [lit "minute"]);
    (lit "ijumaa", [lit "friday"]);
    (lit "ng'ezi", [lit "month"]);
    (lit "oktoba", [lit "october"]);
    (lit "julai", [lit "july"]);
    (lit "machi", [lit "march"]);
    (lit "makeo", [lit "am"]);
    (lit "juni", [lit "june"]);
    (lit "niki", [lit "week"]);
    (lit "siku", [lit "day"]);
    (lit "ago", [lit "august"]);
    (lit "alh", [lit "thursday"]);
    (lit "apr", [lit "april"]);
    (lit "des", [lit "december"]);
    (lit "feb", [lit "february"]);
    (lit "gmt", [lit "gmt"]);
    (lit "iju", [lit "friday"]);
    (lit "jan", [lit "january"]);
    (lit "jmn", [lit "tuesday"]);
    (lit "jmo", [lit "saturday"]);
    (lit "jpi", [lit "sunday"]);
    (lit "jtn", [lit "wednesday"]);
    (lit "jtt", [lit "monday"]);
    (lit "jul", [lit "july"]);
    (lit "jun", [lit "june"]);
    (lit "mac", [lit "march"]);
    (lit "mei", [lit "may"]);
    (lit "nov", [lit "november"]);
    (lit "okt", [lit "october"]);
    (lit "saa", [lit "hour"]);
    (lit "sep", [lit "september"]);
    (lit "utc", [lit "utc"]);
    (lit "am", [lit "am"]);
    (lit "pm", [lit "pm"]);
    (lit " ", [lit " "]);
    (lit "'", [lit ""]);
    (lit "+", [lit "+"]);
    (lit ",", [lit ""]);
    (lit "-", [lit "-"]);
    (lit ".", [lit "."]);
    (lit "/", [lit "/"]);
    (lit ":", [lit ":"]);
    (lit ";", [lit ""]);
    (lit "@", [lit ""]);
    (lit "[", [lit ""]);
    (lit "]", [lit ""]);
    (lit "z", [lit "z"]);
    (lit "|", [lit ""])];
    ld_reltype := [(lit "this minute", lit "0 minute ago");
    (lit "last month", lit "1 month ago");
    (lit "next month", lit "in 1 month");
    (lit "this month", lit "0 month ago");
    (lit "last week", lit "1 week ago");
    (lit "last year", lit "1 year ago");
    (lit "next week", lit "in 1 week");
    (lit "next year", lit "in 1 year");
    (lit "this hour", lit "0 hour ago");
    (lit "this week", lit "0 week ago");
    (lit "this year", lit "0 year ago");
    (lit "evi eo", lit "0 day ago");
    (lit "keloi", lit "in 1 day");
    (lit "ghuo", lit "1 day ago");
    (lit "now", lit "0 second ago")];
    ld_relrx := [];
    ld_rx := None;
    ld_rx_exact := None;
    ld_known := [lit "this minute";
    lit "last month";
    lit "next month";
    lit "this month";
    lit "jumaamosi";
    lit "jumaatano";
    lit "jumaatatu";
    lit "last week";
    lit "last year";
    lit "next week";
    lit "next year";
    lit "this hour";
    lit "this week";
    lit "this year";
    lit "alhamisi";
    lit "febluali";
    lit "jumaapii";
    lit "nyiaghuo";
    lit "septemba";
    lit "desemba";
    lit "januali";
    lit "jumaane";
    lit "ng'waka";
    lit "novemba";
    lit "sekunde";
    lit "agosti";
    lit "aplili";
    lit "dakika";
    lit "evi eo";
    lit "ijumaa";
    lit "ng'ezi";
    lit "oktoba";
    lit "julai";
    lit "keloi";
    lit "machi";
    lit "makeo";
    lit "ghuo";
    lit "juni";
    lit "niki";
    lit "siku";
    lit "ago";
    lit "alh";
    lit "apr";
    lit "des";
    lit "feb";
    lit "gmt";
    lit "iju";
    lit "jan";
    lit "jmn";
    lit "jmo";
    lit "jpi";
    lit "jtn";
    lit "jtt";
    lit "jul";
    lit "jun";
    lit "mac";
    lit "mei";
    lit "nov";
    lit "now";
    lit "okt";
    lit "saa";
    lit "sep";
    lit "utc";
    lit "am";
    lit "pm";
    lit " ";
    lit "'";
    lit "+";
    lit ",";
    lit "-";
    lit ".";
    lit "/";
    lit ":";
    lit ";";
    lit "@";
    lit "[";
    lit "]";
    lit "z";
    lit "|"] |}.

(** ksf.go:10-98 *)
Definition loc_ksf : locale := Eval vm_compute in
  {| ld_name := lit "ksf"; ld_order := lit "DMY"; ld_nospacing := false; ld_splitter := 0;
    ld_charset := runes (lit "bcdefghijklnorstuwxyzáíóúŋǝɔɛ́");
    ld_abbr := [];
    ld_simpl := [];
    ld_trans := [(lit "ŋwii akǝ ntɛk di bɔk", [lit "november"]);
    (lit "ŋwii akǝ ntɛk di bɛɛ", [lit "december"]);
    (lit "ŋwii akǝ taabɛɛ", [lit "july"]);
    (lit "ŋwii akǝ taafɔk", [lit "june"]);
    (lit "ŋwii akǝ taanin", [lit "september"]);
    (lit "ŋwii akǝ taaraa", [lit "august"]);
    (lit "ŋwii a ntɔntɔ", [lit "january"]);
    (lit "ŋwii akǝ ntɛk", [lit "october"]);
    (lit "ŋwii akǝ taan", [lit "may"]);
    (lit "ŋwii akǝ bɛɛ", [lit "february"]);
    (lit "ŋwii akǝ nin", [lit "april"]);
    (lit "ŋwii akǝ raa", [lit "march"]);
    (lit "mɛkrɛdi", [lit "wednesday"]);
    (lit "camɛɛn", [lit "hour"]);
    (lit "cɛɛnko", [lit "pm"]);
    (lit "saruwa", [lit "am"]);
    (lit "jumba", [lit "friday"]);
    (lit "jǝǝdi", [lit "thursday"]);
    (lit "lǝndi", [lit "monday"]);
    (lit "maadi", [lit "tuesday"]);
    (lit "mǝnit", [lit "minute"]);
    (lit "samdi", [lit "saturday"]);
    (lit "sɔndǝ", [lit "week"; lit "sunday"]);
    (lit "ŋwii", [lit "month"]);
    (lit "ŋwos", [lit "day"]);
    (lit "bǝk", [lit "year"]);
    (lit "gmt", [lit "gmt"]);
    (lit "hau", [lit "second"]);
    (lit "jum", [lit "friday"]);
    (lit "jǝǝ", [lit "thursday"]);
    (lit "lǝn", [lit "monday"]);
    (lit "maa", [lit "tuesday"]);
    (lit "mɛk", [lit "wednesday"]);
    (lit "sam", [lit "saturday"]);
    (lit "sɔn", [lit "sunday"]);
    (lit "utc", [lit "utc"]);
    (lit "ŋ10", [lit "october"]);
    (lit "ŋ11", [lit "november"]);
    (lit "ŋ12", [lit "december"]);
    (lit "am", [lit "am"]);
    (lit "pm", [lit "pm"]);
    (lit "ŋ1", [lit "january"]);
    (lit "ŋ2", [lit "february"]);
    (lit "ŋ3", [lit "march"]);
    (lit "ŋ4", [lit "april"]);
    (lit "ŋ5", [lit "may"]);
    (lit "ŋ6", [lit "june"]);
    (lit "ŋ7", [lit "july"]);
    (lit "ŋ8", [lit "august"]);
    (lit "ŋ9", [lit "september"]);
    (lit " ", [lit " "]);
    (lit "'", [lit ""]);
    (lit "+", [lit "+"]);
    (lit ",", [lit ""]);
    (lit "-", [lit "-"]);
    (lit ".", [lit "."]);
    (lit "/", [lit "/"]);
    (lit ":", [lit ":"]);
    (lit ";", [lit ""]);
    (lit "@", [lit ""]);
    (lit "[", [lit ""]);
    (lit "]", [lit ""]);
    (lit "z", [lit "z"]);
    (lit "|", [lit ""])];
    ld_reltype := [(lit "this minute", lit "0 minute ago");
    (lit "last month", lit "1 month ago");
    (lit "next month", lit "in 1 month");
    (lit "this month", lit "0 month ago");
    (lit "last week", lit "1 week ago");
    (lit "last year", lit "1 year ago");
    (lit "next week", lit "in 1 week");
    (lit "next year", lit "in 1 year");
    (lit "this hour", lit "0 hour ago");
    (lit "this week", lit "0 week ago");
    (lit "this year", lit "0 year ago");
    (lit "ridurǝ", lit "in 1 day");
    (lit "rinkɔɔ", lit "1 day ago");
    (lit "gɛɛnǝ", lit "0 day ago");
    (lit "now", lit "0 second ago")];
    ld_relrx := [];
    ld_rx := None;
    ld_rx_exact := None;
    ld_known := [lit "ŋwii akǝ ntɛk di bɔk";
    lit "ŋwii akǝ ntɛk di bɛɛ";
    lit "ŋwii akǝ taabɛɛ";
    lit "ŋwii akǝ taafɔk";
    lit "ŋwii akǝ taanin";
    lit "ŋwii akǝ taaraa";
    lit "ŋwii a ntɔntɔ";
    lit "ŋwii akǝ ntɛk";
    lit "ŋwii akǝ taan";
    lit "ŋwii akǝ bɛɛ";
    lit "ŋwii akǝ nin";
    lit "ŋwii akǝ raa";
    lit "this minute";
    lit "last month";
    lit "next month";
    lit "this month";
    lit "last week";
    lit "last year";
    lit "next week";
    lit "next year";
    lit "this hour";
    lit "this week";
    lit "this year";
    lit "mɛkrɛdi";
    lit "camɛɛn";
    lit "cɛɛnko";
    lit "ridurǝ";
    lit "rinkɔɔ";
    lit "saruwa";
    lit "gɛɛnǝ";
    lit "jumba";
    lit "jǝǝdi";
    lit "lǝndi";
    lit "maadi";
    lit "mǝnit";
    lit "samdi";
    lit "sɔndǝ";
    lit "ŋwii";
    lit "ŋwos";
    lit "bǝk";
    lit "gmt";
    lit "hau";
    lit "jum";
    lit "jǝǝ";
    lit "lǝn";
    lit "maa";
    lit "mɛk";
    lit "now";
    lit "sam";
    lit "sɔn";
    lit "utc";
    lit "ŋ10";
    lit "ŋ11";
    lit "ŋ12";
    lit "am";
    lit "pm";
    lit "ŋ1";
    lit "ŋ2";
    lit "ŋ3";
    lit "ŋ4";
    lit "ŋ5";
    lit "ŋ6";
    lit "ŋ7";
    lit "ŋ8";
    lit "ŋ9";
    lit " ";
    lit "'";
    lit "+";
    lit ",";
    lit "-";
    lit ".";
    lit "/";
    lit ":";
    lit ";";
    lit "@";
    lit "[";
    lit "]";
    lit "z";
    lit "|"] |}.

(** ksh.go:12-120 *)
Definition loc_ksh : locale := Eval vm_compute in
  {| ld_name := lit "ksh"; ld_order := lit "DMY"; ld_nospacing := false; ld_splitter := 0;
    ld_charset := runes (lit "bcdefghijklnorstuvwxzßäöü");
    ld_abbr := [];
    ld_simpl := [];
    ld_trans := [(lit "uhr nommendaachs", [lit "pm"]);
    (lit "uhr vormiddaachs", [lit "am"]);
    (lit "dunnersdaach", [lit "thursday"]);
    (lit "nommendaach", [lit "pm"]);
    (lit "vormeddaach", [lit "am"]);
    (lit "dinnsdaach", [lit "tuesday"]);
    (lit "friidaach", [lit "friday"]);
    (lit "mohndaach", [lit "monday"]);
    (lit "samsdaach", [lit "saturday"]);
    (lit "septamber", [lit "september"]);
    (lit "sunndaach", [lit "sunday"]);
    (lit "dezamber", [lit "december"]);
    (lit "novamber", [lit "november"]);
    (lit "oktohber", [lit "october"]);
    (lit "fabrowa", [lit "february"]);
    (lit "jannewa", [lit "january"]);
    (lit "metwoch", [lit "wednesday"]);
    (lit "schtund", [lit "hour"]);
    (lit "aprell", [lit "april"]);
    (lit "menutt", [lit "minute"]);
    (lit "sekond", [lit "second"]);
    (lit "daach", [lit "day"]);
    (lit "juuli", [lit "july"]);
    (lit "juuni", [lit "june"]);
    (lit "mohnd", [lit "month"]);
    (lit "oujoß", [lit "august"]);
    (lit "johr", [lit "year"]);
    (lit "maaz", [lit "march"]);
    (lit "woch", [lit "week"]);
    (lit "apr", [lit "april"]);
    (lit "dez", [lit "december"]);
    (lit "fab", [lit "february"]);
    (lit "gmt", [lit "gmt"]);
    (lit "jan", [lit "january"]);
    (lit "jul", [lit "july"]);
    (lit "jun", [lit "june"]);
    (lit "mai", [lit "may"]);
    (lit "maz", [lit "march"]);
    (lit "min", [lit "minute"]);
    (lit "nov", [lit "november"]);
    (lit "okt", [lit "october"]);
    (lit "ouj", [lit "august"]);
    (lit "sap", [lit "september"]);
    (lit "sek", [lit "second"]);
    (lit "std", [lit "hour"]);
    (lit "utc", [lit "utc"]);
    (lit "am", [lit "am"]);
    (lit "di", [lit "tuesday"]);
    (lit "du", [lit "thursday"]);
    (lit "fr", [lit "friday"]);
    (lit "me", [lit "wednesday"]);
    (lit "mo", [lit "monday"]);
    (lit "nm", [lit "pm"]);
    (lit "pm", [lit "pm"]);
    (lit "sa", [lit "saturday"]);
    (lit "su", [lit "sunday"]);
    (lit "vm", [lit "am"]);
    (lit " ", [lit " "]);
    (lit "'", [lit ""]);
    (lit "+", [lit "+"]);
    (lit ",", [lit ""]);
    (lit "-", [lit "-"]);
    (lit ".", [lit "."]);
    (lit "/", [lit "/"]);
    (lit ":", [lit ":"]);
    (lit ";", [lit ""]);
    (lit "@", [lit ""]);
    (lit "[", [lit ""]);
    (lit "]", [lit ""]);
    (lit "d", [lit "day"]);
    (lit "j", [lit "year"]);
    (lit "m", [lit "month"; lit "minute"]);
    (lit "s", [lit "hour"; lit "second"]);
    (lit "w", [lit "week"]);
    (lit "z", [lit "z"]);
    (lit "|", [lit ""])];
    ld_reltype := [(lit "nachste mohnd", lit "in 1 month");
    (lit "nachste woche", lit "in 1 week");
    (lit "latzde mohnd", lit "1 month ago");
    (lit "diese mohnd", lit "0 month ago");
    (lit "this minute", lit "0 minute ago");
    (lit "this hour", lit "0 hour ago");
    (lit "diß johr", lit "0 year ago");
    (lit "laz johr", lit "1 year ago");
    (lit "laz woch", lit "1 week ago");
    (lit "nax johr", lit "in 1 year");
    (lit "di woch", lit "0 week ago");
    (lit "jestere", lit "1 day ago");
    (lit "morje", lit "in 1 day");
    (lit "huck", lit "0 day ago");
    (lit "now", lit "0 second ago")];
    ld_relrx := [(rx "(?i)vor (\d+[.,]?\d*) johre", lit "$1 year ago");
    (rx "(?i)en (\d+[.,]?\d*) johre", lit "in $1 year");
    (rx "(?i)vor (\d+[.,]?\d*) johr", lit "$1 year ago");
    (rx "(?i)en (\d+[.,]?\d*) johr", lit "in $1 year")];
    ld_rx := Some (rx "(?i)(\A|[^\pL\pM\d]|_)(vor \d+[.,]?\d* johre|en \d+[.,]?\d* johre|vor \d+[.,]?\d* johr|en \d+[.,]?\d* johr)(\z|[^\pL\pM\d]|_)");
    ld_rx_exact := Some (rx "(?i)^(vor \d+[.,]?\d* johre|en \d+[.,]?\d* johre|vor \d+[.,]?\d* johr|en \d+[.,]?\d* johr)$");
    ld_known := [lit "uhr nommendaachs";
    lit "uhr vormiddaachs";
    lit "nachste mohnd";
    lit "nachste woche";
    lit "dunnersdaach";
    lit "latzde mohnd";
    lit "diese mohnd";
    lit "nommendaach";
    lit "this minute";
    lit "vormeddaach";
    lit "dinnsdaach";
    lit "friidaach";
    lit "mohndaach";
    lit "samsdaach";
    lit "septamber";
    lit "sunndaach";
    lit "this hour";
    lit "dezamber";
    lit "diß johr";
    lit "laz johr";
    lit "laz woch";
    lit "nax johr";
    lit "novamber";
    lit "oktohber";
    lit "di woch";
    lit "fabrowa";
    lit "jannewa";
    lit "jestere";
    lit "metwoch";
    lit "schtund";
    lit "aprell";
    lit "menutt";
    lit "sekond";
    lit "daach";
    lit "juuli";
    lit "juuni";
    lit "mohnd";
    lit "morje";
    lit "oujoß";
    lit "huck";
    lit "johr";
    lit "maaz";
    lit "woch";
    lit "apr";
    lit "dez";
    lit "fab";
    lit "gmt";
    lit "jan";
    lit "jul";
    lit "jun";
    lit "mai";
    lit "maz";
    lit "min";
    lit "nov";
    lit "now";
    lit "okt";
    lit "ouj";
    lit "sap";
    lit "sek";
    lit "std";
    lit "utc";
    lit "am";
    lit "di";
    lit "du";
    lit "fr";
    lit "me";
    lit "mo";
    lit "nm";
    lit "pm";
    lit "sa";
    lit "su";
    lit "vm";
    lit " ";
    lit "'";
    lit "+";
    lit ",";
    lit "-";
    lit ".";
    lit "/";
    lit ":";
    lit ";";
    lit "@";
    lit "[";
    lit "]";
    lit "d";
    lit "j";
    lit "m";
    lit "s";
    lit "w";
    lit "z";
    lit "|"] |}.

(** kw.go:10-97 *)
Definition loc_kw : locale := Eval vm_compute in
  {| ld_name := lit "kw"; ld_order := lit "YMD"; ld_nospacing := false; ld_splitter := 0;
    ld_charset := runes (lit "bcdeghiklnorstuvwxyz");
    ld_abbr := [];
    ld_simpl := [];
    ld_trans := [(lit "mis gortheren", [lit "july"]);
    (lit "mis gwynngala", [lit "september"]);
    (lit "mis kevardhu", [lit "december"]);
    (lit "mis metheven", [lit "june"]);
    (lit "mis hwevrer", [lit "february"]);
    (lit "mis genver", [lit "january"]);
    (lit "mis meurth", [lit "march"]);
    (lit "dy gwener", [lit "friday"]);
    (lit "dy merher", [lit "wednesday"]);
    (lit "dy meurth", [lit "tuesday"]);
    (lit "dy sadorn", [lit "saturday"]);
    (lit "mis ebrel", [lit "april"]);
    (lit "mis hedra", [lit "october"]);
    (lit "mis est", [lit "august"]);
    (lit "dy lun", [lit "monday"]);
    (lit "dy sul", [lit "sunday"]);
    (lit "dy yow", [lit "thursday"]);
    (lit "minute", [lit "minute"]);
    (lit "mis du", [lit "november"]);
    (lit "mis me", [lit "may"]);
    (lit "second", [lit "second"]);
    (lit "month", [lit "month"]);
    (lit "hour", [lit "hour"]);
    (lit "week", [lit "week"]);
    (lit "year", [lit "year"]);
    (lit "day", [lit "day"]);
    (lit "ebr", [lit "april"]);
    (lit "est", [lit "august"]);
    (lit "gen", [lit "january"]);
    (lit "gmt", [lit "gmt"]);
    (lit "gor", [lit "july"]);
    (lit "gwe", [lit "friday"]);
    (lit "gwn", [lit "september"]);
    (lit "hed", [lit "october"]);
    (lit "hwe", [lit "february"]);
    (lit "kev", [lit "december"]);
    (lit "lun", [lit "monday"]);
    (lit "met", [lit "june"]);
    (lit "meu", [lit "march"]);
    (lit "mhr", [lit "wednesday"]);
    (lit "mth", [lit "tuesday"]);
    (lit "sad", [lit "saturday"]);
    (lit "sul", [lit "sunday"]);
    (lit "utc", [lit "utc"]);
    (lit "yow", [lit "thursday"]);
    (lit "am", [lit "am"]);
    (lit "du", [lit "november"]);
    (lit "me", [lit "may"]);
    (lit "pm", [lit "pm"]);
    (lit " ", [lit " "]);
    (lit "'", [lit ""]);
    (lit "+", [lit "+"]);
    (lit ",", [lit ""]);
    (lit "-", [lit "-"]);
    (lit ".", [lit "."]);
    (lit "/", [lit "/"]);
    (lit ":", [lit ":"]);
    (lit ";", [lit ""]);
    (lit "@", [lit ""]);
    (lit "[", [lit ""]);
    (lit "]", [lit ""]);
    (lit "z", [lit "z"]);
    (lit "|", [lit ""])];
    ld_reltype := [(lit "this minute", lit "0 minute ago");
    (lit "last month", lit "1 month ago");
    (lit "next month", lit "in 1 month");
    (lit "this month", lit "0 month ago");
    (lit "last week", lit "1 week ago");
    (lit "last year", lit "1 year ago");
    (lit "next week", lit "in 1 week");
    (lit "next year", lit "in 1 year");
    (lit "this hour", lit "0 hour ago");
    (lit "this week", lit "0 week ago");
    (lit "this year", lit "0 year ago");
    (lit "yesterday", lit "1 day ago");
    (lit "tomorrow", lit "in 1 day");
    (lit "today", lit "0 day ago");
    (lit "now", lit "0 second ago")];
    ld_relrx := [];
    ld_rx := None;
    ld_rx_exact := None;
    ld_known := [lit "mis gortheren";
    lit "mis gwynngala";
    lit "mis kevardhu";
    lit "mis metheven";
    lit "mis hwevrer";
    lit "this minute";
    lit "last month";
    lit "mis genver";
    lit "mis meurth";
    lit "next month";
    lit "this month";
    lit "dy gwener";
    lit "dy merher";
    lit "dy meurth";
    lit "dy sadorn";
    lit "last week";
    lit "last year";
    lit "mis ebrel";
    lit "mis hedra";
    lit "next week";
    lit "next year";
    lit "this hour";
    lit "this week";
    lit "this year";
    lit "yesterday";
    lit "tomorrow";
    lit "mis est";
    lit "dy lun";
    lit "dy sul";
    lit "dy yow";
    lit "minute";
    lit "mis du";
    lit "mis me";
    lit "second";
    lit "month";
    lit "today";
    lit "hour";
    lit "week";
    lit "year";
    lit "day";
    lit "ebr";
    lit "est";
    lit "gen";
    lit "gmt";
    lit "gor";
    lit "gwe";
    lit "gwn";
    lit "hed";
    lit "hwe";
    lit "kev";
    lit "lun";
    lit "met";
    lit "meu";
    lit "mhr";
    lit "mth";
    lit "now";
    lit "sad";
    lit "sul";
    lit "utc";
    lit "yow";
    lit "am";
    lit "du";
    lit "me";
    lit "pm";
    lit " ";
    lit "'";
    lit "+";
    lit ",";
    lit "-";
    lit ".";
    lit "/";
    lit ":";
    lit ";";
    lit "@";
    lit "[";
    lit "]";
    lit "z";
    lit "|"] |}.

(** ky.go:12-146 *)
Definition loc_ky : locale := Eval vm_compute in
  {| ld_name := lit "ky"; ld_order := lit "DMY"; ld_nospacing := false; ld_splitter := 0;
    ld_charset := runes (lit "cgtuzабвгдежзийклмнопрстуфчшыьэюяңүӊө");
    ld_abbr := [];
    ld_simpl := [];
    ld_trans := [(lit "түштөн кииинки", [lit "pm"]);
    (lit "беишемби", [lit "thursday"]);
    (lit "дүишөмбү", [lit "monday"]);
    (lit "жекшемби", [lit "sunday"]);
    (lit "сентябрь", [lit "september"]);
    (lit "шаршемби", [lit "wednesday"]);
    (lit "шеишемби", [lit "tuesday"]);
    (lit "декабрь", [lit "december"]);
    (lit "октябрь", [lit "october"]);
    (lit "февраль", [lit "february"]);
    (lit "август", [lit "august"]);
    (lit "апрель", [lit "april"]);
    (lit "ишемби", [lit "saturday"]);
    (lit "ноябрь", [lit "november"]);
    (lit "секунд", [lit "second"]);
    (lit "январь", [lit "january"]);
    (lit "мүнөт", [lit "minute"]);
    (lit "таңкы", [lit "am"]);
    (lit "апта", [lit "week"]);
    (lit "беиш", [lit "thursday"]);
    (lit "жума", [lit "friday"]);
    (lit "июль", [lit "july"]);
    (lit "июнь", [lit "june"]);
    (lit "март", [lit "march"]);
    (lit "саат", [lit "hour"]);
    (lit "шарш", [lit "wednesday"]);
    (lit "шеиш", [lit "tuesday"]);
    (lit "gmt", [lit "gmt"]);
    (lit "utc", [lit "utc"]);
    (lit "авг", [lit "august"]);
    (lit "апр", [lit "april"]);
    (lit "апт", [lit "week"]);
    (lit "дек", [lit "december"]);
    (lit "дүи", [lit "monday"]);
    (lit "жек", [lit "sunday"]);
    (lit "жыл", [lit "year"]);
    (lit "ишм", [lit "saturday"]);
    (lit "июл", [lit "july"]);
    (lit "июн", [lit "june"]);
    (lit "күн", [lit "day"]);
    (lit "маи", [lit "may"]);
    (lit "мар", [lit "march"]);
    (lit "мүн", [lit "minute"]);
    (lit "ноя", [lit "november"]);
    (lit "окт", [lit "october"]);
    (lit "сек", [lit "second"]);
    (lit "сен", [lit "september"]);
    (lit "фев", [lit "february"]);
    (lit "янв", [lit "january"]);
    (lit "am", [lit "am"]);
    (lit "pm", [lit "pm"]);
    (lit "аи", [lit "month"]);
    (lit "ст", [lit "hour"]);
    (lit "тк", [lit "pm"]);
    (lit "тң", [lit "am"]);
    (lit " ", [lit " "]);
    (lit "'", [lit ""]);
    (lit "+", [lit "+"]);
    (lit ",", [lit ""]);
    (lit "-", [lit "-"]);
    (lit ".", [lit "."]);
    (lit "/", [lit "/"]);
    (lit ":", [lit ":"]);
    (lit ";", [lit ""]);
    (lit "@", [lit ""]);
    (lit "[", [lit ""]);
    (lit "]", [lit ""]);
    (lit "z", [lit "z"]);
    (lit "|", [lit ""]);
    (lit "ж", [lit "year"]);
    (lit "м", [lit "minute"])];
    ld_reltype := [(lit "келерки аптада", lit "in 1 week");
    (lit "ушул мүнөттө", lit "0 minute ago");
    (lit "өткөн аптада", lit "1 week ago");
    (lit "келерки апт", lit "in 1 week");
    (lit "ушул аптада", lit "0 week ago");
    (lit "ушул саатта", lit "0 hour ago");
    (lit "эмдиги аида", lit "in 1 month");
    (lit "эмдиги жылы", lit "in 1 year");
    (lit "өткөн аида", lit "1 month ago");
    (lit "өткөн апт", lit "1 week ago");
    (lit "бул аида", lit "0 month ago");
    (lit "ушул апт", lit "0 week ago");
    (lit "былтыр", lit "1 year ago");
    (lit "быиыл", lit "0 year ago");
    (lit "бүгүн", lit "0 day ago");
    (lit "кечээ", lit "1 day ago");
    (lit "эртеӊ", lit "in 1 day");
    (lit "азыр", lit "0 second ago")];
    ld_relrx := [(rx "(?i)(\d+[.,]?\d*) секунддан кииин", lit "in $1 second");
    (rx "(?i)(\d+[.,]?\d*) мүнөттөн кииин", lit "in $1 minute");
    (rx "(?i)(\d+[.,]?\d*) аптадан кииин", lit "in $1 week");
    (rx "(?i)(\d+[.,]?\d*) сааттан кииин", lit "in $1 hour");
    (rx "(?i)(\d+[.,]?\d*) жылдан кииин", lit "in $1 year");
    (rx "(?i)(\d+[.,]?\d*) күндөн кииин", lit "in $1 day");
    (rx "(?i)(\d+[.,]?\d*) секунд мурун", lit "$1 second ago");
    (rx "(?i)(\d+[.,]?\d*) аидан кииин", lit "in $1 month");
    (rx "(?i)(\d+[.,]?\d*) мүнөт мурун", lit "$1 minute ago");
    (rx "(?i)(\d+[.,]?\d*) апта мурун", lit "$1 week ago");
    (rx "(?i)(\d+[.,]?\d*) саат кииин", lit "in $1 hour");
    (rx "(?i)(\d+[.,]?\d*) саат мурун", lit "$1 hour ago");
    (rx "(?i)(\d+[.,]?\d*) аид кииин", lit "in $1 month");
    (rx "(?i)(\d+[.,]?\d*) апт кииин", lit "in $1 week");
    (rx "(?i)(\d+[.,]?\d*) апт мурун", lit "$1 week ago");
    (rx "(?i)(\d+[.,]?\d*) жыл кииин", lit "in $1 year");
    (rx "(?i)(\d+[.,]?\d*) жыл мурун", lit "$1 year ago");
    (rx "(?i)(\d+[.,]?\d*) күн кииин", lit "in $1 day");
    (rx "(?i)(\d+[.,]?\d*) күн мурун", lit "$1 day ago");
    (rx "(?i)(\d+[.,]?\d*) мүн кииин", lit "in $1 minute");
    (rx "(?i)(\d+[.,]?\d*) мүн мурун", lit "$1 minute ago");
    (rx "(?i)(\d+[.,]?\d*) сек кииин", lit "in $1 second");
    (rx "(?i)(\d+[.,]?\d*) сек мурун", lit "$1 second ago");
    (rx "(?i)(\d+[.,]?\d*) аи мурун", lit "$1 month ago");
    (rx "(?i)(\d+[.,]?\d*) аид киин", lit "in $1 month");
    (rx "(?i)(\d+[.,]?\d*) мүн киин", lit "in $1 minute");
    (rx "(?i)(\d+[.,]?\d*) мүн мурн", lit "$1 minute ago");
    (rx "(?i)(\d+[.,]?\d*) сек киин", lit "in $1 second");
    (rx "(?i)(\d+[.,]?\d*) сек мурн", lit "$1 second ago");
    (rx "(?i)(\d+[.,]?\d*) аи мурн", lit "$1 month ago");
    (rx "(?i)(\d+[.,]?\d*) с киин", lit "in $1 hour");
    (rx "(?i)(\d+[.,]?\d*) с мурн", lit "$1 hour ago")];
    ld_rx := Some (rx "(?i)(\A|[^\pL\pM\d]|_)(\d+[.,]?\d* секунддан кииин|\d+[.,]?\d* мүнөттөн кииин|\d+[.,]?\d* аптадан кииин|\d+[.,]?\d* сааттан кииин|\d+[.,]?\d* жылдан кииин|\d+[.,]?\d* күндөн кииин|\d+[.,]?\d* секунд мурун|\d+[.,]?\d* аидан кииин|\d+[.,]?\d* мүнөт мурун|\d+[.,]?\d* апта мурун|\d+[.,]?\d* саат кииин|\d+[.,]?\d* саат мурун|\d+[.,]?\d* аид кииин|\d+[.,]?\d* апт кииин|\d+[.,]?\d* апт мурун|\d+[.,]?\d* жыл кииин|\d+[.,]?\d* жыл мурун|\d+[.,]?\d* күн кииин|\d+[.,]?\d* күн мурун|\d+[.,]?\d* мүн кииин|\d+[.,]?\d* мүн мурун|\d+[.,]?\d* сек кииин|\d+[.,]?\d* сек мурун|\d+[.,]?\d* аи мурун|\d+[.,]?\d* аид киин|\d+[.,]?\d* мүн киин|\d+[.,]?\d* мүн мурн|\d+[.,]?\d* сек киин|\d+[.,]?\d* сек мурн|\d+[.,]?\d* аи мурн|\d+[.,]?\d* с киин|\d+[.,]?\d* с мурн)(\z|[^\pL\pM\d]|_)");
    ld_rx_exact := Some (rx "(?i)^(\d+[.,]?\d* секунддан кииин|\d+[.,]?\d* мүнөттөн кииин|\d+[.,]?\d* аптадан кииин|\d+[.,]?\d* сааттан кииин|\d+[.,]?\d* жылдан кииин|\d+[.,]?\d* күндөн кииин|\d+[.,]?\d* секунд мурун|\d+[.,]?\d* аидан кииин|\d+[.,]?\d* мүнөт мурун|\d+[.,]?\d* апта мурун|\d+[.,]?\d* саат кииин|\d+[.,]?\d* саат мурун|\d+[.,]?\d* аид кииин|\d+[.,]?\d* апт кииин|\d+[.,]?\d* апт мурун|\d+[.,]?\d* жыл кииин|\d+[.,]?\d* жыл мурун|\d+[.,]?\d* күн кииин|\d+[.,]?\d* күн мурун|\d+[.,]?\d* мүн кииин|\d+[.,]?\d* мүн мурун|\d+[.,]?\d* сек кииин|\d+[.,]?\d* сек мурун|\d+[.,]?\d* аи мурун|\d+[.,]?\d* аид киин|\d+[.,]?\d* мүн киин|\d+[.,]?\d* мүн мурн|\d+[.,]?\d* сек киин|\d+[.,]?\d* сек мурн|\d+[.,]?\d* аи мурн|\d+[.,]?\d* с киин|\d+[.,]?\d* с мурн)$");
    ld_known := [lit "келерки аптада";
    lit "түштөн кииинки";
    lit "ушул мүнөттө";
    lit "өткөн аптада";
    lit "келерки апт";
    lit "ушул аптада";
    lit "ушул саатта";
    lit "эмдиги аида";
    lit "эмдиги жылы";
    lit "өткөн аида";
    lit "өткөн апт";
    lit "беишемби";
    lit "бул аида";
    lit "дүишөмбү";
    lit "жекшемби";
    lit "сентябрь";
    lit "ушул апт";
    lit "шаршемби";
    lit "шеишемби";
    lit "декабрь";
    lit "октябрь";
    lit "февраль";
    lit "август";
    lit "апрель";
    lit "былтыр";
    lit "ишемби";
    lit "ноябрь";
    lit "секунд";
    lit "январь";
    lit "быиыл";
    lit "бүгүн";
    lit "кечээ";
    lit "мүнөт";
    lit "таңкы";
    lit "эртеӊ";
    lit "азыр";
    lit "апта";
    lit "беиш";
    lit "жума";
    lit "июль";
    lit "июнь";
    lit "март";
    lit "саат";
    lit "шарш";
    lit "шеиш";
    lit "gmt";
    lit "utc";
    lit "авг";
    lit "апр";
    lit "апт";
    lit "дек";
    lit "дүи";
    lit "жек";
    lit "жыл";
    lit "ишм";
    lit "июл";
    lit "июн";
    lit "күн";
    lit "маи";
    lit "мар";
    lit "мүн";
    lit "ноя";
    lit "окт";
    lit "сек";
    lit "сен";
    lit "фев";
    lit "янв";
    lit "am";
    lit "pm";
    lit "аи";
    lit "ст";
    lit "тк";
    lit "тң";
    lit " ";
    lit "'";
    lit "+";
    lit ",";
    lit "-";
    lit ".";
    lit "/";
    lit ":";
    lit ";";
    lit "@";
    lit "[";
    lit "]";
    lit "z";
    lit "|";
    lit "ж";
    lit "м"] |}.

(** lag.go:10-99 *)
Definition loc_lag : locale := Eval vm_compute in
  {| ld_name := lit "lag"; ld_order := lit "DMY"; ld_nospacing := false; ld_splitter := 0;
    ld_charset := runes (lit "bcdefghijklnorstuvwxyzáéíóúɨʉ");
    ld_abbr := [];
    ld_simpl := [];
    ld_trans := [(lit "kwiinyambala", [lit "may"]);
    (lit "kwiidwaata", [lit "june"]);
    (lit "inyambala", [lit "may"]);
    (lit "jumamoosi", [lit "saturday"]);
    (lit "jumapiiri", [lit "sunday"]);
    (lit "jumataano", [lit "wednesday"]);
    (lit "kʉfungatɨ", [lit "january"]);
    (lit "kʉmʉʉnchɨ", [lit "july"]);
    (lit "alamiisi", [lit "thursday"]);
    (lit "jumatatu", [lit "monday"]);
    (lit "kwiikumi", [lit "april"]);
    (lit "kʉkeenda", [lit "march"]);
    (lit "kʉsasatʉ", [lit "december"]);
    (lit "sekuunde", [lit "second"]);
    (lit "fungatɨ", [lit "january"]);
    (lit "idwaata", [lit "june"]);
    (lit "jumaine", [lit "tuesday"]);
    (lit "kwiinyi", [lit "october"]);
    (lit "kʉnaanɨ", [lit "february"]);
    (lit "kʉsaano", [lit "november"]);
    (lit "kʉsaatʉ", [lit "september"]);
    (lit "kʉvɨɨrɨ", [lit "august"]);
    (lit "mʉʉnchɨ", [lit "july"]);
    (lit "dakika", [lit "minute"]);
    (lit "ijumaa", [lit "friday"]);
    (lit "keenda", [lit "march"]);
    (lit "mwaaka", [lit "year"]);
    (lit "mweeri", [lit "month"]);
    (lit "sasatʉ", [lit "december"]);
    (lit "ikumi", [lit "april"]);
    (lit "moosi", [lit "saturday"]);
    (lit "naanɨ", [lit "february"]);
    (lit "piili", [lit "sunday"]);
    (lit "saano", [lit "november"]);
    (lit "saatʉ", [lit "september"]);
    (lit "taano", [lit "wednesday"]);
    (lit "taatu", [lit "monday"]);
    (lit "vɨɨrɨ", [lit "august"]);
    (lit "wiiki", [lit "week"]);
    (lit "inyi", [lit "october"]);
    (lit "sikʉ", [lit "day"]);
    (lit "alh", [lit "thursday"]);
    (lit "gmt", [lit "gmt"]);
    (lit "ijm", [lit "friday"]);
    (lit "ine", [lit "tuesday"]);
    (lit "muu", [lit "pm"]);
    (lit "saa", [lit "hour"]);
    (lit "too", [lit "am"]);
    (lit "utc", [lit "utc"]);
    (lit "am", [lit "am"]);
    (lit "pm", [lit "pm"]);
    (lit " ", [lit " "]);
    (lit "'", [lit ""]);
    (lit "+", [lit "+"]);
    (lit ",", [lit ""]);
    (lit "-", [lit "-"]);
    (lit ".", [lit "."]);
    (lit "/", [lit "/"]);
    (lit ":", [lit ":"]);
    (lit ";", [lit ""]);
    (lit "@", [lit ""]);
    (lit "[", [lit ""]);
    (lit "]", [lit ""]);
    (lit "z", [lit "z"]);
    (lit "|", [lit ""])];
    ld_reltype := [(lit "this minute", lit "0 minute ago");
    (lit "lamʉtoondo", lit "in 1 day");
    (lit "last month", lit "1 month ago");
    (lit "next month", lit "in 1 month");
    (lit "this month", lit "0 month ago");
    (lit "last week", lit "1 week ago");
    (lit "last year", lit "1 year ago");
    (lit "next week", lit "in 1 week");
    (lit "next year", lit "in 1 year");
    (lit "this hour", lit "0 hour ago");
    (lit "this week", lit "0 week ago");
    (lit "this year", lit "0 year ago");
    (lit "isikʉ", lit "0 day ago");
    (lit "niijo", lit "1 day ago");
    (lit "now", lit "0 second ago")];
    ld_relrx := [];
    ld_rx := None;
    ld_rx_exact := None;
    ld_known := [lit "kwiinyambala";
    lit "this minute";
    lit "kwiidwaata";
    lit "lamʉtoondo";
    lit "last month";
    lit "next month";
    lit "this month";
    lit "inyambala";
    lit "jumamoosi";
    lit "jumapiiri";
    lit "jumataano";
    lit "kʉfungatɨ";
    lit "kʉmʉʉnchɨ";
    lit "last week";
    lit "last year";
    lit "next week";
    lit "next year";
    lit "this hour";
    lit "this week";
    lit "this year";
    lit "alamiisi";
    lit "jumatatu";
    lit "kwiikumi";
    lit "kʉkeenda";
    lit "kʉsasatʉ";
    lit "sekuunde";
    lit "fungatɨ";
    lit "idwaata";
    lit "jumaine";
    lit "kwiinyi";
    lit "kʉnaanɨ";
    lit "kʉsaano";
    lit "kʉsaatʉ";
    lit "kʉvɨɨrɨ";
    lit "mʉʉnchɨ";
    lit "dakika";
    lit "ijumaa";
    lit "keenda";
    lit "mwaaka";
    lit "mweeri";
    lit "sasatʉ";
    lit "ikumi";
    lit "isikʉ";
    lit "moosi";
    lit "naanɨ";
    lit "niijo";
    lit "piili";
    lit "saano";
    lit "saatʉ";
    lit "taano";
    lit "taatu";
    lit "vɨɨrɨ";
    lit "wiiki";
    lit "inyi";
    lit "sikʉ";
    lit "alh";
    lit "gmt";
    lit "ijm";
    lit "ine";
    lit "muu";
    lit "now";
    lit "saa";
    lit "too";
    lit "utc";
    lit "am";
    lit "pm";
    lit " ";
    lit "'";
    lit "+";
    lit ",";
    lit "-";
    lit ".";
    lit "/";
    lit ":";
    lit ";";
    lit "@";
    lit "[";
    lit "]";
    lit "z";
    lit "|"] |}.

(** lb.go:12-139 *)
Definition loc_lb : locale := Eval vm_compute in
  {| ld_name := lit "lb"; ld_order := lit "DMY"; ld_nospacing := false; ld_splitter := 0;
    ld_charset := runes (lit "bcdefghijklnorstuvwzäéë");
    ld_abbr := [];
    ld_simpl := [];
    ld_trans := [(lit "donneschdeg", [lit "thursday"]);
    (lit "denschdeg", [lit "tuesday"]);
    (lit "samschdeg", [lit "saturday"]);
    (lit "september", [lit "september"]);
    (lit "dezember", [lit "december"]);
    (lit "mettwoch", [lit "wednesday"]);
    (lit "nomettes", [lit "pm"]);
    (lit "november", [lit "november"]);
    (lit "februar", [lit "february"]);
    (lit "freideg", [lit "friday"]);
    (lit "meindeg", [lit "monday"]);
    (lit "oktober", [lit "october"]);
    (lit "sonndeg", [lit "sunday"]);
    (lit "abrell", [lit "april"]);
    (lit "august", [lit "august"]);
    (lit "januar", [lit "january"]);
    (lit "minutt", [lit "minute"]);
    (lit "sekonn", [lit "second"]);
    (lit "maerz", [lit "march"]);
    (lit "moies", [lit "am"]);
    (lit "mount", [lit "month"]);
    (lit "stonn", [lit "hour"]);
    (lit "joer", [lit "year"]);
    (lit "juli", [lit "july"]);
    (lit "juni", [lit "june"]);
    (lit "woch", [lit "week"]);
    (lit "abr", [lit "april"]);
    (lit "aug", [lit "august"]);
    (lit "dag", [lit "day"]);
    (lit "den", [lit "tuesday"]);
    (lit "dez", [lit "december"]);
    (lit "don", [lit "thursday"]);
    (lit "feb", [lit "february"]);
    (lit "fre", [lit "friday"]);
    (lit "gmt", [lit "gmt"]);
    (lit "jan", [lit "january"]);
    (lit "jul", [lit "july"]);
    (lit "jun", [lit "june"]);
    (lit "mae", [lit "march"]);
    (lit "mee", [lit "may"]);
    (lit "mei", [lit "monday"]);
    (lit "met", [lit "wednesday"]);
    (lit "min", [lit "minute"]);
    (lit "nov", [lit "november"]);
    (lit "okt", [lit "october"]);
    (lit "sam", [lit "saturday"]);
    (lit "sek", [lit "second"]);
    (lit "sep", [lit "september"]);
    (lit "son", [lit "sunday"]);
    (lit "utc", [lit "utc"]);
    (lit "am", [lit "am"]);
    (lit "pm", [lit "pm"]);
    (lit "st", [lit "hour"]);
    (lit " ", [lit " "]);
    (lit "'", [lit ""]);
    (lit "+", [lit "+"]);
    (lit ",", [lit ""]);
    (lit "-", [lit "-"]);
    (lit ".", [lit "."]);
    (lit "/", [lit "/"]);
    (lit ":", [lit ":"]);
    (lit ";", [lit ""]);
    (lit "@", [lit ""]);
    (lit "[", [lit ""]);
    (lit "]", [lit ""]);
    (lit "d", [lit "day"]);
    (lit "j", [lit "year"]);
    (lit "m", [lit "month"]);
    (lit "w", [lit "week"]);
    (lit "z", [lit "z"]);
    (lit "|", [lit ""])];
    ld_reltype := [(lit "leschte mount", lit "1 month ago");
    (lit "nachste mount", lit "in 1 month");
    (lit "lescht joer", lit "1 year ago");
    (lit "lescht woch", lit "1 week ago");
    (lit "nachst joer", lit "in 1 year");
    (lit "nachst woch", lit "in 1 week");
    (lit "this minute", lit "0 minute ago");
    (lit "dese mount", lit "0 month ago");
    (lit "dest joer", lit "0 year ago");
    (lit "this hour", lit "0 hour ago");
    (lit "des woch", lit "0 week ago");
    (lit "geschter", lit "1 day ago");
    (lit "haut", lit "0 day ago");
    (lit "muer", lit "in 1 day");
    (lit "now", lit "0 second ago")];
    ld_relrx := [(rx "(?i)virun (\d+[.,]?\d*) minutt", lit "$1 minute ago");
    (rx "(?i)virun (\d+[.,]?\d*) sekonn", lit "$1 second ago");
    (rx "(?i)virun (\d+[.,]?\d*) mount", lit "$1 month ago");
    (rx "(?i)virun (\d+[.,]?\d*) stonn", lit "$1 hour ago");
    (rx "(?i)virun (\d+[.,]?\d*) joer", lit "$1 year ago");
    (rx "(?i)virun (\d+[.,]?\d*) woch", lit "$1 week ago");
    (rx "(?i)an (\d+[.,]?\d*) minutt", lit "in $1 minute");
    (rx "(?i)an (\d+[.,]?\d*) sekonn", lit "in $1 second");
    (rx "(?i)virun (\d+[.,]?\d*) dag", lit "$1 day ago");
    (rx "(?i)virun (\d+[.,]?\d*) min", lit "$1 minute ago");
    (rx "(?i)virun (\d+[.,]?\d*) sek", lit "$1 second ago");
    (rx "(?i)an (\d+[.,]?\d*) mount", lit "in $1 month");
    (rx "(?i)an (\d+[.,]?\d*) stonn", lit "in $1 hour");
    (rx "(?i)virun (\d+[.,]?\d*) st", lit "$1 hour ago");
    (rx "(?i)an (\d+[.,]?\d*) joer", lit "in $1 year");
    (rx "(?i)an (\d+[.,]?\d*) woch", lit "in $1 week");
    (rx "(?i)virun (\d+[.,]?\d*) d", lit "$1 day ago");
    (rx "(?i)virun (\d+[.,]?\d*) j", lit "$1 year ago");
    (rx "(?i)virun (\d+[.,]?\d*) m", lit "$1 month ago");
    (rx "(?i)virun (\d+[.,]?\d*) w", lit "$1 week ago");
    (rx "(?i)an (\d+[.,]?\d*) dag", lit "in $1 day");
    (rx "(?i)an (\d+[.,]?\d*) min", lit "in $1 minute");
    (rx "(?i)an (\d+[.,]?\d*) sek", lit "in $1 second");
    (rx "(?i)an (\d+[.,]?\d*) st", lit "in $1 hour");
    (rx "(?i)an (\d+[.,]?\d*) d", lit "in $1 day");
    (rx "(?i)an (\d+[.,]?\d*) j", lit "in $1 year");
    (rx "(?i)an (\d+[.,]?\d*) m", lit "in $1 month");
    (rx "(?i)an (\d+[.,]?\d*) w", lit "in $1 week")];
    ld_rx := Some (rx "(?i)(\A|[^\pL\pM\d]|_)(virun \d+[.,]?\d* minutt|virun \d+[.,]?\d* sekonn|virun \d+[.,]?\d* mount|virun \d+[.,]?\d* stonn|virun \d+[.,]?\d* joer|virun \d+[.,]?\d* woch|an \d+[.,]?\d* minutt|an \d+[.,]?\d* sekonn|virun \d+[.,]?\d* dag|virun \d+[.,]?\d* min|virun \d+[.,]?\d* sek|an \d+[.,]?\d* mount|an \d+[.,]?\d* stonn|virun \d+[.,]?\d* st|an \d+[.,]?\d* joer|an \d+[.,]?\d* woch|virun \d+[.,]?\d* d|virun \d+[.,]?\d* j|virun \d+[.,]?\d* m|virun \d+[.,]?\d* w|an \d+[.,]?\d* dag|an \d+[.,]?\d* min|an \d+[.,]?\d* sek|an \d+[.,]?\d* st|an \d+[.,]?\d* d|an \d+[.,]?\d* j|an \d+[.,]?\d* m|an \d+[.,]?\d* w)(\z|[^\pL\pM\d]|_)");
    ld_rx_exact := Some (rx "(?i)^(virun \d+[.,]?\d* minutt|virun \d+[.,]?\d* sekonn|virun \d+[.,]?\d* mount|virun \d+[.,]?\d* stonn|virun \d+[.,]?\d* joer|virun \d+[.,]?\d* woch|an \d+[.,]?\d* minutt|an \d+[.,]?\d* sekonn|virun \d+[.,]?\d* dag|virun \d+[.,]?\d* min|virun \d+[.,]?\d* sek|an \d+[.,]?\d* mount|an \d+[.,]?\d* stonn|virun \d+[.,]?\d* st|an \d+[.,]?\d* joer|an \d+[.,]?\d* woch|virun \d+[.,]?\d* d|virun \d+[.,]?\d* j|virun \d+[.,]?\d* m|virun \d+[.,]?\d* w|an \d+[.,]?\d* dag|an \d+[.,]?\d* min|an \d+[.,]?\d* sek|an \d+[.,]?\d* st|an \d+[.,]?\d* d|an \d+[.,]?\d* j|an \d+[.,]?\d* m|an \d+[.,]?\d* w)$");
    ld_known := [lit "leschte mount";
    lit "nachste mount";
    lit "donneschdeg";
    lit "lescht joer";
    lit "lescht woch";
    lit "nachst joer";
    lit "nachst woch";
    lit "this minute";
    lit "dese mount";
    lit "denschdeg";
    lit "dest joer";
    lit "samschdeg";
    lit "september";
    lit "this hour";
    lit "des woch";
    lit "dezember";
    lit "geschter";
    lit "mettwoch";
    lit "nomettes";
    lit "november";
    lit "februar";
    lit "freideg";
    lit "meindeg";
    lit "oktober";
    lit "sonndeg";
    lit "abrell";
    lit "august";
    lit "januar";
    lit "minutt";
    lit "sekonn";
    lit "maerz";
    lit "moies";
    lit "mount";
    lit "stonn";
    lit "haut";
    lit "joer";
    lit "juli";
    lit "juni";
    lit "muer";
    lit "woch";
    lit "abr";
    lit "aug";
    lit "dag";
    lit "den";
    lit "dez";
    lit "don";
    lit "feb";
    lit "fre";
    lit "gmt";
    lit "jan";
    lit "jul";
    lit "jun";
    lit "mae";
    lit "mee";
    lit "mei";
    lit "met";
    lit "min";
    lit "nov";
    lit "now";
    lit "okt";
    lit "sam";
    lit "sek";
    lit "sep";
    lit "son";
    lit "utc";
    lit "am";
    lit "pm";
    lit "st";
    lit " ";
    lit "'";
    lit "+";
    lit ",";
    lit "-";
    lit ".";
    lit "/";
    lit ":";
    lit ";";
    lit "@";
    lit "[";
    lit "]";
    lit "d";
    lit "j";
    lit "m";
    lit "w";
    lit "z";
    lit "|"] |}.

(** lg.go:10-96 *)
Definition loc_lg : locale := Eval vm_compute in
  {| ld_name := lit "lg"; ld_order := lit "DMY"; ld_nospacing := false; ld_splitter := 0;
    ld_charset := runes (lit "bcdefghijklnorstuvwxyz");
    ld_abbr := [];
    ld_simpl := [];
    ld_trans := [(lit "lwakutaano", [lit "friday"]);
    (lit "lwamukaaga", [lit "saturday"]);
    (lit "sebuttemba", [lit "september"]);
    (lit "febwaliyo", [lit "february"]);
    (lit "janwaliyo", [lit "january"]);
    (lit "kasikonda", [lit "second"]);
    (lit "lwakubiri", [lit "tuesday"]);
    (lit "lwakusatu", [lit "wednesday"]);
    (lit "okitobba", [lit "october"]);
    (lit "sabbiiti", [lit "week"; lit "sunday"]);
    (lit "agusito", [lit "august"]);
    (lit "dakiika", [lit "minute"]);
    (lit "desemba", [lit "december"]);
    (lit "julaayi", [lit "july"]);
    (lit "lwakuna", [lit "thursday"]);
    (lit "novemba", [lit "november"]);
    (lit "balaza", [lit "monday"]);
    (lit "lunaku", [lit "day"]);
    (lit "marisi", [lit "march"]);
    (lit "apuli", [lit "april"]);
    (lit "juuni", [lit "june"]);
    (lit "maayi", [lit "may"]);
    (lit "mwaka", [lit "year"]);
    (lit "mwezi", [lit "month"]);
    (lit "saawa", [lit "hour"]);
    (lit "agu", [lit "august"]);
    (lit "apu", [lit "april"]);
    (lit "bal", [lit "monday"]);
    (lit "des", [lit "december"]);
    (lit "feb", [lit "february"]);
    (lit "gmt", [lit "gmt"]);
    (lit "jan", [lit "january"]);
    (lit "jul", [lit "july"]);
    (lit "juu", [lit "june"]);
    (lit "lw2", [lit "tuesday"]);
    (lit "lw3", [lit "wednesday"]);
    (lit "lw4", [lit "thursday"]);
    (lit "lw5", [lit "friday"]);
    (lit "lw6", [lit "saturday"]);
    (lit "maa", [lit "may"]);
    (lit "mar", [lit "march"]);
    (lit "nov", [lit "november"]);
    (lit "oki", [lit "october"]);
    (lit "sab", [lit "sunday"]);
    (lit "seb", [lit "september"]);
    (lit "utc", [lit "utc"]);
    (lit "am", [lit "am"]);
    (lit "pm", [lit "pm"]);
    (lit " ", [lit " "]);
    (lit "'", [lit ""]);
    (lit "+", [lit "+"]);
    (lit ",", [lit ""]);
    (lit "-", [lit "-"]);
    (lit ".", [lit "."]);
    (lit "/", [lit "/"]);
    (lit ":", [lit ":"]);
    (lit ";", [lit ""]);
    (lit "@", [lit ""]);
    (lit "[", [lit ""]);
    (lit "]", [lit ""]);
    (lit "z", [lit "z"]);
    (lit "|", [lit ""])];
    ld_reltype := [(lit "this minute", lit "0 minute ago");
    (lit "last month", lit "1 month ago");
    (lit "next month", lit "in 1 month");
    (lit "this month", lit "0 month ago");
    (lit "last week", lit "1 week ago");
    (lit "last year", lit "1 year ago");
    (lit "next week", lit "in 1 week");
    (lit "next year", lit "in 1 year");
    (lit "this hour", lit "0 hour ago");
    (lit "this week", lit "0 week ago");
    (lit "this year", lit "0 year ago");
    (lit "lwaleero", lit "0 day ago");
    (lit "ggulo", lit "1 day ago");
    (lit "nkya", lit "in 1 day");
    (lit "now", lit "0 second ago")];
    ld_relrx := [];
    ld_rx := None;
    ld_rx_exact := None;
    ld_known := [lit "this minute";
    lit "last month";
    lit "lwakutaano";
    lit "lwamukaaga";
    lit "next month";
    lit "sebuttemba";
    lit "this month";
    lit "febwaliyo";
    lit "janwaliyo";
    lit "kasikonda";
    lit "last week";
    lit "last year";
    lit "lwakubiri";
    lit "lwakusatu";
    lit "next week";
    lit "next year";
    lit "this hour";
    lit "this week";
    lit "this year";
    lit "lwaleero";
    lit "okitobba";
    lit "sabbiiti";
    lit "agusito";
    lit "dakiika";
    lit "desemba";
    lit "julaayi";
    lit "lwakuna";
    lit "novemba";
    lit "balaza";
    lit "lunaku";
    lit "marisi";
    lit "apuli";
    lit "ggulo";
    lit "juuni";
    lit "maayi";
    lit "mwaka";
    lit "mwezi";
    lit "saawa";
    lit "nkya";
    lit "agu";
    lit "apu";
    lit "bal";
    lit "des";
    lit "feb";
    lit "gmt";
    lit "jan";
    lit "jul";
    lit "juu";
    lit "lw2";
    lit "lw3";
    lit "lw4";
    lit "lw5";
    lit "lw6";
    lit "maa";
    lit "mar";
    lit "nov";
    lit "now";
    lit "oki";
    lit "sab";
    lit "seb";
    lit "utc";
    lit "am";
    lit "pm";
    lit " ";
    lit "'";
    lit "+";
    lit ",";
    lit "-";
    lit ".";
    lit "/";
    lit ":";
    lit ";";
    lit "@";
    lit "[";
    lit "]";
    lit "z";
    lit "|"] |}.

(** lkt.go:12-98 *)
Definition loc_lkt : locale := Eval vm_compute in
  {| ld_name := lit "lkt"; ld_order := lit "YMD"; ld_nospacing := false; ld_splitter := 0;
    ld_charset := runes (lit "-ceghiklnorstuwyzáéíóúčŋšžǧȟ");
    ld_abbr := [];
    ld_simpl := [];
    ld_trans := [(lit "wipazukha-waste wi", [lit "june"]);
    (lit "chaŋwape-kasna wi", [lit "october"]);
    (lit "istawichayazaŋ wi", [lit "march"]);
    (lit "owaphe oh'aŋkho", [lit "minute"]);
    (lit "thiyoheyuŋka wi", [lit "february"]);
    (lit "chaŋphasapa wi", [lit "july"]);
    (lit "chaŋwapetho wi", [lit "may"]);
    (lit "thahekapsuŋ wi", [lit "december"]);
    (lit "chaŋwapegi wi", [lit "september"]);
    (lit "owaŋgyuzazapi", [lit "saturday"]);
    (lit "wiothehika wi", [lit "january"]);
    (lit "aŋpetuwakhaŋ", [lit "sunday"]);
    (lit "aŋpetuzaptaŋ", [lit "friday"]);
    (lit "aŋpetunuŋpa", [lit "tuesday"]);
    (lit "aŋpetuwaŋzi", [lit "monday"]);
    (lit "aŋpetuyamni", [lit "wednesday"]);
    (lit "phezitho wi", [lit "april"]);
    (lit "waniyetu wi", [lit "november"]);
    (lit "wasuthuŋ wi", [lit "august"]);
    (lit "aŋpetutopa", [lit "thursday"]);
    (lit "aŋpetu", [lit "day"]);
    (lit "omakha", [lit "year"]);
    (lit "owaphe", [lit "hour"]);
    (lit "okpi", [lit "second"]);
    (lit "gmt", [lit "gmt"]);
    (lit "oko", [lit "week"]);
    (lit "utc", [lit "utc"]);
    (lit "am", [lit "am"]);
    (lit "pm", [lit "pm"]);
    (lit "wi", [lit "month"]);
    (lit " ", [lit " "]);
    (lit "'", [lit ""]);
    (lit "+", [lit "+"]);
    (lit ",", [lit ""]);
    (lit "-", [lit "-"]);
    (lit ".", [lit "."]);
    (lit "/", [lit "/"]);
    (lit ":", [lit ":"]);
    (lit ";", [lit ""]);
    (lit "@", [lit ""]);
    (lit "[", [lit ""]);
    (lit "]", [lit ""]);
    (lit "z", [lit "z"]);
    (lit "|", [lit ""])];
    ld_reltype := [(lit "thokata omakha kiŋhaŋ", lit "in 1 year");
    (lit "thokata oko kiŋhaŋ", lit "in 1 week");
    (lit "omakha k'uŋ hehaŋ", lit "1 year ago");
    (lit "thokata wi kiŋhaŋ", lit "in 1 month");
    (lit "hiŋhaŋni kiŋhaŋ", lit "in 1 day");
    (lit "oko k'uŋ hehaŋ", lit "1 week ago");
    (lit "le aŋpetu kiŋ", lit "0 day ago");
    (lit "le omakha kiŋ", lit "0 year ago");
    (lit "wi k'uŋ hehaŋ", lit "1 month ago");
    (lit "this minute", lit "0 minute ago");
    (lit "le oko kiŋ", lit "0 week ago");
    (lit "le wi kiŋ", lit "0 month ago");
    (lit "this hour", lit "0 hour ago");
    (lit "htalehaŋ", lit "1 day ago");
    (lit "now", lit "0 second ago")];
    ld_relrx := [(rx "(?i)hekta oh'aŋkho (\d+[.,]?\d*) k'uŋ hehaŋ", lit "$1 minute ago");
    (rx "(?i)hekta wiyawapi (\d+[.,]?\d*) k'uŋ hehaŋ", lit "$1 month ago");
    (rx "(?i)letaŋhaŋ oh'aŋkho (\d+[.,]?\d*) kiŋhaŋ", lit "in $1 minute");
    (rx "(?i)letaŋhaŋ wiyawapi (\d+[.,]?\d*) kiŋhaŋ", lit "in $1 month");
    (rx "(?i)hekta omakha (\d+[.,]?\d*) k'uŋ hehaŋ", lit "$1 year ago");
    (rx "(?i)hekta owaphe (\d+[.,]?\d*) k'uŋ hehaŋ", lit "$1 hour ago");
    (rx "(?i)letaŋhaŋ omakha (\d+[.,]?\d*) kiŋhaŋ", lit "in $1 year");
    (rx "(?i)letaŋhaŋ owaphe (\d+[.,]?\d*) kiŋhaŋ", lit "in $1 hour");
    (rx "(?i)hekta (\d+[.,]?\d*)-chaŋ k'uŋ hehaŋ", lit "$1 day ago");
    (rx "(?i)hekta okpi (\d+[.,]?\d*) k'uŋ hehaŋ", lit "$1 second ago");
    (rx "(?i)hekta oko (\d+[.,]?\d*) k'uŋ hehaŋ", lit "$1 week ago");
    (rx "(?i)letaŋhaŋ (\d+[.,]?\d*)-chaŋ kiŋhaŋ", lit "in $1 day");
    (rx "(?i)letaŋhaŋ okpi (\d+[.,]?\d*) kiŋhaŋ", lit "in $1 second");
    (rx "(?i)letaŋhaŋ oko (\d+[.,]?\d*) kiŋhaŋ", lit "in $1 week")];
    ld_rx := Some (rx "(?i)(\A|[^\pL\pM\d]|_)(hekta oh'aŋkho \d+[.,]?\d* k'uŋ hehaŋ|hekta wiyawapi \d+[.,]?\d* k'uŋ hehaŋ|letaŋhaŋ oh'aŋkho \d+[.,]?\d* kiŋhaŋ|letaŋhaŋ wiyawapi \d+[.,]?\d* kiŋhaŋ|hekta omakha \d+[.,]?\d* k'uŋ hehaŋ|hekta owaphe \d+[.,]?\d* k'uŋ hehaŋ|letaŋhaŋ omakha \d+[.,]?\d* kiŋhaŋ|letaŋhaŋ owaphe \d+[.,]?\d* kiŋhaŋ|hekta \d+[.,]?\d*-chaŋ k'uŋ hehaŋ|hekta okpi \d+[.,]?\d* k'uŋ hehaŋ|hekta oko \d+[.,]?\d* k'uŋ hehaŋ|letaŋhaŋ \d+[.,]?\d*-chaŋ kiŋhaŋ|letaŋhaŋ okpi \d+[.,]?\d* kiŋhaŋ|letaŋhaŋ oko \d+[.,]?\d* kiŋhaŋ)(\z|[^\pL\pM\d]|_)");
    ld_rx_exact := Some (rx "(?i)^(hekta oh'aŋkho \d+[.,]?\d* k'uŋ hehaŋ|hekta wiyawapi \d+[.,]?\d* k'uŋ hehaŋ|letaŋhaŋ oh'aŋkho \d+[.,]?\d* kiŋhaŋ|letaŋhaŋ wiyawapi \d+[.,]?\d* kiŋhaŋ|hekta omakha \d+[.,]?\d* k'uŋ hehaŋ|hekta owaphe \d+[.,]?\d* k'uŋ hehaŋ|letaŋhaŋ omakha \d+[.,]?\d* kiŋhaŋ|letaŋhaŋ owaphe \d+[.,]?\d* kiŋhaŋ|hekta \d+[.,]?\d*-chaŋ k'uŋ hehaŋ|hekta okpi \d+[.,]?\d* k'uŋ hehaŋ|hekta oko \d+[.,]?\d* k'uŋ hehaŋ|letaŋhaŋ \d+[.,]?\d*-chaŋ kiŋhaŋ|letaŋhaŋ okpi \d+[.,]?\d* kiŋhaŋ|letaŋhaŋ oko \d+[.,]?\d* kiŋhaŋ)$");
    ld_known := [lit "thokata omakha kiŋhaŋ";
    lit "thokata oko kiŋhaŋ";
    lit "wipazukha-waste wi";
    lit "chaŋwape-kasna wi";
    lit "istawichayazaŋ wi";
    lit "omakha k'uŋ hehaŋ";
    lit "thokata wi kiŋhaŋ";
    lit "hiŋhaŋni kiŋhaŋ";
    lit "owaphe oh'aŋkho";
    lit "thiyoheyuŋka wi";
    lit "chaŋphasapa wi";
    lit "chaŋwapetho wi";
    lit "oko k'uŋ hehaŋ";
    lit "thahekapsuŋ wi";
    lit "chaŋwapegi wi";
    lit "le aŋpetu kiŋ";
    lit "le omakha kiŋ";
    lit "owaŋgyuzazapi";
    lit "wi k'uŋ hehaŋ";
    lit "wiothehika wi";
    lit "aŋpetuwakhaŋ";
    lit "aŋpetuzaptaŋ";
    lit "aŋpetunuŋpa";
    lit "aŋpetuwaŋzi";
    lit "aŋpetuyamni";
    lit "phezitho wi";
    lit "this minute";
    lit "waniyetu wi";
    lit "wasuthuŋ wi";
    lit "aŋpetutopa";
    lit "le oko kiŋ";
    lit "le wi kiŋ";
    lit "this hour";
    lit "htalehaŋ";
    lit "aŋpetu";
    lit "omakha";
    lit "owaphe";
    lit "okpi";
    lit "gmt";
    lit "now";
    lit "oko";
    lit "utc";
    lit "am";
    lit "pm";
    lit "wi";
    lit " ";
    lit "'";
    lit "+";
    lit ",";
    lit "-";
    lit ".";
    lit "/";
    lit ":";
    lit ";";
    lit "@";
    lit "[";
    lit "]";
    lit "z";
    lit "|"] |}.

(** ln.go:13-102 *)
Definition loc_ln : locale := Eval vm_compute in
  {| ld_name := lit "ln"; ld_order := lit "DMY"; ld_nospacing := false; ld_splitter := 0;
    ld_charset := runes (lit "bcdefghiklnorstuvwxyzáâéíóúɔɛ́̌");
    ld_abbr := [];
    ld_simpl := [];
    ld_trans := [(lit "sanza ya zomi na mibale", [lit "december"]);
    (lit "sanza ya zomi na mɔkɔ", [lit "november"]);
    (lit "mokɔlɔ mwa mibale", [lit "tuesday"]);
    (lit "mokɔlɔ mwa misato", [lit "wednesday"]);
    (lit "mokɔlɔ mwa yambo", [lit "monday"]);
    (lit "mokɔlɔ ya mitano", [lit "friday"]);
    (lit "mokɔlɔ ya minei", [lit "thursday"]);
    (lit "sanza ya mibale", [lit "february"]);
    (lit "sanza ya misato", [lit "march"]);
    (lit "sanza ya mitano", [lit "may"]);
    (lit "sanza ya motoba", [lit "june"]);
    (lit "sanza ya mwambe", [lit "august"]);
    (lit "sanza ya nsambo", [lit "july"]);
    (lit "sanza ya libwa", [lit "september"]);
    (lit "sanza ya minei", [lit "april"]);
    (lit "sanza ya yambo", [lit "january"]);
    (lit "sanza ya zomi", [lit "october"]);
    (lit "sɛkɔndɛ", [lit "second"]);
    (lit "eyenga", [lit "sunday"]);
    (lit "mokɔlɔ", [lit "day"]);
    (lit "monuti", [lit "minute"]);
    (lit "mpokwa", [lit "pm"]);
    (lit "ngonga", [lit "hour"]);
    (lit "ntɔngɔ", [lit "am"]);
    (lit "mpɔsɔ", [lit "saturday"]);
    (lit "sanza", [lit "month"]);
    (lit "mobu", [lit "year"]);
    (lit "pɔsɔ", [lit "week"]);
    (lit "agt", [lit "august"]);
    (lit "apl", [lit "april"]);
    (lit "dsb", [lit "december"]);
    (lit "eye", [lit "sunday"]);
    (lit "fbl", [lit "february"]);
    (lit "gmt", [lit "gmt"]);
    (lit "mai", [lit "may"]);
    (lit "mbl", [lit "tuesday"]);
    (lit "min", [lit "thursday"]);
    (lit "mps", [lit "saturday"]);
    (lit "msi", [lit "march"]);
    (lit "mst", [lit "wednesday"]);
    (lit "mtn", [lit "friday"]);
    (lit "nvb", [lit "november"]);
    (lit "stb", [lit "september"]);
    (lit "utc", [lit "utc"]);
    (lit "yan", [lit "january"]);
    (lit "ybo", [lit "monday"]);
    (lit "yul", [lit "july"]);
    (lit "yun", [lit "june"]);
    (lit "ɔtb", [lit "october"]);
    (lit "am", [lit "am"]);
    (lit "pm", [lit "pm"]);
    (lit " ", [lit " "]);
    (lit "'", [lit ""]);
    (lit "+", [lit "+"]);
    (lit ",", [lit ""]);
    (lit "-", [lit "-"]);
    (lit ".", [lit "."]);
    (lit "/", [lit "/"]);
    (lit ":", [lit ":"]);
    (lit ";", [lit ""]);
    (lit "@", [lit ""]);
    (lit "[", [lit ""]);
    (lit "]", [lit ""]);
    (lit "z", [lit "z"]);
    (lit "|", [lit ""])];
    ld_reltype := [(lit "this minute", lit "0 minute ago");
    (lit "last month", lit "1 month ago");
    (lit "lobi ekoya", lit "in 1 day");
    (lit "lobi eleki", lit "1 day ago");
    (lit "next month", lit "in 1 month");
    (lit "this month", lit "0 month ago");
    (lit "last week", lit "1 week ago");
    (lit "last year", lit "1 year ago");
    (lit "next week", lit "in 1 week");
    (lit "next year", lit "in 1 year");
    (lit "this hour", lit "0 hour ago");
    (lit "this week", lit "0 week ago");
    (lit "this year", lit "0 year ago");
    (lit "lɛlɔ", lit "0 day ago");
    (lit "now", lit "0 second ago")];
    ld_relrx := [];
    ld_rx := None;
    ld_rx_exact := None;
    ld_known := [lit "sanza ya zomi na mibale";
    lit "sanza ya zomi na mɔkɔ";
    lit "mokɔlɔ mwa mibale";
    lit "mokɔlɔ mwa misato";
    lit "mokɔlɔ mwa yambo";
    lit "mokɔlɔ ya mitano";
    lit "mokɔlɔ ya minei";
    lit "sanza ya mibale";
    lit "sanza ya misato";
    lit "sanza ya mitano";
    lit "sanza ya motoba";
    lit "sanza ya mwambe";
    lit "sanza ya nsambo";
    lit "sanza ya libwa";
    lit "sanza ya minei";
    lit "sanza ya yambo";
    lit "sanza ya zomi";
    lit "this minute";
    lit "last month";
    lit "lobi ekoya";
    lit "lobi eleki";
    lit "next month";
    lit "this month";
    lit "last week";
    lit "last year";
    lit "next week";
    lit "next year";
    lit "this hour";
    lit "this week";
    lit "this year";
    lit "sɛkɔndɛ";
    lit "eyenga";
    lit "mokɔlɔ";
    lit "monuti";
    lit "mpokwa";
    lit "ngonga";
    lit "ntɔngɔ";
    lit "mpɔsɔ";
    lit "sanza";
    lit "lɛlɔ";
    lit "mobu";
    lit "pɔsɔ";
    lit "agt";
    lit "apl";
    lit "dsb";
    lit "eye";
    lit "fbl";
    lit "gmt";
    lit "mai";
    lit "mbl";
    lit "min";
    lit "mps";
    lit "msi";
    lit "mst";
    lit "mtn";
    lit "now";
    lit "nvb";
    lit "stb";
    lit "utc";
    lit "yan";
    lit "ybo";
    lit "yul";
    lit "yun";
    lit "ɔtb";
    lit "am";
    lit "pm";
    lit " ";
    lit "'";
    lit "+";
    lit ",";
    lit "-";
    lit ".";
    lit "/";
    lit ":";
    lit ";";
    lit "@";
    lit "[";
    lit "]";
    lit "z";
    lit "|"] |}.

(** ln.go:104-107 *)
Definition own_ln_AO : locale := Eval vm_compute in
  {| ld_name := lit "ln-AO"; ld_order := lit "DMY"; ld_nospacing := false; ld_splitter := 0;
    ld_charset := runes (lit "");
    ld_abbr := [];
    ld_simpl := [];
    ld_trans := [];
    ld_reltype := [];
    ld_relrx := [];
    ld_rx := None;
    ld_rx_exact := None;
    ld_known := [] |}.
Definition loc_ln_AO : locale := merge loc_ln own_ln_AO.

(** ln.go:109-112 *)
Definition own_ln_CF : locale := Eval vm_compute in
  {| ld_name := lit "ln-CF"; ld_order := lit "DMY"; ld_nospacing := false; ld_splitter := 0;
    ld_charset := runes (lit "");
    ld_abbr := [];
    ld_simpl := [];
    ld_trans := [];
    ld_reltype := [];
    ld_relrx := [];
    ld_rx := None;
    ld_rx_exact := None;
    ld_known := [] |}.
Definition loc_ln_CF : locale := merge loc_ln own_ln_CF.

(** ln.go:114-117 *)
Definition own_ln_CG : locale := Eval vm_compute in
  {| ld_name := lit "ln-CG"; ld_order := lit "DMY"; ld_nospacing := false; ld_splitter := 0;
    ld_charset := runes (lit "");
    ld_abbr := [];
    ld_simpl := [];
    ld_trans := [];
    ld_reltype := [];
    ld_relrx := [];
    ld_rx := None;
    ld_rx_exact := None;
    ld_known := [] |}.
Definition loc_ln_CG : locale := merge loc_ln own_ln_CG.

(** lo.go:12-133 *)
Definition loc_lo : locale := Eval vm_compute in
  {| ld_name := lit "lo"; ld_order := lit "DMY"; ld_nospacing := false; ld_splitter := 0;
    ld_charset := runes (lit "cgtuzກຄງຈຊຍດຕຖທນປພມລວສຫອະັາິີຶືຸົຼຽເແໂ່້ໍ");
    ld_abbr := [];
    ld_simpl := [];
    ld_trans := [(lit "ວນອງຄານ", [lit "tuesday"]);
    (lit "ກອນທຽງ", [lit "am"]);
    (lit "ພດສະພາ", [lit "may"]);
    (lit "ວນພະຫດ", [lit "thursday"]);
    (lit "ວນອາທດ", [lit "sunday"]);
    (lit "ກລະກດ", [lit "july"]);
    (lit "ຊວໂມງ", [lit "hour"]);
    (lit "ມງກອນ", [lit "january"]);
    (lit "ວນເສາ", [lit "saturday"]);
    (lit "ຫງທຽງ", [lit "pm"]);
    (lit "ອງຄານ", [lit "tuesday"]);
    (lit "ກນຍາ", [lit "september"]);
    (lit "ກມພາ", [lit "february"]);
    (lit "ທນວາ", [lit "december"]);
    (lit "ພະຈກ", [lit "november"]);
    (lit "ພະຫດ", [lit "thursday"]);
    (lit "ມຖນາ", [lit "june"]);
    (lit "ວນຈນ", [lit "monday"]);
    (lit "ວນພດ", [lit "wednesday"]);
    (lit "ວນສກ", [lit "friday"]);
    (lit "ວນາທ", [lit "second"]);
    (lit "ສງຫາ", [lit "august"]);
    (lit "ອາທດ", [lit "week"; lit "sunday"]);
    (lit "ເດອນ", [lit "month"]);
    (lit "ເມສາ", [lit "april"]);
    (lit "gmt", [lit "gmt"]);
    (lit "utc", [lit "utc"]);
    (lit "ຕລາ", [lit "october"]);
    (lit "ນາທ", [lit "minute"]);
    (lit "ມນາ", [lit "march"]);
    (lit "ເສາ", [lit "saturday"]);
    (lit "am", [lit "am"]);
    (lit "pm", [lit "pm"]);
    (lit "ກຍ", [lit "september"]);
    (lit "ກພ", [lit "february"]);
    (lit "ກລ", [lit "july"]);
    (lit "ຈນ", [lit "monday"]);
    (lit "ຊມ", [lit "hour"]);
    (lit "ຕລ", [lit "october"]);
    (lit "ທວ", [lit "december"]);
    (lit "ນທ", [lit "minute"]);
    (lit "ພຈ", [lit "november"]);
    (lit "ພດ", [lit "wednesday"]);
    (lit "ພພ", [lit "may"]);
    (lit "ມກ", [lit "january"]);
    (lit "ມຖ", [lit "june"]);
    (lit "ມນ", [lit "march"]);
    (lit "ມສ", [lit "april"]);
    (lit "ສກ", [lit "friday"]);
    (lit "ສຫ", [lit "august"]);
    (lit " ", [lit " "]);
    (lit "'", [lit ""]);
    (lit "+", [lit "+"]);
    (lit ",", [lit ""]);
    (lit "-", [lit "-"]);
    (lit ".", [lit "."]);
    (lit "/", [lit "/"]);
    (lit ":", [lit ":"]);
    (lit ";", [lit ""]);
    (lit "@", [lit ""]);
    (lit "[", [lit ""]);
    (lit "]", [lit ""]);
    (lit "z", [lit "z"]);
    (lit "|", [lit ""]);
    (lit "ດ", [lit "month"]);
    (lit "ປ", [lit "year"]);
    (lit "ມ", [lit "day"]);
    (lit "ວ", [lit "second"]);
    (lit "ອ", [lit "week"])];
    ld_reltype := [(lit "ອາທດຫນາ", lit "in 1 week");
    (lit "ອາທດແລວ", lit "1 week ago");
    (lit "ເດອນຫນາ", lit "in 1 month");
    (lit "ເດອນແລວ", lit "1 month ago");
    (lit "ຊວໂມງນ", lit "0 hour ago");
    (lit "ອາທດນ", lit "0 week ago");
    (lit "ເດອນນ", lit "0 month ago");
    (lit "ຕອນນ", lit "0 second ago");
    (lit "ນາທນ", lit "0 minute ago");
    (lit "ປກາຍ", lit "1 year ago");
    (lit "ປຫນາ", lit "in 1 year");
    (lit "ມວານ", lit "1 day ago");
    (lit "ມອນ", lit "in 1 day");
    (lit "ປນ", lit "0 year ago");
    (lit "ມນ", lit "0 day ago")];
    ld_relrx := [(rx "(?i)(\d+[.,]?\d*) ໃນອກ 0 ນາທ", lit "in $1 minute");
    (rx "(?i)ໃນອກ (\d+[.,]?\d*) ຊວໂມງ", lit "in $1 hour");
    (rx "(?i)ໃນອກ (\d+[.,]?\d*) ວນາທ", lit "in $1 second");
    (rx "(?i)ໃນອກ (\d+[.,]?\d*) ອາທດ", lit "in $1 week");
    (rx "(?i)ໃນອກ (\d+[.,]?\d*) ເດອນ", lit "in $1 month");
    (rx "(?i)(\d+[.,]?\d*) ຊວໂມງກອນ", lit "$1 hour ago");
    (rx "(?i)(\d+[.,]?\d*) ວນາທກອນ", lit "$1 second ago");
    (rx "(?i)(\d+[.,]?\d*) ອາທດກອນ", lit "$1 week ago");
    (rx "(?i)(\d+[.,]?\d*) ເດອນກອນ", lit "$1 month ago");
    (rx "(?i)ໃນອກ (\d+[.,]?\d*) ຊມ", lit "in $1 hour");
    (rx "(?i)ໃນອກ (\d+[.,]?\d*) ອທ", lit "in $1 week");
    (rx "(?i)(\d+[.,]?\d*) ຊມ ກອນ", lit "$1 hour ago");
    (rx "(?i)(\d+[.,]?\d*) ນທ ກອນ", lit "$1 minute ago");
    (rx "(?i)(\d+[.,]?\d*) ນາທກອນ", lit "$1 minute ago");
    (rx "(?i)(\d+[.,]?\d*) ອທ ກອນ", lit "$1 week ago");
    (rx "(?i)ໃນອກ (\d+[.,]?\d*) ດ", lit "in $1 month");
    (rx "(?i)ໃນອກ (\d+[.,]?\d*) ປ", lit "in $1 year");
    (rx "(?i)ໃນອກ (\d+[.,]?\d*) ມ", lit "in $1 day");
    (rx "(?i)(\d+[.,]?\d*) ດ ກອນ", lit "$1 month ago");
    (rx "(?i)(\d+[.,]?\d*) ວ ກອນ", lit "$1 second ago");
    (rx "(?i)ໃນ (\d+[.,]?\d*) ນທ", lit "in $1 minute");
    (rx "(?i)(\d+[.,]?\d*) ປກອນ", lit "$1 year ago");
    (rx "(?i)(\d+[.,]?\d*) ມກອນ", lit "$1 day ago");
    (rx "(?i)ໃນ (\d+[.,]?\d*) ວ", lit "in $1 second")];
    ld_rx := Some (rx "(?i)(\A|[^\pL\pM\d]|_)(\d+[.,]?\d* ໃນອກ 0 ນາທ|ໃນອກ \d+[.,]?\d* ຊວໂມງ|ໃນອກ \d+[.,]?\d* ວນາທ|ໃນອກ \d+[.,]?\d* ອາທດ|ໃນອກ \d+[.,]?\d* ເດອນ|\d+[.,]?\d* ຊວໂມງກອນ|\d+[.,]?\d* ວນາທກອນ|\d+[.,]?\d* ອາທດກອນ|\d+[.,]?\d* ເດອນກອນ|ໃນອກ \d+[.,]?\d* ຊມ|ໃນອກ \d+[.,]?\d* ອທ|\d+[.,]?\d* ຊມ ກອນ|\d+[.,]?\d* ນທ ກອນ|\d+[.,]?\d* ນາທກອນ|\d+[.,]?\d* ອທ ກອນ|ໃນອກ \d+[.,]?\d* ດ|ໃນອກ \d+[.,]?\d* ປ|ໃນອກ \d+[.,]?\d* ມ|\d+[.,]?\d* ດ ກອນ|\d+[.,]?\d* ວ ກອນ|ໃນ \d+[.,]?\d* ນທ|\d+[.,]?\d* ປກອນ|\d+[.,]?\d* ມກອນ|ໃນ \d+[.,]?\d* ວ)(\z|[^\pL\pM\d]|_)");
    ld_rx_exact := Some (rx "(?i)^(\d+[.,]?\d* ໃນອກ 0 ນາທ|ໃນອກ \d+[.,]?\d* ຊວໂມງ|ໃນອກ \d+[.,]?\d* ວນາທ|ໃນອກ \d+[.,]?\d* ອາທດ|ໃນອກ \d+[.,]?\d* ເດອນ|\d+[.,]?\d* ຊວໂມງກອນ|\d+[.,]?\d* ວນາທກອນ|\d+[.,]?\d* ອາທດກອນ|\d+[.,]?\d* ເດອນກອນ|ໃນອກ \d+[.,]?\d* ຊມ|ໃນອກ \d+[.,]?\d* ອທ|\d+[.,]?\d* ຊມ ກອນ|\d+[.,]?\d* ນທ ກອນ|\d+[.,]?\d* ນາທກອນ|\d+[.,]?\d* ອທ ກອນ|ໃນອກ \d+[.,]?\d* ດ|ໃນອກ \d+[.,]?\d* ປ|ໃນອກ \d+[.,]?\d* ມ|\d+[.,]?\d* ດ ກອນ|\d+[.,]?\d* ວ ກອນ|ໃນ \d+[.,]?\d* ນທ|\d+[.,]?\d* ປກອນ|\d+[.,]?\d* ມກອນ|ໃນ \d+[.,]?\d* ວ)$");
    ld_known := [lit "ວນອງຄານ";
    lit "ອາທດຫນາ";
    lit "ອາທດແລວ";
    lit "ເດອນຫນາ";
    lit "ເດອນແລວ";
    lit "ກອນທຽງ";
    lit "ຊວໂມງນ";
    lit "ພດສະພາ";
    lit "ວນພະຫດ";
    lit "ວນອາທດ";
    lit "ກລະກດ";
    lit "ຊວໂມງ";
    lit "ມງກອນ";
    lit "ວນເສາ";
    lit "ຫງທຽງ";
    lit "ອງຄານ";
    lit "ອາທດນ";
    lit "ເດອນນ";
    lit "ກນຍາ";
    lit "ກມພາ";
    lit "ຕອນນ";
    lit "ທນວາ";
    lit "ນາທນ";
    lit "ປກາຍ";
    lit "ປຫນາ";
    lit "ພະຈກ";
    lit "ພະຫດ";
    lit "ມຖນາ";
    lit "ມວານ";
    lit "ວນຈນ";
    lit "ວນພດ";
    lit "ວນສກ";
    lit "ວນາທ";
    lit "ສງຫາ";
    lit "ອາທດ";
    lit "ເດອນ";
    lit "ເມສາ";
    lit "gmt";
    lit "utc";
    lit "ຕລາ";
    lit "ນາທ";
    lit "ມນາ";
    lit "ມອນ";
    lit "ເສາ";
    lit "am";
    lit "pm";
    lit "ກຍ";
    lit "ກພ";
    lit "ກລ";
    lit "ຈນ";
    lit "ຊມ";
    lit "ຕລ";
    lit "ທວ";
    lit "ນທ";
    lit "ປນ";
    lit "ພຈ";
    lit "ພດ";
    lit "ພພ";
    lit "ມກ";
    lit "ມຖ";
    lit "ມນ";
    lit "ມສ";
    lit "ສກ";
    lit "ສຫ";
    lit " ";
    lit "'";
    lit "+";
    lit ",";
    lit "-";
    lit ".";
    lit "/";
    lit ":";
    lit ";";
    lit "@";
    lit "[";
    lit "]";
    lit "z";
    lit "|";
    lit "ດ";
    lit "ປ";
    lit "ມ";
    lit "ວ";
    lit "ອ"] |}.

(** lrc.go:11-79 *)
Definition loc_lrc : locale := Eval vm_compute in
  {| ld_name := lit "lrc"; ld_order := lit "YMD"; ld_nospacing := false; ld_splitter := 0;
    ld_charset := runes (lit "cdefghiklnorstuwxyzآأئاتثجدرزسشصفقلمنويٙپڤکگھیە");
    ld_abbr := [];
    ld_simpl := [];
    ld_trans := [(lit "سيپتامر", [lit "september"]);
    (lit "يوکتوڤر", [lit "october"]);
    (lit "جانڤیە", [lit "january"]);
    (lit "ديسامر", [lit "december"]);
    (lit "فيڤریە", [lit "february"]);
    (lit "نوڤامر", [lit "november"]);
    (lit "اڤریل", [lit "april"]);
    (lit "اگوست", [lit "august"]);
    (lit "ثانیە", [lit "second"]);
    (lit "ديیقە", [lit "minute"]);
    (lit "ھافتە", [lit "week"]);
    (lit "جوان", [lit "june"]);
    (lit "جولا", [lit "july"]);
    (lit "ساات", [lit "hour"]);
    (lit "مارس", [lit "march"]);
    (lit "fri", [lit "friday"]);
    (lit "gmt", [lit "gmt"]);
    (lit "mon", [lit "monday"]);
    (lit "sat", [lit "saturday"]);
    (lit "sun", [lit "sunday"]);
    (lit "thu", [lit "thursday"]);
    (lit "tue", [lit "tuesday"]);
    (lit "utc", [lit "utc"]);
    (lit "wed", [lit "wednesday"]);
    (lit "روز", [lit "day"]);
    (lit "سال", [lit "year"]);
    (lit "ميی", [lit "may"]);
    (lit "am", [lit "am"]);
    (lit "pm", [lit "pm"]);
    (lit "ما", [lit "month"]);
    (lit " ", [lit " "]);
    (lit "'", [lit ""]);
    (lit "+", [lit "+"]);
    (lit ",", [lit ""]);
    (lit "-", [lit "-"]);
    (lit ".", [lit "."]);
    (lit "/", [lit "/"]);
    (lit ":", [lit ":"]);
    (lit ";", [lit ""]);
    (lit "@", [lit ""]);
    (lit "[", [lit ""]);
    (lit "]", [lit ""]);
    (lit "z", [lit "z"]);
    (lit "|", [lit ""])];
    ld_reltype := [(lit "this minute", lit "0 minute ago");
    (lit "last month", lit "1 month ago");
    (lit "next month", lit "in 1 month");
    (lit "this month", lit "0 month ago");
    (lit "last week", lit "1 week ago");
    (lit "last year", lit "1 year ago");
    (lit "next week", lit "in 1 week");
    (lit "next year", lit "in 1 year");
    (lit "this hour", lit "0 hour ago");
    (lit "this week", lit "0 week ago");
    (lit "this year", lit "0 year ago");
    (lit "دیروز", lit "1 day ago");
    (lit "امرو", lit "0 day ago");
    (lit "شوصو", lit "in 1 day");
    (lit "now", lit "0 second ago")];
    ld_relrx := [];
    ld_rx := None;
    ld_rx_exact := None;
    ld_known := [lit "this minute";
    lit "last month";
    lit "next month";
    lit "this month";
    lit "last week";
    lit "last year";
    lit "next week";
    lit "next year";
    lit "this hour";
    lit "this week";
    lit "this year";
    lit "سيپتامر";
    lit "يوکتوڤر";
    lit "جانڤیە";
    lit "ديسامر";
    lit "فيڤریە";
    lit "نوڤامر";
    lit "اڤریل";
    lit "اگوست";
    lit "ثانیە";
    lit "ديیقە";
    lit "دیروز";
    lit "ھافتە";
    lit "امرو";
    lit "جوان";
    lit "جولا";
    lit "ساات";
    lit "شوصو";
    lit "مارس";
    lit "fri";
    lit "gmt";
    lit "mon";
    lit "now";
    lit "sat";
    lit "sun";
    lit "thu";
    lit "tue";
    lit "utc";
    lit "wed";
    lit "روز";
    lit "سال";
    lit "ميی";
    lit "am";
    lit "pm";
    lit "ما";
    lit " ";
    lit "'";
    lit "+";
    lit ",";
    lit "-";
    lit ".";
    lit "/";
    lit ":";
    lit ";";
    lit "@";
    lit "[";
    lit "]";
    lit "z";
    lit "|"] |}.

(** lrc.go:81-84 *)
Definition own_lrc_IQ : locale := Eval vm_compute in
  {| ld_name := lit "lrc-IQ"; ld_order := lit "YMD"; ld_nospacing := false; ld_splitter := 0;
    ld_charset := runes (lit "");
    ld_abbr := [];
    ld_simpl := [];
    ld_trans := [];
    ld_reltype := [];
    ld_relrx := [];
    ld_rx := None;
    ld_rx_exact := None;
    ld_known := [] |}.
Definition loc_lrc_IQ : locale := merge loc_lrc own_lrc_IQ.

(** lt.go:12-169 *)
Definition loc_lt : locale := Eval vm_compute in
  {| ld_name := lit "lt"; ld_order := lit "YMD"; ld_nospacing := false; ld_splitter := 0;
    ld_charset := runes (lit "bcdeghijklnorstuvyząčėęįšūž");
    ld_abbr := [];
    ld_simpl := [];
    ld_trans := [(lit "ketvirtadienis", [lit "thursday"]);
    (lit "penktadienis", [lit "friday"]);
    (lit "treciadienis", [lit "wednesday"]);
    (lit "antradienis", [lit "tuesday"]);
    (lit "pirmadienis", [lit "monday"]);
    (lit "sekmadienis", [lit "sunday"]);
    (lit "sestadienis", [lit "saturday"]);
    (lit "balandzio", [lit "april"]);
    (lit "lapkricio", [lit "november"]);
    (lit "lapkritis", [lit "november"]);
    (lit "priespiet", [lit "am"]);
    (lit "rugpjucio", [lit "august"]);
    (lit "rugpjutis", [lit "august"]);
    (lit "balandis", [lit "april"]);
    (lit "birzelio", [lit "june"]);
    (lit "birzelis", [lit "june"]);
    (lit "gruodzio", [lit "december"]);
    (lit "rugsejis", [lit "september"]);
    (lit "geguzes", [lit "may"]);
    (lit "gruodis", [lit "december"]);
    (lit "rugsejo", [lit "september"]);
    (lit "savaite", [lit "week"]);
    (lit "sekunde", [lit "second"]);
    (lit "valanda", [lit "hour"]);
    (lit "vasario", [lit "february"]);
    (lit "vasaris", [lit "february"]);
    (lit "geguze", [lit "may"]);
    (lit "liepos", [lit "july"]);
    (lit "minute", [lit "minute"]);
    (lit "popiet", [lit "pm"]);
    (lit "sausio", [lit "january"]);
    (lit "sausis", [lit "january"]);
    (lit "spalio", [lit "october"]);
    (lit "spalis", [lit "october"]);
    (lit "diena", [lit "day"]);
    (lit "gruod", [lit "december"]);
    (lit "kovas", [lit "march"]);
    (lit "lapkr", [lit "november"]);
    (lit "liepa", [lit "july"]);
    (lit "menuo", [lit "month"]);
    (lit "metai", [lit "year"]);
    (lit "birz", [lit "june"]);
    (lit "kovo", [lit "march"]);
    (lit "liep", [lit "july"]);
    (lit "rugp", [lit "august"]);
    (lit "rugs", [lit "september"]);
    (lit "saus", [lit "january"]);
    (lit "spal", [lit "october"]);
    (lit "bal", [lit "april"]);
    (lit "geg", [lit "may"]);
    (lit "gmt", [lit "gmt"]);
    (lit "kov", [lit "march"]);
    (lit "men", [lit "month"]);
    (lit "min", [lit "minute"]);
    (lit "sav", [lit "week"]);
    (lit "sek", [lit "second"]);
    (lit "utc", [lit "utc"]);
    (lit "val", [lit "hour"]);
    (lit "vas", [lit "february"]);
    (lit "am", [lit "am"]);
    (lit "an", [lit "tuesday"]);
    (lit "kt", [lit "thursday"]);
    (lit "pm", [lit "pm"]);
    (lit "pn", [lit "friday"]);
    (lit "pr", [lit "monday"]);
    (lit "sk", [lit "sunday"]);
    (lit "st", [lit "saturday"]);
    (lit "tr", [lit "wednesday"]);
    (lit " ", [lit " "]);
    (lit "'", [lit ""]);
    (lit "+", [lit "+"]);
    (lit ",", [lit ""]);
    (lit "-", [lit "-"]);
    (lit ".", [lit "."]);
    (lit "/", [lit "/"]);
    (lit ":", [lit ":"]);
    (lit ";", [lit ""]);
    (lit "@", [lit ""]);
    (lit "[", [lit ""]);
    (lit "]", [lit ""]);
    (lit "d", [lit "day"]);
    (lit "h", [lit "hour"]);
    (lit "m", [lit "year"]);
    (lit "s", [lit "second"]);
    (lit "z", [lit "z"]);
    (lit "|", [lit ""])];
    ld_reltype := [(lit "praejusiais metais", lit "1 year ago");
    (lit "praejusia savaite", lit "1 week ago");
    (lit "praejusi menesi", lit "1 month ago");
    (lit "kitais metais", lit "in 1 year");
    (lit "kita savaite", lit "in 1 week");
    (lit "siais metais", lit "0 year ago");
    (lit "kita menesi", lit "in 1 month");
    (lit "sia savaite", lit "0 week ago");
    (lit "sia valanda", lit "0 hour ago");
    (lit "sia minute", lit "0 minute ago");
    (lit "si menesi", lit "0 month ago");
    (lit "siandien", lit "0 day ago");
    (lit "dabar", lit "0 second ago");
    (lit "rytoj", lit "in 1 day");
    (lit "vakar", lit "1 day ago")];
    ld_relrx := [(rx "(?i)pries (\d+[.,]?\d*) sekundziu", lit "$1 second ago");
    (rx "(?i)pries (\d+[.,]?\d*) savaiciu", lit "$1 week ago");
    (rx "(?i)pries (\d+[.,]?\d*) menesiu", lit "$1 month ago");
    (rx "(?i)pries (\d+[.,]?\d*) minuciu", lit "$1 minute ago");
    (rx "(?i)pries (\d+[.,]?\d*) savaite", lit "$1 week ago");
    (rx "(?i)pries (\d+[.,]?\d*) sekunde", lit "$1 second ago");
    (rx "(?i)pries (\d+[.,]?\d*) valanda", lit "$1 hour ago");
    (rx "(?i)pries (\d+[.,]?\d*) valandu", lit "$1 hour ago");
    (rx "(?i)po (\d+[.,]?\d*) sekundziu", lit "in $1 second");
    (rx "(?i)pries (\d+[.,]?\d*) menesi", lit "$1 month ago");
    (rx "(?i)pries (\d+[.,]?\d*) minute", lit "$1 minute ago");
    (rx "(?i)po (\d+[.,]?\d*) savaiciu", lit "in $1 week");
    (rx "(?i)po (\d+[.,]?\d*) savaites", lit "in $1 week");
    (rx "(?i)po (\d+[.,]?\d*) sekundes", lit "in $1 second");
    (rx "(?i)po (\d+[.,]?\d*) valandos", lit "in $1 hour");
    (rx "(?i)pries (\d+[.,]?\d*) diena", lit "$1 day ago");
    (rx "(?i)pries (\d+[.,]?\d*) dienu", lit "$1 day ago");
    (rx "(?i)pries (\d+[.,]?\d*) metus", lit "$1 year ago");
    (rx "(?i)po (\d+[.,]?\d*) menesio", lit "in $1 month");
    (rx "(?i)po (\d+[.,]?\d*) menesiu", lit "in $1 month");
    (rx "(?i)po (\d+[.,]?\d*) minuciu", lit "in $1 minute");
    (rx "(?i)po (\d+[.,]?\d*) minutes", lit "in $1 minute");
    (rx "(?i)po (\d+[.,]?\d*) valandu", lit "in $1 hour");
    (rx "(?i)pries (\d+[.,]?\d*) metu", lit "$1 year ago");
    (rx "(?i)po (\d+[.,]?\d*) dienos", lit "in $1 day");
    (rx "(?i)pries (\d+[.,]?\d*) men", lit "$1 month ago");
    (rx "(?i)pries (\d+[.,]?\d*) min", lit "$1 minute ago");
    (rx "(?i)pries (\d+[.,]?\d*) sav", lit "$1 week ago");
    (rx "(?i)pries (\d+[.,]?\d*) sek", lit "$1 second ago");
    (rx "(?i)pries (\d+[.,]?\d*) val", lit "$1 hour ago");
    (rx "(?i)po (\d+[.,]?\d*) dienu", lit "in $1 day");
    (rx "(?i)po (\d+[.,]?\d*) metu", lit "in $1 year");
    (rx "(?i)pries (\d+[.,]?\d*) d", lit "$1 day ago");
    (rx "(?i)pries (\d+[.,]?\d*) m", lit "$1 year ago");
    (rx "(?i)pries (\d+[.,]?\d*) s", lit "$1 second ago");
    (rx "(?i)po (\d+[.,]?\d*) men", lit "in $1 month");
    (rx "(?i)po (\d+[.,]?\d*) min", lit "in $1 minute");
    (rx "(?i)po (\d+[.,]?\d*) sav", lit "in $1 week");
    (rx "(?i)po (\d+[.,]?\d*) sek", lit "in $1 second");
    (rx "(?i)po (\d+[.,]?\d*) val", lit "in $1 hour");
    (rx "(?i)po (\d+[.,]?\d*) d", lit "in $1 day");
    (rx "(?i)po (\d+[.,]?\d*) m", lit "in $1 year");
    (rx "(?i)po (\d+[.,]?\d*) s", lit "in $1 second")];
    ld_rx := Some (rx "(?i)(\A|[^\pL\pM\d]|_)(pries \d+[.,]?\d* sekundziu|pries \d+[.,]?\d* savaiciu|pries \d+[.,]?\d* menesiu|pries \d+[.,]?\d* minuciu|pries \d+[.,]?\d* savaite|pries \d+[.,]?\d* sekunde|pries \d+[.,]?\d* valanda|pries \d+[.,]?\d* valandu|po \d+[.,]?\d* sekundziu|pries \d+[.,]?\d* menesi|pries \d+[.,]?\d* minute|po \d+[.,]?\d* savaiciu|po \d+[.,]?\d* savaites|po \d+[.,]?\d* sekundes|po \d+[.,]?\d* valandos|pries \d+[.,]?\d* diena|pries \d+[.,]?\d* dienu|pries \d+[.,]?\d* metus|po \d+[.,]?\d* menesio|po \d+[.,]?\d* menesiu|po \d+[.,]?\d* minuciu|po \d+[.,]?\d* minutes|po \d+[.,]?\d* valandu|pries \d+[.,]?\d* metu|po \d+[.,]?\d* dienos|pries \d+[.,]?\d* men|pries \d+[.,]?\d* min|pries \d+[.,]?\d* sav|pries \d+[.,]?\d* sek|pries \d+[.,]?\d* val|po \d+[.,]?\d* dienu|po \d+[.,]?\d* metu|pries \d+[.,]?\d* d|pries \d+[.,]?\d* m|pries \d+[.,]?\d* s|po \d+[.,]?\d* men|po \d+[.,]?\d* min|po \d+[.,]?\d* sav|po \d+[.,]?\d* sek|po \d+[.,]?\d* val|po \d+[.,]?\d* d|po \d+[.,]?\d* m|po \d+[.,]?\d* s)(\z|[^\pL\pM\d]|_)");
    ld_rx_exact := Some (rx "(?i)^(pries \d+[.,]?\d* sekundziu|pries \d+[.,]?\d* savaiciu|pries \d+[.,]?\d* menesiu|pries \d+[.,]?\d* minuciu|pries \d+[.,]?\d* savaite|pries \d+[.,]?\d* sekunde|pries \d+[.,]?\d* valanda|pries \d+[.,]?\d* valandu|po \d+[.,]?\d* sekundziu|pries \d+[.,]?\d* menesi|pries \d+[.,]?\d* minute|po \d+[.,]?\d* savaiciu|po \d+[.,]?\d* savaites|po \d+[.,]?\d* sekundes|po \d+[.,]?\d* valandos|pries \d+[.,]?\d* diena|pries \d+[.,]?\d* dienu|pries \d+[.,]?\d* metus|po \d+[.,]?\d* menesio|po \d+[.,]?\d* menesiu|po \d+[.,]?\d* minuciu|po \d+[.,]?\d* minutes|po \d+[.,]?\d* valandu|pries \d+[.,]?\d* metu|po \d+[.,]?\d* dienos|pries \d+[.,]?\d* men|pries \d+[.,]?\d* min|pries \d+[.,]?\d* sav|pries \d+[.,]?\d* sek|pries \d+[.,]?\d* val|po \d+[.,]?\d* dienu|po \d+[.,]?\d* metu|pries \d+[.,]?\d* d|pries \d+[.,]?\d* m|pries \d+[.,]?\d* s|po \d+[.,]?\d* men|po \d+[.,]?\d* min|po \d+[.,]?\d* sav|po \d+[.,]?\d* sek|po \d+[.,]?\d* val|po \d+[.,]?\d* d|po \d+[.,]?\d* m|po \d+[.,]?\d* s)$");
    ld_known := [lit "praejusiais metais";
    lit "praejusia savaite";
    lit "praejusi menesi";
    lit "ketvirtadienis";
    lit "kitais metais";
    lit "kita savaite";
    lit "penktadienis";
    lit "siais metais";
    lit "treciadienis";
    lit "antradienis";
    lit "kita menesi";
    lit "pirmadienis";
    lit "sekmadienis";
    lit "sestadienis";
    lit "sia savaite";
    lit "sia valanda";
    lit "sia minute";
    lit "balandzio";
    lit "lapkricio";
    lit "lapkritis";
    lit "priespiet";
    lit "rugpjucio";
    lit "rugpjutis";
    lit "si menesi";
    lit "balandis";
    lit "birzelio";
    lit "birzelis";
    lit "gruodzio";
    lit "rugsejis";
    lit "siandien";
    lit "geguzes";
    lit "gruodis";
    lit "rugsejo";
    lit "savaite";
    lit "sekunde";
    lit "valanda";
    lit "vasario";
    lit "vasaris";
    lit "geguze";
    lit "liepos";
    lit "minute";
    lit "popiet";
    lit "sausio";
    lit "sausis";
    lit "spalio";
    lit "spalis";
    lit "dabar";
    lit "diena";
    lit "gruod";
    lit "kovas";
    lit "lapkr";
    lit "liepa";
    lit "menuo";
    lit "metai";
    lit "rytoj";
    lit "vakar";
    lit "birz";
    lit "kovo";
    lit "liep";
    lit "rugp";
    lit "rugs";
    lit "saus";
    lit "spal";
    lit "bal";
    lit "geg";
    lit "gmt";
    lit "kov";
    lit "men";
    lit "min";
    lit "sav";
    lit "sek";
    lit "utc";
    lit "val";
    lit "vas";
    lit "am";
    lit "an";
    lit "kt";
    lit "pm";
    lit "pn";
    lit "pr";
    lit "sk";
    lit "st";
    lit "tr";
    lit " ";
    lit "'";
    lit "+";
    lit ",";
    lit "-";
    lit ".";
    lit "/";
    lit ":";
    lit ";";
    lit "@";
    lit "[";
    lit "]";
    lit "d";
    lit "h";
    lit "m";
    lit "s";
    lit "z";
    lit "|"] |}.

(** lu.go:10-97 *)
Definition loc_lu : locale := Eval vm_compute in
  {| ld_name := lit "lu"; ld_order := lit "DMY"; ld_nospacing := false; ld_splitter := 0;
    ld_charset := runes (lit "bcdefghijklnorstuvwxyzàèìòù");
    ld_abbr := [];
    ld_simpl := [];
    ld_trans := [(lit "kabalashipu", [lit "july"]);
    (lit "kasunsukusu", [lit "second"]);
    (lit "kaswekese", [lit "november"]);
    (lit "lumungulu", [lit "may"]);
    (lit "lutongolo", [lit "september"]);
    (lit "tshidimu", [lit "year"]);
    (lit "kasunsu", [lit "minute"]);
    (lit "lubingu", [lit "week"; lit "saturday"]);
    (lit "lufuimi", [lit "june"]);
    (lit "lumingu", [lit "sunday"]);
    (lit "lungudi", [lit "october"]);
    (lit "lushika", [lit "august"]);
    (lit "ciongo", [lit "january"]);
    (lit "dilolo", [lit "pm"]);
    (lit "dituku", [lit "day"]);
    (lit "luishi", [lit "february"]);
    (lit "lusolo", [lit "march"]);
    (lit "ndaaya", [lit "tuesday"]);
    (lit "ndangu", [lit "wednesday"]);
    (lit "ngondo", [lit "month"]);
    (lit "ngovya", [lit "friday"]);
    (lit "nkodya", [lit "monday"]);
    (lit "ciswa", [lit "december"]);
    (lit "dinda", [lit "am"]);
    (lit "muuya", [lit "april"]);
    (lit "njowa", [lit "thursday"]);
    (lit "diba", [lit "hour"]);
    (lit "lush", [lit "august"]);
    (lit "cio", [lit "january"]);
    (lit "cis", [lit "december"]);
    (lit "gmt", [lit "gmt"]);
    (lit "kab", [lit "july"]);
    (lit "kas", [lit "november"]);
    (lit "lub", [lit "saturday"]);
    (lit "luf", [lit "june"]);
    (lit "lui", [lit "february"]);
    (lit "lum", [lit "may"; lit "sunday"]);
    (lit "lun", [lit "october"]);
    (lit "lus", [lit "march"]);
    (lit "lut", [lit "september"]);
    (lit "muu", [lit "april"]);
    (lit "ndg", [lit "wednesday"]);
    (lit "ndy", [lit "tuesday"]);
    (lit "ngv", [lit "friday"]);
    (lit "njw", [lit "thursday"]);
    (lit "nko", [lit "monday"]);
    (lit "utc", [lit "utc"]);
    (lit "am", [lit "am"]);
    (lit "pm", [lit "pm"]);
    (lit " ", [lit " "]);
    (lit "'", [lit ""]);
    (lit "+", [lit "+"]);
    (lit ",", [lit ""]);
    (lit "-", [lit "-"]);
    (lit ".", [lit "."]);
    (lit "/", [lit "/"]);
    (lit ":", [lit ":"]);
    (lit ";", [lit ""]);
    (lit "@", [lit ""]);
    (lit "[", [lit ""]);
    (lit "]", [lit ""]);
    (lit "z", [lit "z"]);
    (lit "|", [lit ""])];
    ld_reltype := [(lit "this minute", lit "0 minute ago");
    (lit "last month", lit "1 month ago");
    (lit "next month", lit "in 1 month");
    (lit "this month", lit "0 month ago");
    (lit "last week", lit "1 week ago");
    (lit "last year", lit "1 year ago");
    (lit "next week", lit "in 1 week");
    (lit "next year", lit "in 1 year");
    (lit "this hour", lit "0 hour ago");
    (lit "this week", lit "0 week ago");
    (lit "this year", lit "0 year ago");
    (lit "makelela", lit "1 day ago");
    (lit "malaba", lit "in 1 day");
    (lit "lelu", lit "0 day ago");
    (lit "now", lit "0 second ago")];
    ld_relrx := [];
    ld_rx := None;
    ld_rx_exact := None;
    ld_known := [lit "kabalashipu";
    lit "kasunsukusu";
    lit "this minute";
    lit "last month";
    lit "next month";
    lit "this month";
    lit "kaswekese";
    lit "last week";
    lit "last year";
    lit "lumungulu";
    lit "lutongolo";
    lit "next week";
    lit "next year";
    lit "this hour";
    lit "this week";
    lit "this year";
    lit "makelela";
    lit "tshidimu";
    lit "kasunsu";
    lit "lubingu";
    lit "lufuimi";
    lit "lumingu";
    lit "lungudi";
    lit "lushika";
    lit "ciongo";
    lit "dilolo";
    lit "dituku";
    lit "luishi";
    lit "lusolo";
    lit "malaba";
    lit "ndaaya";
    lit "ndangu";
    lit "ngondo";
    lit "ngovya";
    lit "nkodya";
    lit "ciswa";
    lit "dinda";
    lit "muuya";
    lit "njowa";
    lit "diba";
    lit "lelu";
    lit "lush";
    lit "cio";
    lit "cis";
    lit "gmt";
    lit "kab";
    lit "kas";
    lit "lub";
    lit "luf";
    lit "lui";
    lit "lum";
    lit "lun";
    lit "lus";
    lit "lut";
    lit "muu";
    lit "ndg";
    lit "ndy";
    lit "ngv";
    lit "njw";
    lit "nko";
    lit "now";
    lit "utc";
    lit "am";
    lit "pm";
    lit " ";
    lit "'";
    lit "+";
    lit ",";
    lit "-";
    lit ".";
    lit "/";
    lit ":";
    lit ";";
    lit "@";
    lit "[";
    lit "]";
    lit "z";
    lit "|"] |}.

(** luo.go:10-99 *)
Definition loc_luo : locale := Eval vm_compute in
  {| ld_name := lit "luo"; ld_order := lit "DMY"; ld_nospacing := false; ld_splitter := 0;
    ld_charset := runes (lit "bcdeghijklnorstuwxyz");
    ld_abbr := [];
    ld_simpl := [];
    ld_trans := [(lit "dwe mar apar gi ariyo", [lit "december"]);
    (lit "dwe mar gi achiel", [lit "november"]);
    (lit "dwe mar abiriyo", [lit "july"]);
    (lit "dwe mar ang'wen", [lit "april"]);
    (lit "dwe mar auchiel", [lit "june"]);
    (lit "nyiriri mar saa", [lit "second"]);
    (lit "dwe mar achiel", [lit "january"]);
    (lit "dwe mar ochiko", [lit "september"]);
    (lit "dwe mar abich", [lit "may"]);
    (lit "dwe mar aboro", [lit "august"]);
    (lit "dwe mar ariyo", [lit "february"]);
    (lit "dwe mar adek", [lit "march"]);
    (lit "dwe mar apar", [lit "october"]);
    (lit "tich ang'wen", [lit "thursday"]);
    (lit "tich abich", [lit "friday"]);
    (lit "tich ariyo", [lit "tuesday"]);
    (lit "tich adek", [lit "wednesday"]);
    (lit "wuok tich", [lit "monday"]);
    (lit "chieng'", [lit "day"]);
    (lit "jumapil", [lit "sunday"]);
    (lit "dakika", [lit "minute"]);
    (lit "ngeso", [lit "saturday"]);
    (lit "higa", [lit "year"]);
    (lit "juma", [lit "week"]);
    (lit "dab", [lit "august"]);
    (lit "dac", [lit "january"]);
    (lit "dad", [lit "march"]);
    (lit "dag", [lit "december"]);
    (lit "dah", [lit "may"]);
    (lit "dan", [lit "april"]);
    (lit "dao", [lit "july"]);
    (lit "dap", [lit "october"]);
    (lit "dar", [lit "february"]);
    (lit "dau", [lit "june"]);
    (lit "dgi", [lit "november"]);
    (lit "doc", [lit "september"]);
    (lit "dwe", [lit "month"]);
    (lit "gmt", [lit "gmt"]);
    (lit "jmp", [lit "sunday"]);
    (lit "ngs", [lit "saturday"]);
    (lit "saa", [lit "hour"]);
    (lit "tab", [lit "friday"]);
    (lit "tad", [lit "wednesday"]);
    (lit "tan", [lit "thursday"]);
    (lit "tar", [lit "tuesday"]);
    (lit "utc", [lit "utc"]);
    (lit "wut", [lit "monday"]);
    (lit "am", [lit "am"]);
    (lit "od", [lit "am"]);
    (lit "ot", [lit "pm"]);
    (lit "pm", [lit "pm"]);
    (lit " ", [lit " "]);
    (lit "'", [lit ""]);
    (lit "+", [lit "+"]);
    (lit ",", [lit ""]);
    (lit "-", [lit "-"]);
    (lit ".", [lit "."]);
    (lit "/", [lit "/"]);
    (lit ":", [lit ":"]);
    (lit ";", [lit ""]);
    (lit "@", [lit ""]);
    (lit "[", [lit ""]);
    (lit "]", [lit ""]);
    (lit "z", [lit "z"]);
    (lit "|", [lit ""])];
    ld_reltype := [(lit "this minute", lit "0 minute ago");
    (lit "last month", lit "1 month ago");
    (lit "next month", lit "in 1 month");
    (lit "this month", lit "0 month ago");
    (lit "last week", lit "1 week ago");
    (lit "last year", lit "1 year ago");
    (lit "next week", lit "in 1 week");
    (lit "next year", lit "in 1 year");
    (lit "this hour", lit "0 hour ago");
    (lit "this week", lit "0 week ago");
    (lit "this year", lit "0 year ago");
    (lit "kawuono", lit "0 day ago");
    (lit "nyoro", lit "1 day ago");
    (lit "kiny", lit "in 1 day");
    (lit "now", lit "0 second ago")];
    ld_relrx := [];
    ld_rx := None;
    ld_rx_exact := None;
    ld_known := [lit "dwe mar apar gi ariyo";
    lit "dwe mar gi achiel";
    lit "dwe mar abiriyo";
    lit "dwe mar ang'wen";
    lit "dwe mar auchiel";
    lit "nyiriri mar saa";
    lit "dwe mar achiel";
    lit "dwe mar ochiko";
    lit "dwe mar abich";
    lit "dwe mar aboro";
    lit "dwe mar ariyo";
    lit "dwe mar adek";
    lit "dwe mar apar";
    lit "tich ang'wen";
    lit "this minute";
    lit "last month";
    lit "next month";
    lit "this month";
    lit "tich abich";
    lit "tich ariyo";
    lit "last week";
    lit "last year";
    lit "next week";
    lit "next year";
    lit "this hour";
    lit "this week";
    lit "this year";
    lit "tich adek";
    lit "wuok tich";
    lit "chieng'";
    lit "jumapil";
    lit "kawuono";
    lit "dakika";
    lit "ngeso";
    lit "nyoro";
    lit "higa";
    lit "juma";
    lit "kiny";
    lit "dab";
    lit "dac";
    lit "dad";
    lit "dag";
    lit "dah";
    lit "dan";
    lit "dao";
    lit "dap";
    lit "dar";
    lit "dau";
    lit "dgi";
    lit "doc";
    lit "dwe";
    lit "gmt";
    lit "jmp";
    lit "ngs";
    lit "now";
    lit "saa";
    lit "tab";
    lit "tad";
    lit "tan";
    lit "tar";
    lit "utc";
    lit "wut";
    lit "am";
    lit "od";
    lit "ot";
    lit "pm";
    lit " ";
    lit "'";
    lit "+";
    lit ",";
    lit "-";
    lit ".";
    lit "/";
    lit ":";
    lit ";";
    lit "@";
    lit "[";
    lit "]";
    lit "z";
    lit "|"] |}.

(** luy.go:10-96 *)
Definition loc_luy : locale := Eval vm_compute in
  {| ld_name := lit "luy"; ld_order := lit "DMY"; ld_nospacing := false; ld_splitter := 0;
    ld_charset := runes (lit "bcdefghijklnorstuvwxyz");
    ld_abbr := [];
    ld_simpl := [];
    ld_trans := [(lit "murwa wa katano", [lit "friday"]);
    (lit "murwa wa kanne", [lit "thursday"]);
    (lit "februari", [lit "february"]);
    (lit "jumamosi", [lit "saturday"]);
    (lit "jumapiri", [lit "sunday"]);
    (lit "jumatano", [lit "wednesday"]);
    (lit "jumatatu", [lit "monday"]);
    (lit "septemba", [lit "september"]);
    (lit "desemba", [lit "december"]);
    (lit "idagika", [lit "minute"]);
    (lit "januari", [lit "january"]);
    (lit "jumanne", [lit "tuesday"]);
    (lit "novemba", [lit "november"]);
    (lit "sekunde", [lit "second"]);
    (lit "agosti", [lit "august"]);
    (lit "aprili", [lit "april"]);
    (lit "muhiga", [lit "year"]);
    (lit "oktoba", [lit "october"]);
    (lit "ridiku", [lit "day"]);
    (lit "risiza", [lit "week"]);
    (lit "julai", [lit "july"]);
    (lit "machi", [lit "march"]);
    (lit "mweri", [lit "month"]);
    (lit "isaa", [lit "hour"]);
    (lit "juni", [lit "june"]);
    (lit "ago", [lit "august"]);
    (lit "apr", [lit "april"]);
    (lit "des", [lit "december"]);
    (lit "feb", [lit "february"]);
    (lit "gmt", [lit "gmt"]);
    (lit "jan", [lit "january"]);
    (lit "jul", [lit "july"]);
    (lit "jun", [lit "june"]);
    (lit "mar", [lit "march"]);
    (lit "mei", [lit "may"]);
    (lit "nov", [lit "november"]);
    (lit "okt", [lit "october"]);
    (lit "sep", [lit "september"]);
    (lit "utc", [lit "utc"]);
    (lit "al", [lit "thursday"]);
    (lit "am", [lit "am"]);
    (lit "ij", [lit "friday"]);
    (lit "j1", [lit "saturday"]);
    (lit "j2", [lit "sunday"]);
    (lit "j3", [lit "monday"]);
    (lit "j4", [lit "tuesday"]);
    (lit "j5", [lit "wednesday"]);
    (lit "pm", [lit "pm"]);
    (lit " ", [lit " "]);
    (lit "'", [lit ""]);
    (lit "+", [lit "+"]);
    (lit ",", [lit ""]);
    (lit "-", [lit "-"]);
    (lit ".", [lit "."]);
    (lit "/", [lit "/"]);
    (lit ":", [lit ":"]);
    (lit ";", [lit ""]);
    (lit "@", [lit ""]);
    (lit "[", [lit ""]);
    (lit "]", [lit ""]);
    (lit "z", [lit "z"]);
    (lit "|", [lit ""])];
    ld_reltype := [(lit "this minute", lit "0 minute ago");
    (lit "last month", lit "1 month ago");
    (lit "next month", lit "in 1 month");
    (lit "this month", lit "0 month ago");
    (lit "last week", lit "1 week ago");
    (lit "last year", lit "1 year ago");
    (lit "next week", lit "in 1 week");
    (lit "next year", lit "in 1 year");
    (lit "this hour", lit "0 hour ago");
    (lit "this week", lit "0 week ago");
    (lit "this year", lit "0 year ago");
    (lit "mgorova", lit "1 day ago");
    (lit "mgamba", lit "in 1 day");
    (lit "lero", lit "0 day ago");
    (lit "now", lit "0 second ago")];
    ld_relrx := [];
    ld_rx := None;
    ld_rx_exact := None;
    ld_known := [lit "murwa wa katano";
    lit "murwa wa kanne";
    lit "this minute";
    lit "last month";
    lit "next month";
    lit "this month";
    lit "last week";
    lit "last year";
    lit "next week";
    lit "next year";
    lit "this hour";
    lit "this week";
    lit "this year";
    lit "februari";
    lit "jumamosi";
    lit "jumapiri";
    lit "jumatano";
    lit "jumatatu";
    lit "septemba";
    lit "desemba";
    lit "idagika";
    lit "januari";
    lit "jumanne";
    lit "mgorova";
    lit "novemba";
    lit "sekunde";
    lit "agosti";
    lit "aprili";
    lit "mgamba";
    lit "muhiga";
    lit "oktoba";
    lit "ridiku";
    lit "risiza";
    lit "julai";
    lit "machi";
    lit "mweri";
    lit "isaa";
    lit "juni";
    lit "lero";
    lit "ago";
    lit "apr";
    lit "des";
    lit "feb";
    lit "gmt";
    lit "jan";
    lit "jul";
    lit "jun";
    lit "mar";
    lit "mei";
    lit "nov";
    lit "now";
    lit "okt";
    lit "sep";
    lit "utc";
    lit "al";
    lit "am";
    lit "ij";
    lit "j1";
    lit "j2";
    lit "j3";
    lit "j4";
    lit "j5";
    lit "pm";
    lit " ";
    lit "'";
    lit "+";
    lit ",";
    lit "-";
    lit ".";
    lit "/";
    lit ":";
    lit ";";
    lit "@";
    lit "[";
    lit "]";
    lit "z";
    lit "|"] |}.

(** lv.go:12-161 *)
Definition loc_lv : locale := Eval vm_compute in
  {| ld_name := lit "lv"; ld_order := lit "DMY"; ld_nospacing := false; ld_splitter := 0;
    ld_charset := runes (lit "bcdefghijklnorstuvzāēīļšū");
    ld_abbr := [];
    ld_simpl := [];
    ld_trans := [(lit "priekspusdiena", [lit "am"]);
    (lit "ceturtdiena", [lit "thursday"]);
    (lit "pecpusdiena", [lit "pm"]);
    (lit "piektdiena", [lit "friday"]);
    (lit "septembris", [lit "september"]);
    (lit "decembris", [lit "december"]);
    (lit "februaris", [lit "february"]);
    (lit "novembris", [lit "november"]);
    (lit "pirmdiena", [lit "monday"]);
    (lit "sestdiena", [lit "saturday"]);
    (lit "svetdiena", [lit "sunday"]);
    (lit "tresdiena", [lit "wednesday"]);
    (lit "janvaris", [lit "january"]);
    (lit "oktobris", [lit "october"]);
    (lit "otrdiena", [lit "tuesday"]);
    (lit "sekundes", [lit "second"]);
    (lit "aprilis", [lit "april"]);
    (lit "augusts", [lit "august"]);
    (lit "ceturtd", [lit "thursday"]);
    (lit "menesis", [lit "month"]);
    (lit "minutes", [lit "minute"]);
    (lit "pecpusd", [lit "pm"]);
    (lit "prieksp", [lit "am"]);
    (lit "stundas", [lit "hour"]);
    (lit "julijs", [lit "july"]);
    (lit "junijs", [lit "june"]);
    (lit "nedela", [lit "week"]);
    (lit "piektd", [lit "friday"]);
    (lit "diena", [lit "day"]);
    (lit "maijs", [lit "may"]);
    (lit "marts", [lit "march"]);
    (lit "pirmd", [lit "monday"]);
    (lit "sestd", [lit "saturday"]);
    (lit "svetd", [lit "sunday"]);
    (lit "tresd", [lit "wednesday"]);
    (lit "febr", [lit "february"]);
    (lit "gads", [lit "year"]);
    (lit "janv", [lit "january"]);
    (lit "otrd", [lit "tuesday"]);
    (lit "pecp", [lit "pm"]);
    (lit "sept", [lit "september"]);
    (lit "apr", [lit "april"]);
    (lit "aug", [lit "august"]);
    (lit "dec", [lit "december"]);
    (lit "gmt", [lit "gmt"]);
    (lit "jul", [lit "july"]);
    (lit "jun", [lit "june"]);
    (lit "men", [lit "month"]);
    (lit "min", [lit "minute"]);
    (lit "ned", [lit "week"]);
    (lit "nov", [lit "november"]);
    (lit "okt", [lit "october"]);
    (lit "sek", [lit "second"]);
    (lit "utc", [lit "utc"]);
    (lit "am", [lit "am"]);
    (lit "pm", [lit "pm"]);
    (lit "st", [lit "hour"]);
    (lit " ", [lit " "]);
    (lit "'", [lit ""]);
    (lit "+", [lit "+"]);
    (lit ",", [lit ""]);
    (lit "-", [lit "-"]);
    (lit ".", [lit "."]);
    (lit "/", [lit "/"]);
    (lit ":", [lit ":"]);
    (lit ";", [lit ""]);
    (lit "@", [lit ""]);
    (lit "[", [lit ""]);
    (lit "]", [lit ""]);
    (lit "d", [lit "day"]);
    (lit "g", [lit "year"]);
    (lit "h", [lit "hour"]);
    (lit "s", [lit "second"]);
    (lit "z", [lit "z"]);
    (lit "|", [lit ""])];
    ld_reltype := [(lit "pagajusaja menesi", lit "1 month ago");
    (lit "pagajusaja nedela", lit "1 week ago");
    (lit "nakamaja menesi", lit "in 1 month");
    (lit "nakamaja nedela", lit "in 1 week");
    (lit "pagajusaja gada", lit "1 year ago");
    (lit "nakamaja gada", lit "in 1 year");
    (lit "saja menesi", lit "0 month ago");
    (lit "saja minute", lit "0 minute ago");
    (lit "saja nedela", lit "0 week ago");
    (lit "saja stunda", lit "0 hour ago");
    (lit "saja gada", lit "0 year ago");
    (lit "sodien", lit "0 day ago");
    (lit "tagad", lit "0 second ago");
    (lit "vakar", lit "1 day ago");
    (lit "rit", lit "in 1 day")];
    ld_relrx := [(rx "(?i)pirms (\d+[.,]?\d*) menesiem", lit "$1 month ago");
    (rx "(?i)pirms (\d+[.,]?\d*) sekundem", lit "$1 second ago");
    (rx "(?i)pirms (\d+[.,]?\d*) sekundes", lit "$1 second ago");
    (rx "(?i)pirms (\d+[.,]?\d*) minutem", lit "$1 minute ago");
    (rx "(?i)pirms (\d+[.,]?\d*) minutes", lit "$1 minute ago");
    (rx "(?i)pirms (\d+[.,]?\d*) nedelam", lit "$1 week ago");
    (rx "(?i)pirms (\d+[.,]?\d*) nedelas", lit "$1 week ago");
    (rx "(?i)pirms (\d+[.,]?\d*) stundam", lit "$1 hour ago");
    (rx "(?i)pirms (\d+[.,]?\d*) stundas", lit "$1 hour ago");
    (rx "(?i)pec (\d+[.,]?\d*) menesiem", lit "in $1 month");
    (rx "(?i)pec (\d+[.,]?\d*) sekundem", lit "in $1 second");
    (rx "(?i)pec (\d+[.,]?\d*) sekundes", lit "in $1 second");
    (rx "(?i)pirms (\d+[.,]?\d*) dienam", lit "$1 day ago");
    (rx "(?i)pirms (\d+[.,]?\d*) dienas", lit "$1 day ago");
    (rx "(?i)pirms (\d+[.,]?\d*) gadiem", lit "$1 year ago");
    (rx "(?i)pirms (\d+[.,]?\d*) menesa", lit "$1 month ago");
    (rx "(?i)pec (\d+[.,]?\d*) minutem", lit "in $1 minute");
    (rx "(?i)pec (\d+[.,]?\d*) minutes", lit "in $1 minute");
    (rx "(?i)pec (\d+[.,]?\d*) nedelam", lit "in $1 week");
    (rx "(?i)pec (\d+[.,]?\d*) nedelas", lit "in $1 week");
    (rx "(?i)pec (\d+[.,]?\d*) stundam", lit "in $1 hour");
    (rx "(?i)pec (\d+[.,]?\d*) stundas", lit "in $1 hour");
    (rx "(?i)pec (\d+[.,]?\d*) dienam", lit "in $1 day");
    (rx "(?i)pec (\d+[.,]?\d*) dienas", lit "in $1 day");
    (rx "(?i)pec (\d+[.,]?\d*) gadiem", lit "in $1 year");
    (rx "(?i)pec (\d+[.,]?\d*) menesa", lit "in $1 month");
    (rx "(?i)pirms (\d+[.,]?\d*) gada", lit "$1 year ago");
    (rx "(?i)pirms (\d+[.,]?\d*) men", lit "$1 month ago");
    (rx "(?i)pirms (\d+[.,]?\d*) min", lit "$1 minute ago");
    (rx "(?i)pirms (\d+[.,]?\d*) ned", lit "$1 week ago");
    (rx "(?i)pirms (\d+[.,]?\d*) sek", lit "$1 second ago");
    (rx "(?i)pec (\d+[.,]?\d*) gada", lit "in $1 year");
    (rx "(?i)pirms (\d+[.,]?\d*) st", lit "$1 hour ago");
    (rx "(?i)pec (\d+[.,]?\d*) men", lit "in $1 month");
    (rx "(?i)pec (\d+[.,]?\d*) min", lit "in $1 minute");
    (rx "(?i)pec (\d+[.,]?\d*) ned", lit "in $1 week");
    (rx "(?i)pec (\d+[.,]?\d*) sek", lit "in $1 second");
    (rx "(?i)pirms (\d+[.,]?\d*) d", lit "$1 day ago");
    (rx "(?i)pirms (\d+[.,]?\d*) g", lit "$1 year ago");
    (rx "(?i)pirms (\d+[.,]?\d*) h", lit "$1 hour ago");
    (rx "(?i)pirms (\d+[.,]?\d*) s", lit "$1 second ago");
    (rx "(?i)pec (\d+[.,]?\d*) st", lit "in $1 hour");
    (rx "(?i)pec (\d+[.,]?\d*) d", lit "in $1 day");
    (rx "(?i)pec (\d+[.,]?\d*) g", lit "in $1 year");
    (rx "(?i)pec (\d+[.,]?\d*) h", lit "in $1 hour");
    (rx "(?i)pec (\d+[.,]?\d*) s", lit "in $1 second")];
    ld_rx := Some (rx "(?i)(\A|[^\pL\pM\d]|_)(pirms \d+[.,]?\d* menesiem|pirms \d+[.,]?\d* sekundem|pirms \d+[.,]?\d* sekundes|pirms \d+[.,]?\d* minutem|pirms \d+[.,]?\d* minutes|pirms \d+[.,]?\d* nedelam|pirms \d+[.,]?\d* nedelas|pirms \d+[.,]?\d* stundam|pirms \d+[.,]?\d* stundas|pec \d+[.,]?\d* menesiem|pec \d+[.,]?\d* sekundem|pec \d+[.,]?\d* sekundes|pirms \d+[.,]?\d* dienam|pirms \d+[.,]?\d* dienas|pirms \d+[.,]?\d* gadiem|pirms \d+[.,]?\d* menesa|pec \d+[.,]?\d* minutem|pec \d+[.,]?\d* minutes|pec \d+[.,]?\d* nedelam|pec \d+[.,]?\d* nedelas|pec \d+[.,]?\d* stundam|pec \d+[.,]?\d* stundas|pec \d+[.,]?\d* dienam|pec \d+[.,]?\d* dienas|pec \d+[.,]?\d* gadiem|pec \d+[.,]?\d* menesa|pirms \d+[.,]?\d* gada|pirms \d+[.,]?\d* men|pirms \d+[.,]?\d* min|pirms \d+[.,]?\d* ned|pirms \d+[.,]?\d* sek|pec \d+[.,]?\d* gada|pirms \d+[.,]?\d* st|pec \d+[.,]?\d* men|pec \d+[.,]?\d* min|pec \d+[.,]?\d* ned|pec \d+[.,]?\d* sek|pirms \d+[.,]?\d* d|pirms \d+[.,]?\d* g|pirms \d+[.,]?\d* h|pirms \d+[.,]?\d* s|pec \d+[.,]?\d* st|pec \d+[.,]?\d* d|pec \d+[.,]?\d* g|pec \d+[.,]?\d* h|pec \d+[.,]?\d* s)(\z|[^\pL\pM\d]|_)");
    ld_rx_exact := Some (rx "(?i)^(pirms \d+[.,]?\d* menesiem|pirms \d+[.,]?\d* sekundem|pirms \d+[.,]?\d* sekundes|pirms \d+[.,]?\d* minutem|pirms \d+[.,]?\d* minutes|pirms \d+[.,]?\d* nedelam|pirms \d+[.,]?\d* nedelas|pirms \d+[.,]?\d* stundam|pirms \d+[.,]?\d* stundas|pec \d+[.,]?\d* menesiem|pec \d+[.,]?\d* sekundem|pec \d+[.,]?\d* sekundes|pirms \d+[.,]?\d* dienam|pirms \d+[.,]?\d* dienas|pirms \d+[.,]?\d* gadiem|pirms \d+[.,]?\d* menesa|pec \d+[.,]?\d* minutem|pec \d+[.,]?\d* minutes|pec \d+[.,]?\d* nedelam|pec \d+[.,]?\d* nedelas|pec \d+[.,]?\d* stundam|pec \d+[.,]?\d* stundas|pec \d+[.,]?\d* dienam|pec \d+[.,]?\d* dienas|pec \d+[.,]?\d* gadiem|pec \d+[.,]?\d* menesa|pirms \d+[.,]?\d* gada|pirms \d+[.,]?\d* men|pirms \d+[.,]?\d* min|pirms \d+[.,]?\d* ned|pirms \d+[.,]?\d* sek|pec \d+[.,]?\d* gada|pirms \d+[.,]?\d* st|pec \d+[.,]?\d* men|pec \d+[.,]?\d* min|pec \d+[.,]?\d* ned|pec \d+[.,]?\d* sek|pirms \d+[.,]?\d* d|pirms \d+[.,]?\d* g|pirms \d+[.,]?\d* h|pirms \d+[.,]?\d* s|pec \d+[.,]?\d* st|pec \d+[.,]?\d* d|pec \d+[.,]?\d* g|pec \d+[.,]?\d* h|pec \d+[.,]?\d* s)$");
    ld_known := [lit "pagajusaja menesi";
    lit "pagajusaja nedela";
    lit "nakamaja menesi";
    lit "nakamaja nedela";
    lit "pagajusaja gada";
    lit "priekspusdiena";
    lit "nakamaja gada";
    lit "ceturtdiena";
    lit "pecpusdiena";
    lit "saja menesi";
    lit "saja minute";
    lit "saja nedela";
    lit "saja stunda";
    lit "piektdiena";
    lit "septembris";
    lit "decembris";
    lit "februaris";
    lit "novembris";
    lit "pirmdiena";
    lit "saja gada";
    lit "sestdiena";
    lit "svetdiena";
    lit "tresdiena";
    lit "janvaris";
    lit "oktobris";
    lit "otrdiena";
    lit "sekundes";
    lit "aprilis";
    lit "augusts";
    lit "ceturtd";
    lit "menesis";
    lit "minutes";
    lit "pecpusd";
    lit "prieksp";
    lit "stundas";
    lit "julijs";
    lit "junijs";
    lit "nedela";
    lit "piektd";
    lit "sodien";
    lit "diena";
    lit "maijs";
    lit "marts";
    lit "pirmd";
    lit "sestd";
    lit "svetd";
    lit "tagad";
    lit "tresd";
    lit "vakar";
    lit "febr";
    lit "gads";
    lit "janv";
    lit "otrd";
    lit "pecp";
    lit "sept";
    lit "apr";
    lit "aug";
    lit "dec";
    lit "gmt";
    lit "jul";
    lit "jun";
    lit "men";
    lit "min";
    lit "ned";
    lit "nov";
    lit "okt";
    lit "rit";
    lit "sek";
    lit "utc";
    lit "am";
    lit "pm";
    lit "st";
    lit " ";
    lit "'";
    lit "+";
    lit ",";
    lit "-";
    lit ".";
    lit "/";
    lit ":";
    lit ";";
    lit "@";
    lit "[";
    lit "]";
    lit "d";
    lit "g";
    lit "h";
    lit "s";
    lit "z";
    lit "|"] |}.

(** mas.go:11-100 *)
Definition loc_mas : locale := Eval vm_compute in
  {| ld_name := lit "mas"; ld_order := lit "DMY"; ld_nospacing := false; ld_splitter := 0;
    ld_charset := runes (lit "bcdeghijklnorstuwxyzàáâèéêìíîóúēīŋūɔɛɨʉ́");
    ld_abbr := [];
    ld_simpl := [];
    ld_trans := [(lit "oloilepunyie inkokua", [lit "may"]);
    (lit "olodoyiorie inkokua", [lit "april"]);
    (lit "ɔlɔɨbɔrarɛ", [lit "august"]);
    (lit "morusasin", [lit "july"]);
    (lit "oldakikae", [lit "minute"]);
    (lit "ɔɛnɨɔɨŋɔk", [lit "march"]);
    (lit "ɛnkakɛnya", [lit "am"]);
    (lit "alaamisi", [lit "thursday"]);
    (lit "jumamosi", [lit "saturday"]);
    (lit "jumapili", [lit "sunday"]);
    (lit "jumatanɔ", [lit "wednesday"]);
    (lit "jumatatu", [lit "monday"]);
    (lit "kujuɔrɔk", [lit "june"]);
    (lit "oladalʉ", [lit "january"]);
    (lit "olgisan", [lit "october"]);
    (lit "pʉshʉka", [lit "november"]);
    (lit "sekunde", [lit "second"]);
    (lit "ɛnkɔlɔŋ", [lit "day"]);
    (lit "jumane", [lit "tuesday"]);
    (lit "kushin", [lit "september"]);
    (lit "ntʉŋʉs", [lit "december"]);
    (lit "ɛndama", [lit "pm"]);
    (lit "ewiki", [lit "week"]);
    (lit "jumaa", [lit "friday"]);
    (lit "ɔlapa", [lit "month"]);
    (lit "ɔlari", [lit "year"]);
    (lit "arat", [lit "february"]);
    (lit "ɛsaa", [lit "hour"]);
    (lit "alh", [lit "thursday"]);
    (lit "ara", [lit "february"]);
    (lit "bɔr", [lit "august"]);
    (lit "dal", [lit "january"]);
    (lit "doy", [lit "april"]);
    (lit "gis", [lit "october"]);
    (lit "gmt", [lit "gmt"]);
    (lit "iju", [lit "friday"]);
    (lit "jmo", [lit "saturday"]);
    (lit "jnn", [lit "tuesday"]);
    (lit "jpi", [lit "sunday"]);
    (lit "jtn", [lit "wednesday"]);
    (lit "jtt", [lit "monday"]);
    (lit "kus", [lit "september"]);
    (lit "lep", [lit "may"]);
    (lit "ntʉ", [lit "december"]);
    (lit "rok", [lit "june"]);
    (lit "sas", [lit "july"]);
    (lit "shʉ", [lit "november"]);
    (lit "utc", [lit "utc"]);
    (lit "ɔɛn", [lit "march"]);
    (lit "am", [lit "am"]);
    (lit "pm", [lit "pm"]);
    (lit " ", [lit " "]);
    (lit "'", [lit ""]);
    (lit "+", [lit "+"]);
    (lit ",", [lit ""]);
    (lit "-", [lit "-"]);
    (lit ".", [lit "."]);
    (lit "/", [lit "/"]);
    (lit ":", [lit ":"]);
    (lit ";", [lit ""]);
    (lit "@", [lit ""]);
    (lit "[", [lit ""]);
    (lit "]", [lit ""]);
    (lit "z", [lit "z"]);
    (lit "|", [lit ""])];
    ld_reltype := [(lit "this minute", lit "0 minute ago");
    (lit "last month", lit "1 month ago");
    (lit "next month", lit "in 1 month");
    (lit "this month", lit "0 month ago");
    (lit "last week", lit "1 week ago");
    (lit "last year", lit "1 year ago");
    (lit "next week", lit "in 1 week");
    (lit "next year", lit "in 1 year");
    (lit "this hour", lit "0 hour ago");
    (lit "this week", lit "0 week ago");
    (lit "this year", lit "0 year ago");
    (lit "taaisere", lit "in 1 day");
    (lit "taata", lit "0 day ago");
    (lit "ŋole", lit "1 day ago");
    (lit "now", lit "0 second ago")];
    ld_relrx := [];
    ld_rx := None;
    ld_rx_exact := None;
    ld_known := [lit "oloilepunyie inkokua";
    lit "olodoyiorie inkokua";
    lit "this minute";
    lit "last month";
    lit "next month";
    lit "this month";
    lit "ɔlɔɨbɔrarɛ";
    lit "last week";
    lit "last year";
    lit "morusasin";
    lit "next week";
    lit "next year";
    lit "oldakikae";
    lit "this hour";
    lit "this week";
    lit "this year";
    lit "ɔɛnɨɔɨŋɔk";
    lit "ɛnkakɛnya";
    lit "alaamisi";
    lit "jumamosi";
    lit "jumapili";
    lit "jumatanɔ";
    lit "jumatatu";
    lit "kujuɔrɔk";
    lit "taaisere";
    lit "oladalʉ";
    lit "olgisan";
    lit "pʉshʉka";
    lit "sekunde";
    lit "ɛnkɔlɔŋ";
    lit "jumane";
    lit "kushin";
    lit "ntʉŋʉs";
    lit "ɛndama";
    lit "ewiki";
    lit "jumaa";
    lit "taata";
    lit "ɔlapa";
    lit "ɔlari";
    lit "arat";
    lit "ŋole";
    lit "ɛsaa";
    lit "alh";
    lit "ara";
    lit "bɔr";
    lit "dal";
    lit "doy";
    lit "gis";
    lit "gmt";
    lit "iju";
    lit "jmo";
    lit "jnn";
    lit "jpi";
    lit "jtn";
    lit "jtt";
    lit "kus";
    lit "lep";
    lit "now";
    lit "ntʉ";
    lit "rok";
    lit "sas";
    lit "shʉ";
    lit "utc";
    lit "ɔɛn";
    lit "am";
    lit "pm";
    lit " ";
    lit "'";
    lit "+";
    lit ",";
    lit "-";
    lit ".";
    lit "/";
    lit ":";
    lit ";";
    lit "@";
    lit "[";
    lit "]";
    lit "z";
    lit "|"] |}.

(** mas.go:102-105 *)
Definition own_mas_TZ : locale := Eval vm_compute in
  {| ld_name := lit "mas-TZ"; ld_order := lit "DMY"; ld_nospacing := false; ld_splitter := 0;
    ld_charset := runes (lit "");
    ld_abbr := [];
    ld_simpl := [];
    ld_trans := [];
    ld_reltype := [];
    ld_relrx := [];
    ld_rx := None;
    ld_rx_exact := None;
    ld_known := [] |}.
Definition loc_mas_TZ : locale := merge loc_mas own_mas_TZ.

(** mer.go:10-97 *)
Definition loc_mer : locale := Eval vm_compute in
  {| ld_name := lit "mer"; ld_order := lit "DMY"; ld_nospacing := false; ld_splitter := 0;
    ld_charset := runes (lit "bcdefghijklnorstuvwxyzĩũ");
    ld_abbr := [];
    ld_simpl := [];
    ld_trans := [(lit "feburuari", [lit "february"]);
    (lit "jumamosi", [lit "saturday"]);
    (lit "muramuko", [lit "monday"]);
    (lit "septemba", [lit "september"]);
    (lit "dicemba", [lit "december"]);
    (lit "januari", [lit "january"]);
    (lit "ndagika", [lit "minute"]);
    (lit "novemba", [lit "november"]);
    (lit "sekondi", [lit "second"]);
    (lit "wethatu", [lit "wednesday"]);
    (lit "agasti", [lit "august"]);
    (lit "kiumia", [lit "week"; lit "sunday"]);
    (lit "njurai", [lit "july"]);
    (lit "oktuba", [lit "october"]);
    (lit "wetano", [lit "friday"]);
    (lit "ipuru", [lit "april"]);
    (lit "ithaa", [lit "hour"]);
    (lit "machi", [lit "march"]);
    (lit "mwaka", [lit "year"]);
    (lit "mweri", [lit "month"]);
    (lit "njuni", [lit "june"]);
    (lit "ntuku", [lit "day"]);
    (lit "wairi", [lit "tuesday"]);
    (lit "wena", [lit "thursday"]);
    (lit "aga", [lit "august"]);
    (lit "dec", [lit "december"]);
    (lit "feb", [lit "february"]);
    (lit "gmt", [lit "gmt"]);
    (lit "ipu", [lit "april"]);
    (lit "jan", [lit "january"]);
    (lit "jum", [lit "saturday"]);
    (lit "kiu", [lit "sunday"]);
    (lit "mac", [lit "march"]);
    (lit "mii", [lit "may"]);
    (lit "mra", [lit "monday"]);
    (lit "njr", [lit "july"]);
    (lit "nju", [lit "june"]);
    (lit "nov", [lit "november"]);
    (lit "okt", [lit "october"]);
    (lit "spt", [lit "september"]);
    (lit "utc", [lit "utc"]);
    (lit "wai", [lit "tuesday"]);
    (lit "wen", [lit "thursday"]);
    (lit "wet", [lit "wednesday"]);
    (lit "wtn", [lit "friday"]);
    (lit "am", [lit "am"]);
    (lit "pm", [lit "pm"]);
    (lit "ru", [lit "am"]);
    (lit "ug", [lit "pm"]);
    (lit " ", [lit " "]);
    (lit "'", [lit ""]);
    (lit "+", [lit "+"]);
    (lit ",", [lit ""]);
    (lit "-", [lit "-"]);
    (lit ".", [lit "."]);
    (lit "/", [lit "/"]);
    (lit ":", [lit ":"]);
    (lit ";", [lit ""]);
    (lit "@", [lit ""]);
    (lit "[", [lit ""]);
    (lit "]", [lit ""]);
    (lit "z", [lit "z"]);
    (lit "|", [lit ""])];
    ld_reltype := [(lit "this minute", lit "0 minute ago");
    (lit "last month", lit "1 month ago");
    (lit "next month", lit "in 1 month");
    (lit "this month", lit "0 month ago");
    (lit "last week", lit "1 week ago");
    (lit "last year", lit "1 year ago");
    (lit "next week", lit "in 1 week");
    (lit "next year", lit "in 1 year");
    (lit "this hour", lit "0 hour ago");
    (lit "this week", lit "0 week ago");
    (lit "this year", lit "0 year ago");
    (lit "igoro", lit "1 day ago");
    (lit "narua", lit "0 day ago");
    (lit "ruju", lit "in 1 day");
    (lit "now", lit "0 second ago")];
    ld_relrx := [];
    ld_rx := None;
    ld_rx_exact := None;
    ld_known := [lit "this minute";
    lit "last month";
    lit "next month";
    lit "this month";
    lit "feburuari";
    lit "last week";
    lit "last year";
    lit "next week";
    lit "next year";
    lit "this hour";
    lit "this week";
    lit "this year";
    lit "jumamosi";
    lit "muramuko";
    lit "septemba";
    lit "dicemba";
    lit "januari";
    lit "ndagika";
    lit "novemba";
    lit "sekondi";
    lit "wethatu";
    lit "agasti";
    lit "kiumia";
    lit "njurai";
    lit "oktuba";
    lit "wetano";
    lit "igoro";
    lit "ipuru";
    lit "ithaa";
    lit "machi";
    lit "mwaka";
    lit "mweri";
    lit "narua";
    lit "njuni";
    lit "ntuku";
    lit "wairi";
    lit "ruju";
    lit "wena";
    lit "aga";
    lit "dec";
    lit "feb";
    lit "gmt";
    lit "ipu";
    lit "jan";
    lit "jum";
    lit "kiu";
    lit "mac";
    lit "mii";
    lit "mra";
    lit "njr";
    lit "nju";
    lit "nov";
    lit "now";
    lit "okt";
    lit "spt";
    lit "utc";
    lit "wai";
    lit "wen";
    lit "wet";
    lit "wtn";
    lit "am";
    lit "pm";
    lit "ru";
    lit "ug";
    lit " ";
    lit "'";
    lit "+";
    lit ",";
    lit "-";
    lit ".";
    lit "/";
    lit ":";
    lit ";";
    lit "@";
    lit "[";
    lit "]";
    lit "z";
    lit "|"] |}.

(** mfe.go:10-93 *)
Definition loc_mfe : locale := Eval vm_compute in
  {| ld_name := lit "mfe"; ld_order := lit "DMY"; ld_nospacing := false; ld_splitter := 0;
    ld_charset := runes (lit "bcdefghiklnorstuvwxyz");
    ld_abbr := [];
    ld_simpl := [];
    ld_trans := [(lit "merkredi", [lit "wednesday"]);
    (lit "vandredi", [lit "friday"]);
    (lit "fevriye", [lit "february"]);
    (lit "dimans", [lit "sunday"]);
    (lit "segonn", [lit "second"]);
    (lit "semenn", [lit "week"]);
    (lit "septam", [lit "september"]);
    (lit "zanvie", [lit "january"]);
    (lit "avril", [lit "april"]);
    (lit "desam", [lit "december"]);
    (lit "lindi", [lit "monday"]);
    (lit "mardi", [lit "tuesday"]);
    (lit "minit", [lit "minute"]);
    (lit "novam", [lit "november"]);
    (lit "oktob", [lit "october"]);
    (lit "samdi", [lit "saturday"]);
    (lit "zilye", [lit "july"]);
    (lit "lane", [lit "year"]);
    (lit "mars", [lit "march"]);
    (lit "zedi", [lit "thursday"]);
    (lit "zour", [lit "day"]);
    (lit "avr", [lit "april"]);
    (lit "des", [lit "december"]);
    (lit "dim", [lit "sunday"]);
    (lit "fev", [lit "february"]);
    (lit "gmt", [lit "gmt"]);
    (lit "ler", [lit "hour"]);
    (lit "lin", [lit "monday"]);
    (lit "mar", [lit "march"; lit "tuesday"]);
    (lit "mer", [lit "wednesday"]);
    (lit "mwa", [lit "month"]);
    (lit "nov", [lit "november"]);
    (lit "okt", [lit "october"]);
    (lit "out", [lit "august"]);
    (lit "sam", [lit "saturday"]);
    (lit "sep", [lit "september"]);
    (lit "utc", [lit "utc"]);
    (lit "van", [lit "friday"]);
    (lit "zan", [lit "january"]);
    (lit "zil", [lit "july"]);
    (lit "zin", [lit "june"]);
    (lit "am", [lit "am"]);
    (lit "me", [lit "may"]);
    (lit "pm", [lit "pm"]);
    (lit "ze", [lit "thursday"]);
    (lit " ", [lit " "]);
    (lit "'", [lit ""]);
    (lit "+", [lit "+"]);
    (lit ",", [lit ""]);
    (lit "-", [lit "-"]);
    (lit ".", [lit "."]);
    (lit "/", [lit "/"]);
    (lit ":", [lit ":"]);
    (lit ";", [lit ""]);
    (lit "@", [lit ""]);
    (lit "[", [lit ""]);
    (lit "]", [lit ""]);
    (lit "z", [lit "z"]);
    (lit "|", [lit ""])];
    ld_reltype := [(lit "this minute", lit "0 minute ago");
    (lit "last month", lit "1 month ago");
    (lit "next month", lit "in 1 month");
    (lit "this month", lit "0 month ago");
    (lit "last week", lit "1 week ago");
    (lit "last year", lit "1 year ago");
    (lit "next week", lit "in 1 week");
    (lit "next year", lit "in 1 year");
    (lit "this hour", lit "0 hour ago");
    (lit "this week", lit "0 week ago");
    (lit "this year", lit "0 year ago");
    (lit "demin", lit "in 1 day");
    (lit "zordi", lit "0 day ago");
    (lit "now", lit "0 second ago");
    (lit "yer", lit "1 day ago")];
    ld_relrx := [];
    ld_rx := None;
    ld_rx_exact := None;
    ld_known := [lit "this minute";
    lit "last month";
    lit "next month";
    lit "this month";
    lit "last week";
    lit "last year";
    lit "next week";
    lit "next year";
    lit "this hour";
    lit "this week";
    lit "this year";
    lit "merkredi";
    lit "vandredi";
    lit "fevriye";
    lit "dimans";
    lit "segonn";
    lit "semenn";
    lit "septam";
    lit "zanvie";
    lit "avril";
    lit "demin";
    lit "desam";
    lit "lindi";
    lit "mardi";
    lit "minit";
    lit "novam";
    lit "oktob";
    lit "samdi";
    lit "zilye";
    lit "zordi";
    lit "lane";
    lit "mars";
    lit "zedi";
    lit "zour";
    lit "avr";
    lit "des";
    lit "dim";
    lit "fev";
    lit "gmt";
    lit "ler";
    lit "lin";
    lit "mar";
    lit "mer";
    lit "mwa";
    lit "nov";
    lit "now";
    lit "okt";
    lit "out";
    lit "sam";
    lit "sep";
    lit "utc";
    lit "van";
    lit "yer";
    lit "zan";
    lit "zil";
    lit "zin";
    lit "am";
    lit "me";
    lit "pm";
    lit "ze";
    lit " ";
    lit "'";
    lit "+";
    lit ",";
    lit "-";
    lit ".";
    lit "/";
    lit ":";
    lit ";";
    lit "@";
    lit "[";
    lit "]";
    lit "z";
    lit "|"] |}.

(** mg.go:10-96 *)
Definition loc_mg : locale := Eval vm_compute in
  {| ld_name := lit "mg"; ld_order := lit "YMD"; ld_nospacing := false; ld_splitter := 0;
    ld_charset := runes (lit "bcdefghijklnorstuvwxyz");
    ld_abbr := [];
    ld_simpl := [];
    ld_trans := [(lit "alatsinainy", [lit "monday"]);
    (lit "herinandro", [lit "week"]);
    (lit "alakamisy", [lit "thursday"]);
    (lit "aogositra", [lit "august"]);
    (lit "septambra", [lit "september"]);
    (lit "alarobia", [lit "wednesday"]);
    (lit "asabotsy", [lit "saturday"]);
    (lit "desambra", [lit "december"]);
    (lit "febroary", [lit "february"]);
    (lit "novambra", [lit "november"]);
    (lit "segondra", [lit "second"]);
    (lit "alahady", [lit "sunday"]);
    (lit "janoary", [lit "january"]);
    (lit "minitra", [lit "minute"]);
    (lit "oktobra", [lit "october"]);
    (lit "aprily", [lit "april"]);
    (lit "martsa", [lit "march"]);
    (lit "talata", [lit "tuesday"]);
    (lit "volana", [lit "month"]);
    (lit "alats", [lit "monday"]);
    (lit "andro", [lit "day"]);
    (lit "jolay", [lit "july"]);
    (lit "taona", [lit "year"]);
    (lit "alah", [lit "sunday"]);
    (lit "alak", [lit "thursday"]);
    (lit "alar", [lit "wednesday"]);
    (lit "asab", [lit "saturday"]);
    (lit "jona", [lit "june"]);
    (lit "zoma", [lit "friday"]);
    (lit "aog", [lit "august"]);
    (lit "apr", [lit "april"]);
    (lit "des", [lit "december"]);
    (lit "feb", [lit "february"]);
    (lit "gmt", [lit "gmt"]);
    (lit "jan", [lit "january"]);
    (lit "jol", [lit "july"]);
    (lit "jon", [lit "june"]);
    (lit "mar", [lit "march"]);
    (lit "mey", [lit "may"]);
    (lit "nov", [lit "november"]);
    (lit "okt", [lit "october"]);
    (lit "ora", [lit "hour"]);
    (lit "sep", [lit "september"]);
    (lit "tal", [lit "tuesday"]);
    (lit "utc", [lit "utc"]);
    (lit "zom", [lit "friday"]);
    (lit "am", [lit "am"]);
    (lit "pm", [lit "pm"]);
    (lit " ", [lit " "]);
    (lit "'", [lit ""]);
    (lit "+", [lit "+"]);
    (lit ",", [lit ""]);
    (lit "-", [lit "-"]);
    (lit ".", [lit "."]);
    (lit "/", [lit "/"]);
    (lit ":", [lit ":"]);
    (lit ";", [lit ""]);
    (lit "@", [lit ""]);
    (lit "[", [lit ""]);
    (lit "]", [lit ""]);
    (lit "z", [lit "z"]);
    (lit "|", [lit ""])];
    ld_reltype := [(lit "this minute", lit "0 minute ago");
    (lit "last month", lit "1 month ago");
    (lit "next month", lit "in 1 month");
    (lit "rahampitso", lit "in 1 day");
    (lit "this month", lit "0 month ago");
    (lit "last week", lit "1 week ago");
    (lit "last year", lit "1 year ago");
    (lit "next week", lit "in 1 week");
    (lit "next year", lit "in 1 year");
    (lit "this hour", lit "0 hour ago");
    (lit "this week", lit "0 week ago");
    (lit "this year", lit "0 year ago");
    (lit "omaly", lit "1 day ago");
    (lit "anio", lit "0 day ago");
    (lit "now", lit "0 second ago")];
    ld_relrx := [];
    ld_rx := None;
    ld_rx_exact := None;
    ld_known := [lit "alatsinainy";
    lit "this minute";
    lit "herinandro";
    lit "last month";
    lit "next month";
    lit "rahampitso";
    lit "this month";
    lit "alakamisy";
    lit "aogositra";
    lit "last week";
    lit "last year";
    lit "next week";
    lit "next year";
    lit "septambra";
    lit "this hour";
    lit "this week";
    lit "this year";
    lit "alarobia";
    lit "asabotsy";
    lit "desambra";
    lit "febroary";
    lit "novambra";
    lit "segondra";
    lit "alahady";
    lit "janoary";
    lit "minitra";
    lit "oktobra";
    lit "aprily";
    lit "martsa";
    lit "talata";
    lit "volana";
    lit "alats";
    lit "andro";
    lit "jolay";
    lit "omaly";
    lit "taona";
    lit "alah";
    lit "alak";
    lit "alar";
    lit "anio";
    lit "asab";
    lit "jona";
    lit "zoma";
    lit "aog";
    lit "apr";
    lit "des";
    lit "feb";
    lit "gmt";
    lit "jan";
    lit "jol";
    lit "jon";
    lit "mar";
    lit "mey";
    lit "nov";
    lit "now";
    lit "okt";
    lit "ora";
    lit "sep";
    lit "tal";
    lit "utc";
    lit "zom";
    lit "am";
    lit "pm";
    lit " ";
    lit "'";
    lit "+";
    lit ",";
    lit "-";
    lit ".";
    lit "/";
    lit ":";
    lit ";";
    lit "@";
    lit "[";
    lit "]";
    lit "z";
    lit "|"] |}.

(** mgh.go:10-98 *)
Definition loc_mgh : locale := Eval vm_compute in
  {| ld_name := lit "mgh"; ld_order := lit "DMY"; ld_nospacing := false; ld_splitter := 0;
    ld_charset := runes (lit "bcdeghijklnorstuwxyz");
    ld_abbr := [];
    ld_simpl := [];
    ld_trans := [(lit "mweri wo kumi na yel'li", [lit "december"]);
    (lit "mweri wo thanu na mocha", [lit "june"]);
    (lit "mweri wo kumi na moja", [lit "november"]);
    (lit "mweri wo unecheshe", [lit "april"]);
    (lit "mweri wo unethanu", [lit "may"]);
    (lit "mweri wo unayeli", [lit "february"]);
    (lit "mweri wo uneraru", [lit "march"]);
    (lit "mweri wo kwanza", [lit "january"]);
    (lit "mweri wo kumi", [lit "october"]);
    (lit "mweri wo nane", [lit "august"]);
    (lit "mweri wo saba", [lit "july"]);
    (lit "mweri wo tisa", [lit "september"]);
    (lit "iwiki mocha", [lit "week"]);
    (lit "mchochil'l", [lit "pm"]);
    (lit "arahamisi", [lit "thursday"]);
    (lit "isekunde", [lit "second"]);
    (lit "jumamosi", [lit "saturday"]);
    (lit "jumatano", [lit "wednesday"]);
    (lit "jumatatu", [lit "monday"]);
    (lit "wichishu", [lit "am"]);
    (lit "idakika", [lit "minute"]);
    (lit "jumanne", [lit "tuesday"]);
    (lit "ijumaa", [lit "friday"]);
    (lit "nihuku", [lit "day"]);
    (lit "sabato", [lit "sunday"]);
    (lit "mweri", [lit "month"]);
    (lit "isaa", [lit "hour"]);
    (lit "yaka", [lit "year"]);
    (lit "ara", [lit "thursday"]);
    (lit "che", [lit "april"]);
    (lit "gmt", [lit "gmt"]);
    (lit "iju", [lit "friday"]);
    (lit "jmo", [lit "saturday"]);
    (lit "jnn", [lit "tuesday"]);
    (lit "jtn", [lit "wednesday"]);
    (lit "jtt", [lit "monday"]);
    (lit "kum", [lit "october"]);
    (lit "kwa", [lit "january"]);
    (lit "moc", [lit "june"]);
    (lit "moj", [lit "november"]);
    (lit "nan", [lit "august"]);
    (lit "rar", [lit "march"]);
    (lit "sab", [lit "july"; lit "sunday"]);
    (lit "tha", [lit "may"]);
    (lit "tis", [lit "september"]);
    (lit "una", [lit "february"]);
    (lit "utc", [lit "utc"]);
    (lit "yel", [lit "december"]);
    (lit "am", [lit "am"]);
    (lit "pm", [lit "pm"]);
    (lit " ", [lit " "]);
    (lit "'", [lit ""]);
    (lit "+", [lit "+"]);
    (lit ",", [lit ""]);
    (lit "-", [lit "-"]);
    (lit ".", [lit "."]);
    (lit "/", [lit "/"]);
    (lit ":", [lit ":"]);
    (lit ";", [lit ""]);
    (lit "@", [lit ""]);
    (lit "[", [lit ""]);
    (lit "]", [lit ""]);
    (lit "z", [lit "z"]);
    (lit "|", [lit ""])];
    ld_reltype := [(lit "this minute", lit "0 minute ago");
    (lit "last month", lit "1 month ago");
    (lit "next month", lit "in 1 month");
    (lit "this month", lit "0 month ago");
    (lit "last week", lit "1 week ago");
    (lit "last year", lit "1 year ago");
    (lit "next week", lit "in 1 week");
    (lit "next year", lit "in 1 year");
    (lit "this hour", lit "0 hour ago");
    (lit "this week", lit "0 week ago");
    (lit "this year", lit "0 year ago");
    (lit "n'chana", lit "1 day ago");
    (lit "lel'lo", lit "0 day ago");
    (lit "me'llo", lit "in 1 day");
    (lit "now", lit "0 second ago")];
    ld_relrx := [];
    ld_rx := None;
    ld_rx_exact := None;
    ld_known := [lit "mweri wo kumi na yel'li";
    lit "mweri wo thanu na mocha";
    lit "mweri wo kumi na moja";
    lit "mweri wo unecheshe";
    lit "mweri wo unethanu";
    lit "mweri wo unayeli";
    lit "mweri wo uneraru";
    lit "mweri wo kwanza";
    lit "mweri wo kumi";
    lit "mweri wo nane";
    lit "mweri wo saba";
    lit "mweri wo tisa";
    lit "iwiki mocha";
    lit "this minute";
    lit "last month";
    lit "mchochil'l";
    lit "next month";
    lit "this month";
    lit "arahamisi";
    lit "last week";
    lit "last year";
    lit "next week";
    lit "next year";
    lit "this hour";
    lit "this week";
    lit "this year";
    lit "isekunde";
    lit "jumamosi";
    lit "jumatano";
    lit "jumatatu";
    lit "wichishu";
    lit "idakika";
    lit "jumanne";
    lit "n'chana";
    lit "ijumaa";
    lit "lel'lo";
    lit "me'llo";
    lit "nihuku";
    lit "sabato";
    lit "mweri";
    lit "isaa";
    lit "yaka";
    lit "ara";
    lit "che";
    lit "gmt";
    lit "iju";
    lit "jmo";
    lit "jnn";
    lit "jtn";
    lit "jtt";
    lit "kum";
    lit "kwa";
    lit "moc";
    lit "moj";
    lit "nan";
    lit "now";
    lit "rar";
    lit "sab";
    lit "tha";
    lit "tis";
    lit "una";
    lit "utc";
    lit "yel";
    lit "am";
    lit "pm";
    lit " ";
    lit "'";
    lit "+";
    lit ",";
    lit "-";
    lit ".";
    lit "/";
    lit ":";
    lit ";";
    lit "@";
    lit "[";
    lit "]";
    lit "z";
    lit "|"] |}.

(** mgo.go:10-79 *)
Definition loc_mgo : locale := Eval vm_compute in
  {| ld_name := lit "mgo"; ld_order := lit "YMD"; ld_nospacing := false; ld_splitter := 0;
    ld_charset := runes (lit "bcdefghiklnorstuwxyzàèìòùŋɔə̀");
    ld_abbr := [];
    ld_simpl := [];
    ld_trans := [(lit "imeg mbəŋchubi", [lit "march"]);
    (lit "iməg ichiibɔd", [lit "june"]);
    (lit "iməg adumbəŋ", [lit "july"]);
    (lit "iməg krizmed", [lit "december"]);
    (lit "iməg mbegtug", [lit "january"]);
    (lit "iməg ichika", [lit "august"]);
    (lit "iməg tesi'e", [lit "october"]);
    (lit "imeg abubi", [lit "february"]);
    (lit "iməg ngwət", [lit "april"]);
    (lit "iməg fog", [lit "may"]);
    (lit "iməg kud", [lit "september"]);
    (lit "iməg zo", [lit "november"]);
    (lit "mbegtug", [lit "january"]);
    (lit "aneg 1", [lit "sunday"]);
    (lit "aneg 2", [lit "monday"]);
    (lit "aneg 3", [lit "tuesday"]);
    (lit "aneg 4", [lit "wednesday"]);
    (lit "aneg 5", [lit "thursday"]);
    (lit "aneg 6", [lit "friday"]);
    (lit "aneg 7", [lit "saturday"]);
    (lit "minute", [lit "minute"]);
    (lit "second", [lit "second"]);
    (lit "fitu'", [lit "year"]);
    (lit "anəg", [lit "day"]);
    (lit "hour", [lit "hour"]);
    (lit "iməg", [lit "month"]);
    (lit "nkap", [lit "week"]);
    (lit "gmt", [lit "gmt"]);
    (lit "utc", [lit "utc"]);
    (lit "am", [lit "am"]);
    (lit "pm", [lit "pm"]);
    (lit " ", [lit " "]);
    (lit "'", [lit ""]);
    (lit "+", [lit "+"]);
    (lit ",", [lit ""]);
    (lit "-", [lit "-"]);
    (lit ".", [lit "."]);
    (lit "/", [lit "/"]);
    (lit ":", [lit ":"]);
    (lit ";", [lit ""]);
    (lit "@", [lit ""]);
    (lit "[", [lit ""]);
    (lit "]", [lit ""]);
    (lit "z", [lit "z"]);
    (lit "|", [lit ""])];
    ld_reltype := [(lit "this minute", lit "0 minute ago");
    (lit "last month", lit "1 month ago");
    (lit "next month", lit "in 1 month");
    (lit "this month", lit "0 month ago");
    (lit "last week", lit "1 week ago");
    (lit "last year", lit "1 year ago");
    (lit "next week", lit "in 1 week");
    (lit "next year", lit "in 1 year");
    (lit "this hour", lit "0 hour ago");
    (lit "this week", lit "0 week ago");
    (lit "this year", lit "0 year ago");
    (lit "ikwiri", lit "1 day ago");
    (lit "techɔŋ", lit "0 day ago");
    (lit "isu", lit "in 1 day");
    (lit "now", lit "0 second ago")];
    ld_relrx := [];
    ld_rx := None;
    ld_rx_exact := None;
    ld_known := [lit "imeg mbəŋchubi";
    lit "iməg ichiibɔd";
    lit "iməg adumbəŋ";
    lit "iməg krizmed";
    lit "iməg mbegtug";
    lit "iməg ichika";
    lit "iməg tesi'e";
    lit "this minute";
    lit "imeg abubi";
    lit "iməg ngwət";
    lit "last month";
    lit "next month";
    lit "this month";
    lit "last week";
    lit "last year";
    lit "next week";
    lit "next year";
    lit "this hour";
    lit "this week";
    lit "this year";
    lit "iməg fog";
    lit "iməg kud";
    lit "iməg zo";
    lit "mbegtug";
    lit "aneg 1";
    lit "aneg 2";
    lit "aneg 3";
    lit "aneg 4";
    lit "aneg 5";
    lit "aneg 6";
    lit "aneg 7";
    lit "ikwiri";
    lit "minute";
    lit "second";
    lit "techɔŋ";
    lit "fitu'";
    lit "anəg";
    lit "hour";
    lit "iməg";
    lit "nkap";
    lit "gmt";
    lit "isu";
    lit "now";
    lit "utc";
    lit "am";
    lit "pm";
    lit " ";
    lit "'";
    lit "+";
    lit ",";
    lit "-";
    lit ".";
    lit "/";
    lit ":";
    lit ";";
    lit "@";
    lit "[";
    lit "]";
    lit "z";
    lit "|"] |}.

(** all patterns above are accepted by the syntax parser *)
Example patterns_ok : forallb (fun s => match parse_regex s with Some _ => true | None => false end)
  [lit "(?i)(\A|[^\pL\pM\d]|_)(\d+[.,]?\d* секунддан кииин|\d+[.,]?\d* мүнөттөн кииин|\d+[.,]?\d* аптадан кииин|\d+[.,]?\d* сааттан кииин|\d+[.,]?\d* жылдан кииин|\d+[.,]?\d* күндөн кииин|\d+[.,]?\d* секунд мурун|\d+[.,]?\d* аидан кииин|\d+[.,]?\d* мүнөт мурун|\d+[.,]?\d* апта мурун|\d+[.,]?\d* саат кииин|\d+[.,]?\d* саат мурун|\d+[.,]?\d* аид кииин|\d+[.,]?\d* апт кииин|\d+[.,]?\d* апт мурун|\d+[.,]?\d* жыл кииин|\d+[.,]?\d* жыл мурун|\d+[.,]?\d* күн кииин|\d+[.,]?\d* күн мурун|\d+[.,]?\d* мүн кииин|\d+[.,]?\d* мүн мурун|\d+[.,]?\d* сек кииин|\d+[.,]?\d* сек мурун|\d+[.,]?\d* аи мурун|\d+[.,]?\d* аид киин|\d+[.,]?\d* мүн киин|\d+[.,]?\d* мүн мурн|\d+[.,]?\d* сек киин|\d+[.,]?\d* сек мурн|\d+[.,]?\d* аи мурн|\d+[.,]?\d* с киин|\d+[.,]?\d* с мурн)(\z|[^\pL\pM\d]|_)";
  lit "(?i)(\A|[^\pL\pM\d]|_)(\d+[.,]?\d* ໃນອກ 0 ນາທ|ໃນອກ \d+[.,]?\d* ຊວໂມງ|ໃນອກ \d+[.,]?\d* ວນາທ|ໃນອກ \d+[.,]?\d* ອາທດ|ໃນອກ \d+[.,]?\d* ເດອນ|\d+[.,]?\d* ຊວໂມງກອນ|\d+[.,]?\d* ວນາທກອນ|\d+[.,]?\d* ອາທດກອນ|\d+[.,]?\d* ເດອນກອນ|ໃນອກ \d+[.,]?\d* ຊມ|ໃນອກ \d+[.,]?\d* ອທ|\d+[.,]?\d* ຊມ ກອນ|\d+[.,]?\d* ນທ ກອນ|\d+[.,]?\d* ນາທກອນ|\d+[.,]?\d* ອທ ກອນ|ໃນອກ \d+[.,]?\d* ດ|ໃນອກ \d+[.,]?\d* ປ|ໃນອກ \d+[.,]?\d* ມ|\d+[.,]?\d* ດ ກອນ|\d+[.,]?\d* ວ ກອນ|ໃນ \d+[.,]?\d* ນທ|\d+[.,]?\d* ປກອນ|\d+[.,]?\d* ມກອນ|ໃນ \d+[.,]?\d* ວ)(\z|[^\pL\pM\d]|_)";
  lit "(?i)(\A|[^\pL\pM\d]|_)(hekta oh'aŋkho \d+[.,]?\d* k'uŋ hehaŋ|hekta wiyawapi \d+[.,]?\d* k'uŋ hehaŋ|letaŋhaŋ oh'aŋkho \d+[.,]?\d* kiŋhaŋ|letaŋhaŋ wiyawapi \d+[.,]?\d* kiŋhaŋ|hekta omakha \d+[.,]?\d* k'uŋ hehaŋ|hekta owaphe \d+[.,]?\d* k'uŋ hehaŋ|letaŋhaŋ omakha \d+[.,]?\d* kiŋhaŋ|letaŋhaŋ owaphe \d+[.,]?\d* kiŋhaŋ|hekta \d+[.,]?\d*-chaŋ k'uŋ hehaŋ|hekta okpi \d+[.,]?\d* k'uŋ hehaŋ|hekta oko \d+[.,]?\d* k'uŋ hehaŋ|letaŋhaŋ \d+[.,]?\d*-chaŋ kiŋhaŋ|letaŋhaŋ okpi \d+[.,]?\d* kiŋhaŋ|letaŋhaŋ oko \d+[.,]?\d* kiŋhaŋ)(\z|[^\pL\pM\d]|_)";
  lit "(?i)(\A|[^\pL\pM\d]|_)(pirms \d+[.,]?\d* menesiem|pirms \d+[.,]?\d* sekundem|pirms \d+[.,]?\d* sekundes|pirms \d+[.,]?\d* minutem|pirms \d+[.,]?\d* minutes|pirms \d+[.,]?\d* nedelam|pirms \d+[.,]?\d* nedelas|pirms \d+[.,]?\d* stundam|pirms \d+[.,]?\d* stundas|pec \d+[.,]?\d* menesiem|pec \d+[.,]?\d* sekundem|pec \d+[.,]?\d* sekundes|pirms \d+[.,]?\d* dienam|pirms \d+[.,]?\d* dienas|pirms \d+[.,]?\d* gadiem|pirms \d+[.,]?\d* menesa|pec \d+[.,]?\d* minutem|pec \d+[.,]?\d* minutes|pec \d+[.,]?\d* nedelam|pec \d+[.,]?\d* nedelas|pec \d+[.,]?\d* stundam|pec \d+[.,]?\d* stundas|pec \d+[.,]?\d* dienam|pec \d+[.,]?\d* dienas|pec \d+[.,]?\d* gadiem|pec \d+[.,]?\d* menesa|pirms \d+[.,]?\d* gada|pirms \d+[.,]?\d* men|pirms \d+[.,]?\d* min|pirms \d+[.,]?\d* ned|pirms \d+[.,]?\d* sek|pec \d+[.,]?\d* gada|pirms \d+[.,]?\d* st|pec \d+[.,]?\d* men|pec \d+[.,]?\d* min|pec \d+[.,]?\d* ned|pec \d+[.,]?\d* sek|pirms \d+[.,]?\d* d|pirms \d+[.,]?\d* g|pirms \d+[.,]?\d* h|pirms \d+[.,]?\d* s|pec \d+[.,]?\d* st|pec \d+[.,]?\d* d|pec \d+[.,]?\d* g|pec \d+[.,]?\d* h|pec \d+[.,]?\d* s)(\z|[^\pL\pM\d]|_)";
  lit "(?i)(\A|[^\pL\pM\d]|_)(pries \d+[.,]?\d* sekundziu|pries \d+[.,]?\d* savaiciu|pries \d+[.,]?\d* menesiu|pries \d+[.,]?\d* minuciu|pries \d+[.,]?\d* savaite|pries \d+[.,]?\d* sekunde|pries \d+[.,]?\d* valanda|pries \d+[.,]?\d* valandu|po \d+[.,]?\d* sekundziu|pries \d+[.,]?\d* menesi|pries \d+[.,]?\d* minute|po \d+[.,]?\d* savaiciu|po \d+[.,]?\d* savaites|po \d+[.,]?\d* sekundes|po \d+[.,]?\d* valandos|pries \d+[.,]?\d* diena|pries \d+[.,]?\d* dienu|pries \d+[.,]?\d* metus|po \d+[.,]?\d* menesio|po \d+[.,]?\d* menesiu|po \d+[.,]?\d* minuciu|po \d+[.,]?\d* minutes|po \d+[.,]?\d* valandu|pries \d+[.,]?\d* metu|po \d+[.,]?\d* dienos|pries \d+[.,]?\d* men|pries \d+[.,]?\d* min|pries \d+[.,]?\d* sav|pries \d+[.,]?\d* sek|pries \d+[.,]?\d* val|po \d+[.,]?\d* dienu|po \d+[.,]?\d* metu|pries \d+[.,]?\d* d|pries \d+[.,]?\d* m|pries \d+[.,]?\d* s|po \d+[.,]?\d* men|po \d+[.,]?\d* min|po \d+[.,]?\d* sav|po \d+[.,]?\d* sek|po \d+[.,]?\d* val|po \d+[.,]?\d* d|po \d+[.,]?\d* m|po \d+[.,]?\d* s)(\z|[^\pL\pM\d]|_)";
  lit "(?i)(\A|[^\pL\pM\d]|_)(virun \d+[.,]?\d* minutt|virun \d+[.,]?\d* sekonn|virun \d+[.,]?\d* mount|virun \d+[.,]?\d* stonn|virun \d+[.,]?\d* joer|virun \d+[.,]?\d* woch|an \d+[.,]?\d* minutt|an \d+[.,]?\d* sekonn|virun \d+[.,]?\d* dag|virun \d+[.,]?\d* min|virun \d+[.,]?\d* sek|an \d+[.,]?\d* mount|an \d+[.,]?\d* stonn|virun \d+[.,]?\d* st|an \d+[.,]?\d* joer|an \d+[.,]?\d* woch|virun \d+[.,]?\d* d|virun \d+[.,]?\d* j|virun \d+[.,]?\d* m|virun \d+[.,]?\d* w|an \d+[.,]?\d* dag|an \d+[.,]?\d* min|an \d+[.,]?\d* sek|an \d+[.,]?\d* st|an \d+[.,]?\d* d|an \d+[.,]?\d* j|an \d+[.,]?\d* m|an \d+[.,]?\d* w)(\z|[^\pL\pM\d]|_)";
  lit "(?i)(\A|[^\pL\pM\d]|_)(vor \d+[.,]?\d* johre|en \d+[.,]?\d* johre|vor \d+[.,]?\d* johr|en \d+[.,]?\d* johr)(\z|[^\pL\pM\d]|_)";
  lit "(?i)(\d+[.,]?\d*) аи мурн";
  lit "(?i)(\d+[.,]?\d*) аи мурун";
  lit "(?i)(\d+[.,]?\d*) аид кииин";
  lit "(?i)(\d+[.,]?\d*) аид киин";
  lit "(?i)(\d+[.,]?\d*) аидан кииин";
  lit "(?i)(\d+[.,]?\d*) апт кииин";
  lit "(?i)(\d+[.,]?\d*) апт мурун";
  lit "(?i)(\d+[.,]?\d*) апта мурун";
  lit "(?i)(\d+[.,]?\d*) аптадан кииин";
  lit "(?i)(\d+[.,]?\d*) жыл кииин";
  lit "(?i)(\d+[.,]?\d*) жыл мурун";
  lit "(?i)(\d+[.,]?\d*) жылдан кииин";
  lit "(?i)(\d+[.,]?\d*) күн кииин";
  lit "(?i)(\d+[.,]?\d*) күн мурун";
  lit "(?i)(\d+[.,]?\d*) күндөн кииин";
  lit "(?i)(\d+[.,]?\d*) мүн кииин";
  lit "(?i)(\d+[.,]?\d*) мүн киин";
  lit "(?i)(\d+[.,]?\d*) мүн мурн";
  lit "(?i)(\d+[.,]?\d*) мүн мурун";
  lit "(?i)(\d+[.,]?\d*) мүнөт мурун";
  lit "(?i)(\d+[.,]?\d*) мүнөттөн кииин";
  lit "(?i)(\d+[.,]?\d*) с киин";
  lit "(?i)(\d+[.,]?\d*) с мурн";
  lit "(?i)(\d+[.,]?\d*) саат кииин";
  lit "(?i)(\d+[.,]?\d*) саат мурун";
  lit "(?i)(\d+[.,]?\d*) сааттан кииин";
  lit "(?i)(\d+[.,]?\d*) сек кииин";
  lit "(?i)(\d+[.,]?\d*) сек киин";
  lit "(?i)(\d+[.,]?\d*) сек мурн";
  lit "(?i)(\d+[.,]?\d*) сек мурун";
  lit "(?i)(\d+[.,]?\d*) секунд мурун";
  lit "(?i)(\d+[.,]?\d*) секунддан кииин";
  lit "(?i)(\d+[.,]?\d*) ຊມ ກອນ";
  lit "(?i)(\d+[.,]?\d*) ຊວໂມງກອນ";
  lit "(?i)(\d+[.,]?\d*) ດ ກອນ";
  lit "(?i)(\d+[.,]?\d*) ນທ ກອນ";
  lit "(?i)(\d+[.,]?\d*) ນາທກອນ";
  lit "(?i)(\d+[.,]?\d*) ປກອນ";
  lit "(?i)(\d+[.,]?\d*) ມກອນ";
  lit "(?i)(\d+[.,]?\d*) ວ ກອນ";
  lit "(?i)(\d+[.,]?\d*) ວນາທກອນ";
  lit "(?i)(\d+[.,]?\d*) ອທ ກອນ";
  lit "(?i)(\d+[.,]?\d*) ອາທດກອນ";
  lit "(?i)(\d+[.,]?\d*) ເດອນກອນ";
  lit "(?i)(\d+[.,]?\d*) ໃນອກ 0 ນາທ";
  lit "(?i)^(\d+[.,]?\d* секунддан кииин|\d+[.,]?\d* мүнөттөн кииин|\d+[.,]?\d* аптадан кииин|\d+[.,]?\d* сааттан кииин|\d+[.,]?\d* жылдан кииин|\d+[.,]?\d* күндөн кииин|\d+[.,]?\d* секунд мурун|\d+[.,]?\d* аидан кииин|\d+[.,]?\d* мүнөт мурун|\d+[.,]?\d* апта мурун|\d+[.,]?\d* саат кииин|\d+[.,]?\d* саат мурун|\d+[.,]?\d* аид кииин|\d+[.,]?\d* апт кииин|\d+[.,]?\d* апт мурун|\d+[.,]?\d* жыл кииин|\d+[.,]?\d* жыл мурун|\d+[.,]?\d* күн кииин|\d+[.,]?\d* күн мурун|\d+[.,]?\d* мүн кииин|\d+[.,]?\d* мүн мурун|\d+[.,]?\d* сек кииин|\d+[.,]?\d* сек мурун|\d+[.,]?\d* аи мурун|\d+[.,]?\d* аид киин|\d+[.,]?\d* мүн киин|\d+[.,]?\d* мүн мурн|\d+[.,]?\d* сек киин|\d+[.,]?\d* сек мурн|\d+[.,]?\d* аи мурн|\d+[.,]?\d* с киин|\d+[.,]?\d* с мурн)$";
  lit "(?i)^(\d+[.,]?\d* ໃນອກ 0 ນາທ|ໃນອກ \d+[.,]?\d* ຊວໂມງ|ໃນອກ \d+[.,]?\d* ວນາທ|ໃນອກ \d+[.,]?\d* ອາທດ|ໃນອກ \d+[.,]?\d* ເດອນ|\d+[.,]?\d* ຊວໂມງກອນ|\d+[.,]?\d* ວນາທກອນ|\d+[.,]?\d* ອາທດກອນ|\d+[.,]?\d* ເດອນກອນ|ໃນອກ \d+[.,]?\d* ຊມ|ໃນອກ \d+[.,]?\d* ອທ|\d+[.,]?\d* ຊມ ກອນ|\d+[.,]?\d* ນທ ກອນ|\d+[.,]?\d* ນາທກອນ|\d+[.,]?\d* ອທ ກອນ|ໃນອກ \d+[.,]?\d* ດ|ໃນອກ \d+[.,]?\d* ປ|ໃນອກ \d+[.,]?\d* ມ|\d+[.,]?\d* ດ ກອນ|\d+[.,]?\d* ວ ກອນ|ໃນ \d+[.,]?\d* ນທ|\d+[.,]?\d* ປກອນ|\d+[.,]?\d* ມກອນ|ໃນ \d+[.,]?\d* ວ)$";
  lit "(?i)^(hekta oh'aŋkho \d+[.,]?\d* k'uŋ hehaŋ|hekta wiyawapi \d+[.,]?\d* k'uŋ hehaŋ|letaŋhaŋ oh'aŋkho \d+[.,]?\d* kiŋhaŋ|letaŋhaŋ wiyawapi \d+[.,]?\d* kiŋhaŋ|hekta omakha \d+[.,]?\d* k'uŋ hehaŋ|hekta owaphe \d+[.,]?\d* k'uŋ hehaŋ|letaŋhaŋ omakha \d+[.,]?\d* kiŋhaŋ|letaŋhaŋ owaphe \d+[.,]?\d* kiŋhaŋ|hekta \d+[.,]?\d*-chaŋ k'uŋ hehaŋ|hekta okpi \d+[.,]?\d* k'uŋ hehaŋ|hekta oko \d+[.,]?\d* k'uŋ hehaŋ|letaŋhaŋ \d+[.,]?\d*-chaŋ kiŋhaŋ|letaŋhaŋ okpi \d+[.,]?\d* kiŋhaŋ|letaŋhaŋ oko \d+[.,]?\d* kiŋhaŋ)$";
  lit "(?i)^(pirms \d+[.,]?\d* menesiem|pirms \d+[.,]?\d* sekundem|pirms \d+[.,]?\d* sekundes|pirms \d+[.,]?\d* minutem|pirms \d+[.,]?\d* minutes|pirms \d+[.,]?\d* nedelam|pirms \d+[.,]?\d* nedelas|pirms \d+[.,]?\d* stundam|pirms \d+[.,]?\d* stundas|pec \d+[.,]?\d* menesiem|pec \d+[.,]?\d* sekundem|pec \d+[.,]?\d* sekundes|pirms \d+[.,]?\d* dienam|pirms \d+[.,]?\d* dienas|pirms \d+[.,]?\d* gadiem|pirms \d+[.,]?\d* menesa|pec \d+[.,]?\d* minutem|pec \d+[.,]?\d* minutes|pec \d+[.,]?\d* nedelam|pec \d+[.,]?\d* nedelas|pec \d+[.,]?\d* stundam|pec \d+[.,]?\d* stundas|pec \d+[.,]?\d* dienam|pec \d+[.,]?\d* dienas|pec \d+[.,]?\d* gadiem|pec \d+[.,]?\d* menesa|pirms \d+[.,]?\d* gada|pirms \d+[.,]?\d* men|pirms \d+[.,]?\d* min|pirms \d+[.,]?\d* ned|pirms \d+[.,]?\d* sek|pec \d+[.,]?\d* gada|pirms \d+[.,]?\d* st|pec \d+[.,]?\d* men|pec \d+[.,]?\d* min|pec \d+[.,]?\d* ned|pec \d+[.,]?\d* sek|pirms \d+[.,]?\d* d|pirms \d+[.,]?\d* g|pirms \d+[.,]?\d* h|pirms \d+[.,]?\d* s|pec \d+[.,]?\d* st|pec \d+[.,]?\d* d|pec \d+[.,]?\d* g|pec \d+[.,]?\d* h|pec \d+[.,]?\d* s)$";
  lit "(?i)^(pries \d+[.,]?\d* sekundziu|pries \d+[.,]?\d* savaiciu|pries \d+[.,]?\d* menesiu|pries \d+[.,]?\d* minuciu|pries \d+[.,]?\d* savaite|pries \d+[.,]?\d* sekunde|pries \d+[.,]?\d* valanda|pries \d+[.,]?\d* valandu|po \d+[.,]?\d* sekundziu|pries \d+[.,]?\d* menesi|pries \d+[.,]?\d* minute|po \d+[.,]?\d* savaiciu|po \d+[.,]?\d* savaites|po \d+[.,]?\d* sekundes|po \d+[.,]?\d* valandos|pries \d+[.,]?\d* diena|pries \d+[.,]?\d* dienu|pries \d+[.,]?\d* metus|po \d+[.,]?\d* menesio|po \d+[.,]?\d* menesiu|po \d+[.,]?\d* minuciu|po \d+[.,]?\d* minutes|po \d+[.,]?\d* valandu|pries \d+[.,]?\d* metu|po \d+[.,]?\d* dienos|pries \d+[.,]?\d* men|pries \d+[.,]?\d* min|pries \d+[.,]?\d* sav|pries \d+[.,]?\d* sek|pries \d+[.,]?\d* val|po \d+[.,]?\d* dienu|po \d+[.,]?\d* metu|pries \d+[.,]?\d* d|pries \d+[.,]?\d* m|pries \d+[.,]?\d* s|po \d+[.,]?\d* men|po \d+[.,]?\d* min|po \d+[.,]?\d* sav|po \d+[.,]?\d* sek|po \d+[.,]?\d* val|po \d+[.,]?\d* d|po \d+[.,]?\d* m|po \d+[.,]?\d* s)$";
  lit "(?i)^(virun \d+[.,]?\d* minutt|virun \d+[.,]?\d* sekonn|virun \d+[.,]?\d* mount|virun \d+[.,]?\d* stonn|virun \d+[.,]?\d* joer|virun \d+[.,]?\d* woch|an \d+[.,]?\d* minutt|an \d+[.,]?\d* sekonn|virun \d+[.,]?\d* dag|virun \d+[.,]?\d* min|virun \d+[.,]?\d* sek|an \d+[.,]?\d* mount|an \d+[.,]?\d* stonn|virun \d+[.,]?\d* st|an \d+[.,]?\d* joer|an \d+[.,]?\d* woch|virun \d+[.,]?\d* d|virun \d+[.,]?\d* j|virun \d+[.,]?\d* m|virun \d+[.,]?\d* w|an \d+[.,]?\d* dag|an \d+[.,]?\d* min|an \d+[.,]?\d* sek|an \d+[.,]?\d* st|an \d+[.,]?\d* d|an \d+[.,]?\d* j|an \d+[.,]?\d* m|an \d+[.,]?\d* w)$";
  lit "(?i)^(vor \d+[.,]?\d* johre|en \d+[.,]?\d* johre|vor \d+[.,]?\d* johr|en \d+[.,]?\d* johr)$";
  lit "(?i)an (\d+[.,]?\d*) d";
  lit "(?i)an (\d+[.,]?\d*) dag";
  lit "(?i)an (\d+[.,]?\d*) j";
  lit "(?i)an (\d+[.,]?\d*) joer";
  lit "(?i)an (\d+[.,]?\d*) m";
  lit "(?i)an (\d+[.,]?\d*) min";
  lit "(?i)an (\d+[.,]?\d*) minutt";
  lit "(?i)an (\d+[.,]?\d*) mount";
  lit "(?i)an (\d+[.,]?\d*) sek";
  lit "(?i)an (\d+[.,]?\d*) sekonn";
  lit "(?i)an (\d+[.,]?\d*) st";
  lit "(?i)an (\d+[.,]?\d*) stonn";
  lit "(?i)an (\d+[.,]?\d*) w";
  lit "(?i)an (\d+[.,]?\d*) woch";
  lit "(?i)en (\d+[.,]?\d*) johr";
  lit "(?i)en (\d+[.,]?\d*) johre";
  lit "(?i)hekta (\d+[.,]?\d*)-chaŋ k'uŋ hehaŋ";
  lit "(?i)hekta oh'aŋkho (\d+[.,]?\d*) k'uŋ hehaŋ";
  lit "(?i)hekta oko (\d+[.,]?\d*) k'uŋ hehaŋ";
  lit "(?i)hekta okpi (\d+[.,]?\d*) k'uŋ hehaŋ";
  lit "(?i)hekta omakha (\d+[.,]?\d*) k'uŋ hehaŋ";
  lit "(?i)hekta owaphe (\d+[.,]?\d*) k'uŋ hehaŋ";
  lit "(?i)hekta wiyawapi (\d+[.,]?\d*) k'uŋ hehaŋ";
  lit "(?i)letaŋhaŋ (\d+[.,]?\d*)-chaŋ kiŋhaŋ";
  lit "(?i)letaŋhaŋ oh'aŋkho (\d+[.,]?\d*) kiŋhaŋ";
  lit "(?i)letaŋhaŋ oko (\d+[.,]?\d*) kiŋhaŋ";
  lit "(?i)letaŋhaŋ okpi (\d+[.,]?\d*) kiŋhaŋ";
  lit "(?i)letaŋhaŋ omakha (\d+[.,]?\d*) kiŋhaŋ";
  lit "(?i)letaŋhaŋ owaphe (\d+[.,]?\d*) kiŋhaŋ";
  lit "(?i)letaŋhaŋ wiyawapi (\d+[.,]?\d*) kiŋhaŋ";
  lit "(?i)pec (\d+[.,]?\d*) d";
  lit "(?i)pec (\d+[.,]?\d*) dienam";
  lit "(?i)pec (\d+[.,]?\d*) dienas";
  lit "(?i)pec (\d+[.,]?\d*) g";
  lit "(?i)pec (\d+[.,]?\d*) gada";
  lit "(?i)pec (\d+[.,]?\d*) gadiem";
  lit "(?i)pec (\d+[.,]?\d*) h";
  lit "(?i)pec (\d+[.,]?\d*) men";
  lit "(?i)pec (\d+[.,]?\d*) menesa";
  lit "(?i)pec (\d+[.,]?\d*) menesiem";
  lit "(?i)pec (\d+[.,]?\d*) min";
  lit "(?i)pec (\d+[.,]?\d*) minutem";
  lit "(?i)pec (\d+[.,]?\d*) minutes";
  lit "(?i)pec (\d+[.,]?\d*) ned";
  lit "(?i)pec (\d+[.,]?\d*) nedelam";
  lit "(?i)pec (\d+[.,]?\d*) nedelas";
  lit "(?i)pec (\d+[.,]?\d*) s";
  lit "(?i)pec (\d+[.,]?\d*) sek";
  lit "(?i)pec (\d+[.,]?\d*) sekundem";
  lit "(?i)pec (\d+[.,]?\d*) sekundes";
  lit "(?i)pec (\d+[.,]?\d*) st";
  lit "(?i)pec (\d+[.,]?\d*) stundam";
  lit "(?i)pec (\d+[.,]?\d*) stundas";
  lit "(?i)pirms (\d+[.,]?\d*) d";
  lit "(?i)pirms (\d+[.,]?\d*) dienam";
  lit "(?i)pirms (\d+[.,]?\d*) dienas";
  lit "(?i)pirms (\d+[.,]?\d*) g";
  lit "(?i)pirms (\d+[.,]?\d*) gada";
  lit "(?i)pirms (\d+[.,]?\d*) gadiem";
  lit "(?i)pirms (\d+[.,]?\d*) h";
  lit "(?i)pirms (\d+[.,]?\d*) men";
  lit "(?i)pirms (\d+[.,]?\d*) menesa";
  lit "(?i)pirms (\d+[.,]?\d*) menesiem";
  lit "(?i)pirms (\d+[.,]?\d*) min";
  lit "(?i)pirms (\d+[.,]?\d*) minutem";
  lit "(?i)pirms (\d+[.,]?\d*) minutes";
  lit "(?i)pirms (\d+[.,]?\d*) ned";
  lit "(?i)pirms (\d+[.,]?\d*) nedelam";
  lit "(?i)pirms (\d+[.,]?\d*) nedelas";
  lit "(?i)pirms (\d+[.,]?\d*) s";
  lit "(?i)pirms (\d+[.,]?\d*) sek";
  lit "(?i)pirms (\d+[.,]?\d*) sekundem";
  lit "(?i)pirms (\d+[.,]?\d*) sekundes";
  lit "(?i)pirms (\d+[.,]?\d*) st";
  lit "(?i)pirms (\d+[.,]?\d*) stundam";
  lit "(?i)pirms (\d+[.,]?\d*) stundas";
  lit "(?i)po (\d+[.,]?\d*) d";
  lit "(?i)po (\d+[.,]?\d*) dienos";
  lit "(?i)po (\d+[.,]?\d*) dienu";
  lit "(?i)po (\d+[.,]?\d*) m";
  lit "(?i)po (\d+[.,]?\d*) men";
  lit "(?i)po (\d+[.,]?\d*) menesio";
  lit "(?i)po (\d+[.,]?\d*) menesiu";
  lit "(?i)po (\d+[.,]?\d*) metu";
  lit "(?i)po (\d+[.,]?\d*) min";
  lit "(?i)po (\d+[.,]?\d*) minuciu";
  lit "(?i)po (\d+[.,]?\d*) minutes";
  lit "(?i)po (\d+[.,]?\d*) s";
  lit "(?i)po (\d+[.,]?\d*) sav";
  lit "(?i)po (\d+[.,]?\d*) savaiciu";
  lit "(?i)po (\d+[.,]?\d*) savaites";
  lit "(?i)po (\d+[.,]?\d*) sek";
  lit "(?i)po (\d+[.,]?\d*) sekundes";
  lit "(?i)po (\d+[.,]?\d*) sekundziu";
  lit "(?i)po (\d+[.,]?\d*) val";
  lit "(?i)po (\d+[.,]?\d*) valandos";
  lit "(?i)po (\d+[.,]?\d*) valandu";
  lit "(?i)pries (\d+[.,]?\d*) d";
  lit "(?i)pries (\d+[.,]?\d*) diena";
  lit "(?i)pries (\d+[.,]?\d*) dienu";
  lit "(?i)pries (\d+[.,]?\d*) m";
  lit "(?i)pries (\d+[.,]?\d*) men";
  lit "(?i)pries (\d+[.,]?\d*) menesi";
  lit "(?i)pries (\d+[.,]?\d*) menesiu";
  lit "(?i)pries (\d+[.,]?\d*) metu";
  lit "(?i)pries (\d+[.,]?\d*) metus";
  lit "(?i)pries (\d+[.,]?\d*) min";
  lit "(?i)pries (\d+[.,]?\d*) minuciu";
  lit "(?i)pries (\d+[.,]?\d*) minute";
  lit "(?i)pries (\d+[.,]?\d*) s";
  lit "(?i)pries (\d+[.,]?\d*) sav";
  lit "(?i)pries (\d+[.,]?\d*) savaiciu";
  lit "(?i)pries (\d+[.,]?\d*) savaite";
  lit "(?i)pries (\d+[.,]?\d*) sek";
  lit "(?i)pries (\d+[.,]?\d*) sekunde";
  lit "(?i)pries (\d+[.,]?\d*) sekundziu";
  lit "(?i)pries (\d+[.,]?\d*) val";
  lit "(?i)pries (\d+[.,]?\d*) valanda";
  lit "(?i)pries (\d+[.,]?\d*) valandu";
  lit "(?i)virun (\d+[.,]?\d*) d";
  lit "(?i)virun (\d+[.,]?\d*) dag";
  lit "(?i)virun (\d+[.,]?\d*) j";
  lit "(?i)virun (\d+[.,]?\d*) joer";
  lit "(?i)virun (\d+[.,]?\d*) m";
  lit "(?i)virun (\d+[.,]?\d*) min";
  lit "(?i)virun (\d+[.,]?\d*) minutt";
  lit "(?i)virun (\d+[.,]?\d*) mount";
  lit "(?i)virun (\d+[.,]?\d*) sek";
  lit "(?i)virun (\d+[.,]?\d*) sekonn";
  lit "(?i)virun (\d+[.,]?\d*) st";
  lit "(?i)virun (\d+[.,]?\d*) stonn";
  lit "(?i)virun (\d+[.,]?\d*) w";
  lit "(?i)virun (\d+[.,]?\d*) woch";
  lit "(?i)vor (\d+[.,]?\d*) johr";
  lit "(?i)vor (\d+[.,]?\d*) johre";
  lit "(?i)ໃນ (\d+[.,]?\d*) ນທ";
  lit "(?i)ໃນ (\d+[.,]?\d*) ວ";
  lit "(?i)ໃນອກ (\d+[.,]?\d*) ຊມ";
  lit "(?i)ໃນອກ (\d+[.,]?\d*) ຊວໂມງ";
  lit "(?i)ໃນອກ (\d+[.,]?\d*) ດ";
  lit "(?i)ໃນອກ (\d+[.,]?\d*) ປ";
  lit "(?i)ໃນອກ (\d+[.,]?\d*) ມ";
  lit "(?i)ໃນອກ (\d+[.,]?\d*) ວນາທ";
  lit "(?i)ໃນອກ (\d+[.,]?\d*) ອທ";
  lit "(?i)ໃນອກ (\d+[.,]?\d*) ອາທດ";
  lit "(?i)ໃນອກ (\d+[.,]?\d*) ເດອນ"] = true.
Proof. vm_compute. reflexivity. Qed.

Definition table_07 : list (str * locale) :=
  [(lit "ks", loc_ks);
   (lit "ksb", loc_ksb);
   (lit "ksf", loc_ksf);
   (lit "ksh", loc_ksh);
   (lit "kw", loc_kw);
   (lit "ky", loc_ky);
   (lit "lag", loc_lag);
   (lit "lb", loc_lb);
   (lit "lg", loc_lg);
   (lit "lkt", loc_lkt);
   (lit "ln", loc_ln);
   (lit "ln-AO", loc_ln_AO);
   (lit "ln-CF", loc_ln_CF);
   (lit "ln-CG", loc_ln_CG);
   (lit "lo", loc_lo);
   (lit "lrc", loc_lrc);
   (lit "lrc-IQ", loc_lrc_IQ);
   (lit "lt", loc_lt);
   (lit "lu", loc_lu);
   (lit "luo", loc_luo);
   (lit "luy", loc_luy);
   (lit "lv", loc_lv);
   (lit "mas", loc_mas);
   (lit "mas-TZ", loc_mas_TZ);
   (lit "mer", loc_mer);
   (lit "mfe", loc_mfe);
   (lit "mg", loc_mg);
   (lit "mgh", loc_mgh);
   (lit "mgo", loc_mgo)].

(** each region with its language *)
Definition regions_07 : list (str * str) :=
  [(lit "ln-AO", lit "ln");
   (lit "ln-CF", lit "ln");
   (lit "ln-CG", lit "ln");
   (lit "lrc-IQ", lit "lrc");
   (lit "mas-TZ", lit "mas")].
