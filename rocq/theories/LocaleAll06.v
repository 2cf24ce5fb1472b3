(** Generated by tools/gen_all_locales.py from /repo/internal/data. Do not edit. *)
From Verif Require Import GoBase SMap Regex Language LocaleData.

(** id.go:12-157 *)
Definition loc_id : locale := Eval vm_compute in
  {| ld_name := lit "id"; ld_order := lit "DMY"; ld_nospacing := false; ld_splitter := 1;
    ld_charset := runes (lit "bcdefghijklnorstuvyz");
    ld_abbr := [];
    ld_simpl := [];
    ld_trans := [(lit "september", [lit "september"]);
    (lit "desember", [lit "december"]);
    (lit "februari", [lit "february"]);
    (lit "november", [lit "november"]);
    (lit "agustus", [lit "august"]);
    (lit "januari", [lit "january"]);
    (lit "oktober", [lit "october"]);
    (lit "tanggal", [lit ""]);
    (lit "minggu", [lit "week"; lit "sunday"]);
    (lit "selasa", [lit "tuesday"]);
    (lit "april", [lit "april"]);
    (lit "bulan", [lit "month"]);
    (lit "dalam", [lit "in"]);
    (lit "detik", [lit "second"]);
    (lit "jumat", [lit "friday"]);
    (lit "kamis", [lit "thursday"]);
    (lit "maret", [lit "march"]);
    (lit "menit", [lit "minute"]);
    (lit "pukul", [lit ""]);
    (lit "sabtu", [lit "saturday"]);
    (lit "senin", [lit "monday"]);
    (lit "tahun", [lit "year"]);
    (lit "ahad", [lit "sunday"]);
    (lit "hari", [lit "day"]);
    (lit "juli", [lit "july"]);
    (lit "juni", [lit "june"]);
    (lit "lalu", [lit "ago"]);
    (lit "rabu", [lit "wednesday"]);
    (lit "sept", [lit "september"]);
    (lit "yang", [lit ""]);
    (lit "agt", [lit "august"]);
    (lit "agu", [lit "august"]);
    (lit "apr", [lit "april"]);
    (lit "bln", [lit "month"]);
    (lit "des", [lit "december"]);
    (lit "dtk", [lit "second"]);
    (lit "feb", [lit "february"]);
    (lit "gmt", [lit "gmt"]);
    (lit "jam", [lit "hour"]);
    (lit "jan", [lit "january"]);
    (lit "jul", [lit "july"]);
    (lit "jum", [lit "friday"]);
    (lit "jun", [lit "june"]);
    (lit "kam", [lit "thursday"]);
    (lit "mar", [lit "march"]);
    (lit "mei", [lit "may"]);
    (lit "mgg", [lit "week"]);
    (lit "min", [lit "sunday"]);
    (lit "mnt", [lit "minute"]);
    (lit "nov", [lit "november"]);
    (lit "okt", [lit "october"]);
    (lit "rab", [lit "wednesday"]);
    (lit "sab", [lit "saturday"]);
    (lit "sel", [lit "tuesday"]);
    (lit "sen", [lit "monday"]);
    (lit "sep", [lit "september"]);
    (lit "thn", [lit "year"]);
    (lit "utc", [lit "utc"]);
    (lit "am", [lit "am"]);
    (lit "pm", [lit "pm"]);
    (lit " ", [lit " "]);
    (lit "'", [lit ""]);
    (lit "+", [lit "+"]);
    (lit ",", [lit ""]);
    (lit "-", [lit "-"]);
    (lit ".", [lit "."]);
    (lit "/", [lit "/"]);
    (lit ":", [lit ":"]);
    (lit ";", [lit ""]);
    (lit "@", [lit ""]);
    (lit "[", [lit ""]);
    (lit "]", [lit ""]);
    (lit "d", [lit "second"]);
    (lit "h", [lit "day"]);
    (lit "j", [lit "hour"]);
    (lit "m", [lit "minute"]);
    (lit "z", [lit "z"]);
    (lit "|", [lit ""])];
    ld_reltype := [(lit "bulan berikutnya", lit "in 1 month");
    (lit "kemarin lusa", lit "2 day ago");
    (lit "minggu depan", lit "in 1 week");
    (lit "minggu lalu", lit "1 week ago");
    (lit "tahun depan", lit "in 1 year");
    (lit "bulan lalu", lit "1 month ago");
    (lit "minggu ini", lit "0 week ago");
    (lit "tahun lalu", lit "1 year ago");
    (lit "baru saja", lit "0 second ago");
    (lit "bulan ini", lit "0 month ago");
    (lit "menit ini", lit "0 minute ago");
    (lit "tahun ini", lit "0 year ago");
    (lit "hari ini", lit "0 day ago");
    (lit "sekarang", lit "0 second ago");
    (lit "seminggu", lit "1 week");
    (lit "jam ini", lit "0 hour ago");
    (lit "kemarin", lit "1 day ago");
    (lit "sebulan", lit "1 month");
    (lit "setahun", lit "1 year");
    (lit "minggu", lit "sunday");
    (lit "sehari", lit "1 day");
    (lit "besok", lit "in 1 day")];
    ld_relrx := [(rx "(?i)(\d+[.,]?\d*) minggu yang lalu", lit "$1 week ago");
    (rx "(?i)(\d+[.,]?\d*) bulan yang lalu", lit "$1 month ago");
    (rx "(?i)(\d+[.,]?\d*) detik yang lalu", lit "$1 second ago");
    (rx "(?i)(\d+[.,]?\d*) menit yang lalu", lit "$1 minute ago");
    (rx "(?i)(\d+[.,]?\d*) tahun yang lalu", lit "$1 year ago");
    (rx "(?i)(\d+[.,]?\d*) hari yang lalu", lit "$1 day ago");
    (rx "(?i)(\d+[.,]?\d*) jam yang lalu", lit "$1 hour ago");
    (rx "(?i)dalam (\d+[.,]?\d*) minggu", lit "in $1 week");
    (rx "(?i)(\d+[.,]?\d*) minggu lalu", lit "${1} week ago");
    (rx "(?i)dalam (\d+[.,]?\d*) bulan", lit "in $1 month");
    (rx "(?i)dalam (\d+[.,]?\d*) detik", lit "in $1 second");
    (rx "(?i)dalam (\d+[.,]?\d*) menit", lit "in $1 minute");
    (rx "(?i)dalam (\d+[.,]?\d*) tahun", lit "in $1 year");
    (rx "(?i)(\d+[.,]?\d*) bulan lalu", lit "${1} month ago");
    (rx "(?i)(\d+[.,]?\d*) tahun lalu", lit "${1} year ago");
    (rx "(?i)dalam (\d+[.,]?\d*) hari", lit "in $1 day");
    (rx "(?i)dalam (\d+[.,]?\d*) jam", lit "in $1 hour");
    (rx "(?i)(\d+[.,]?\d*) bln lalu", lit "$1 month ago");
    (rx "(?i)(\d+[.,]?\d*) dtk lalu", lit "$1 second ago");
    (rx "(?i)(\d+[.,]?\d*) jam lalu", lit "$1 hour ago");
    (rx "(?i)(\d+[.,]?\d*) mgg lalu", lit "$1 week ago");
    (rx "(?i)(\d+[.,]?\d*) mnt lalu", lit "$1 minute ago");
    (rx "(?i)(\d+[.,]?\d*) thn lalu", lit "$1 year ago");
    (rx "(?i)dalam (\d+[.,]?\d*) h", lit "in $1 day");
    (rx "(?i)dlm (\d+[.,]?\d*) bln", lit "in $1 month");
    (rx "(?i)dlm (\d+[.,]?\d*) dtk", lit "in $1 second");
    (rx "(?i)dlm (\d+[.,]?\d*) mgg", lit "in $1 week");
    (rx "(?i)dlm (\d+[.,]?\d*) mnt", lit "in $1 minute");
    (rx "(?i)dlm (\d+[.,]?\d*) thn", lit "in $1 year");
    (rx "(?i)(\d+[.,]?\d*) h lalu", lit "$1 day ago");
    (rx "(?i)(\d+[.,]?\d*) minggu", lit "${1} week")];
    ld_rx := Some (rx "(?i)(\A|[^\pL\pM\d]|_)(\d+[.,]?\d* minggu yang lalu|\d+[.,]?\d* bulan yang lalu|\d+[.,]?\d* detik yang lalu|\d+[.,]?\d* menit yang lalu|\d+[.,]?\d* tahun yang lalu|\d+[.,]?\d* hari yang lalu|\d+[.,]?\d* jam yang lalu|dalam \d+[.,]?\d* minggu|\d+[.,]?\d* minggu lalu|dalam \d+[.,]?\d* bulan|dalam \d+[.,]?\d* detik|dalam \d+[.,]?\d* menit|dalam \d+[.,]?\d* tahun|\d+[.,]?\d* bulan lalu|\d+[.,]?\d* tahun lalu|dalam \d+[.,]?\d* hari|dalam \d+[.,]?\d* jam|\d+[.,]?\d* bln lalu|\d+[.,]?\d* dtk lalu|\d+[.,]?\d* jam lalu|\d+[.,]?\d* mgg lalu|\d+[.,]?\d* mnt lalu|\d+[.,]?\d* thn lalu|dalam \d+[.,]?\d* h|dlm \d+[.,]?\d* bln|dlm \d+[.,]?\d* dtk|dlm \d+[.,]?\d* mgg|dlm \d+[.,]?\d* mnt|dlm \d+[.,]?\d* thn|\d+[.,]?\d* h lalu|\d+[.,]?\d* minggu)(\z|[^\pL\pM\d]|_)");
    ld_rx_exact := Some (rx "(?i)^(\d+[.,]?\d* minggu yang lalu|\d+[.,]?\d* bulan yang lalu|\d+[.,]?\d* detik yang lalu|\d+[.,]?\d* menit yang lalu|\d+[.,]?\d* tahun yang lalu|\d+[.,]?\d* hari yang lalu|\d+[.,]?\d* jam yang lalu|dalam \d+[.,]?\d* minggu|\d+[.,]?\d* minggu lalu|dalam \d+[.,]?\d* bulan|dalam \d+[.,]?\d* detik|dalam \d+[.,]?\d* menit|dalam \d+[.,]?\d* tahun|\d+[.,]?\d* bulan lalu|\d+[.,]?\d* tahun lalu|dalam \d+[.,]?\d* hari|dalam \d+[.,]?\d* jam|\d+[.,]?\d* bln lalu|\d+[.,]?\d* dtk lalu|\d+[.,]?\d* jam lalu|\d+[.,]?\d* mgg lalu|\d+[.,]?\d* mnt lalu|\d+[.,]?\d* thn lalu|dalam \d+[.,]?\d* h|dlm \d+[.,]?\d* bln|dlm \d+[.,]?\d* dtk|dlm \d+[.,]?\d* mgg|dlm \d+[.,]?\d* mnt|dlm \d+[.,]?\d* thn|\d+[.,]?\d* h lalu|\d+[.,]?\d* minggu)$");
    ld_known := [lit "bulan berikutnya";
    lit "kemarin lusa";
    lit "minggu depan";
    lit "minggu lalu";
    lit "tahun depan";
    lit "bulan lalu";
    lit "minggu ini";
    lit "tahun lalu";
    lit "baru saja";
    lit "bulan ini";
    lit "menit ini";
    lit "september";
    lit "tahun ini";
    lit "desember";
    lit "februari";
    lit "hari ini";
    lit "november";
    lit "sekarang";
    lit "seminggu";
    lit "agustus";
    lit "jam ini";
    lit "januari";
    lit "kemarin";
    lit "oktober";
    lit "sebulan";
    lit "setahun";
    lit "tanggal";
    lit "minggu";
    lit "sehari";
    lit "selasa";
    lit "april";
    lit "besok";
    lit "bulan";
    lit "dalam";
    lit "detik";
    lit "jumat";
    lit "kamis";
    lit "maret";
    lit "menit";
    lit "pukul";
    lit "sabtu";
    lit "senin";
    lit "tahun";
    lit "ahad";
    lit "hari";
    lit "juli";
    lit "juni";
    lit "lalu";
    lit "rabu";
    lit "sept";
    lit "yang";
    lit "agt";
    lit "agu";
    lit "apr";
    lit "bln";
    lit "des";
    lit "dtk";
    lit "feb";
    lit "gmt";
    lit "jam";
    lit "jan";
    lit "jul";
    lit "jum";
    lit "jun";
    lit "kam";
    lit "mar";
    lit "mei";
    lit "mgg";
    lit "min";
    lit "mnt";
    lit "nov";
    lit "okt";
    lit "rab";
    lit "sab";
    lit "sel";
    lit "sen";
    lit "sep";
    lit "thn";
    lit "utc";
    lit "am";
    lit "pm";
    lit " ";
    lit "'";
    lit "+";
    lit ",";
    lit "-";
    lit ".";
    lit "/";
    lit ":";
    lit ";";
    lit "@";
    lit "[";
    lit "]";
    lit "d";
    lit "h";
    lit "j";
    lit "m";
    lit "z";
    lit "|"] |}.

(** ig.go:10-96 *)
Definition loc_ig : locale := Eval vm_compute in
  {| ld_name := lit "ig"; ld_order := lit "DMY"; ld_nospacing := false; ld_splitter := 0;
    ld_charset := runes (lit "bcdefghijklnorstuvwxyzịọụ");
    ld_abbr := [];
    ld_simpl := [];
    ld_trans := [(lit "februwari", [lit "february"]);
    (lit "mbosi uka", [lit "sunday"]);
    (lit "jenuwari", [lit "january"]);
    (lit "nkejinta", [lit "second"]);
    (lit "septemba", [lit "september"]);
    (lit "wenezdee", [lit "wednesday"]);
    (lit "disemba", [lit "december"]);
    (lit "elekere", [lit "hour"]);
    (lit "fraidee", [lit "friday"]);
    (lit "novemba", [lit "november"]);
    (lit "satodee", [lit "saturday"]);
    (lit "tiuzdee", [lit "tuesday"]);
    (lit "toozdee", [lit "thursday"]);
    (lit "maachi", [lit "march"]);
    (lit "ogoost", [lit "august"]);
    (lit "oktoba", [lit "october"]);
    (lit "ubochi", [lit "day"]);
    (lit "eprel", [lit "april"]);
    (lit "julai", [lit "july"]);
    (lit "monde", [lit "monday"]);
    (lit "nkeji", [lit "minute"]);
    (lit "frai", [lit "friday"]);
    (lit "juun", [lit "june"]);
    (lit "onwa", [lit "month"]);
    (lit "afo", [lit "year"]);
    (lit "dis", [lit "december"]);
    (lit "epr", [lit "april"]);
    (lit "feb", [lit "february"]);
    (lit "gmt", [lit "gmt"]);
    (lit "izu", [lit "week"]);
    (lit "jen", [lit "january"]);
    (lit "jul", [lit "july"]);
    (lit "juu", [lit "june"]);
    (lit "maa", [lit "march"]);
    (lit "mee", [lit "may"]);
    (lit "mon", [lit "monday"]);
    (lit "nov", [lit "november"]);
    (lit "ogo", [lit "august"]);
    (lit "okt", [lit "october"]);
    (lit "sat", [lit "saturday"]);
    (lit "sep", [lit "september"]);
    (lit "tiu", [lit "tuesday"]);
    (lit "too", [lit "thursday"]);
    (lit "uka", [lit "sunday"]);
    (lit "utc", [lit "utc"]);
    (lit "wen", [lit "wednesday"]);
    (lit "am", [lit "am"]);
    (lit "pm", [lit "pm"]);
    (lit " ", [lit " "]);
    (lit "'", [lit ""]);
    (lit "+", [lit "+"]);
    (lit ",", [lit ""]);
    (lit "-", [lit "-"]);
    (lit ".", [lit "."]);
    (lit "/", [lit "/"]);
    (lit ":", [lit ":"]);
    (lit ";", [lit ""]);
    (lit "@", [lit ""]);
    (lit "[", [lit ""]);
    (lit "]", [lit ""]);
    (lit "z", [lit "z"]);
    (lit "|", [lit ""])];
    ld_reltype := [(lit "this minute", lit "0 minute ago");
    (lit "last month", lit "1 month ago");
    (lit "next month", lit "in 1 month");
    (lit "this month", lit "0 month ago");
    (lit "last week", lit "1 week ago");
    (lit "last year", lit "1 year ago");
    (lit "next week", lit "in 1 week");
    (lit "next year", lit "in 1 year");
    (lit "this hour", lit "0 hour ago");
    (lit "this week", lit "0 week ago");
    (lit "this year", lit "0 year ago");
    (lit "nnyaafu", lit "1 day ago");
    (lit "taata", lit "0 day ago");
    (lit "echi", lit "in 1 day");
    (lit "now", lit "0 second ago")];
    ld_relrx := [];
    ld_rx := None;
    ld_rx_exact := None;
    ld_known := [lit "this minute";
    lit "last month";
    lit "next month";
    lit "this month";
    lit "februwari";
    lit "last week";
    lit "last year";
    lit "mbosi uka";
    lit "next week";
    lit "next year";
    lit "this hour";
    lit "this week";
    lit "this year";
    lit "jenuwari";
    lit "nkejinta";
    lit "septemba";
    lit "wenezdee";
    lit "disemba";
    lit "elekere";
    lit "fraidee";
    lit "nnyaafu";
    lit "novemba";
    lit "satodee";
    lit "tiuzdee";
    lit "toozdee";
    lit "maachi";
    lit "ogoost";
    lit "oktoba";
    lit "ubochi";
    lit "eprel";
    lit "julai";
    lit "monde";
    lit "nkeji";
    lit "taata";
    lit "echi";
    lit "frai";
    lit "juun";
    lit "onwa";
    lit "afo";
    lit "dis";
    lit "epr";
    lit "feb";
    lit "gmt";
    lit "izu";
    lit "jen";
    lit "jul";
    lit "juu";
    lit "maa";
    lit "mee";
    lit "mon";
    lit "nov";
    lit "now";
    lit "ogo";
    lit "okt";
    lit "sat";
    lit "sep";
    lit "tiu";
    lit "too";
    lit "uka";
    lit "utc";
    lit "wen";
    lit "am";
    lit "pm";
    lit " ";
    lit "'";
    lit "+";
    lit ",";
    lit "-";
    lit ".";
    lit "/";
    lit ":";
    lit ";";
    lit "@";
    lit "[";
    lit "]";
    lit "z";
    lit "|"] |}.

(** ii.go:10-86 *)
Definition loc_ii : locale := Eval vm_compute in
  {| ld_name := lit "ii"; ld_order := lit "YMD"; ld_nospacing := false; ld_splitter := 0;
    ld_charset := runes (lit "ceghiklnorstuwxyzꀃꀋꁯꃆꃏꃘꄑꄮꅔꆏꆪꇖꇙꈉꈎꈬꉆꉈꉬꊂꊪꊰꋍꋒꌕꎸꏂꏃꑋꑍꑭ");
    ld_abbr := [];
    ld_simpl := [];
    ld_trans := [(lit "gmt", [lit "gmt"]);
    (lit "utc", [lit "utc"]);
    (lit "ꆏꊂꃘ", [lit "saturday"]);
    (lit "ꆏꊂꇖ", [lit "thursday"]);
    (lit "ꆏꊂꉬ", [lit "friday"]);
    (lit "ꆏꊂꋍ", [lit "monday"]);
    (lit "ꆏꊂꌕ", [lit "wednesday"]);
    (lit "ꆏꊂꑍ", [lit "tuesday"]);
    (lit "ꊰꊪꆪ", [lit "november"]);
    (lit "ꊰꑋꆪ", [lit "december"]);
    (lit "ꑭꆏꑍ", [lit "sunday"]);
    (lit "am", [lit "am"]);
    (lit "pm", [lit "pm"]);
    (lit "ꁯꋒ", [lit "pm"]);
    (lit "ꃘꆪ", [lit "june"]);
    (lit "ꄮꈉ", [lit "hour"]);
    (lit "ꆏꃘ", [lit "saturday"]);
    (lit "ꆏꇖ", [lit "thursday"]);
    (lit "ꆏꉬ", [lit "friday"]);
    (lit "ꆏꋍ", [lit "monday"]);
    (lit "ꆏꌕ", [lit "wednesday"]);
    (lit "ꆏꑍ", [lit "tuesday"]);
    (lit "ꇖꆪ", [lit "april"]);
    (lit "ꈬꆪ", [lit "september"]);
    (lit "ꉆꆪ", [lit "august"]);
    (lit "ꉬꆪ", [lit "may"]);
    (lit "ꊰꆪ", [lit "october"]);
    (lit "ꋍꆪ", [lit "january"]);
    (lit "ꌕꆪ", [lit "march"]);
    (lit "ꎸꄑ", [lit "am"]);
    (lit "ꏃꆪ", [lit "july"]);
    (lit "ꑍꆪ", [lit "february"]);
    (lit "ꑭꆏ", [lit "week"; lit "sunday"]);
    (lit " ", [lit " "]);
    (lit "'", [lit ""]);
    (lit "+", [lit "+"]);
    (lit ",", [lit ""]);
    (lit "-", [lit "-"]);
    (lit ".", [lit "."]);
    (lit "/", [lit "/"]);
    (lit ":", [lit ":"]);
    (lit ";", [lit ""]);
    (lit "@", [lit ""]);
    (lit "[", [lit ""]);
    (lit "]", [lit ""]);
    (lit "z", [lit "z"]);
    (lit "|", [lit ""]);
    (lit "ꃏ", [lit "minute"]);
    (lit "ꆪ", [lit "month"]);
    (lit "ꇙ", [lit "second"]);
    (lit "ꈎ", [lit "year"]);
    (lit "ꑍ", [lit "day"])];
    ld_reltype := [(lit "this minute", lit "0 minute ago");
    (lit "last month", lit "1 month ago");
    (lit "next month", lit "in 1 month");
    (lit "this month", lit "0 month ago");
    (lit "last week", lit "1 week ago");
    (lit "last year", lit "1 year ago");
    (lit "next week", lit "in 1 week");
    (lit "next year", lit "in 1 year");
    (lit "this hour", lit "0 hour ago");
    (lit "this week", lit "0 week ago");
    (lit "this year", lit "0 year ago");
    (lit "now", lit "0 second ago");
    (lit "ꀋꅔꉈ", lit "1 day ago");
    (lit "ꃆꏂꑍ", lit "in 1 day");
    (lit "ꀃꑍ", lit "0 day ago")];
    ld_relrx := [];
    ld_rx := None;
    ld_rx_exact := None;
    ld_known := [lit "this minute";
    lit "last month";
    lit "next month";
    lit "this month";
    lit "last week";
    lit "last year";
    lit "next week";
    lit "next year";
    lit "this hour";
    lit "this week";
    lit "this year";
    lit "gmt";
    lit "now";
    lit "utc";
    lit "ꀋꅔꉈ";
    lit "ꃆꏂꑍ";
    lit "ꆏꊂꃘ";
    lit "ꆏꊂꇖ";
    lit "ꆏꊂꉬ";
    lit "ꆏꊂꋍ";
    lit "ꆏꊂꌕ";
    lit "ꆏꊂꑍ";
    lit "ꊰꊪꆪ";
    lit "ꊰꑋꆪ";
    lit "ꑭꆏꑍ";
    lit "am";
    lit "pm";
    lit "ꀃꑍ";
    lit "ꁯꋒ";
    lit "ꃘꆪ";
    lit "ꄮꈉ";
    lit "ꆏꃘ";
    lit "ꆏꇖ";
    lit "ꆏꉬ";
    lit "ꆏꋍ";
    lit "ꆏꌕ";
    lit "ꆏꑍ";
    lit "ꇖꆪ";
    lit "ꈬꆪ";
    lit "ꉆꆪ";
    lit "ꉬꆪ";
    lit "ꊰꆪ";
    lit "ꋍꆪ";
    lit "ꌕꆪ";
    lit "ꎸꄑ";
    lit "ꏃꆪ";
    lit "ꑍꆪ";
    lit "ꑭꆏ";
    lit " ";
    lit "'";
    lit "+";
    lit ",";
    lit "-";
    lit ".";
    lit "/";
    lit ":";
    lit ";";
    lit "@";
    lit "[";
    lit "]";
    lit "z";
    lit "|";
    lit "ꃏ";
    lit "ꆪ";
    lit "ꇙ";
    lit "ꈎ";
    lit "ꑍ"] |}.

(** is.go:12-147 *)
Definition loc_is : locale := Eval vm_compute in
  {| ld_name := lit "is"; ld_order := lit "DMY"; ld_nospacing := false; ld_splitter := 0;
    ld_charset := runes (lit "bcdefghijklnorstuvzáæíðóöúþ");
    ld_abbr := [];
    ld_simpl := [];
    ld_trans := [(lit "miðvikudagur", [lit "wednesday"]);
    (lit "fimmtudagur", [lit "thursday"]);
    (lit "klukkustund", [lit "hour"]);
    (lit "laugardagur", [lit "saturday"]);
    (lit "þriðjudagur", [lit "tuesday"]);
    (lit "fostudagur", [lit "friday"]);
    (lit "sunnudagur", [lit "sunday"]);
    (lit "manudagur", [lit "monday"]);
    (lit "september", [lit "september"]);
    (lit "desember", [lit "december"]);
    (lit "november", [lit "november"]);
    (lit "februar", [lit "february"]);
    (lit "manuður", [lit "month"]);
    (lit "oktober", [lit "october"]);
    (lit "sekunda", [lit "second"]);
    (lit "januar", [lit "january"]);
    (lit "minuta", [lit "minute"]);
    (lit "agust", [lit "august"]);
    (lit "april", [lit "april"]);
    (lit "dagur", [lit "day"]);
    (lit "juli", [lit "july"]);
    (lit "juni", [lit "june"]);
    (lit "klst", [lit "hour"]);
    (lit "mars", [lit "march"]);
    (lit "vika", [lit "week"]);
    (lit "agu", [lit "august"]);
    (lit "apr", [lit "april"]);
    (lit "des", [lit "december"]);
    (lit "feb", [lit "february"]);
    (lit "fim", [lit "thursday"]);
    (lit "fos", [lit "friday"]);
    (lit "gmt", [lit "gmt"]);
    (lit "jan", [lit "january"]);
    (lit "jul", [lit "july"]);
    (lit "jun", [lit "june"]);
    (lit "lau", [lit "saturday"]);
    (lit "mai", [lit "may"]);
    (lit "man", [lit "month"; lit "monday"]);
    (lit "mar", [lit "march"]);
    (lit "min", [lit "minute"]);
    (lit "mið", [lit "wednesday"]);
    (lit "nov", [lit "november"]);
    (lit "okt", [lit "october"]);
    (lit "sek", [lit "second"]);
    (lit "sep", [lit "september"]);
    (lit "sun", [lit "sunday"]);
    (lit "utc", [lit "utc"]);
    (lit "þri", [lit "tuesday"]);
    (lit "am", [lit "am"]);
    (lit "ar", [lit "year"]);
    (lit "eh", [lit "pm"]);
    (lit "fh", [lit "am"]);
    (lit "pm", [lit "pm"]);
    (lit " ", [lit " "]);
    (lit "'", [lit ""]);
    (lit "+", [lit "+"]);
    (lit ",", [lit ""]);
    (lit "-", [lit "-"]);
    (lit ".", [lit "."]);
    (lit "/", [lit "/"]);
    (lit ":", [lit ":"]);
    (lit ";", [lit ""]);
    (lit "@", [lit ""]);
    (lit "[", [lit ""]);
    (lit "]", [lit ""]);
    (lit "d", [lit "day"]);
    (lit "v", [lit "week"]);
    (lit "z", [lit "z"]);
    (lit "|", [lit ""])];
    ld_reltype := [(lit "i siðasta manuði", lit "1 month ago");
    (lit "i þessum manuði", lit "0 month ago");
    (lit "i næsta manuði", lit "in 1 month");
    (lit "i siðustu viku", lit "1 week ago");
    (lit "i þessari viku", lit "0 week ago");
    (lit "a siðasta ari", lit "1 year ago");
    (lit "i siðasta man", lit "1 month ago");
    (lit "i næstu viku", lit "in 1 week");
    (lit "i þessum man", lit "0 month ago");
    (lit "a næsta ari", lit "in 1 year");
    (lit "a þessu ari", lit "0 year ago");
    (lit "i næsta man", lit "in 1 month");
    (lit "this minute", lit "0 minute ago");
    (lit "this hour", lit "0 hour ago");
    (lit "a morgun", lit "in 1 day");
    (lit "i dag", lit "0 day ago");
    (lit "i gær", lit "1 day ago");
    (lit "nuna", lit "0 second ago")];
    ld_relrx := [(rx "(?i)eftir (\d+[.,]?\d*) klukkustundir", lit "in $1 hour");
    (rx "(?i)fyrir (\d+[.,]?\d*) klukkustundum", lit "$1 hour ago");
    (rx "(?i)eftir (\d+[.,]?\d*) klukkustund", lit "in $1 hour");
    (rx "(?i)fyrir (\d+[.,]?\d*) klukkustund", lit "$1 hour ago");
    (rx "(?i)eftir (\d+[.,]?\d*) sekundur", lit "in $1 second");
    (rx "(?i)fyrir (\d+[.,]?\d*) sekundum", lit "$1 second ago");
    (rx "(?i)eftir (\d+[.,]?\d*) minutur", lit "in $1 minute");
    (rx "(?i)eftir (\d+[.,]?\d*) sekundu", lit "in $1 second");
    (rx "(?i)fyrir (\d+[.,]?\d*) manuðum", lit "$1 month ago");
    (rx "(?i)fyrir (\d+[.,]?\d*) minutum", lit "$1 minute ago");
    (rx "(?i)fyrir (\d+[.,]?\d*) sekundu", lit "$1 second ago");
    (rx "(?i)eftir (\d+[.,]?\d*) manuði", lit "in $1 month");
    (rx "(?i)eftir (\d+[.,]?\d*) minutu", lit "in $1 minute");
    (rx "(?i)fyrir (\d+[.,]?\d*) manuði", lit "$1 month ago");
    (rx "(?i)fyrir (\d+[.,]?\d*) minutu", lit "$1 minute ago");
    (rx "(?i)eftir (\d+[.,]?\d*) manuð", lit "in $1 month");
    (rx "(?i)eftir (\d+[.,]?\d*) vikur", lit "in $1 week");
    (rx "(?i)fyrir (\d+[.,]?\d*) dogum", lit "$1 day ago");
    (rx "(?i)fyrir (\d+[.,]?\d*) vikum", lit "$1 week ago");
    (rx "(?i)eftir (\d+[.,]?\d*) daga", lit "in $1 day");
    (rx "(?i)eftir (\d+[.,]?\d*) klst", lit "in $1 hour");
    (rx "(?i)eftir (\d+[.,]?\d*) viku", lit "in $1 week");
    (rx "(?i)fyrir (\d+[.,]?\d*) arum", lit "$1 year ago");
    (rx "(?i)fyrir (\d+[.,]?\d*) degi", lit "$1 day ago");
    (rx "(?i)fyrir (\d+[.,]?\d*) klst", lit "$1 hour ago");
    (rx "(?i)fyrir (\d+[.,]?\d*) viku", lit "$1 week ago");
    (rx "(?i)eftir (\d+[.,]?\d*) dag", lit "in $1 day");
    (rx "(?i)eftir (\d+[.,]?\d*) man", lit "in $1 month");
    (rx "(?i)eftir (\d+[.,]?\d*) min", lit "in $1 minute");
    (rx "(?i)eftir (\d+[.,]?\d*) sek", lit "in $1 second");
    (rx "(?i)fyrir (\d+[.,]?\d*) ari", lit "$1 year ago");
    (rx "(?i)fyrir (\d+[.,]?\d*) man", lit "$1 month ago");
    (rx "(?i)fyrir (\d+[.,]?\d*) min", lit "$1 minute ago");
    (rx "(?i)fyrir (\d+[.,]?\d*) sek", lit "$1 second ago");
    (rx "(?i)eftir (\d+[.,]?\d*) ar", lit "in $1 year")];
    ld_rx := Some (rx "(?i)(\A|[^\pL\pM\d]|_)(eftir \d+[.,]?\d* klukkustundir|fyrir \d+[.,]?\d* klukkustundum|eftir \d+[.,]?\d* klukkustund|fyrir \d+[.,]?\d* klukkustund|eftir \d+[.,]?\d* sekundur|fyrir \d+[.,]?\d* sekundum|eftir \d+[.,]?\d* minutur|eftir \d+[.,]?\d* sekundu|fyrir \d+[.,]?\d* manuðum|fyrir \d+[.,]?\d* minutum|fyrir \d+[.,]?\d* sekundu|eftir \d+[.,]?\d* manuði|eftir \d+[.,]?\d* minutu|fyrir \d+[.,]?\d* manuði|fyrir \d+[.,]?\d* minutu|eftir \d+[.,]?\d* manuð|eftir \d+[.,]?\d* vikur|fyrir \d+[.,]?\d* dogum|fyrir \d+[.,]?\d* vikum|eftir \d+[.,]?\d* daga|eftir \d+[.,]?\d* klst|eftir \d+[.,]?\d* viku|fyrir \d+[.,]?\d* arum|fyrir \d+[.,]?\d* degi|fyrir \d+[.,]?\d* klst|fyrir \d+[.,]?\d* viku|eftir \d+[.,]?\d* dag|eftir \d+[.,]?\d* man|eftir \d+[.,]?\d* min|eftir \d+[.,]?\d* sek|fyrir \d+[.,]?\d* ari|fyrir \d+[.,]?\d* man|fyrir \d+[.,]?\d* min|fyrir \d+[.,]?\d* sek|eftir \d+[.,]?\d* ar)(\z|[^\pL\pM\d]|_)");
    ld_rx_exact := Some (rx "(?i)^(eftir \d+[.,]?\d* klukkustundir|fyrir \d+[.,]?\d* klukkustundum|eftir \d+[.,]?\d* klukkustund|fyrir \d+[.,]?\d* klukkustund|eftir \d+[.,]?\d* sekundur|fyrir \d+[.,]?\d* sekundum|eftir \d+[.,]?\d* minutur|eftir \d+[.,]?\d* sekundu|fyrir \d+[.,]?\d* manuðum|fyrir \d+[.,]?\d* minutum|fyrir \d+[.,]?\d* sekundu|eftir \d+[.,]?\d* manuði|eftir \d+[.,]?\d* minutu|fyrir \d+[.,]?\d* manuði|fyrir \d+[.,]?\d* minutu|eftir \d+[.,]?\d* manuð|eftir \d+[.,]?\d* vikur|fyrir \d+[.,]?\d* dogum|fyrir \d+[.,]?\d* vikum|eftir \d+[.,]?\d* daga|eftir \d+[.,]?\d* klst|eftir \d+[.,]?\d* viku|fyrir \d+[.,]?\d* arum|fyrir \d+[.,]?\d* degi|fyrir \d+[.,]?\d* klst|fyrir \d+[.,]?\d* viku|eftir \d+[.,]?\d* dag|eftir \d+[.,]?\d* man|eftir \d+[.,]?\d* min|eftir \d+[.,]?\d* sek|fyrir \d+[.,]?\d* ari|fyrir \d+[.,]?\d* man|fyrir \d+[.,]?\d* min|fyrir \d+[.,]?\d* sek|eftir \d+[.,]?\d* ar)$");
    ld_known := [lit "i siðasta manuði";
    lit "i þessum manuði";
    lit "i næsta manuði";
    lit "i siðustu viku";
    lit "i þessari viku";
    lit "a siðasta ari";
    lit "i siðasta man";
    lit "i næstu viku";
    lit "i þessum man";
    lit "miðvikudagur";
    lit "a næsta ari";
    lit "a þessu ari";
    lit "fimmtudagur";
    lit "i næsta man";
    lit "klukkustund";
    lit "laugardagur";
    lit "this minute";
    lit "þriðjudagur";
    lit "fostudagur";
    lit "sunnudagur";
    lit "manudagur";
    lit "september";
    lit "this hour";
    lit "a morgun";
    lit "desember";
    lit "november";
    lit "februar";
    lit "manuður";
    lit "oktober";
    lit "sekunda";
    lit "januar";
    lit "minuta";
    lit "agust";
    lit "april";
    lit "dagur";
    lit "i dag";
    lit "i gær";
    lit "juli";
    lit "juni";
    lit "klst";
    lit "mars";
    lit "nuna";
    lit "vika";
    lit "agu";
    lit "apr";
    lit "des";
    lit "feb";
    lit "fim";
    lit "fos";
    lit "gmt";
    lit "jan";
    lit "jul";
    lit "jun";
    lit "lau";
    lit "mai";
    lit "man";
    lit "mar";
    lit "min";
    lit "mið";
    lit "nov";
    lit "okt";
    lit "sek";
    lit "sep";
    lit "sun";
    lit "utc";
    lit "þri";
    lit "am";
    lit "ar";
    lit "eh";
    lit "fh";
    lit "pm";
    lit " ";
    lit "'";
    lit "+";
    lit ",";
    lit "-";
    lit ".";
    lit "/";
    lit ":";
    lit ";";
    lit "@";
    lit "[";
    lit "]";
    lit "d";
    lit "v";
    lit "z";
    lit "|"] |}.

(** it.go:15-170 *)
Definition loc_it : locale := Eval vm_compute in
  {| ld_name := lit "it"; ld_order := lit "DMY"; ld_nospacing := false; ld_splitter := 1;
    ld_charset := runes (lit "bcdefghilnorstuvzì");
    ld_abbr := [];
    ld_simpl := [(rx "(?i)(\A|[^\pL\pM\d_])(\d+[.,]?\d*)\s+ora(\z|[^\pL\pM\d_])", lit "${1}${2} ore${3}")];
    ld_trans := [(lit "mercoledi", [lit "wednesday"]);
    (lit "settembre", [lit "september"]);
    (lit "settimana", [lit "week"]);
    (lit "settimane", [lit "week"]);
    (lit "dicembre", [lit "december"]);
    (lit "domenica", [lit "sunday"]);
    (lit "febbraio", [lit "february"]);
    (lit "novembre", [lit "november"]);
    (lit "gennaio", [lit "january"]);
    (lit "giovedi", [lit "thursday"]);
    (lit "martedi", [lit "tuesday"]);
    (lit "ottobre", [lit "october"]);
    (lit "secondi", [lit "second"]);
    (lit "secondo", [lit "second"]);
    (lit "venerdi", [lit "friday"]);
    (lit "agosto", [lit "august"]);
    (lit "aprile", [lit "april"]);
    (lit "giorni", [lit "day"]);
    (lit "giorno", [lit "day"]);
    (lit "giugno", [lit "june"]);
    (lit "luglio", [lit "july"]);
    (lit "lunedi", [lit "monday"]);
    (lit "maggio", [lit "may"]);
    (lit "minuti", [lit "minute"]);
    (lit "minuto", [lit "minute"]);
    (lit "sabato", [lit "saturday"]);
    (lit "circa", [lit ""]);
    (lit "marzo", [lit "march"]);
    (lit "anni", [lit "year"]);
    (lit "anno", [lit "year"]);
    (lit "mese", [lit "month"]);
    (lit "mesi", [lit "month"]);
    (lit "sett", [lit "week"]);
    (lit "ago", [lit "august"]);
    (lit "apr", [lit "april"]);
    (lit "dic", [lit "december"]);
    (lit "dom", [lit "sunday"]);
    (lit "feb", [lit "february"]);
    (lit "gen", [lit "january"]);
    (lit "gio", [lit "thursday"]);
    (lit "giu", [lit "june"]);
    (lit "gmt", [lit "gmt"]);
    (lit "lug", [lit "july"]);
    (lit "lun", [lit "monday"]);
    (lit "mag", [lit "may"]);
    (lit "mar", [lit "march"; lit "tuesday"]);
    (lit "mer", [lit "wednesday"]);
    (lit "min", [lit "minute"]);
    (lit "nov", [lit "november"]);
    (lit "ora", [lit "hour"]);
    (lit "ore", [lit "hour"]);
    (lit "ott", [lit "october"]);
    (lit "sab", [lit "saturday"]);
    (lit "sec", [lit "second"]);
    (lit "set", [lit "september"]);
    (lit "utc", [lit "utc"]);
    (lit "ven", [lit "friday"]);
    (lit "am", [lit "am"]);
    (lit "fa", [lit "ago"]);
    (lit "in", [lit "in"]);
    (lit "pm", [lit "pm"]);
    (lit " ", [lit " "]);
    (lit "'", [lit ""]);
    (lit "+", [lit "+"]);
    (lit ",", [lit ""]);
    (lit "-", [lit "-"]);
    (lit ".", [lit "."]);
    (lit "/", [lit "/"]);
    (lit ":", [lit ":"]);
    (lit ";", [lit ""]);
    (lit "@", [lit ""]);
    (lit "[", [lit ""]);
    (lit "]", [lit ""]);
    (lit "e", [lit ""]);
    (lit "g", [lit "day"]);
    (lit "h", [lit "hour"]);
    (lit "m", [lit "minute"]);
    (lit "s", [lit "second"]);
    (lit "z", [lit "z"]);
    (lit "|", [lit ""])];
    ld_reltype := [(lit "settimana prossima", lit "in 1 week");
    (lit "questa settimana", lit "0 week ago");
    (lit "settimana scorsa", lit "1 week ago");
    (lit "anno prossimo", lit "in 1 year");
    (lit "mese prossimo", lit "in 1 month");
    (lit "questo minuto", lit "0 minute ago");
    (lit "anno scorso", lit "1 year ago");
    (lit "mese scorso", lit "1 month ago");
    (lit "questo mese", lit "0 month ago");
    (lit "altro ieri", lit "2 day ago");
    (lit "quest'anno", lit "0 year ago");
    (lit "quest'ora", lit "0 hour ago");
    (lit "domani", lit "in 1 day");
    (lit "ieri", lit "1 day ago");
    (lit "oggi", lit "0 day ago");
    (lit "ora", lit "0 second ago")];
    ld_relrx := [(rx "(?i)tra (\d+[.,]?\d*) settimana", lit "in $1 week");
    (rx "(?i)tra (\d+[.,]?\d*) settimane", lit "in $1 week");
    (rx "(?i)(\d+[.,]?\d*) settimana fa", lit "$1 week ago");
    (rx "(?i)(\d+[.,]?\d*) settimane fa", lit "$1 week ago");
    (rx "(?i)tra (\d+[.,]?\d*) secondi", lit "in $1 second");
    (rx "(?i)tra (\d+[.,]?\d*) secondo", lit "in $1 second");
    (rx "(?i)(\d+[.,]?\d*) secondi fa", lit "$1 second ago");
    (rx "(?i)(\d+[.,]?\d*) secondo fa", lit "$1 second ago");
    (rx "(?i)tra (\d+[.,]?\d*) giorni", lit "in $1 day");
    (rx "(?i)tra (\d+[.,]?\d*) giorno", lit "in $1 day");
    (rx "(?i)tra (\d+[.,]?\d*) minuti", lit "in $1 minute");
    (rx "(?i)tra (\d+[.,]?\d*) minuto", lit "in $1 minute");
    (rx "(?i)(\d+[.,]?\d*) giorni fa", lit "$1 day ago");
    (rx "(?i)(\d+[.,]?\d*) giorno fa", lit "$1 day ago");
    (rx "(?i)(\d+[.,]?\d*) minuti fa", lit "$1 minute ago");
    (rx "(?i)(\d+[.,]?\d*) minuto fa", lit "$1 minute ago");
    (rx "(?i)tra (\d+[.,]?\d*) anni", lit "in $1 year");
    (rx "(?i)tra (\d+[.,]?\d*) anno", lit "in $1 year");
    (rx "(?i)tra (\d+[.,]?\d*) mese", lit "in $1 month");
    (rx "(?i)tra (\d+[.,]?\d*) mesi", lit "in $1 month");
    (rx "(?i)tra (\d+[.,]?\d*) sett", lit "in $1 week");
    (rx "(?i)(\d+[.,]?\d*) anni fa", lit "$1 year ago");
    (rx "(?i)(\d+[.,]?\d*) anno fa", lit "$1 year ago");
    (rx "(?i)(\d+[.,]?\d*) mese fa", lit "$1 month ago");
    (rx "(?i)(\d+[.,]?\d*) mesi fa", lit "$1 month ago");
    (rx "(?i)(\d+[.,]?\d*) sett fa", lit "$1 week ago");
    (rx "(?i)tra (\d+[.,]?\d*) min", lit "in $1 minute");
    (rx "(?i)tra (\d+[.,]?\d*) ora", lit "in $1 hour");
    (rx "(?i)tra (\d+[.,]?\d*) ore", lit "in $1 hour");
    (rx "(?i)tra (\d+[.,]?\d*) sec", lit "in $1 second");
    (rx "(?i)(\d+[.,]?\d*) min fa", lit "$1 minute ago");
    (rx "(?i)(\d+[.,]?\d*) ora fa", lit "$1 hour ago");
    (rx "(?i)(\d+[.,]?\d*) ore fa", lit "$1 hour ago");
    (rx "(?i)(\d+[.,]?\d*) sec fa", lit "$1 second ago");
    (rx "(?i)tra (\d+[.,]?\d*) gg", lit "in $1 day");
    (rx "(?i)(\d+[.,]?\d*) gg fa", lit "$1 day ago");
    (rx "(?i)tra (\d+[.,]?\d*) g", lit "in $1 day");
    (rx "(?i)tra (\d+[.,]?\d*) h", lit "in $1 hour");
    (rx "(?i)tra (\d+[.,]?\d*) s", lit "in $1 second");
    (rx "(?i)(\d+[.,]?\d*) g fa", lit "$1 day ago");
    (rx "(?i)(\d+[.,]?\d*) h fa", lit "$1 hour ago");
    (rx "(?i)(\d+[.,]?\d*) s fa", lit "$1 second ago")];
    ld_rx := Some (rx "(?i)(\A|[^\pL\pM\d]|_)(tra \d+[.,]?\d* settimana|tra \d+[.,]?\d* settimane|\d+[.,]?\d* settimana fa|\d+[.,]?\d* settimane fa|tra \d+[.,]?\d* secondi|tra \d+[.,]?\d* secondo|\d+[.,]?\d* secondi fa|\d+[.,]?\d* secondo fa|tra \d+[.,]?\d* giorni|tra \d+[.,]?\d* giorno|tra \d+[.,]?\d* minuti|tra \d+[.,]?\d* minuto|\d+[.,]?\d* giorni fa|\d+[.,]?\d* giorno fa|\d+[.,]?\d* minuti fa|\d+[.,]?\d* minuto fa|tra \d+[.,]?\d* anni|tra \d+[.,]?\d* anno|tra \d+[.,]?\d* mese|tra \d+[.,]?\d* mesi|tra \d+[.,]?\d* sett|\d+[.,]?\d* anni fa|\d+[.,]?\d* anno fa|\d+[.,]?\d* mese fa|\d+[.,]?\d* mesi fa|\d+[.,]?\d* sett fa|tra \d+[.,]?\d* min|tra \d+[.,]?\d* ora|tra \d+[.,]?\d* ore|tra \d+[.,]?\d* sec|\d+[.,]?\d* min fa|\d+[.,]?\d* ora fa|\d+[.,]?\d* ore fa|\d+[.,]?\d* sec fa|tra \d+[.,]?\d* gg|\d+[.,]?\d* gg fa|tra \d+[.,]?\d* g|tra \d+[.,]?\d* h|tra \d+[.,]?\d* s|\d+[.,]?\d* g fa|\d+[.,]?\d* h fa|\d+[.,]?\d* s fa)(\z|[^\pL\pM\d]|_)");
    ld_rx_exact := Some (rx "(?i)^(tra \d+[.,]?\d* settimana|tra \d+[.,]?\d* settimane|\d+[.,]?\d* settimana fa|\d+[.,]?\d* settimane fa|tra \d+[.,]?\d* secondi|tra \d+[.,]?\d* secondo|\d+[.,]?\d* secondi fa|\d+[.,]?\d* secondo fa|tra \d+[.,]?\d* giorni|tra \d+[.,]?\d* giorno|tra \d+[.,]?\d* minuti|tra \d+[.,]?\d* minuto|\d+[.,]?\d* giorni fa|\d+[.,]?\d* giorno fa|\d+[.,]?\d* minuti fa|\d+[.,]?\d* minuto fa|tra \d+[.,]?\d* anni|tra \d+[.,]?\d* anno|tra \d+[.,]?\d* mese|tra \d+[.,]?\d* mesi|tra \d+[.,]?\d* sett|\d+[.,]?\d* anni fa|\d+[.,]?\d* anno fa|\d+[.,]?\d* mese fa|\d+[.,]?\d* mesi fa|\d+[.,]?\d* sett fa|tra \d+[.,]?\d* min|tra \d+[.,]?\d* ora|tra \d+[.,]?\d* ore|tra \d+[.,]?\d* sec|\d+[.,]?\d* min fa|\d+[.,]?\d* ora fa|\d+[.,]?\d* ore fa|\d+[.,]?\d* sec fa|tra \d+[.,]?\d* gg|\d+[.,]?\d* gg fa|tra \d+[.,]?\d* g|tra \d+[.,]?\d* h|tra \d+[.,]?\d* s|\d+[.,]?\d* g fa|\d+[.,]?\d* h fa|\d+[.,]?\d* s fa)$");
    ld_known := [lit "settimana prossima";
    lit "questa settimana";
    lit "settimana scorsa";
    lit "anno prossimo";
    lit "mese prossimo";
    lit "questo minuto";
    lit "anno scorso";
    lit "mese scorso";
    lit "questo mese";
    lit "altro ieri";
    lit "quest'anno";
    lit "mercoledi";
    lit "quest'ora";
    lit "settembre";
    lit "settimana";
    lit "settimane";
    lit "dicembre";
    lit "domenica";
    lit "febbraio";
    lit "novembre";
    lit "gennaio";
    lit "giovedi";
    lit "martedi";
    lit "ottobre";
    lit "secondi";
    lit "secondo";
    lit "venerdi";
    lit "agosto";
    lit "aprile";
    lit "domani";
    lit "giorni";
    lit "giorno";
    lit "giugno";
    lit "luglio";
    lit "lunedi";
    lit "maggio";
    lit "minuti";
    lit "minuto";
    lit "sabato";
    lit "circa";
    lit "marzo";
    lit "anni";
    lit "anno";
    lit "ieri";
    lit "mese";
    lit "mesi";
    lit "oggi";
    lit "sett";
    lit "ago";
    lit "apr";
    lit "dic";
    lit "dom";
    lit "feb";
    lit "gen";
    lit "gio";
    lit "giu";
    lit "gmt";
    lit "lug";
    lit "lun";
    lit "mag";
    lit "mar";
    lit "mer";
    lit "min";
    lit "nov";
    lit "ora";
    lit "ore";
    lit "ott";
    lit "sab";
    lit "sec";
    lit "set";
    lit "utc";
    lit "ven";
    lit "am";
    lit "fa";
    lit "in";
    lit "pm";
    lit " ";
    lit "'";
    lit "+";
    lit ",";
    lit "-";
    lit ".";
    lit "/";
    lit ":";
    lit ";";
    lit "@";
    lit "[";
    lit "]";
    lit "e";
    lit "g";
    lit "h";
    lit "m";
    lit "s";
    lit "z";
    lit "|"] |}.

(** it.go:172-175 *)
Definition own_it_CH : locale := Eval vm_compute in
  {| ld_name := lit "it-CH"; ld_order := lit "DMY"; ld_nospacing := false; ld_splitter := 0;
    ld_charset := runes (lit "");
    ld_abbr := [];
    ld_simpl := [];
    ld_trans := [];
    ld_reltype := [];
    ld_relrx := [];
    ld_rx := None;
    ld_rx_exact := None;
    ld_known := [] |}.
Definition loc_it_CH : locale := merge loc_it own_it_CH.

(** it.go:177-180 *)
Definition own_it_SM : locale := Eval vm_compute in
  {| ld_name := lit "it-SM"; ld_order := lit "DMY"; ld_nospacing := false; ld_splitter := 0;
    ld_charset := runes (lit "");
    ld_abbr := [];
    ld_simpl := [];
    ld_trans := [];
    ld_reltype := [];
    ld_relrx := [];
    ld_rx := None;
    ld_rx_exact := None;
    ld_known := [] |}.
Definition loc_it_SM : locale := merge loc_it own_it_SM.

(** it.go:182-185 *)
Definition own_it_VA : locale := Eval vm_compute in
  {| ld_name := lit "it-VA"; ld_order := lit "DMY"; ld_nospacing := false; ld_splitter := 0;
    ld_charset := runes (lit "");
    ld_abbr := [];
    ld_simpl := [];
    ld_trans := [];
    ld_reltype := [];
    ld_relrx := [];
    ld_rx := None;
    ld_rx_exact := None;
    ld_known := [] |}.
Definition loc_it_VA : locale := merge loc_it own_it_VA.

(** ja.go:12-166 *)
Definition loc_ja : locale := Eval vm_compute in
  {| ld_name := lit "ja"; ld_order := lit "YMD"; ld_nospacing := true; ld_splitter := 4;
    ld_charset := runes (lit "cgtuz々かてでのらカヶ一七三九二五今以先八六内分前十午去四土在年後日明昨時曜月木水火現秒約翌週金間");
    ld_abbr := [];
    ld_simpl := [(rx "(?i)(\d+[.,]?\d*)年(?:\s+)?(\d+[.,]?\d*)月(?:\s+)?(\d+[.,]?\d*)日", lit "${1}-${2}-${3}");
    (rx "(?i)(\d+[.,]?\d*)月(?:\s+)?(\d+[.,]?\d*)日", lit "${1}-${2}");
    (rx "(?i)(\d+[.,]?\d*)時(?:\s+)?(\d+[.,]?\d*)分(?:\s+)?(\d+[.,]?\d*)秒", lit "${1}:${2}:${3}");
    (rx "(?i)(\d+[.,]?\d*)時(?:\s+)?(\d+[.,]?\d*)分", lit "${1}:${2}");
    (rx "(?i)(\d+[.,]?\d*)時$", lit "${1}:00");
    (rx "(?i)正午", lit "12:00")];
    ld_trans := [(lit "(土)", [lit "saturday"]);
    (lit "(日)", [lit "sunday"]);
    (lit "(月)", [lit "monday"]);
    (lit "(木)", [lit "thursday"]);
    (lit "(水)", [lit "wednesday"]);
    (lit "(火)", [lit "tuesday"]);
    (lit "(金)", [lit "friday"]);
    (lit "10月", [lit "october"]);
    (lit "11月", [lit "november"]);
    (lit "12月", [lit "december"]);
    (lit "gmt", [lit "gmt"]);
    (lit "utc", [lit "utc"]);
    (lit "今から", [lit "in"]);
    (lit "十一月", [lit "november"]);
    (lit "十二月", [lit "december"]);
    (lit "土曜日", [lit "saturday"]);
    (lit "日曜日", [lit "sunday"]);
    (lit "月曜日", [lit "monday"]);
    (lit "木曜日", [lit "thursday"]);
    (lit "水曜日", [lit "wednesday"]);
    (lit "火曜日", [lit "tuesday"]);
    (lit "金曜日", [lit "friday"]);
    (lit "1月", [lit "january"]);
    (lit "2月", [lit "february"]);
    (lit "3月", [lit "march"]);
    (lit "4月", [lit "april"]);
    (lit "5月", [lit "may"]);
    (lit "6月", [lit "june"]);
    (lit "7月", [lit "july"]);
    (lit "8月", [lit "august"]);
    (lit "9月", [lit "september"]);
    (lit "am", [lit "am"]);
    (lit "pm", [lit "pm"]);
    (lit "か月", [lit "month"]);
    (lit "カ月", [lit "month"]);
    (lit "ヶ月", [lit "month"]);
    (lit "一月", [lit "january"]);
    (lit "七月", [lit "july"]);
    (lit "三月", [lit "march"]);
    (lit "九月", [lit "september"]);
    (lit "二月", [lit "february"]);
    (lit "五月", [lit "may"]);
    (lit "八月", [lit "august"]);
    (lit "六月", [lit "june"]);
    (lit "分間", [lit "minute"]);
    (lit "十月", [lit "october"]);
    (lit "午前", [lit "am"]);
    (lit "午後", [lit "pm"]);
    (lit "四月", [lit "april"]);
    (lit "日間", [lit "day"]);
    (lit "時間", [lit "hour"]);
    (lit "秒間", [lit "second"]);
    (lit "週間", [lit "week"]);
    (lit " ", [lit " "]);
    (lit "'", [lit ""]);
    (lit "+", [lit "+"]);
    (lit ",", [lit ""]);
    (lit "-", [lit "-"]);
    (lit ".", [lit "."]);
    (lit "/", [lit "/"]);
    (lit ":", [lit ":"]);
    (lit ";", [lit ""]);
    (lit "@", [lit ""]);
    (lit "[", [lit ""]);
    (lit "]", [lit ""]);
    (lit "z", [lit "z"]);
    (lit "|", [lit ""]);
    (lit "て", [lit "in"]);
    (lit "の", [lit ""]);
    (lit "分", [lit "minute"]);
    (lit "前", [lit "ago"]);
    (lit "土", [lit "saturday"]);
    (lit "年", [lit "year"]);
    (lit "日", [lit "day"; lit "sunday"]);
    (lit "時", [lit "hour"]);
    (lit "月", [lit "month"; lit "monday"]);
    (lit "木", [lit "thursday"]);
    (lit "水", [lit "wednesday"]);
    (lit "火", [lit "tuesday"]);
    (lit "秒", [lit "second"]);
    (lit "約", [lit ""]);
    (lit "週", [lit "week"]);
    (lit "金", [lit "friday"])];
    ld_reltype := [(lit "1 時間以内", lit "0 hour ago");
    (lit "1 分以内", lit "0 minute ago");
    (lit "一昨日", lit "2 day ago");
    (lit "先々週", lit "2 week ago");
    (lit "明後日", lit "in 2 day");
    (lit "今年", lit "0 year ago");
    (lit "今日", lit "0 day ago");
    (lit "今月", lit "0 month ago");
    (lit "今週", lit "0 week ago");
    (lit "先月", lit "1 month ago");
    (lit "先週", lit "1 week ago");
    (lit "去年", lit "1 year ago");
    (lit "明日", lit "in 1 day");
    (lit "昨年", lit "1 year ago");
    (lit "昨日", lit "1 day ago");
    (lit "現在", lit "0 second ago");
    (lit "翌年", lit "in 1 year");
    (lit "翌月", lit "in 1 month");
    (lit "翌週", lit "in 1 week");
    (lit "今", lit "0 second ago")];
    ld_relrx := [(rx "(?i)(\d+[.,]?\d*) か月前", lit "$1 month ago");
    (rx "(?i)(\d+[.,]?\d*) か月後", lit "in $1 month");
    (rx "(?i)(\d+[.,]?\d*) 時間前", lit "$1 hour ago");
    (rx "(?i)(\d+[.,]?\d*) 時間後", lit "in $1 hour");
    (rx "(?i)(\d+[.,]?\d*) 週間前", lit "$1 week ago");
    (rx "(?i)(\d+[.,]?\d*) 週間後", lit "in $1 week");
    (rx "(?i)(\d+[.,]?\d*) 分前", lit "$1 minute ago");
    (rx "(?i)(\d+[.,]?\d*) 分後", lit "in $1 minute");
    (rx "(?i)(\d+[.,]?\d*) 年前", lit "$1 year ago");
    (rx "(?i)(\d+[.,]?\d*) 年後", lit "in $1 year");
    (rx "(?i)(\d+[.,]?\d*) 日前", lit "$1 day ago");
    (rx "(?i)(\d+[.,]?\d*) 日後", lit "in $1 day");
    (rx "(?i)(\d+[.,]?\d*) 秒前", lit "$1 second ago");
    (rx "(?i)(\d+[.,]?\d*) 秒後", lit "in $1 second");
    (rx "(?i)(\d+[.,]?\d*)か月前", lit "$1 month ago");
    (rx "(?i)(\d+[.,]?\d*)か月後", lit "in $1 month");
    (rx "(?i)(\d+[.,]?\d*)時間前", lit "$1 hour ago");
    (rx "(?i)(\d+[.,]?\d*)時間後", lit "in $1 hour");
    (rx "(?i)(\d+[.,]?\d*)週間前", lit "$1 week ago");
    (rx "(?i)(\d+[.,]?\d*)週間後", lit "in $1 week");
    (rx "(?i)(\d+[.,]?\d*)分前", lit "$1 minute ago");
    (rx "(?i)(\d+[.,]?\d*)分後", lit "in $1 minute");
    (rx "(?i)(\d+[.,]?\d*)年前", lit "$1 year ago");
    (rx "(?i)(\d+[.,]?\d*)年後", lit "in $1 year");
    (rx "(?i)(\d+[.,]?\d*)日前", lit "$1 day ago");
    (rx "(?i)(\d+[.,]?\d*)日後", lit "in $1 day");
    (rx "(?i)(\d+[.,]?\d*)秒前", lit "$1 second ago");
    (rx "(?i)(\d+[.,]?\d*)秒後", lit "in $1 second")];
    ld_rx := Some (rx "(?i)(\d+[.,]?\d* か月前|\d+[.,]?\d* か月後|\d+[.,]?\d* 時間前|\d+[.,]?\d* 時間後|\d+[.,]?\d* 週間前|\d+[.,]?\d* 週間後|\d+[.,]?\d* 分前|\d+[.,]?\d* 分後|\d+[.,]?\d* 年前|\d+[.,]?\d* 年後|\d+[.,]?\d* 日前|\d+[.,]?\d* 日後|\d+[.,]?\d* 秒前|\d+[.,]?\d* 秒後|\d+[.,]?\d*か月前|\d+[.,]?\d*か月後|\d+[.,]?\d*時間前|\d+[.,]?\d*時間後|\d+[.,]?\d*週間前|\d+[.,]?\d*週間後|\d+[.,]?\d*分前|\d+[.,]?\d*分後|\d+[.,]?\d*年前|\d+[.,]?\d*年後|\d+[.,]?\d*日前|\d+[.,]?\d*日後|\d+[.,]?\d*秒前|\d+[.,]?\d*秒後)");
    ld_rx_exact := Some (rx "(?i)^(\d+[.,]?\d* か月前|\d+[.,]?\d* か月後|\d+[.,]?\d* 時間前|\d+[.,]?\d* 時間後|\d+[.,]?\d* 週間前|\d+[.,]?\d* 週間後|\d+[.,]?\d* 分前|\d+[.,]?\d* 分後|\d+[.,]?\d* 年前|\d+[.,]?\d* 年後|\d+[.,]?\d* 日前|\d+[.,]?\d* 日後|\d+[.,]?\d* 秒前|\d+[.,]?\d* 秒後|\d+[.,]?\d*か月前|\d+[.,]?\d*か月後|\d+[.,]?\d*時間前|\d+[.,]?\d*時間後|\d+[.,]?\d*週間前|\d+[.,]?\d*週間後|\d+[.,]?\d*分前|\d+[.,]?\d*分後|\d+[.,]?\d*年前|\d+[.,]?\d*年後|\d+[.,]?\d*日前|\d+[.,]?\d*日後|\d+[.,]?\d*秒前|\d+[.,]?\d*秒後)$");
    ld_known := [lit "1 時間以内";
    lit "1 分以内";
    lit "(土)";
    lit "(日)";
    lit "(月)";
    lit "(木)";
    lit "(水)";
    lit "(火)";
    lit "(金)";
    lit "10月";
    lit "11月";
    lit "12月";
    lit "gmt";
    lit "utc";
    lit "一昨日";
    lit "今から";
    lit "先々週";
    lit "十一月";
    lit "十二月";
    lit "土曜日";
    lit "日曜日";
    lit "明後日";
    lit "月曜日";
    lit "木曜日";
    lit "水曜日";
    lit "火曜日";
    lit "金曜日";
    lit "1月";
    lit "2月";
    lit "3月";
    lit "4月";
    lit "5月";
    lit "6月";
    lit "7月";
    lit "8月";
    lit "9月";
    lit "am";
    lit "pm";
    lit "か月";
    lit "カ月";
    lit "ヶ月";
    lit "一月";
    lit "七月";
    lit "三月";
    lit "九月";
    lit "二月";
    lit "五月";
    lit "今年";
    lit "今日";
    lit "今月";
    lit "今週";
    lit "先月";
    lit "先週";
    lit "八月";
    lit "六月";
    lit "分間";
    lit "十月";
    lit "午前";
    lit "午後";
    lit "去年";
    lit "四月";
    lit "日間";
    lit "明日";
    lit "昨年";
    lit "昨日";
    lit "時間";
    lit "現在";
    lit "秒間";
    lit "翌年";
    lit "翌月";
    lit "翌週";
    lit "週間";
    lit " ";
    lit "'";
    lit "+";
    lit ",";
    lit "-";
    lit ".";
    lit "/";
    lit ":";
    lit ";";
    lit "@";
    lit "[";
    lit "]";
    lit "z";
    lit "|";
    lit "て";
    lit "の";
    lit "今";
    lit "分";
    lit "前";
    lit "土";
    lit "年";
    lit "日";
    lit "時";
    lit "月";
    lit "木";
    lit "水";
    lit "火";
    lit "秒";
    lit "約";
    lit "週";
    lit "金"] |}.

(** jgo.go:12-98 *)
Definition loc_jgo : locale := Eval vm_compute in
  {| ld_name := lit "jgo"; ld_order := lit "YMD"; ld_nospacing := false; ld_splitter := 0;
    ld_charset := runes (lit "bcdefghijklnorstuwxyzáâúŋɔɛ́̌ꞌ");
    ld_abbr := [];
    ld_simpl := [];
    ld_trans := [(lit "pɛsaŋ pɛnɛntuku", [lit "june"]);
    (lit "pɛsaŋ pɛnɛpfuꞌu", [lit "september"]);
    (lit "pɛsaŋ ntsɔpmɔ", [lit "november"]);
    (lit "pɛsaŋ ntsɔppa", [lit "december"]);
    (lit "pɛsaŋ pɛnɛfɔm", [lit "august"]);
    (lit "pɛsaŋ pɛnɛkwa", [lit "april"]);
    (lit "pɛsaŋ saamba", [lit "july"]);
    (lit "ŋka mbɔt nji", [lit "pm"]);
    (lit "nduŋmbi saŋ", [lit "january"]);
    (lit "pɛsaŋ nɛgɛm", [lit "october"]);
    (lit "pɛsaŋ pataa", [lit "may"]);
    (lit "pɛsaŋ pɛtat", [lit "march"]);
    (lit "apta mɔndi", [lit "tuesday"]);
    (lit "pɛsaŋ pɛpa", [lit "february"]);
    (lit "fɛlayɛdɛ", [lit "friday"]);
    (lit "mba'mba'", [lit "am"]);
    (lit "wɛnɛsɛdɛ", [lit "wednesday"]);
    (lit "minute", [lit "minute"]);
    (lit "sasidɛ", [lit "saturday"]);
    (lit "second", [lit "second"]);
    (lit "tɔsɛdɛ", [lit "thursday"]);
    (lit "month", [lit "month"]);
    (lit "mɔndi", [lit "monday"]);
    (lit "sɔndi", [lit "sunday"]);
    (lit "hour", [lit "hour"]);
    (lit "week", [lit "week"]);
    (lit "year", [lit "year"]);
    (lit "day", [lit "day"]);
    (lit "gmt", [lit "gmt"]);
    (lit "utc", [lit "utc"]);
    (lit "am", [lit "am"]);
    (lit "pm", [lit "pm"]);
    (lit " ", [lit " "]);
    (lit "'", [lit ""]);
    (lit "+", [lit "+"]);
    (lit ",", [lit ""]);
    (lit "-", [lit "-"]);
    (lit ".", [lit "."]);
    (lit "/", [lit "/"]);
    (lit ":", [lit ":"]);
    (lit ";", [lit ""]);
    (lit "@", [lit ""]);
    (lit "[", [lit ""]);
    (lit "]", [lit ""]);
    (lit "z", [lit "z"]);
    (lit "|", [lit ""])];
    ld_reltype := [(lit "this minute", lit "0 minute ago");
    (lit "last month", lit "1 month ago");
    (lit "next month", lit "in 1 month");
    (lit "this month", lit "0 month ago");
    (lit "last week", lit "1 week ago");
    (lit "last year", lit "1 year ago");
    (lit "next week", lit "in 1 week");
    (lit "next year", lit "in 1 year");
    (lit "this hour", lit "0 hour ago");
    (lit "this week", lit "0 week ago");
    (lit "this year", lit "0 year ago");
    (lit "yesterday", lit "1 day ago");
    (lit "tomorrow", lit "in 1 day");
    (lit "lɔꞌɔ", lit "0 day ago");
    (lit "now", lit "0 second ago")];
    ld_relrx := [(rx "(?i)ɛ gɛ mɔ (\d+[.,]?\d*) ŋgap-mbi", lit "$1 week ago");
    (rx "(?i)ɛ gɛ mɔ minut (\d+[.,]?\d*)", lit "$1 minute ago");
    (rx "(?i)ɛ gɛ mɔ pɛsaŋ (\d+[.,]?\d*)", lit "$1 month ago");
    (rx "(?i)nuu ŋgap-mbi (\d+[.,]?\d*)", lit "in $1 week");
    (rx "(?i)ɛ gɛ mɔ (\d+[.,]?\d*) hawa", lit "$1 hour ago");
    (rx "(?i)ɛ gɛ mɔ lɛꞌ (\d+[.,]?\d*)", lit "$1 day ago");
    (rx "(?i)ɛgɛ mɔ ŋguꞌ (\d+[.,]?\d*)", lit "$1 year ago");
    (rx "(?i)nuu (\d+[.,]?\d*) minut", lit "in $1 minute");
    (rx "(?i)nuu hawa (\d+[.,]?\d*)", lit "in $1 hour");
    (rx "(?i)nuu ŋguꞌ (\d+[.,]?\d*)", lit "in $1 year");
    (rx "(?i)nuu (\d+[.,]?\d*) saŋ", lit "in $1 month");
    (rx "(?i)nuu lɛꞌ (\d+[.,]?\d*)", lit "in $1 day")];
    ld_rx := Some (rx "(?i)(\A|[^\pL\pM\d]|_)(ɛ gɛ mɔ \d+[.,]?\d* ŋgap-mbi|ɛ gɛ mɔ minut \d+[.,]?\d*|ɛ gɛ mɔ pɛsaŋ \d+[.,]?\d*|nuu ŋgap-mbi \d+[.,]?\d*|ɛ gɛ mɔ \d+[.,]?\d* hawa|ɛ gɛ mɔ lɛꞌ \d+[.,]?\d*|ɛgɛ mɔ ŋguꞌ \d+[.,]?\d*|nuu \d+[.,]?\d* minut|nuu hawa \d+[.,]?\d*|nuu ŋguꞌ \d+[.,]?\d*|nuu \d+[.,]?\d* saŋ|nuu lɛꞌ \d+[.,]?\d*)(\z|[^\pL\pM\d]|_)");
    ld_rx_exact := Some (rx "(?i)^(ɛ gɛ mɔ \d+[.,]?\d* ŋgap-mbi|ɛ gɛ mɔ minut \d+[.,]?\d*|ɛ gɛ mɔ pɛsaŋ \d+[.,]?\d*|nuu ŋgap-mbi \d+[.,]?\d*|ɛ gɛ mɔ \d+[.,]?\d* hawa|ɛ gɛ mɔ lɛꞌ \d+[.,]?\d*|ɛgɛ mɔ ŋguꞌ \d+[.,]?\d*|nuu \d+[.,]?\d* minut|nuu hawa \d+[.,]?\d*|nuu ŋguꞌ \d+[.,]?\d*|nuu \d+[.,]?\d* saŋ|nuu lɛꞌ \d+[.,]?\d*)$");
    ld_known := [lit "pɛsaŋ pɛnɛntuku";
    lit "pɛsaŋ pɛnɛpfuꞌu";
    lit "pɛsaŋ ntsɔpmɔ";
    lit "pɛsaŋ ntsɔppa";
    lit "pɛsaŋ pɛnɛfɔm";
    lit "pɛsaŋ pɛnɛkwa";
    lit "pɛsaŋ saamba";
    lit "ŋka mbɔt nji";
    lit "nduŋmbi saŋ";
    lit "pɛsaŋ nɛgɛm";
    lit "pɛsaŋ pataa";
    lit "pɛsaŋ pɛtat";
    lit "this minute";
    lit "apta mɔndi";
    lit "last month";
    lit "next month";
    lit "pɛsaŋ pɛpa";
    lit "this month";
    lit "last week";
    lit "last year";
    lit "next week";
    lit "next year";
    lit "this hour";
    lit "this week";
    lit "this year";
    lit "yesterday";
    lit "fɛlayɛdɛ";
    lit "mba'mba'";
    lit "tomorrow";
    lit "wɛnɛsɛdɛ";
    lit "minute";
    lit "sasidɛ";
    lit "second";
    lit "tɔsɛdɛ";
    lit "month";
    lit "mɔndi";
    lit "sɔndi";
    lit "hour";
    lit "lɔꞌɔ";
    lit "week";
    lit "year";
    lit "day";
    lit "gmt";
    lit "now";
    lit "utc";
    lit "am";
    lit "pm";
    lit " ";
    lit "'";
    lit "+";
    lit ",";
    lit "-";
    lit ".";
    lit "/";
    lit ":";
    lit ";";
    lit "@";
    lit "[";
    lit "]";
    lit "z";
    lit "|"] |}.

(** jmc.go:10-98 *)
Definition loc_jmc : locale := Eval vm_compute in
  {| ld_name := lit "jmc"; ld_order := lit "DMY"; ld_nospacing := false; ld_splitter := 0;
    ld_charset := runes (lit "bcdefghijklnorstuvwxyz");
    ld_abbr := [];
    ld_simpl := [];
    ld_trans := [(lit "jumapilyi", [lit "sunday"]);
    (lit "jumatatuu", [lit "monday"]);
    (lit "kyiukonyi", [lit "pm"]);
    (lit "alhamisi", [lit "thursday"]);
    (lit "februari", [lit "february"]);
    (lit "jumamosi", [lit "saturday"]);
    (lit "jumatanu", [lit "wednesday"]);
    (lit "septemba", [lit "september"]);
    (lit "aprilyi", [lit "april"]);
    (lit "dakyika", [lit "minute"]);
    (lit "desemba", [lit "december"]);
    (lit "januari", [lit "january"]);
    (lit "jumanne", [lit "tuesday"]);
    (lit "novemba", [lit "november"]);
    (lit "sekunde", [lit "second"]);
    (lit "agusti", [lit "august"]);
    (lit "ijumaa", [lit "friday"]);
    (lit "julyai", [lit "july"]);
    (lit "oktoba", [lit "october"]);
    (lit "wiikyi", [lit "week"]);
    (lit "junyi", [lit "june"]);
    (lit "machi", [lit "march"]);
    (lit "mfiri", [lit "day"]);
    (lit "utuko", [lit "am"]);
    (lit "maka", [lit "year"]);
    (lit "mori", [lit "month"]);
    (lit "ago", [lit "august"]);
    (lit "alh", [lit "thursday"]);
    (lit "apr", [lit "april"]);
    (lit "des", [lit "december"]);
    (lit "feb", [lit "february"]);
    (lit "gmt", [lit "gmt"]);
    (lit "iju", [lit "friday"]);
    (lit "jan", [lit "january"]);
    (lit "jmo", [lit "saturday"]);
    (lit "jnn", [lit "tuesday"]);
    (lit "jpi", [lit "sunday"]);
    (lit "jtn", [lit "wednesday"]);
    (lit "jtt", [lit "monday"]);
    (lit "jul", [lit "july"]);
    (lit "jun", [lit "june"]);
    (lit "mac", [lit "march"]);
    (lit "mei", [lit "may"]);
    (lit "nov", [lit "november"]);
    (lit "okt", [lit "october"]);
    (lit "saa", [lit "hour"]);
    (lit "sep", [lit "september"]);
    (lit "utc", [lit "utc"]);
    (lit "am", [lit "am"]);
    (lit "pm", [lit "pm"]);
    (lit " ", [lit " "]);
    (lit "'", [lit ""]);
    (lit "+", [lit "+"]);
    (lit ",", [lit ""]);
    (lit "-", [lit "-"]);
    (lit ".", [lit "."]);
    (lit "/", [lit "/"]);
    (lit ":", [lit ":"]);
    (lit ";", [lit ""]);
    (lit "@", [lit ""]);
    (lit "[", [lit ""]);
    (lit "]", [lit ""]);
    (lit "z", [lit "z"]);
    (lit "|", [lit ""])];
    ld_reltype := [(lit "this minute", lit "0 minute ago");
    (lit "last month", lit "1 month ago");
    (lit "next month", lit "in 1 month");
    (lit "this month", lit "0 month ago");
    (lit "last week", lit "1 week ago");
    (lit "last year", lit "1 year ago");
    (lit "next week", lit "in 1 week");
    (lit "next year", lit "in 1 year");
    (lit "this hour", lit "0 hour ago");
    (lit "this week", lit "0 week ago");
    (lit "this year", lit "0 year ago");
    (lit "ngama", lit "in 1 day");
    (lit "ukou", lit "1 day ago");
    (lit "inu", lit "0 day ago");
    (lit "now", lit "0 second ago")];
    ld_relrx := [];
    ld_rx := None;
    ld_rx_exact := None;
    ld_known := [lit "this minute";
    lit "last month";
    lit "next month";
    lit "this month";
    lit "jumapilyi";
    lit "jumatatuu";
    lit "kyiukonyi";
    lit "last week";
    lit "last year";
    lit "next week";
    lit "next year";
    lit "this hour";
    lit "this week";
    lit "this year";
    lit "alhamisi";
    lit "februari";
    lit "jumamosi";
    lit "jumatanu";
    lit "septemba";
    lit "aprilyi";
    lit "dakyika";
    lit "desemba";
    lit "januari";
    lit "jumanne";
    lit "novemba";
    lit "sekunde";
    lit "agusti";
    lit "ijumaa";
    lit "julyai";
    lit "oktoba";
    lit "wiikyi";
    lit "junyi";
    lit "machi";
    lit "mfiri";
    lit "ngama";
    lit "utuko";
    lit "maka";
    lit "mori";
    lit "ukou";
    lit "ago";
    lit "alh";
    lit "apr";
    lit "des";
    lit "feb";
    lit "gmt";
    lit "iju";
    lit "inu";
    lit "jan";
    lit "jmo";
    lit "jnn";
    lit "jpi";
    lit "jtn";
    lit "jtt";
    lit "jul";
    lit "jun";
    lit "mac";
    lit "mei";
    lit "nov";
    lit "now";
    lit "okt";
    lit "saa";
    lit "sep";
    lit "utc";
    lit "am";
    lit "pm";
    lit " ";
    lit "'";
    lit "+";
    lit ",";
    lit "-";
    lit ".";
    lit "/";
    lit ":";
    lit ";";
    lit "@";
    lit "[";
    lit "]";
    lit "z";
    lit "|"] |}.

(** ka.go:12-138 *)
Definition loc_ka : locale := Eval vm_compute in
  {| ld_name := lit "ka"; ld_order := lit "DMY"; ld_nospacing := false; ld_splitter := 1;
    ld_charset := runes (lit "cgtuzაბგდევზთიკლმნოპრსტუქღშწხ");
    ld_abbr := [];
    ld_simpl := [(rx "(?i)(\A|[^\pL\pM\d_])ერთ(\z|[^\pL\pM\d_])", lit "${1}1${2}")];
    ld_trans := [(lit "შუადღ შემდეგ", [lit "pm"]);
    (lit "დაახლოებით", [lit ""]);
    (lit "სექტემბერი", [lit "september"]);
    (lit "დეკემბერი", [lit "december"]);
    (lit "თებერვალი", [lit "february"]);
    (lit "ოთხშაბათი", [lit "wednesday"]);
    (lit "ოქტომბერი", [lit "october"]);
    (lit "პარასკევი", [lit "friday"]);
    (lit "სამშაბათი", [lit "tuesday"]);
    (lit "ხუთშაბათი", [lit "thursday"]);
    (lit "ნოემბერი", [lit "november"]);
    (lit "ორშაბათი", [lit "monday"]);
    (lit "აგვისტო", [lit "august"]);
    (lit "დღეიდან", [lit "in"]);
    (lit "იანვარი", [lit "january"]);
    (lit "აპრილი", [lit "april"]);
    (lit "ივლისი", [lit "july"]);
    (lit "ივნისი", [lit "june"]);
    (lit "შაბათი", [lit "saturday"]);
    (lit "კვირა", [lit "week"; lit "sunday"]);
    (lit "მაისი", [lit "may"]);
    (lit "მარტი", [lit "march"]);
    (lit "საათი", [lit "hour"]);
    (lit "წამი", [lit "second"]);
    (lit "წელი", [lit "year"]);
    (lit "წლის", [lit "year"]);
    (lit "წუთი", [lit "minute"]);
    (lit "gmt", [lit "gmt"]);
    (lit "utc", [lit "utc"]);
    (lit "აგვ", [lit "august"]);
    (lit "აპრ", [lit "april"]);
    (lit "დეკ", [lit "december"]);
    (lit "დღე", [lit "day"]);
    (lit "თებ", [lit "february"]);
    (lit "თვე", [lit "month"]);
    (lit "იან", [lit "january"]);
    (lit "ივლ", [lit "july"]);
    (lit "ივნ", [lit "june"]);
    (lit "კვი", [lit "sunday"]);
    (lit "მაი", [lit "may"]);
    (lit "მარ", [lit "march"]);
    (lit "ნოე", [lit "november"]);
    (lit "ოთხ", [lit "wednesday"]);
    (lit "ორშ", [lit "monday"]);
    (lit "ოქტ", [lit "october"]);
    (lit "პარ", [lit "friday"]);
    (lit "სამ", [lit "tuesday"]);
    (lit "სექ", [lit "september"]);
    (lit "შაბ", [lit "saturday"]);
    (lit "წინ", [lit "ago"]);
    (lit "ხუთ", [lit "thursday"]);
    (lit "am", [lit "am"]);
    (lit "pm", [lit "pm"]);
    (lit "და", [lit ""]);
    (lit "ზე", [lit ""]);
    (lit "ის", [lit ""]);
    (lit "კვ", [lit "week"]);
    (lit "სთ", [lit "hour"]);
    (lit "წთ", [lit "minute"]);
    (lit "წმ", [lit "second"]);
    (lit " ", [lit " "]);
    (lit "'", [lit ""]);
    (lit "+", [lit "+"]);
    (lit ",", [lit ""]);
    (lit "-", [lit "-"]);
    (lit ".", [lit "."]);
    (lit "/", [lit "/"]);
    (lit ":", [lit ":"]);
    (lit ";", [lit ""]);
    (lit "@", [lit ""]);
    (lit "[", [lit ""]);
    (lit "]", [lit ""]);
    (lit "z", [lit "z"]);
    (lit "|", [lit ""]);
    (lit "წ", [lit "year"])];
    ld_reltype := [(lit "მომავალ კვირაში", lit "in 1 week");
    (lit "გასულ კვირაში", lit "1 week ago");
    (lit "მომავალ თვეს", lit "in 1 month");
    (lit "მომავალ წელს", lit "in 1 year");
    (lit "ამ კვირაში", lit "0 week ago");
    (lit "გასულ თვეს", lit "1 month ago");
    (lit "გასულ წელს", lit "1 year ago");
    (lit "ამ საათში", lit "0 hour ago");
    (lit "ამ თვეში", lit "0 month ago");
    (lit "ამ წუთში", lit "0 minute ago");
    (lit "ამ წელს", lit "0 year ago");
    (lit "გუშინ", lit "1 day ago");
    (lit "ახლა", lit "0 second ago");
    (lit "დღეს", lit "0 day ago");
    (lit "ხვალ", lit "in 1 day")];
    ld_relrx := [(rx "(?i)(\d+[.,]?\d*) კვირის წინ", lit "$1 week ago");
    (rx "(?i)(\d+[.,]?\d*) საათის წინ", lit "$1 hour ago");
    (rx "(?i)(\d+[.,]?\d*) წამის წინ", lit "$1 second ago");
    (rx "(?i)(\d+[.,]?\d*) წელიწადში", lit "in $1 year");
    (rx "(?i)(\d+[.,]?\d*) წუთის წინ", lit "$1 minute ago");
    (rx "(?i)(\d+[.,]?\d*) დღის წინ", lit "$1 day ago");
    (rx "(?i)(\d+[.,]?\d*) თვის წინ", lit "$1 month ago");
    (rx "(?i)(\d+[.,]?\d*) წლის წინ", lit "$1 year ago");
    (rx "(?i)(\d+[.,]?\d*) კვირაში", lit "in $1 week");
    (rx "(?i)(\d+[.,]?\d*) კვ წინ", lit "$1 week ago");
    (rx "(?i)(\d+[.,]?\d*) საათში", lit "in $1 hour");
    (rx "(?i)(\d+[.,]?\d*) სთ წინ", lit "$1 hour ago");
    (rx "(?i)(\d+[.,]?\d*) წთ წინ", lit "$1 minute ago");
    (rx "(?i)(\d+[.,]?\d*) წმ წინ", lit "$1 second ago");
    (rx "(?i)(\d+[.,]?\d*) დღეში", lit "in $1 day");
    (rx "(?i)(\d+[.,]?\d*) თვეში", lit "in $1 month");
    (rx "(?i)(\d+[.,]?\d*) წამში", lit "in $1 second");
    (rx "(?i)(\d+[.,]?\d*) წელში", lit "in $1 year");
    (rx "(?i)(\d+[.,]?\d*) წუთში", lit "in $1 minute")];
    ld_rx := Some (rx "(?i)(\A|[^\pL\pM\d]|_)(\d+[.,]?\d* კვირის წინ|\d+[.,]?\d* საათის წინ|\d+[.,]?\d* წამის წინ|\d+[.,]?\d* წელიწადში|\d+[.,]?\d* წუთის წინ|\d+[.,]?\d* დღის წინ|\d+[.,]?\d* თვის წინ|\d+[.,]?\d* წლის წინ|\d+[.,]?\d* კვირაში|\d+[.,]?\d* კვ წინ|\d+[.,]?\d* საათში|\d+[.,]?\d* სთ წინ|\d+[.,]?\d* წთ წინ|\d+[.,]?\d* წმ წინ|\d+[.,]?\d* დღეში|\d+[.,]?\d* თვეში|\d+[.,]?\d* წამში|\d+[.,]?\d* წელში|\d+[.,]?\d* წუთში)(\z|[^\pL\pM\d]|_)");
    ld_rx_exact := Some (rx "(?i)^(\d+[.,]?\d* კვირის წინ|\d+[.,]?\d* საათის წინ|\d+[.,]?\d* წამის წინ|\d+[.,]?\d* წელიწადში|\d+[.,]?\d* წუთის წინ|\d+[.,]?\d* დღის წინ|\d+[.,]?\d* თვის წინ|\d+[.,]?\d* წლის წინ|\d+[.,]?\d* კვირაში|\d+[.,]?\d* კვ წინ|\d+[.,]?\d* საათში|\d+[.,]?\d* სთ წინ|\d+[.,]?\d* წთ წინ|\d+[.,]?\d* წმ წინ|\d+[.,]?\d* დღეში|\d+[.,]?\d* თვეში|\d+[.,]?\d* წამში|\d+[.,]?\d* წელში|\d+[.,]?\d* წუთში)$");
    ld_known := [lit "მომავალ კვირაში";
    lit "გასულ კვირაში";
    lit "მომავალ თვეს";
    lit "მომავალ წელს";
    lit "შუადღ შემდეგ";
    lit "ამ კვირაში";
    lit "გასულ თვეს";
    lit "გასულ წელს";
    lit "დაახლოებით";
    lit "სექტემბერი";
    lit "ამ საათში";
    lit "დეკემბერი";
    lit "თებერვალი";
    lit "ოთხშაბათი";
    lit "ოქტომბერი";
    lit "პარასკევი";
    lit "სამშაბათი";
    lit "ხუთშაბათი";
    lit "ამ თვეში";
    lit "ამ წუთში";
    lit "ნოემბერი";
    lit "ორშაბათი";
    lit "აგვისტო";
    lit "ამ წელს";
    lit "დღეიდან";
    lit "იანვარი";
    lit "აპრილი";
    lit "ივლისი";
    lit "ივნისი";
    lit "შაბათი";
    lit "გუშინ";
    lit "კვირა";
    lit "მაისი";
    lit "მარტი";
    lit "საათი";
    lit "ახლა";
    lit "დღეს";
    lit "წამი";
    lit "წელი";
    lit "წლის";
    lit "წუთი";
    lit "ხვალ";
    lit "gmt";
    lit "utc";
    lit "აგვ";
    lit "აპრ";
    lit "დეკ";
    lit "დღე";
    lit "თებ";
    lit "თვე";
    lit "იან";
    lit "ივლ";
    lit "ივნ";
    lit "კვი";
    lit "მაი";
    lit "მარ";
    lit "ნოე";
    lit "ოთხ";
    lit "ორშ";
    lit "ოქტ";
    lit "პარ";
    lit "სამ";
    lit "სექ";
    lit "შაბ";
    lit "წინ";
    lit "ხუთ";
    lit "am";
    lit "pm";
    lit "და";
    lit "ზე";
    lit "ის";
    lit "კვ";
    lit "სთ";
    lit "წთ";
    lit "წმ";
    lit " ";
    lit "'";
    lit "+";
    lit ",";
    lit "-";
    lit ".";
    lit "/";
    lit ":";
    lit ";";
    lit "@";
    lit "[";
    lit "]";
    lit "z";
    lit "|";
    lit "წ"] |}.

(** kab.go:10-99 *)
Definition loc_kab : locale := Eval vm_compute in
  {| ld_name := lit "kab"; ld_order := lit "DMY"; ld_nospacing := false; ld_splitter := 0;
    ld_charset := runes (lit "-bcdefghiklnorstuwxyzǧɣḍṛẓ");
    ld_abbr := [];
    ld_simpl := [];
    ld_trans := [(lit "n tmeddit", [lit "pm"]);
    (lit "dugember", [lit "december"]);
    (lit "nunember", [lit "november"]);
    (lit "yennayer", [lit "january"]);
    (lit "aseggas", [lit "year"]);
    (lit "ctember", [lit "september"]);
    (lit "kradass", [lit "tuesday"]);
    (lit "n tufat", [lit "am"]);
    (lit "sdisass", [lit "friday"]);
    (lit "tamrect", [lit "minute"]);
    (lit "kuzass", [lit "wednesday"]);
    (lit "meɣres", [lit "march"]);
    (lit "samass", [lit "thursday"]);
    (lit "sanass", [lit "monday"]);
    (lit "sayass", [lit "saturday"]);
    (lit "tamert", [lit "hour"]);
    (lit "tasint", [lit "second"]);
    (lit "yanass", [lit "sunday"]);
    (lit "yebrir", [lit "april"]);
    (lit "aggur", [lit "month"]);
    (lit "ddurt", [lit "week"]);
    (lit "furar", [lit "february"]);
    (lit "mayyu", [lit "may"]);
    (lit "tuber", [lit "october"]);
    (lit "yulyu", [lit "july"]);
    (lit "yunyu", [lit "june"]);
    (lit "krad", [lit "tuesday"]);
    (lit "sdis", [lit "friday"]);
    (lit "ɣuct", [lit "august"]);
    (lit "ass", [lit "day"]);
    (lit "cte", [lit "september"]);
    (lit "dug", [lit "december"]);
    (lit "fur", [lit "february"]);
    (lit "gmt", [lit "gmt"]);
    (lit "kuz", [lit "wednesday"]);
    (lit "may", [lit "may"]);
    (lit "meɣ", [lit "march"]);
    (lit "nun", [lit "november"]);
    (lit "sam", [lit "thursday"]);
    (lit "san", [lit "monday"]);
    (lit "say", [lit "saturday"]);
    (lit "tub", [lit "october"]);
    (lit "utc", [lit "utc"]);
    (lit "yan", [lit "sunday"]);
    (lit "yeb", [lit "april"]);
    (lit "yen", [lit "january"]);
    (lit "yul", [lit "july"]);
    (lit "yun", [lit "june"]);
    (lit "ɣuc", [lit "august"]);
    (lit "am", [lit "am"]);
    (lit "pm", [lit "pm"]);
    (lit " ", [lit " "]);
    (lit "'", [lit ""]);
    (lit "+", [lit "+"]);
    (lit ",", [lit ""]);
    (lit "-", [lit "-"]);
    (lit ".", [lit "."]);
    (lit "/", [lit "/"]);
    (lit ":", [lit ":"]);
    (lit ";", [lit ""]);
    (lit "@", [lit ""]);
    (lit "[", [lit ""]);
    (lit "]", [lit ""]);
    (lit "z", [lit "z"]);
    (lit "|", [lit ""])];
    ld_reltype := [(lit "this minute", lit "0 minute ago");
    (lit "last month", lit "1 month ago");
    (lit "next month", lit "in 1 month");
    (lit "this month", lit "0 month ago");
    (lit "last week", lit "1 week ago");
    (lit "last year", lit "1 year ago");
    (lit "next week", lit "in 1 week");
    (lit "next year", lit "in 1 year");
    (lit "this hour", lit "0 hour ago");
    (lit "this week", lit "0 week ago");
    (lit "this year", lit "0 year ago");
    (lit "azekka", lit "in 1 day");
    (lit "idelli", lit "1 day ago");
    (lit "ass-a", lit "0 day ago");
    (lit "now", lit "0 second ago")];
    ld_relrx := [];
    ld_rx := None;
    ld_rx_exact := None;
    ld_known := [lit "this minute";
    lit "last month";
    lit "next month";
    lit "this month";
    lit "last week";
    lit "last year";
    lit "n tmeddit";
    lit "next week";
    lit "next year";
    lit "this hour";
    lit "this week";
    lit "this year";
    lit "dugember";
    lit "nunember";
    lit "yennayer";
    lit "aseggas";
    lit "ctember";
    lit "kradass";
    lit "n tufat";
    lit "sdisass";
    lit "tamrect";
    lit "azekka";
    lit "idelli";
    lit "kuzass";
    lit "meɣres";
    lit "samass";
    lit "sanass";
    lit "sayass";
    lit "tamert";
    lit "tasint";
    lit "yanass";
    lit "yebrir";
    lit "aggur";
    lit "ass-a";
    lit "ddurt";
    lit "furar";
    lit "mayyu";
    lit "tuber";
    lit "yulyu";
    lit "yunyu";
    lit "krad";
    lit "sdis";
    lit "ɣuct";
    lit "ass";
    lit "cte";
    lit "dug";
    lit "fur";
    lit "gmt";
    lit "kuz";
    lit "may";
    lit "meɣ";
    lit "now";
    lit "nun";
    lit "sam";
    lit "san";
    lit "say";
    lit "tub";
    lit "utc";
    lit "yan";
    lit "yeb";
    lit "yen";
    lit "yul";
    lit "yun";
    lit "ɣuc";
    lit "am";
    lit "pm";
    lit " ";
    lit "'";
    lit "+";
    lit ",";
    lit "-";
    lit ".";
    lit "/";
    lit ":";
    lit ";";
    lit "@";
    lit "[";
    lit "]";
    lit "z";
    lit "|"] |}.

(** kam.go:10-99 *)
Definition loc_kam : locale := Eval vm_compute in
  {| ld_name := lit "kam"; ld_order := lit "DMY"; ld_nospacing := false; ld_splitter := 0;
    ld_charset := runes (lit "bcdeghiklnorstuwxyzĩũ");
    ld_abbr := [];
    ld_simpl := [];
    ld_trans := [(lit "mwai wa ikumi na imwe", [lit "november"]);
    (lit "mwai wa ikumi na ili", [lit "december"]);
    (lit "mwai wa thanthatu", [lit "june"]);
    (lit "mwai wa nyaanya", [lit "august"]);
    (lit "mwai wa katano", [lit "may"]);
    (lit "mwai wa katatu", [lit "march"]);
    (lit "mwai wa muonza", [lit "july"]);
    (lit "wa kwambililya", [lit "monday"]);
    (lit "mwai wa ikumi", [lit "october"]);
    (lit "mwai wa kenda", [lit "september"]);
    (lit "mwai wa kana", [lit "april"]);
    (lit "mwai wa keli", [lit "february"]);
    (lit "mwai wa mbee", [lit "january"]);
    (lit "wa thanthatu", [lit "saturday"]);
    (lit "iyakwakya", [lit "am"]);
    (lit "wa katano", [lit "friday"]);
    (lit "wa katatu", [lit "wednesday"]);
    (lit "wa kyumwa", [lit "sunday"]);
    (lit "muthenya", [lit "day"]);
    (lit "iyawioo", [lit "pm"]);
    (lit "ndatika", [lit "minute"]);
    (lit "sekondi", [lit "second"]);
    (lit "wa kana", [lit "thursday"]);
    (lit "wa keli", [lit "tuesday"]);
    (lit "kyumwa", [lit "week"]);
    (lit "mwaka", [lit "year"]);
    (lit "mwai", [lit "month"]);
    (lit "gmt", [lit "gmt"]);
    (lit "ikl", [lit "december"]);
    (lit "ikm", [lit "november"]);
    (lit "iku", [lit "october"]);
    (lit "kan", [lit "april"]);
    (lit "kel", [lit "february"]);
    (lit "knd", [lit "september"]);
    (lit "ktn", [lit "may"]);
    (lit "ktu", [lit "march"]);
    (lit "mbe", [lit "january"]);
    (lit "moo", [lit "july"]);
    (lit "nya", [lit "august"]);
    (lit "saa", [lit "hour"]);
    (lit "tha", [lit "june"]);
    (lit "utc", [lit "utc"]);
    (lit "wkl", [lit "tuesday"]);
    (lit "wkn", [lit "thursday"]);
    (lit "wkw", [lit "monday"]);
    (lit "wky", [lit "sunday"]);
    (lit "wth", [lit "saturday"]);
    (lit "wtn", [lit "friday"]);
    (lit "wtu", [lit "wednesday"]);
    (lit "am", [lit "am"]);
    (lit "pm", [lit "pm"]);
    (lit " ", [lit " "]);
    (lit "'", [lit ""]);
    (lit "+", [lit "+"]);
    (lit ",", [lit ""]);
    (lit "-", [lit "-"]);
    (lit ".", [lit "."]);
    (lit "/", [lit "/"]);
    (lit ":", [lit ":"]);
    (lit ";", [lit ""]);
    (lit "@", [lit ""]);
    (lit "[", [lit ""]);
    (lit "]", [lit ""]);
    (lit "z", [lit "z"]);
    (lit "|", [lit ""])];
    ld_reltype := [(lit "this minute", lit "0 minute ago");
    (lit "last month", lit "1 month ago");
    (lit "next month", lit "in 1 month");
    (lit "this month", lit "0 month ago");
    (lit "last week", lit "1 week ago");
    (lit "last year", lit "1 year ago");
    (lit "next week", lit "in 1 week");
    (lit "next year", lit "in 1 year");
    (lit "this hour", lit "0 hour ago");
    (lit "this week", lit "0 week ago");
    (lit "this year", lit "0 year ago");
    (lit "umunthi", lit "0 day ago");
    (lit "iyoo", lit "1 day ago");
    (lit "now", lit "0 second ago");
    (lit "uni", lit "in 1 day")];
    ld_relrx := [];
    ld_rx := None;
    ld_rx_exact := None;
    ld_known := [lit "mwai wa ikumi na imwe";
    lit "mwai wa ikumi na ili";
    lit "mwai wa thanthatu";
    lit "mwai wa nyaanya";
    lit "mwai wa katano";
    lit "mwai wa katatu";
    lit "mwai wa muonza";
    lit "wa kwambililya";
    lit "mwai wa ikumi";
    lit "mwai wa kenda";
    lit "mwai wa kana";
    lit "mwai wa keli";
    lit "mwai wa mbee";
    lit "wa thanthatu";
    lit "this minute";
    lit "last month";
    lit "next month";
    lit "this month";
    lit "iyakwakya";
    lit "last week";
    lit "last year";
    lit "next week";
    lit "next year";
    lit "this hour";
    lit "this week";
    lit "this year";
    lit "wa katano";
    lit "wa katatu";
    lit "wa kyumwa";
    lit "muthenya";
    lit "iyawioo";
    lit "ndatika";
    lit "sekondi";
    lit "umunthi";
    lit "wa kana";
    lit "wa keli";
    lit "kyumwa";
    lit "mwaka";
    lit "iyoo";
    lit "mwai";
    lit "gmt";
    lit "ikl";
    lit "ikm";
    lit "iku";
    lit "kan";
    lit "kel";
    lit "knd";
    lit "ktn";
    lit "ktu";
    lit "mbe";
    lit "moo";
    lit "now";
    lit "nya";
    lit "saa";
    lit "tha";
    lit "uni";
    lit "utc";
    lit "wkl";
    lit "wkn";
    lit "wkw";
    lit "wky";
    lit "wth";
    lit "wtn";
    lit "wtu";
    lit "am";
    lit "pm";
    lit " ";
    lit "'";
    lit "+";
    lit ",";
    lit "-";
    lit ".";
    lit "/";
    lit ":";
    lit ";";
    lit "@";
    lit "[";
    lit "]";
    lit "z";
    lit "|"] |}.

(** kde.go:10-99 *)
Definition loc_kde : locale := Eval vm_compute in
  {| ld_name := lit "kde"; ld_order := lit "DMY"; ld_nospacing := false; ld_splitter := 0;
    ld_charset := runes (lit "bcdefghijklnorstuvwxyz");
    ld_abbr := [];
    ld_simpl := [];
    ld_trans := [(lit "mwedi wa nnyano na nnyano na m", [lit "december"]);
    (lit "mwedi wa nnyano na nnyano na u", [lit "november"]);
    (lit "liduva lyannyano na mavili", [lit "friday"]);
    (lit "mwedi wa nnyano na nchechi", [lit "september"]);
    (lit "liduva lyannyano na linji", [lit "thursday"]);
    (lit "mwedi wa nnyano na mitatu", [lit "august"]);
    (lit "mwedi wa nnyano na mivili", [lit "july"]);
    (lit "mwedi wa nnyano na nnyano", [lit "october"]);
    (lit "mwedi wa nnyano na umo", [lit "june"]);
    (lit "liduva lyanchechi", [lit "tuesday"]);
    (lit "liduva lyannyano", [lit "wednesday"]);
    (lit "mwedi wa nchechi", [lit "april"]);
    (lit "mwedi wa nnyano", [lit "may"]);
    (lit "liduva litandi", [lit "saturday"]);
    (lit "liduva lyapili", [lit "sunday"]);
    (lit "liduva lyatatu", [lit "monday"]);
    (lit "mwedi wa pili", [lit "february"]);
    (lit "mwedi wa tatu", [lit "march"]);
    (lit "mwedi ntandi", [lit "january"]);
    (lit "sekunde", [lit "second"]);
    (lit "dakika", [lit "minute"]);
    (lit "lihiku", [lit "day"]);
    (lit "lijuma", [lit "week"]);
    (lit "chilo", [lit "pm"]);
    (lit "mwaka", [lit "year"]);
    (lit "mwedi", [lit "month"]);
    (lit "muhi", [lit "am"]);
    (lit "ago", [lit "august"]);
    (lit "apr", [lit "april"]);
    (lit "des", [lit "december"]);
    (lit "feb", [lit "february"]);
    (lit "gmt", [lit "gmt"]);
    (lit "jan", [lit "january"]);
    (lit "jul", [lit "july"]);
    (lit "jun", [lit "june"]);
    (lit "ll1", [lit "saturday"]);
    (lit "ll2", [lit "sunday"]);
    (lit "ll3", [lit "monday"]);
    (lit "ll4", [lit "tuesday"]);
    (lit "ll5", [lit "wednesday"]);
    (lit "ll6", [lit "thursday"]);
    (lit "ll7", [lit "friday"]);
    (lit "mac", [lit "march"]);
    (lit "mei", [lit "may"]);
    (lit "nov", [lit "november"]);
    (lit "okt", [lit "october"]);
    (lit "saa", [lit "hour"]);
    (lit "sep", [lit "september"]);
    (lit "utc", [lit "utc"]);
    (lit "am", [lit "am"]);
    (lit "pm", [lit "pm"]);
    (lit " ", [lit " "]);
    (lit "'", [lit ""]);
    (lit "+", [lit "+"]);
    (lit ",", [lit ""]);
    (lit "-", [lit "-"]);
    (lit ".", [lit "."]);
    (lit "/", [lit "/"]);
    (lit ":", [lit ":"]);
    (lit ";", [lit ""]);
    (lit "@", [lit ""]);
    (lit "[", [lit ""]);
    (lit "]", [lit ""]);
    (lit "z", [lit "z"]);
    (lit "|", [lit ""])];
    ld_reltype := [(lit "this minute", lit "0 minute ago");
    (lit "last month", lit "1 month ago");
    (lit "next month", lit "in 1 month");
    (lit "this month", lit "0 month ago");
    (lit "last week", lit "1 week ago");
    (lit "last year", lit "1 year ago");
    (lit "next week", lit "in 1 week");
    (lit "next year", lit "in 1 year");
    (lit "this hour", lit "0 hour ago");
    (lit "this week", lit "0 week ago");
    (lit "this year", lit "0 year ago");
    (lit "nundu", lit "in 1 day");
    (lit "lido", lit "1 day ago");
    (lit "nelo", lit "0 day ago");
    (lit "now", lit "0 second ago")];
    ld_relrx := [];
    ld_rx := None;
    ld_rx_exact := None;
    ld_known := [lit "mwedi wa nnyano na nnyano na m";
    lit "mwedi wa nnyano na nnyano na u";
    lit "liduva lyannyano na mavili";
    lit "mwedi wa nnyano na nchechi";
    lit "liduva lyannyano na linji";
    lit "mwedi wa nnyano na mitatu";
    lit "mwedi wa nnyano na mivili";
    lit "mwedi wa nnyano na nnyano";
    lit "mwedi wa nnyano na umo";
    lit "liduva lyanchechi";
    lit "liduva lyannyano";
    lit "mwedi wa nchechi";
    lit "mwedi wa nnyano";
    lit "liduva litandi";
    lit "liduva lyapili";
    lit "liduva lyatatu";
    lit "mwedi wa pili";
    lit "mwedi wa tatu";
    lit "mwedi ntandi";
    lit "this minute";
    lit "last month";
    lit "next month";
    lit "this month";
    lit "last week";
    lit "last year";
    lit "next week";
    lit "next year";
    lit "this hour";
    lit "this week";
    lit "this year";
    lit "sekunde";
    lit "dakika";
    lit "lihiku";
    lit "lijuma";
    lit "chilo";
    lit "mwaka";
    lit "mwedi";
    lit "nundu";
    lit "lido";
    lit "muhi";
    lit "nelo";
    lit "ago";
    lit "apr";
    lit "des";
    lit "feb";
    lit "gmt";
    lit "jan";
    lit "jul";
    lit "jun";
    lit "ll1";
    lit "ll2";
    lit "ll3";
    lit "ll4";
    lit "ll5";
    lit "ll6";
    lit "ll7";
    lit "mac";
    lit "mei";
    lit "nov";
    lit "now";
    lit "okt";
    lit "saa";
    lit "sep";
    lit "utc";
    lit "am";
    lit "pm";
    lit " ";
    lit "'";
    lit "+";
    lit ",";
    lit "-";
    lit ".";
    lit "/";
    lit ":";
    lit ";";
    lit "@";
    lit "[";
    lit "]";
    lit "z";
    lit "|"] |}.

(** kea.go:12-132 *)
Definition loc_kea : locale := Eval vm_compute in
  {| ld_name := lit "kea"; ld_order := lit "DMY"; ld_nospacing := false; ld_splitter := 0;
    ld_charset := runes (lit "-bcdefghijklnorstuvwzáó");
    ld_abbr := [];
    ld_simpl := [];
    ld_trans := [(lit "sigunda-fera", [lit "monday"]);
    (lit "kuarta-fera", [lit "wednesday"]);
    (lit "kinta-fera", [lit "thursday"]);
    (lit "sesta-fera", [lit "friday"]);
    (lit "tersa-fera", [lit "tuesday"]);
    (lit "dizenbru", [lit "december"]);
    (lit "nuvenbru", [lit "november"]);
    (lit "setenbru", [lit "september"]);
    (lit "dumingu", [lit "sunday"]);
    (lit "febreru", [lit "february"]);
    (lit "sigundu", [lit "second"]);
    (lit "agostu", [lit "august"]);
    (lit "janeru", [lit "january"]);
    (lit "minutu", [lit "minute"]);
    (lit "otubru", [lit "october"]);
    (lit "sabadu", [lit "saturday"]);
    (lit "simana", [lit "week"]);
    (lit "abril", [lit "april"]);
    (lit "julhu", [lit "july"]);
    (lit "junhu", [lit "june"]);
    (lit "marsu", [lit "march"]);
    (lit "maiu", [lit "may"]);
    (lit "abr", [lit "april"]);
    (lit "ago", [lit "august"]);
    (lit "anu", [lit "year"]);
    (lit "dia", [lit "day"]);
    (lit "diz", [lit "december"]);
    (lit "dum", [lit "sunday"]);
    (lit "feb", [lit "february"]);
    (lit "gmt", [lit "gmt"]);
    (lit "jan", [lit "january"]);
    (lit "jul", [lit "july"]);
    (lit "jun", [lit "june"]);
    (lit "kin", [lit "thursday"]);
    (lit "kua", [lit "wednesday"]);
    (lit "mai", [lit "may"]);
    (lit "mar", [lit "march"]);
    (lit "mes", [lit "month"]);
    (lit "min", [lit "minute"]);
    (lit "nuv", [lit "november"]);
    (lit "ora", [lit "hour"]);
    (lit "otu", [lit "october"]);
    (lit "sab", [lit "saturday"]);
    (lit "ses", [lit "friday"]);
    (lit "set", [lit "september"]);
    (lit "sig", [lit "monday"; lit "second"]);
    (lit "sim", [lit "week"]);
    (lit "ter", [lit "tuesday"]);
    (lit "utc", [lit "utc"]);
    (lit "am", [lit "am"]);
    (lit "pm", [lit "pm"]);
    (lit " ", [lit " "]);
    (lit "'", [lit ""]);
    (lit "+", [lit "+"]);
    (lit ",", [lit ""]);
    (lit "-", [lit "-"]);
    (lit ".", [lit "."]);
    (lit "/", [lit "/"]);
    (lit ":", [lit ":"]);
    (lit ";", [lit ""]);
    (lit "@", [lit ""]);
    (lit "[", [lit ""]);
    (lit "]", [lit ""]);
    (lit "h", [lit "hour"]);
    (lit "m", [lit "minute"]);
    (lit "s", [lit "second"]);
    (lit "z", [lit "z"]);
    (lit "|", [lit ""])];
    ld_reltype := [(lit "prosimu simana", lit "in 1 week");
    (lit "simana pasadu", lit "1 week ago");
    (lit "es simana li", lit "0 week ago");
    (lit "prosimu anu", lit "in 1 year");
    (lit "prosimu mes", lit "in 1 month");
    (lit "this minute", lit "0 minute ago");
    (lit "anu pasadu", lit "1 year ago");
    (lit "mes pasadu", lit "1 month ago");
    (lit "es anu li", lit "0 year ago");
    (lit "es mes li", lit "0 month ago");
    (lit "this hour", lit "0 hour ago");
    (lit "manha", lit "in 1 day");
    (lit "onti", lit "1 day ago");
    (lit "now", lit "0 second ago");
    (lit "oji", lit "0 day ago")];
    ld_relrx := [(rx "(?i)a ten (\d+[.,]?\d*) sigundu", lit "$1 second ago");
    (rx "(?i)di li (\d+[.,]?\d*) sigundu", lit "in $1 second");
    (rx "(?i)a ten (\d+[.,]?\d*) minutu", lit "$1 minute ago");
    (rx "(?i)a ten (\d+[.,]?\d*) simana", lit "$1 week ago");
    (rx "(?i)di li (\d+[.,]?\d*) minutu", lit "in $1 minute");
    (rx "(?i)di li (\d+[.,]?\d*) simana", lit "in $1 week");
    (rx "(?i)a ten (\d+[.,]?\d*) anu", lit "$1 year ago");
    (rx "(?i)a ten (\d+[.,]?\d*) dia", lit "$1 day ago");
    (rx "(?i)a ten (\d+[.,]?\d*) mes", lit "$1 month ago");
    (rx "(?i)a ten (\d+[.,]?\d*) min", lit "$1 minute ago");
    (rx "(?i)a ten (\d+[.,]?\d*) ora", lit "$1 hour ago");
    (rx "(?i)a ten (\d+[.,]?\d*) sig", lit "$1 second ago");
    (rx "(?i)a ten (\d+[.,]?\d*) sim", lit "$1 week ago");
    (rx "(?i)di li (\d+[.,]?\d*) anu", lit "in $1 year");
    (rx "(?i)di li (\d+[.,]?\d*) dia", lit "in $1 day");
    (rx "(?i)di li (\d+[.,]?\d*) mes", lit "in $1 month");
    (rx "(?i)di li (\d+[.,]?\d*) min", lit "in $1 minute");
    (rx "(?i)di li (\d+[.,]?\d*) ora", lit "in $1 hour");
    (rx "(?i)di li (\d+[.,]?\d*) sig", lit "in $1 second");
    (rx "(?i)di li (\d+[.,]?\d*) sim", lit "in $1 week");
    (rx "(?i)a ten (\d+[.,]?\d*) m", lit "$1 minute ago");
    (rx "(?i)a ten (\d+[.,]?\d*) s", lit "$1 second ago");
    (rx "(?i)di li (\d+[.,]?\d*) m", lit "in $1 minute");
    (rx "(?i)di li (\d+[.,]?\d*) s", lit "in $1 second")];
    ld_rx := Some (rx "(?i)(\A|[^\pL\pM\d]|_)(a ten \d+[.,]?\d* sigundu|di li \d+[.,]?\d* sigundu|a ten \d+[.,]?\d* minutu|a ten \d+[.,]?\d* simana|di li \d+[.,]?\d* minutu|di li \d+[.,]?\d* simana|a ten \d+[.,]?\d* anu|a ten \d+[.,]?\d* dia|a ten \d+[.,]?\d* mes|a ten \d+[.,]?\d* min|a ten \d+[.,]?\d* ora|a ten \d+[.,]?\d* sig|a ten \d+[.,]?\d* sim|di li \d+[.,]?\d* anu|di li \d+[.,]?\d* dia|di li \d+[.,]?\d* mes|di li \d+[.,]?\d* min|di li \d+[.,]?\d* ora|di li \d+[.,]?\d* sig|di li \d+[.,]?\d* sim|a ten \d+[.,]?\d* m|a ten \d+[.,]?\d* s|di li \d+[.,]?\d* m|di li \d+[.,]?\d* s)(\z|[^\pL\pM\d]|_)");
    ld_rx_exact := Some (rx "(?i)^(a ten \d+[.,]?\d* sigundu|di li \d+[.,]?\d* sigundu|a ten \d+[.,]?\d* minutu|a ten \d+[.,]?\d* simana|di li \d+[.,]?\d* minutu|di li \d+[.,]?\d* simana|a ten \d+[.,]?\d* anu|a ten \d+[.,]?\d* dia|a ten \d+[.,]?\d* mes|a ten \d+[.,]?\d* min|a ten \d+[.,]?\d* ora|a ten \d+[.,]?\d* sig|a ten \d+[.,]?\d* sim|di li \d+[.,]?\d* anu|di li \d+[.,]?\d* dia|di li \d+[.,]?\d* mes|di li \d+[.,]?\d* min|di li \d+[.,]?\d* ora|di li \d+[.,]?\d* sig|di li \d+[.,]?\d* sim|a ten \d+[.,]?\d* m|a ten \d+[.,]?\d* s|di li \d+[.,]?\d* m|di li \d+[.,]?\d* s)$");
    ld_known := [lit "prosimu simana";
    lit "simana pasadu";
    lit "es simana li";
    lit "sigunda-fera";
    lit "kuarta-fera";
    lit "prosimu anu";
    lit "prosimu mes";
    lit "this minute";
    lit "anu pasadu";
    lit "kinta-fera";
    lit "mes pasadu";
    lit "sesta-fera";
    lit "tersa-fera";
    lit "es anu li";
    lit "es mes li";
    lit "this hour";
    lit "dizenbru";
    lit "nuvenbru";
    lit "setenbru";
    lit "dumingu";
    lit "febreru";
    lit "sigundu";
    lit "agostu";
    lit "janeru";
    lit "minutu";
    lit "otubru";
    lit "sabadu";
    lit "simana";
    lit "abril";
    lit "julhu";
    lit "junhu";
    lit "manha";
    lit "marsu";
    lit "maiu";
    lit "onti";
    lit "abr";
    lit "ago";
    lit "anu";
    lit "dia";
    lit "diz";
    lit "dum";
    lit "feb";
    lit "gmt";
    lit "jan";
    lit "jul";
    lit "jun";
    lit "kin";
    lit "kua";
    lit "mai";
    lit "mar";
    lit "mes";
    lit "min";
    lit "now";
    lit "nuv";
    lit "oji";
    lit "ora";
    lit "otu";
    lit "sab";
    lit "ses";
    lit "set";
    lit "sig";
    lit "sim";
    lit "ter";
    lit "utc";
    lit "am";
    lit "pm";
    lit " ";
    lit "'";
    lit "+";
    lit ",";
    lit "-";
    lit ".";
    lit "/";
    lit ":";
    lit ";";
    lit "@";
    lit "[";
    lit "]";
    lit "h";
    lit "m";
    lit "s";
    lit "z";
    lit "|"] |}.

(** khq.go:10-97 *)
Definition loc_khq : locale := Eval vm_compute in
  {| ld_name := lit "khq"; ld_order := lit "DMY"; ld_nospacing := false; ld_splitter := 0;
    ld_charset := runes (lit "bcdefghijklnorstuwxyzõŋž");
    ld_abbr := [];
    ld_simpl := [];
    ld_trans := [(lit "alhamiisa", [lit "thursday"]);
    (lit "deesanbur", [lit "december"]);
    (lit "feewiriye", [lit "february"]);
    (lit "noowanbur", [lit "november"]);
    (lit "sektanbur", [lit "september"]);
    (lit "oktoobur", [lit "october"]);
    (lit "assabdu", [lit "saturday"]);
    (lit "atalata", [lit "tuesday"]);
    (lit "zanwiye", [lit "january"]);
    (lit "adduha", [lit "am"]);
    (lit "alarba", [lit "wednesday"]);
    (lit "alhadi", [lit "sunday"]);
    (lit "aljuma", [lit "friday"]);
    (lit "aluula", [lit "pm"]);
    (lit "awiril", [lit "april"]);
    (lit "miniti", [lit "minute"]);
    (lit "atini", [lit "monday"]);
    (lit "guuru", [lit "hour"]);
    (lit "handu", [lit "month"]);
    (lit "jaari", [lit "day"]);
    (lit "jiiri", [lit "year"]);
    (lit "marsi", [lit "march"]);
    (lit "zuweŋ", [lit "june"]);
    (lit "zuyye", [lit "july"]);
    (lit "hebu", [lit "week"]);
    (lit "miti", [lit "second"]);
    (lit "ala", [lit "wednesday"]);
    (lit "alh", [lit "sunday"]);
    (lit "alj", [lit "friday"]);
    (lit "alm", [lit "thursday"]);
    (lit "ass", [lit "saturday"]);
    (lit "ata", [lit "tuesday"]);
    (lit "ati", [lit "monday"]);
    (lit "awi", [lit "april"]);
    (lit "dee", [lit "december"]);
    (lit "fee", [lit "february"]);
    (lit "gmt", [lit "gmt"]);
    (lit "mar", [lit "march"]);
    (lit "noo", [lit "november"]);
    (lit "okt", [lit "october"]);
    (lit "sek", [lit "september"]);
    (lit "utc", [lit "utc"]);
    (lit "zan", [lit "january"]);
    (lit "zuw", [lit "june"]);
    (lit "zuy", [lit "july"]);
    (lit "am", [lit "am"]);
    (lit "me", [lit "may"]);
    (lit "pm", [lit "pm"]);
    (lit "ut", [lit "august"]);
    (lit " ", [lit " "]);
    (lit "'", [lit ""]);
    (lit "+", [lit "+"]);
    (lit ",", [lit ""]);
    (lit "-", [lit "-"]);
    (lit ".", [lit "."]);
    (lit "/", [lit "/"]);
    (lit ":", [lit ":"]);
    (lit ";", [lit ""]);
    (lit "@", [lit ""]);
    (lit "[", [lit ""]);
    (lit "]", [lit ""]);
    (lit "z", [lit "z"]);
    (lit "|", [lit ""])];
    ld_reltype := [(lit "this minute", lit "0 minute ago");
    (lit "last month", lit "1 month ago");
    (lit "next month", lit "in 1 month");
    (lit "this month", lit "0 month ago");
    (lit "last week", lit "1 week ago");
    (lit "last year", lit "1 year ago");
    (lit "next week", lit "in 1 week");
    (lit "next year", lit "in 1 year");
    (lit "this hour", lit "0 hour ago");
    (lit "this week", lit "0 week ago");
    (lit "this year", lit "0 year ago");
    (lit "suba", lit "in 1 day");
    (lit "hoo", lit "0 day ago");
    (lit "now", lit "0 second ago");
    (lit "bi", lit "1 day ago")];
    ld_relrx := [];
    ld_rx := None;
    ld_rx_exact := None;
    ld_known := [lit "this minute";
    lit "last month";
    lit "next month";
    lit "this month";
    lit "alhamiisa";
    lit "deesanbur";
    lit "feewiriye";
    lit "last week";
    lit "last year";
    lit "next week";
    lit "next year";
    lit "noowanbur";
    lit "sektanbur";
    lit "this hour";
    lit "this week";
    lit "this year";
    lit "oktoobur";
    lit "assabdu";
    lit "atalata";
    lit "zanwiye";
    lit "adduha";
    lit "alarba";
    lit "alhadi";
    lit "aljuma";
    lit "aluula";
    lit "awiril";
    lit "miniti";
    lit "atini";
    lit "guuru";
    lit "handu";
    lit "jaari";
    lit "jiiri";
    lit "marsi";
    lit "zuweŋ";
    lit "zuyye";
    lit "hebu";
    lit "miti";
    lit "suba";
    lit "ala";
    lit "alh";
    lit "alj";
    lit "alm";
    lit "ass";
    lit "ata";
    lit "ati";
    lit "awi";
    lit "dee";
    lit "fee";
    lit "gmt";
    lit "hoo";
    lit "mar";
    lit "noo";
    lit "now";
    lit "okt";
    lit "sek";
    lit "utc";
    lit "zan";
    lit "zuw";
    lit "zuy";
    lit "am";
    lit "bi";
    lit "me";
    lit "pm";
    lit "ut";
    lit " ";
    lit "'";
    lit "+";
    lit ",";
    lit "-";
    lit ".";
    lit "/";
    lit ":";
    lit ";";
    lit "@";
    lit "[";
    lit "]";
    lit "z";
    lit "|"] |}.

(** ki.go:10-98 *)
Definition loc_ki : locale := Eval vm_compute in
  {| ld_name := lit "ki"; ld_order := lit "DMY"; ld_nospacing := false; ld_splitter := 0;
    ld_charset := runes (lit "-bcdeghijklnorstuwxyzĩũ");
    ld_abbr := [];
    ld_simpl := [];
    ld_trans := [(lit "mwere wa ikumi na umwe", [lit "november"]);
    (lit "mwere wa gatandatu", [lit "june"]);
    (lit "mwere wa mugwanja", [lit "july"]);
    (lit "mwere wa gatano", [lit "may"]);
    (lit "mwere wa gatatu", [lit "march"]);
    (lit "mwere wa kanana", [lit "august"]);
    (lit "mwere wa ikumi", [lit "october"]);
    (lit "mwere wa kenda", [lit "september"]);
    (lit "mwere wa kana", [lit "april"]);
    (lit "mwere wa keri", [lit "february"]);
    (lit "njumamothi", [lit "saturday"]);
    (lit "ndithemba", [lit "december"]);
    (lit "njumatana", [lit "wednesday"]);
    (lit "njumatatu", [lit "monday"]);
    (lit "aramithi", [lit "thursday"]);
    (lit "hwai-ini", [lit "pm"]);
    (lit "muthenya", [lit "day"]);
    (lit "njenuari", [lit "january"]);
    (lit "njumaine", [lit "tuesday"]);
    (lit "ndagika", [lit "minute"]);
    (lit "sekunde", [lit "second"]);
    (lit "kiroko", [lit "am"]);
    (lit "kiumia", [lit "week"; lit "sunday"]);
    (lit "njumaa", [lit "friday"]);
    (lit "ithaa", [lit "hour"]);
    (lit "mwaka", [lit "year"]);
    (lit "mweri", [lit "month"]);
    (lit "art", [lit "thursday"]);
    (lit "dit", [lit "december"]);
    (lit "gmt", [lit "gmt"]);
    (lit "jen", [lit "january"]);
    (lit "kma", [lit "sunday"]);
    (lit "nma", [lit "friday"]);
    (lit "nmm", [lit "saturday"]);
    (lit "nmn", [lit "tuesday"]);
    (lit "nmt", [lit "wednesday"]);
    (lit "ntt", [lit "monday"]);
    (lit "utc", [lit "utc"]);
    (lit "wgt", [lit "march"]);
    (lit "wik", [lit "october"]);
    (lit "wkd", [lit "september"]);
    (lit "wkn", [lit "april"]);
    (lit "wkr", [lit "february"]);
    (lit "wmj", [lit "july"]);
    (lit "wmw", [lit "november"]);
    (lit "wnn", [lit "august"]);
    (lit "wtd", [lit "june"]);
    (lit "wtn", [lit "may"]);
    (lit "am", [lit "am"]);
    (lit "pm", [lit "pm"]);
    (lit " ", [lit " "]);
    (lit "'", [lit ""]);
    (lit "+", [lit "+"]);
    (lit ",", [lit ""]);
    (lit "-", [lit "-"]);
    (lit ".", [lit "."]);
    (lit "/", [lit "/"]);
    (lit ":", [lit ":"]);
    (lit ";", [lit ""]);
    (lit "@", [lit ""]);
    (lit "[", [lit ""]);
    (lit "]", [lit ""]);
    (lit "z", [lit "z"]);
    (lit "|", [lit ""])];
    ld_reltype := [(lit "this minute", lit "0 minute ago");
    (lit "last month", lit "1 month ago");
    (lit "next month", lit "in 1 month");
    (lit "this month", lit "0 month ago");
    (lit "last week", lit "1 week ago");
    (lit "last year", lit "1 year ago");
    (lit "next week", lit "in 1 week");
    (lit "next year", lit "in 1 year");
    (lit "this hour", lit "0 hour ago");
    (lit "this week", lit "0 week ago");
    (lit "this year", lit "0 year ago");
    (lit "umuthi", lit "0 day ago");
    (lit "ruciu", lit "in 1 day");
    (lit "ira", lit "1 day ago");
    (lit "now", lit "0 second ago")];
    ld_relrx := [];
    ld_rx := None;
    ld_rx_exact := None;
    ld_known := [lit "mwere wa ikumi na umwe";
    lit "mwere wa gatandatu";
    lit "mwere wa mugwanja";
    lit "mwere wa gatano";
    lit "mwere wa gatatu";
    lit "mwere wa kanana";
    lit "mwere wa ikumi";
    lit "mwere wa kenda";
    lit "mwere wa kana";
    lit "mwere wa keri";
    lit "this minute";
    lit "last month";
    lit "next month";
    lit "njumamothi";
    lit "this month";
    lit "last week";
    lit "last year";
    lit "ndithemba";
    lit "next week";
    lit "next year";
    lit "njumatana";
    lit "njumatatu";
    lit "this hour";
    lit "this week";
    lit "this year";
    lit "aramithi";
    lit "hwai-ini";
    lit "muthenya";
    lit "njenuari";
    lit "njumaine";
    lit "ndagika";
    lit "sekunde";
    lit "kiroko";
    lit "kiumia";
    lit "njumaa";
    lit "umuthi";
    lit "ithaa";
    lit "mwaka";
    lit "mweri";
    lit "ruciu";
    lit "art";
    lit "dit";
    lit "gmt";
    lit "ira";
    lit "jen";
    lit "kma";
    lit "nma";
    lit "nmm";
    lit "nmn";
    lit "nmt";
    lit "now";
    lit "ntt";
    lit "utc";
    lit "wgt";
    lit "wik";
    lit "wkd";
    lit "wkn";
    lit "wkr";
    lit "wmj";
    lit "wmw";
    lit "wnn";
    lit "wtd";
    lit "wtn";
    lit "am";
    lit "pm";
    lit " ";
    lit "'";
    lit "+";
    lit ",";
    lit "-";
    lit ".";
    lit "/";
    lit ":";
    lit ";";
    lit "@";
    lit "[";
    lit "]";
    lit "z";
    lit "|"] |}.

(** kk.go:12-132 *)
Definition loc_kk : locale := Eval vm_compute in
  {| ld_name := lit "kk"; ld_order := lit "DMY"; ld_nospacing := false; ld_splitter := 0;
    ld_charset := runes (lit "cgtuzабгдежзийклмнопрстушыіғқңүұәө");
    ld_abbr := [];
    ld_simpl := [];
    ld_trans := [(lit "желтоқсан", [lit "december"]);
    (lit "беисенбі", [lit "thursday"]);
    (lit "дүисенбі", [lit "monday"]);
    (lit "жексенбі", [lit "sunday"]);
    (lit "сеисенбі", [lit "tuesday"]);
    (lit "сәрсенбі", [lit "wednesday"]);
    (lit "қыркүиек", [lit "september"]);
    (lit "маусым", [lit "june"]);
    (lit "наурыз", [lit "march"]);
    (lit "секунд", [lit "second"]);
    (lit "қараша", [lit "november"]);
    (lit "қаңтар", [lit "january"]);
    (lit "ақпан", [lit "february"]);
    (lit "мамыр", [lit "may"]);
    (lit "минут", [lit "minute"]);
    (lit "сағат", [lit "hour"]);
    (lit "сенбі", [lit "saturday"]);
    (lit "сәуір", [lit "april"]);
    (lit "тамыз", [lit "august"]);
    (lit "шілде", [lit "july"]);
    (lit "қазан", [lit "october"]);
    (lit "апта", [lit "week"]);
    (lit "жұма", [lit "friday"]);
    (lit "gmt", [lit "gmt"]);
    (lit "utc", [lit "utc"]);
    (lit "ақп", [lit "february"]);
    (lit "жел", [lit "december"]);
    (lit "жыл", [lit "year"]);
    (lit "күн", [lit "day"]);
    (lit "мам", [lit "may"]);
    (lit "мау", [lit "june"]);
    (lit "мин", [lit "minute"]);
    (lit "нау", [lit "march"]);
    (lit "сағ", [lit "hour"]);
    (lit "сәу", [lit "april"]);
    (lit "там", [lit "august"]);
    (lit "шіл", [lit "july"]);
    (lit "қаз", [lit "october"]);
    (lit "қар", [lit "november"]);
    (lit "қаң", [lit "january"]);
    (lit "қыр", [lit "september"]);
    (lit "am", [lit "am"]);
    (lit "pm", [lit "pm"]);
    (lit "аи", [lit "month"]);
    (lit "ап", [lit "week"]);
    (lit "бс", [lit "thursday"]);
    (lit "дс", [lit "monday"]);
    (lit "жм", [lit "friday"]);
    (lit "жс", [lit "sunday"]);
    (lit "сб", [lit "saturday"]);
    (lit "ср", [lit "wednesday"]);
    (lit "сс", [lit "tuesday"]);
    (lit " ", [lit " "]);
    (lit "'", [lit ""]);
    (lit "+", [lit "+"]);
    (lit ",", [lit ""]);
    (lit "-", [lit "-"]);
    (lit ".", [lit "."]);
    (lit "/", [lit "/"]);
    (lit ":", [lit ":"]);
    (lit ";", [lit ""]);
    (lit "@", [lit ""]);
    (lit "[", [lit ""]);
    (lit "]", [lit ""]);
    (lit "z", [lit "z"]);
    (lit "|", [lit ""]);
    (lit "ж", [lit "year"]);
    (lit "с", [lit "second"])];
    ld_reltype := [(lit "былтырғы жыл", lit "1 year ago");
    (lit "келесі апта", lit "in 1 week");
    (lit "биылғы жыл", lit "0 year ago");
    (lit "келесі жыл", lit "in 1 year");
    (lit "өткен апта", lit "1 week ago");
    (lit "келесі аи", lit "in 1 month");
    (lit "осы минут", lit "0 minute ago");
    (lit "осы сағат", lit "0 hour ago");
    (lit "осы апта", lit "0 week ago");
    (lit "өткен аи", lit "1 month ago");
    (lit "осы аи", lit "0 month ago");
    (lit "бүгін", lit "0 day ago");
    (lit "ертең", lit "in 1 day");
    (lit "қазір", lit "0 second ago");
    (lit "кеше", lit "1 day ago")];
    ld_relrx := [(rx "(?i)(\d+[.,]?\d*) секундтан кеиін", lit "in $1 second");
    (rx "(?i)(\d+[.,]?\d*) минуттан кеиін", lit "in $1 minute");
    (rx "(?i)(\d+[.,]?\d*) сағаттан кеиін", lit "in $1 hour");
    (rx "(?i)(\d+[.,]?\d*) аптадан кеиін", lit "in $1 week");
    (rx "(?i)(\d+[.,]?\d*) жылдан кеиін", lit "in $1 year");
    (rx "(?i)(\d+[.,]?\d*) күннен кеиін", lit "in $1 day");
    (rx "(?i)(\d+[.,]?\d*) секунд бұрын", lit "$1 second ago");
    (rx "(?i)(\d+[.,]?\d*) аидан кеиін", lit "in $1 month");
    (rx "(?i)(\d+[.,]?\d*) минут бұрын", lit "$1 minute ago");
    (rx "(?i)(\d+[.,]?\d*) сағат бұрын", lit "$1 hour ago");
    (rx "(?i)(\d+[.,]?\d*) апта бұрын", lit "$1 week ago");
    (rx "(?i)(\d+[.,]?\d*) жыл бұрын", lit "$1 year ago");
    (rx "(?i)(\d+[.,]?\d*) күн бұрын", lit "$1 day ago");
    (rx "(?i)(\d+[.,]?\d*) мин бұрын", lit "$1 minute ago");
    (rx "(?i)(\d+[.,]?\d*) мин кеиін", lit "in $1 minute");
    (rx "(?i)(\d+[.,]?\d*) сағ бұрын", lit "$1 hour ago");
    (rx "(?i)(\d+[.,]?\d*) сағ кеиін", lit "in $1 hour");
    (rx "(?i)(\d+[.,]?\d*) сек бұрын", lit "$1 second ago");
    (rx "(?i)(\d+[.,]?\d*) сек кеиін", lit "in $1 second");
    (rx "(?i)(\d+[.,]?\d*) аи бұрын", lit "$1 month ago");
    (rx "(?i)(\d+[.,]?\d*) ап бұрын", lit "$1 week ago");
    (rx "(?i)(\d+[.,]?\d*) ап кеиін", lit "in $1 week");
    (rx "(?i)(\d+[.,]?\d*) ж бұрын", lit "$1 year ago");
    (rx "(?i)(\d+[.,]?\d*) ж кеиін", lit "in $1 year")];
    ld_rx := Some (rx "(?i)(\A|[^\pL\pM\d]|_)(\d+[.,]?\d* секундтан кеиін|\d+[.,]?\d* минуттан кеиін|\d+[.,]?\d* сағаттан кеиін|\d+[.,]?\d* аптадан кеиін|\d+[.,]?\d* жылдан кеиін|\d+[.,]?\d* күннен кеиін|\d+[.,]?\d* секунд бұрын|\d+[.,]?\d* аидан кеиін|\d+[.,]?\d* минут бұрын|\d+[.,]?\d* сағат бұрын|\d+[.,]?\d* апта бұрын|\d+[.,]?\d* жыл бұрын|\d+[.,]?\d* күн бұрын|\d+[.,]?\d* мин бұрын|\d+[.,]?\d* мин кеиін|\d+[.,]?\d* сағ бұрын|\d+[.,]?\d* сағ кеиін|\d+[.,]?\d* сек бұрын|\d+[.,]?\d* сек кеиін|\d+[.,]?\d* аи бұрын|\d+[.,]?\d* ап бұрын|\d+[.,]?\d* ап кеиін|\d+[.,]?\d* ж бұрын|\d+[.,]?\d* ж кеиін)(\z|[^\pL\pM\d]|_)");
    ld_rx_exact := Some (rx "(?i)^(\d+[.,]?\d* секундтан кеиін|\d+[.,]?\d* минуттан кеиін|\d+[.,]?\d* сағаттан кеиін|\d+[.,]?\d* аптадан кеиін|\d+[.,]?\d* жылдан кеиін|\d+[.,]?\d* күннен кеиін|\d+[.,]?\d* секунд бұрын|\d+[.,]?\d* аидан кеиін|\d+[.,]?\d* минут бұрын|\d+[.,]?\d* сағат бұрын|\d+[.,]?\d* апта бұрын|\d+[.,]?\d* жыл бұрын|\d+[.,]?\d* күн бұрын|\d+[.,]?\d* мин бұрын|\d+[.,]?\d* мин кеиін|\d+[.,]?\d* сағ бұрын|\d+[.,]?\d* сағ кеиін|\d+[.,]?\d* сек бұрын|\d+[.,]?\d* сек кеиін|\d+[.,]?\d* аи бұрын|\d+[.,]?\d* ап бұрын|\d+[.,]?\d* ап кеиін|\d+[.,]?\d* ж бұрын|\d+[.,]?\d* ж кеиін)$");
    ld_known := [lit "былтырғы жыл";
    lit "келесі апта";
    lit "биылғы жыл";
    lit "келесі жыл";
    lit "өткен апта";
    lit "желтоқсан";
    lit "келесі аи";
    lit "осы минут";
    lit "осы сағат";
    lit "беисенбі";
    lit "дүисенбі";
    lit "жексенбі";
    lit "осы апта";
    lit "сеисенбі";
    lit "сәрсенбі";
    lit "қыркүиек";
    lit "өткен аи";
    lit "маусым";
    lit "наурыз";
    lit "осы аи";
    lit "секунд";
    lit "қараша";
    lit "қаңтар";
    lit "ақпан";
    lit "бүгін";
    lit "ертең";
    lit "мамыр";
    lit "минут";
    lit "сағат";
    lit "сенбі";
    lit "сәуір";
    lit "тамыз";
    lit "шілде";
    lit "қазан";
    lit "қазір";
    lit "апта";
    lit "жұма";
    lit "кеше";
    lit "gmt";
    lit "utc";
    lit "ақп";
    lit "жел";
    lit "жыл";
    lit "күн";
    lit "мам";
    lit "мау";
    lit "мин";
    lit "нау";
    lit "сағ";
    lit "сәу";
    lit "там";
    lit "шіл";
    lit "қаз";
    lit "қар";
    lit "қаң";
    lit "қыр";
    lit "am";
    lit "pm";
    lit "аи";
    lit "ап";
    lit "бс";
    lit "дс";
    lit "жм";
    lit "жс";
    lit "сб";
    lit "ср";
    lit "сс";
    lit " ";
    lit "'";
    lit "+";
    lit ",";
    lit "-";
    lit ".";
    lit "/";
    lit ":";
    lit ";";
    lit "@";
    lit "[";
    lit "]";
    lit "z";
    lit "|";
    lit "ж";
    lit "с"] |}.

(** kl.go:12-116 *)
Definition loc_kl : locale := Eval vm_compute in
  {| ld_name := lit "kl"; ld_order := lit "YMD"; ld_nospacing := false; ld_splitter := 0;
    ld_charset := runes (lit "bcdefghijklnorstuvwxyz");
    ld_abbr := [];
    ld_simpl := [];
    ld_trans := [(lit "pingasunngorneq", [lit "wednesday"]);
    (lit "tallimanngorneq", [lit "friday"]);
    (lit "arfininngorneq", [lit "saturday"]);
    (lit "ataasinngorneq", [lit "monday"]);
    (lit "sisamanngorneq", [lit "thursday"]);
    (lit "marlunngorneq", [lit "tuesday"]);
    (lit "septemberi", [lit "september"]);
    (lit "augustusi", [lit "august"]);
    (lit "decemberi", [lit "december"]);
    (lit "novemberi", [lit "november"]);
    (lit "februari", [lit "february"]);
    (lit "oktoberi", [lit "october"]);
    (lit "januari", [lit "january"]);
    (lit "aprili", [lit "april"]);
    (lit "martsi", [lit "march"]);
    (lit "minute", [lit "minute"]);
    (lit "sabaat", [lit "sunday"]);
    (lit "second", [lit "second"]);
    (lit "month", [lit "month"]);
    (lit "hour", [lit "hour"]);
    (lit "juli", [lit "july"]);
    (lit "juni", [lit "june"]);
    (lit "maji", [lit "may"]);
    (lit "week", [lit "week"]);
    (lit "year", [lit "year"]);
    (lit "apr", [lit "april"]);
    (lit "arf", [lit "saturday"]);
    (lit "ata", [lit "monday"]);
    (lit "aug", [lit "august"]);
    (lit "day", [lit "day"]);
    (lit "dec", [lit "december"]);
    (lit "feb", [lit "february"]);
    (lit "gmt", [lit "gmt"]);
    (lit "jan", [lit "january"]);
    (lit "jul", [lit "july"]);
    (lit "jun", [lit "june"]);
    (lit "maj", [lit "may"]);
    (lit "mar", [lit "march"; lit "tuesday"]);
    (lit "nov", [lit "november"]);
    (lit "okt", [lit "october"]);
    (lit "pin", [lit "wednesday"]);
    (lit "sab", [lit "sunday"]);
    (lit "sep", [lit "september"]);
    (lit "sis", [lit "thursday"]);
    (lit "tal", [lit "friday"]);
    (lit "utc", [lit "utc"]);
    (lit "am", [lit "am"]);
    (lit "pm", [lit "pm"]);
    (lit " ", [lit " "]);
    (lit "'", [lit ""]);
    (lit "+", [lit "+"]);
    (lit ",", [lit ""]);
    (lit "-", [lit "-"]);
    (lit ".", [lit "."]);
    (lit "/", [lit "/"]);
    (lit ":", [lit ":"]);
    (lit ";", [lit ""]);
    (lit "@", [lit ""]);
    (lit "[", [lit ""]);
    (lit "]", [lit ""]);
    (lit "z", [lit "z"]);
    (lit "|", [lit ""])];
    ld_reltype := [(lit "this minute", lit "0 minute ago");
    (lit "last month", lit "1 month ago");
    (lit "next month", lit "in 1 month");
    (lit "this month", lit "0 month ago");
    (lit "last week", lit "1 week ago");
    (lit "last year", lit "1 year ago");
    (lit "next week", lit "in 1 week");
    (lit "next year", lit "in 1 year");
    (lit "this hour", lit "0 hour ago");
    (lit "this week", lit "0 week ago");
    (lit "this year", lit "0 year ago");
    (lit "yesterday", lit "1 day ago");
    (lit "tomorrow", lit "in 1 day");
    (lit "today", lit "0 day ago");
    (lit "now", lit "0 second ago")];
    ld_relrx := [(rx "(?i)for (\d+[.,]?\d*) nalunaaquttap-akunnera siden", lit "$1 hour ago");
    (rx "(?i)for (\d+[.,]?\d*) sapaatip-akunnera siden", lit "$1 week ago");
    (rx "(?i)om (\d+[.,]?\d*) nalunaaquttap-akunnera", lit "in $1 hour");
    (rx "(?i)for (\d+[.,]?\d*) ulloq unnuarlu siden", lit "$1 day ago");
    (rx "(?i)om (\d+[.,]?\d*) sapaatip-akunnera", lit "in $1 week");
    (rx "(?i)for (\d+[.,]?\d*) minutsi siden", lit "$1 minute ago");
    (rx "(?i)for (\d+[.,]?\d*) qaammat siden", lit "$1 month ago");
    (rx "(?i)for (\d+[.,]?\d*) sekundi siden", lit "$1 second ago");
    (rx "(?i)om (\d+[.,]?\d*) ulloq unnuarlu", lit "in $1 day");
    (rx "(?i)for (\d+[.,]?\d*) ukioq siden", lit "$1 year ago");
    (rx "(?i)om (\d+[.,]?\d*) minutsi", lit "in $1 minute");
    (rx "(?i)om (\d+[.,]?\d*) qaammat", lit "in $1 month");
    (rx "(?i)om (\d+[.,]?\d*) sekundi", lit "in $1 second");
    (rx "(?i)om (\d+[.,]?\d*) ukioq", lit "in $1 year")];
    ld_rx := Some (rx "(?i)(\A|[^\pL\pM\d]|_)(for \d+[.,]?\d* nalunaaquttap-akunnera siden|for \d+[.,]?\d* sapaatip-akunnera siden|om \d+[.,]?\d* nalunaaquttap-akunnera|for \d+[.,]?\d* ulloq unnuarlu siden|om \d+[.,]?\d* sapaatip-akunnera|for \d+[.,]?\d* minutsi siden|for \d+[.,]?\d* qaammat siden|for \d+[.,]?\d* sekundi siden|om \d+[.,]?\d* ulloq unnuarlu|for \d+[.,]?\d* ukioq siden|om \d+[.,]?\d* minutsi|om \d+[.,]?\d* qaammat|om \d+[.,]?\d* sekundi|om \d+[.,]?\d* ukioq)(\z|[^\pL\pM\d]|_)");
    ld_rx_exact := Some (rx "(?i)^(for \d+[.,]?\d* nalunaaquttap-akunnera siden|for \d+[.,]?\d* sapaatip-akunnera siden|om \d+[.,]?\d* nalunaaquttap-akunnera|for \d+[.,]?\d* ulloq unnuarlu siden|om \d+[.,]?\d* sapaatip-akunnera|for \d+[.,]?\d* minutsi siden|for \d+[.,]?\d* qaammat siden|for \d+[.,]?\d* sekundi siden|om \d+[.,]?\d* ulloq unnuarlu|for \d+[.,]?\d* ukioq siden|om \d+[.,]?\d* minutsi|om \d+[.,]?\d* qaammat|om \d+[.,]?\d* sekundi|om \d+[.,]?\d* ukioq)$");
    ld_known := [lit "pingasunngorneq";
    lit "tallimanngorneq";
    lit "arfininngorneq";
    lit "ataasinngorneq";
    lit "sisamanngorneq";
    lit "marlunngorneq";
    lit "this minute";
    lit "last month";
    lit "next month";
    lit "septemberi";
    lit "this month";
    lit "augustusi";
    lit "decemberi";
    lit "last week";
    lit "last year";
    lit "next week";
    lit "next year";
    lit "novemberi";
    lit "this hour";
    lit "this week";
    lit "this year";
    lit "yesterday";
    lit "februari";
    lit "oktoberi";
    lit "tomorrow";
    lit "januari";
    lit "aprili";
    lit "martsi";
    lit "minute";
    lit "sabaat";
    lit "second";
    lit "month";
    lit "today";
    lit "hour";
    lit "juli";
    lit "juni";
    lit "maji";
    lit "week";
    lit "year";
    lit "apr";
    lit "arf";
    lit "ata";
    lit "aug";
    lit "day";
    lit "dec";
    lit "feb";
    lit "gmt";
    lit "jan";
    lit "jul";
    lit "jun";
    lit "maj";
    lit "mar";
    lit "nov";
    lit "now";
    lit "okt";
    lit "pin";
    lit "sab";
    lit "sep";
    lit "sis";
    lit "tal";
    lit "utc";
    lit "am";
    lit "pm";
    lit " ";
    lit "'";
    lit "+";
    lit ",";
    lit "-";
    lit ".";
    lit "/";
    lit ":";
    lit ";";
    lit "@";
    lit "[";
    lit "]";
    lit "z";
    lit "|"] |}.

(** kln.go:10-101 *)
Definition loc_kln : locale := Eval vm_compute in
  {| ld_name := lit "kln"; ld_order := lit "DMY"; ld_nospacing := false; ld_splitter := 0;
    ld_charset := runes (lit "bcdeghiklnorstuwxyz");
    ld_abbr := [];
    ld_simpl := [];
    ld_trans := [(lit "kipsuunde nebo aeng'", [lit "december"]);
    (lit "kipsuunde ne taai", [lit "november"]);
    (lit "kooskoliny", [lit "pm"]);
    (lit "ng'atyaato", [lit "february"]);
    (lit "iwootkuut", [lit "april"]);
    (lit "koang'wan", [lit "thursday"]);
    (lit "ng'eiyeet", [lit "july"]);
    (lit "kiptaamo", [lit "march"]);
    (lit "sekondit", [lit "second"]);
    (lit "koaeng'", [lit "tuesday"]);
    (lit "kosomok", [lit "wednesday"]);
    (lit "kotisap", [lit "sunday"]);
    (lit "minitit", [lit "minute"]);
    (lit "rooptui", [lit "august"]);
    (lit "arawet", [lit "month"]);
    (lit "bureet", [lit "september"]);
    (lit "epeeso", [lit "october"]);
    (lit "karoon", [lit "am"]);
    (lit "kenyit", [lit "year"]);
    (lit "komuut", [lit "friday"]);
    (lit "kotaai", [lit "monday"]);
    (lit "mamuut", [lit "may"]);
    (lit "mulgul", [lit "january"]);
    (lit "betut", [lit "day"]);
    (lit "koosk", [lit "pm"]);
    (lit "paagi", [lit "june"]);
    (lit "wikit", [lit "week"]);
    (lit "kolo", [lit "saturday"]);
    (lit "ngat", [lit "february"]);
    (lit "sait", [lit "hour"]);
    (lit "bur", [lit "september"]);
    (lit "epe", [lit "october"]);
    (lit "gmt", [lit "gmt"]);
    (lit "iwo", [lit "april"]);
    (lit "koa", [lit "thursday"]);
    (lit "kol", [lit "saturday"]);
    (lit "kom", [lit "friday"]);
    (lit "koo", [lit "tuesday"]);
    (lit "kos", [lit "wednesday"]);
    (lit "kot", [lit "monday"]);
    (lit "kpa", [lit "december"]);
    (lit "kpt", [lit "november"]);
    (lit "krn", [lit "am"]);
    (lit "kts", [lit "sunday"]);
    (lit "mam", [lit "may"]);
    (lit "mul", [lit "january"]);
    (lit "nge", [lit "july"]);
    (lit "paa", [lit "june"]);
    (lit "roo", [lit "august"]);
    (lit "taa", [lit "march"]);
    (lit "utc", [lit "utc"]);
    (lit "am", [lit "am"]);
    (lit "pm", [lit "pm"]);
    (lit " ", [lit " "]);
    (lit "'", [lit ""]);
    (lit "+", [lit "+"]);
    (lit ",", [lit ""]);
    (lit "-", [lit "-"]);
    (lit ".", [lit "."]);
    (lit "/", [lit "/"]);
    (lit ":", [lit ":"]);
    (lit ";", [lit ""]);
    (lit "@", [lit ""]);
    (lit "[", [lit ""]);
    (lit "]", [lit ""]);
    (lit "z", [lit "z"]);
    (lit "|", [lit ""])];
    ld_reltype := [(lit "this minute", lit "0 minute ago");
    (lit "last month", lit "1 month ago");
    (lit "next month", lit "in 1 month");
    (lit "this month", lit "0 month ago");
    (lit "last week", lit "1 week ago");
    (lit "last year", lit "1 year ago");
    (lit "next week", lit "in 1 week");
    (lit "next year", lit "in 1 year");
    (lit "this hour", lit "0 hour ago");
    (lit "this week", lit "0 week ago");
    (lit "this year", lit "0 year ago");
    (lit "mutai", lit "in 1 day");
    (lit "raini", lit "0 day ago");
    (lit "amut", lit "1 day ago");
    (lit "now", lit "0 second ago")];
    ld_relrx := [];
    ld_rx := None;
    ld_rx_exact := None;
    ld_known := [lit "kipsuunde nebo aeng'";
    lit "kipsuunde ne taai";
    lit "this minute";
    lit "kooskoliny";
    lit "last month";
    lit "next month";
    lit "ng'atyaato";
    lit "this month";
    lit "iwootkuut";
    lit "koang'wan";
    lit "last week";
    lit "last year";
    lit "next week";
    lit "next year";
    lit "ng'eiyeet";
    lit "this hour";
    lit "this week";
    lit "this year";
    lit "kiptaamo";
    lit "sekondit";
    lit "koaeng'";
    lit "kosomok";
    lit "kotisap";
    lit "minitit";
    lit "rooptui";
    lit "arawet";
    lit "bureet";
    lit "epeeso";
    lit "karoon";
    lit "kenyit";
    lit "komuut";
    lit "kotaai";
    lit "mamuut";
    lit "mulgul";
    lit "betut";
    lit "koosk";
    lit "mutai";
    lit "paagi";
    lit "raini";
    lit "wikit";
    lit "amut";
    lit "kolo";
    lit "ngat";
    lit "sait";
    lit "bur";
    lit "epe";
    lit "gmt";
    lit "iwo";
    lit "koa";
    lit "kol";
    lit "kom";
    lit "koo";
    lit "kos";
    lit "kot";
    lit "kpa";
    lit "kpt";
    lit "krn";
    lit "kts";
    lit "mam";
    lit "mul";
    lit "nge";
    lit "now";
    lit "paa";
    lit "roo";
    lit "taa";
    lit "utc";
    lit "am";
    lit "pm";
    lit " ";
    lit "'";
    lit "+";
    lit ",";
    lit "-";
    lit ".";
    lit "/";
    lit ":";
    lit ";";
    lit "@";
    lit "[";
    lit "]";
    lit "z";
    lit "|"] |}.

(** km.go:12-102 *)
Definition loc_km : locale := Eval vm_compute in
  {| ld_name := lit "km"; ld_order := lit "DMY"; ld_nospacing := false; ld_splitter := 0;
    ld_charset := runes (lit "cgtuzកខគងចឆញដតថទធនបពភមយរលវសហឡអឥឧាិីុូេែៃោៅំះៈ៉៍័្​");
    ld_abbr := [];
    ld_simpl := [];
    ld_trans := [(lit "ពរហសបត", [lit "thursday"]);
    (lit "កកកដា", [lit "july"]);
    (lit "វចឆកា", [lit "november"]);
    (lit "សបដាហ", [lit "week"]);
    (lit "អងគារ", [lit "tuesday"]);
    (lit "អាទតយ", [lit "sunday"]);
    (lit "កញញា", [lit "september"]);
    (lit "កមភៈ", [lit "february"]);
    (lit "មករា", [lit "january"]);
    (lit "មថនា", [lit "june"]);
    (lit "មេសា", [lit "april"]);
    (lit "វនាទ", [lit "second"]);
    (lit "ឧសភា", [lit "may"]);
    (lit "gmt", [lit "gmt"]);
    (lit "utc", [lit "utc"]);
    (lit "ចនទ", [lit "monday"]);
    (lit "ឆនា", [lit "year"]);
    (lit "តលា", [lit "october"]);
    (lit "ថងៃ", [lit "day"]);
    (lit "នាទ", [lit "minute"]);
    (lit "មនា", [lit "march"]);
    (lit "មោង", [lit "hour"]);
    (lit "សករ", [lit "friday"]);
    (lit "សហា", [lit "august"]);
    (lit "សៅរ", [lit "saturday"]);
    (lit "am", [lit "am"]);
    (lit "pm", [lit "pm"]);
    (lit "ខែ", [lit "month"]);
    (lit "ធន", [lit "december"]);
    (lit "ពធ", [lit "wednesday"]);
    (lit " ", [lit " "]);
    (lit "'", [lit ""]);
    (lit "+", [lit "+"]);
    (lit ",", [lit ""]);
    (lit "-", [lit "-"]);
    (lit ".", [lit "."]);
    (lit "/", [lit "/"]);
    (lit ":", [lit ":"]);
    (lit ";", [lit ""]);
    (lit "@", [lit ""]);
    (lit "[", [lit ""]);
    (lit "]", [lit ""]);
    (lit "z", [lit "z"]);
    (lit "|", [lit ""])];
    ld_reltype := [(lit "សបដាហ​ករោយ", lit "in 1 week");
    (lit "សបដាហ​នេះ", lit "0 week ago");
    (lit "ឆនា​ករោយ", lit "in 1 year");
    (lit "ថងៃ​សអែក", lit "in 1 day");
    (lit "សបដាហ​មន", lit "1 week ago");
    (lit "ខែ​ករោយ", lit "in 1 month");
    (lit "ឆនា​នេះ", lit "0 year ago");
    (lit "ថងៃសអែក", lit "in 1 day");
    (lit "ថងៃ​នេះ", lit "0 day ago");
    (lit "ខែ​នេះ", lit "0 month ago");
    (lit "ឆនា​មន", lit "1 year ago");
    (lit "នាទនេះ", lit "0 minute ago");
    (lit "មោងនេះ", lit "0 hour ago");
    (lit "ខែ​មន", lit "1 month ago");
    (lit "មសលមញ", lit "1 day ago");
    (lit "ឥឡវ", lit "0 second ago")];
    ld_relrx := [(rx "(?i)កនង​រយៈ​ពេល (\d+[.,]?\d*) មោង", lit "in $1 hour");
    (rx "(?i)(\d+[.,]?\d*) សបដាហទៀត", lit "in $1 week");
    (rx "(?i)(\d+[.,]?\d*) សបដាហ​មន", lit "$1 week ago");
    (rx "(?i)(\d+[.,]?\d*) ថងៃ​​មន", lit "$1 day ago");
    (rx "(?i)(\d+[.,]?\d*) នាទ​​មន", lit "$1 minute ago");
    (rx "(?i)(\d+[.,]?\d*) វនាទទៀត", lit "in $1 second");
    (rx "(?i)(\d+[.,]?\d*) វនាទ​មន", lit "$1 second ago");
    (rx "(?i)(\d+[.,]?\d*) ឆនាទៀត", lit "in $1 year");
    (rx "(?i)(\d+[.,]?\d*) ឆនា​មន", lit "$1 year ago");
    (rx "(?i)(\d+[.,]?\d*) ថងៃទៀត", lit "in $1 day");
    (rx "(?i)(\d+[.,]?\d*) ថងៃ​មន", lit "$1 day ago");
    (rx "(?i)(\d+[.,]?\d*) នាទទៀត", lit "in $1 minute");
    (rx "(?i)(\d+[.,]?\d*) នាទ​មន", lit "$1 minute ago");
    (rx "(?i)(\d+[.,]?\d*) មោងទៀត", lit "in $1 hour");
    (rx "(?i)(\d+[.,]?\d*) មោង​មន", lit "$1 hour ago");
    (rx "(?i)(\d+[.,]?\d*) ខែទៀត", lit "in $1 month");
    (rx "(?i)(\d+[.,]?\d*) ខែមន", lit "$1 month ago")];
    ld_rx := Some (rx "(?i)(\A|[^\pL\pM\d]|_)(កនង​រយៈ​ពេល \d+[.,]?\d* មោង|\d+[.,]?\d* សបដាហទៀត|\d+[.,]?\d* សបដាហ​មន|\d+[.,]?\d* ថងៃ​​មន|\d+[.,]?\d* នាទ​​មន|\d+[.,]?\d* វនាទទៀត|\d+[.,]?\d* វនាទ​មន|\d+[.,]?\d* ឆនាទៀត|\d+[.,]?\d* ឆនា​មន|\d+[.,]?\d* ថងៃទៀត|\d+[.,]?\d* ថងៃ​មន|\d+[.,]?\d* នាទទៀត|\d+[.,]?\d* នាទ​មន|\d+[.,]?\d* មោងទៀត|\d+[.,]?\d* មោង​មន|\d+[.,]?\d* ខែទៀត|\d+[.,]?\d* ខែមន)(\z|[^\pL\pM\d]|_)");
    ld_rx_exact := Some (rx "(?i)^(កនង​រយៈ​ពេល \d+[.,]?\d* មោង|\d+[.,]?\d* សបដាហទៀត|\d+[.,]?\d* សបដាហ​មន|\d+[.,]?\d* ថងៃ​​មន|\d+[.,]?\d* នាទ​​មន|\d+[.,]?\d* វនាទទៀត|\d+[.,]?\d* វនាទ​មន|\d+[.,]?\d* ឆនាទៀត|\d+[.,]?\d* ឆនា​មន|\d+[.,]?\d* ថងៃទៀត|\d+[.,]?\d* ថងៃ​មន|\d+[.,]?\d* នាទទៀត|\d+[.,]?\d* នាទ​មន|\d+[.,]?\d* មោងទៀត|\d+[.,]?\d* មោង​មន|\d+[.,]?\d* ខែទៀត|\d+[.,]?\d* ខែមន)$");
    ld_known := [lit "សបដាហ​ករោយ";
    lit "សបដាហ​នេះ";
    lit "ឆនា​ករោយ";
    lit "ថងៃ​សអែក";
    lit "សបដាហ​មន";
    lit "ខែ​ករោយ";
    lit "ឆនា​នេះ";
    lit "ថងៃសអែក";
    lit "ថងៃ​នេះ";
    lit "ខែ​នេះ";
    lit "ឆនា​មន";
    lit "នាទនេះ";
    lit "ពរហសបត";
    lit "មោងនេះ";
    lit "កកកដា";
    lit "ខែ​មន";
    lit "មសលមញ";
    lit "វចឆកា";
    lit "សបដាហ";
    lit "អងគារ";
    lit "អាទតយ";
    lit "កញញា";
    lit "កមភៈ";
    lit "មករា";
    lit "មថនា";
    lit "មេសា";
    lit "វនាទ";
    lit "ឧសភា";
    lit "gmt";
    lit "utc";
    lit "ចនទ";
    lit "ឆនា";
    lit "តលា";
    lit "ថងៃ";
    lit "នាទ";
    lit "មនា";
    lit "មោង";
    lit "សករ";
    lit "សហា";
    lit "សៅរ";
    lit "ឥឡវ";
    lit "am";
    lit "pm";
    lit "ខែ";
    lit "ធន";
    lit "ពធ";
    lit " ";
    lit "'";
    lit "+";
    lit ",";
    lit "-";
    lit ".";
    lit "/";
    lit ":";
    lit ";";
    lit "@";
    lit "[";
    lit "]";
    lit "z";
    lit "|"] |}.

(** kn.go:12-131 *)
Definition loc_kn : locale := Eval vm_compute in
  {| ld_name := lit "kn"; ld_order := lit "DMY"; ld_nospacing := false; ld_splitter := 0;
    ld_charset := runes (lit "cgtuzಂಅಆಇಈಏಕಗಚಜಟಡತದಧನಪಫಬಭಮರಲಳವಶಷಸಹಾಿುೂೆೇೈೋ್ೕೖ");
    ld_abbr := [];
    ld_simpl := [];
    ld_trans := [(lit "ಅಕಟೂೕಬರ", [lit "october"]);
    (lit "ಗುರುವಾರ", [lit "thursday"]);
    (lit "ಪೂರವಾಹನ", [lit "am"]);
    (lit "ಭಾನುವಾರ", [lit "sunday"]);
    (lit "ಮಂಗಳವಾರ", [lit "tuesday"]);
    (lit "ಶುಕರವಾರ", [lit "friday"]);
    (lit "ಸೂೕಮವಾರ", [lit "monday"]);
    (lit "ಅಪರಾಹನ", [lit "pm"]);
    (lit "ಬುಧವಾರ", [lit "wednesday"]);
    (lit "ಸಪಟಂಬರ", [lit "september"]);
    (lit "ಅಕಟೂೕ", [lit "october"]);
    (lit "ಡಸಂಬರ", [lit "december"]);
    (lit "ತಂಗಳು", [lit "month"]);
    (lit "ನವಂಬರ", [lit "november"]);
    (lit "ಫಬರವರ", [lit "february"]);
    (lit "ಶನವಾರ", [lit "saturday"]);
    (lit "ಆಗಸಟ", [lit "august"]);
    (lit "ಏಪರಲ", [lit "april"]);
    (lit "ಗುರು", [lit "thursday"]);
    (lit "ಜನವರ", [lit "january"]);
    (lit "ಜುಲೖ", [lit "july"]);
    (lit "ಭಾನು", [lit "sunday"]);
    (lit "ಮಂಗಳ", [lit "tuesday"]);
    (lit "ಮಾರಚ", [lit "march"]);
    (lit "ಶುಕರ", [lit "friday"]);
    (lit "ಸಕಂಡ", [lit "second"]);
    (lit "ಸಪಟಂ", [lit "september"]);
    (lit "ಸೂೕಮ", [lit "monday"]);
    (lit "gmt", [lit "gmt"]);
    (lit "utc", [lit "utc"]);
    (lit "ಏಪರ", [lit "april"]);
    (lit "ಗಂಟ", [lit "hour"]);
    (lit "ಜೂನ", [lit "june"]);
    (lit "ಡಸಂ", [lit "december"]);
    (lit "ನಮಷ", [lit "minute"]);
    (lit "ನವಂ", [lit "november"]);
    (lit "ಫಬರ", [lit "february"]);
    (lit "ಬುಧ", [lit "wednesday"]);
    (lit "ವರಷ", [lit "year"]);
    (lit "ವಾರ", [lit "week"]);
    (lit "am", [lit "am"]);
    (lit "pm", [lit "pm"]);
    (lit "ಆಗ", [lit "august"]);
    (lit "ಜನ", [lit "january"]);
    (lit "ದನ", [lit "day"]);
    (lit "ಮೕ", [lit "may"]);
    (lit "ಶನ", [lit "saturday"]);
    (lit " ", [lit " "]);
    (lit "'", [lit ""]);
    (lit "+", [lit "+"]);
    (lit ",", [lit ""]);
    (lit "-", [lit "-"]);
    (lit ".", [lit "."]);
    (lit "/", [lit "/"]);
    (lit ":", [lit ":"]);
    (lit ";", [lit ""]);
    (lit "@", [lit ""]);
    (lit "[", [lit ""]);
    (lit "]", [lit ""]);
    (lit "z", [lit "z"]);
    (lit "|", [lit ""])];
    ld_reltype := [(lit "ಮುಂದನ ತಂಗಳು", lit "in 1 month");
    (lit "ಕಳದ ತಂಗಳು", lit "1 month ago");
    (lit "ಮುಂದನ ವರಷ", lit "in 1 year");
    (lit "ಮುಂದನ ವಾರ", lit "in 1 week");
    (lit "ಹಂದನ ವರಷ", lit "1 year ago");
    (lit "ಈ ತಂಗಳು", lit "0 month ago");
    (lit "ಕಳದ ವರಷ", lit "1 year ago");
    (lit "ಕಳದ ವಾರ", lit "1 week ago");
    (lit "ಈ ಗಂಟ", lit "0 hour ago");
    (lit "ಈ ನಮಷ", lit "0 minute ago");
    (lit "ಈ ವರಷ", lit "0 year ago");
    (lit "ಈ ವಾರ", lit "0 week ago");
    (lit "ಇಂದು", lit "0 day ago");
    (lit "ನನನ", lit "1 day ago");
    (lit "ನಾಳ", lit "in 1 day");
    (lit "ಈಗ", lit "0 second ago")];
    ld_relrx := [(rx "(?i)(\d+[.,]?\d*) ತಂಗಳುಗಳ ಹಂದ", lit "$1 month ago");
    (rx "(?i)(\d+[.,]?\d*) ಸಕಂಡುಗಳ ಹಂದ", lit "$1 second ago");
    (rx "(?i)(\d+[.,]?\d*) ಗಂಟಗಳ ಹಂದ", lit "$1 hour ago");
    (rx "(?i)(\d+[.,]?\d*) ತಂಗಳು ಹಂದ", lit "$1 month ago");
    (rx "(?i)(\d+[.,]?\d*) ತಂಗಳುಗಳಲಲ", lit "in $1 month");
    (rx "(?i)(\d+[.,]?\d*) ನಮಷಗಳ ಹಂದ", lit "$1 minute ago");
    (rx "(?i)(\d+[.,]?\d*) ವರಷಗಳ ಹಂದ", lit "$1 year ago");
    (rx "(?i)(\d+[.,]?\d*) ವಾರಗಳ ಹಂದ", lit "$1 week ago");
    (rx "(?i)(\d+[.,]?\d*) ಸಕಂಡ‌ಗಳಲಲ", lit "in $1 second");
    (rx "(?i)(\d+[.,]?\d*) ತಂಗಳ ಹಂದ", lit "$1 month ago");
    (rx "(?i)(\d+[.,]?\d*) ದನಗಳ ಹಂದ", lit "$1 day ago");
    (rx "(?i)(\d+[.,]?\d*) ನಮಷದ ಹಂದ", lit "$1 minute ago");
    (rx "(?i)(\d+[.,]?\d*) ವರಷದ ಹಂದ", lit "$1 year ago");
    (rx "(?i)(\d+[.,]?\d*) ವಾರದ ಹಂದ", lit "$1 week ago");
    (rx "(?i)(\d+[.,]?\d*) ಸಕಂಡ ಹಂದ", lit "$1 second ago");
    (rx "(?i)(\d+[.,]?\d*) ಸಕಂಡ‌ನಲಲ", lit "in $1 second");
    (rx "(?i)(\d+[.,]?\d*) ಗಂಟ ಹಂದ", lit "$1 hour ago");
    (rx "(?i)(\d+[.,]?\d*) ಗಂಟಗಳಲಲ", lit "in $1 hour");
    (rx "(?i)(\d+[.,]?\d*) ದನದ ಹಂದ", lit "$1 day ago");
    (rx "(?i)(\d+[.,]?\d*) ನಮಷಗಳಲಲ", lit "in $1 minute");
    (rx "(?i)(\d+[.,]?\d*) ವರಷಗಳಲಲ", lit "in $1 year");
    (rx "(?i)(\d+[.,]?\d*) ವಾರಗಳಲಲ", lit "in $1 week");
    (rx "(?i)(\d+[.,]?\d*) ಗಂಟಯಲಲ", lit "in $1 hour");
    (rx "(?i)(\d+[.,]?\d*) ತಂಗಳಲಲ", lit "in $1 month");
    (rx "(?i)(\d+[.,]?\d*) ದನಗಳಲಲ", lit "in $1 day");
    (rx "(?i)(\d+[.,]?\d*) ನಮಷದಲಲ", lit "in $1 minute");
    (rx "(?i)(\d+[.,]?\d*) ವರಷದಲಲ", lit "in $1 year");
    (rx "(?i)(\d+[.,]?\d*) ವಾರದಲಲ", lit "in $1 week");
    (rx "(?i)(\d+[.,]?\d*) ದನದಲಲ", lit "in $1 day")];
    ld_rx := Some (rx "(?i)(\A|[^\pL\pM\d]|_)(\d+[.,]?\d* ತಂಗಳುಗಳ ಹಂದ|\d+[.,]?\d* ಸಕಂಡುಗಳ ಹಂದ|\d+[.,]?\d* ಗಂಟಗಳ ಹಂದ|\d+[.,]?\d* ತಂಗಳು ಹಂದ|\d+[.,]?\d* ತಂಗಳುಗಳಲಲ|\d+[.,]?\d* ನಮಷಗಳ ಹಂದ|\d+[.,]?\d* ವರಷಗಳ ಹಂದ|\d+[.,]?\d* ವಾರಗಳ ಹಂದ|\d+[.,]?\d* ಸಕಂಡ‌ಗಳಲಲ|\d+[.,]?\d* ತಂಗಳ ಹಂದ|\d+[.,]?\d* ದನಗಳ ಹಂದ|\d+[.,]?\d* ನಮಷದ ಹಂದ|\d+[.,]?\d* ವರಷದ ಹಂದ|\d+[.,]?\d* ವಾರದ ಹಂದ|\d+[.,]?\d* ಸಕಂಡ ಹಂದ|\d+[.,]?\d* ಸಕಂಡ‌ನಲಲ|\d+[.,]?\d* ಗಂಟ ಹಂದ|\d+[.,]?\d* ಗಂಟಗಳಲಲ|\d+[.,]?\d* ದನದ ಹಂದ|\d+[.,]?\d* ನಮಷಗಳಲಲ|\d+[.,]?\d* ವರಷಗಳಲಲ|\d+[.,]?\d* ವಾರಗಳಲಲ|\d+[.,]?\d* ಗಂಟಯಲಲ|\d+[.,]?\d* ತಂಗಳಲಲ|\d+[.,]?\d* ದನಗಳಲಲ|\d+[.,]?\d* ನಮಷದಲಲ|\d+[.,]?\d* ವರಷದಲಲ|\d+[.,]?\d* ವಾರದಲಲ|\d+[.,]?\d* ದನದಲಲ)(\z|[^\pL\pM\d]|_)");
    ld_rx_exact := Some (rx "(?i)^(\d+[.,]?\d* ತಂಗಳುಗಳ ಹಂದ|\d+[.,]?\d* ಸಕಂಡುಗಳ ಹಂದ|\d+[.,]?\d* ಗಂಟಗಳ ಹಂದ|\d+[.,]?\d* ತಂಗಳು ಹಂದ|\d+[.,]?\d* ತಂಗಳುಗಳಲಲ|\d+[.,]?\d* ನಮಷಗಳ ಹಂದ|\d+[.,]?\d* ವರಷಗಳ ಹಂದ|\d+[.,]?\d* ವಾರಗಳ ಹಂದ|\d+[.,]?\d* ಸಕಂಡ‌ಗಳಲಲ|\d+[.,]?\d* ತಂಗಳ ಹಂದ|\d+[.,]?\d* ದನಗಳ ಹಂದ|\d+[.,]?\d* ನಮಷದ ಹಂದ|\d+[.,]?\d* ವರಷದ ಹಂದ|\d+[.,]?\d* ವಾರದ ಹಂದ|\d+[.,]?\d* ಸಕಂಡ ಹಂದ|\d+[.,]?\d* ಸಕಂಡ‌ನಲಲ|\d+[.,]?\d* ಗಂಟ ಹಂದ|\d+[.,]?\d* ಗಂಟಗಳಲಲ|\d+[.,]?\d* ದನದ ಹಂದ|\d+[.,]?\d* ನಮಷಗಳಲಲ|\d+[.,]?\d* ವರಷಗಳಲಲ|\d+[.,]?\d* ವಾರಗಳಲಲ|\d+[.,]?\d* ಗಂಟಯಲಲ|\d+[.,]?\d* ತಂಗಳಲಲ|\d+[.,]?\d* ದನಗಳಲಲ|\d+[.,]?\d* ನಮಷದಲಲ|\d+[.,]?\d* ವರಷದಲಲ|\d+[.,]?\d* ವಾರದಲಲ|\d+[.,]?\d* ದನದಲಲ)$");
    ld_known := [lit "ಮುಂದನ ತಂಗಳು";
    lit "ಕಳದ ತಂಗಳು";
    lit "ಮುಂದನ ವರಷ";
    lit "ಮುಂದನ ವಾರ";
    lit "ಹಂದನ ವರಷ";
    lit "ಅಕಟೂೕಬರ";
    lit "ಈ ತಂಗಳು";
    lit "ಕಳದ ವರಷ";
    lit "ಕಳದ ವಾರ";
    lit "ಗುರುವಾರ";
    lit "ಪೂರವಾಹನ";
    lit "ಭಾನುವಾರ";
    lit "ಮಂಗಳವಾರ";
    lit "ಶುಕರವಾರ";
    lit "ಸೂೕಮವಾರ";
    lit "ಅಪರಾಹನ";
    lit "ಬುಧವಾರ";
    lit "ಸಪಟಂಬರ";
    lit "ಅಕಟೂೕ";
    lit "ಈ ಗಂಟ";
    lit "ಈ ನಮಷ";
    lit "ಈ ವರಷ";
    lit "ಈ ವಾರ";
    lit "ಡಸಂಬರ";
    lit "ತಂಗಳು";
    lit "ನವಂಬರ";
    lit "ಫಬರವರ";
    lit "ಶನವಾರ";
    lit "ಆಗಸಟ";
    lit "ಇಂದು";
    lit "ಏಪರಲ";
    lit "ಗುರು";
    lit "ಜನವರ";
    lit "ಜುಲೖ";
    lit "ಭಾನು";
    lit "ಮಂಗಳ";
    lit "ಮಾರಚ";
    lit "ಶುಕರ";
    lit "ಸಕಂಡ";
    lit "ಸಪಟಂ";
    lit "ಸೂೕಮ";
    lit "gmt";
    lit "utc";
    lit "ಏಪರ";
    lit "ಗಂಟ";
    lit "ಜೂನ";
    lit "ಡಸಂ";
    lit "ನನನ";
    lit "ನಮಷ";
    lit "ನವಂ";
    lit "ನಾಳ";
    lit "ಫಬರ";
    lit "ಬುಧ";
    lit "ವರಷ";
    lit "ವಾರ";
    lit "am";
    lit "pm";
    lit "ಆಗ";
    lit "ಈಗ";
    lit "ಜನ";
    lit "ದನ";
    lit "ಮೕ";
    lit "ಶನ";
    lit " ";
    lit "'";
    lit "+";
    lit ",";
    lit "-";
    lit ".";
    lit "/";
    lit ":";
    lit ";";
    lit "@";
    lit "[";
    lit "]";
    lit "z";
    lit "|"] |}.

(** ko.go:13-106 *)
Definition loc_ko : locale := Eval vm_compute in
  {| ld_name := lit "ko"; ld_order := lit "YMD."; ld_nospacing := false; ld_splitter := 0;
    ld_charset := runes (lit "cgtuz간금난내년늘다달목번분수시어오올요월음이일작재전제주지초토해현화후");
    ld_abbr := [];
    ld_simpl := [];
    ld_trans := [(lit "10월", [lit "october"]);
    (lit "11월", [lit "november"]);
    (lit "12월", [lit "december"]);
    (lit "gmt", [lit "gmt"]);
    (lit "utc", [lit "utc"]);
    (lit "금요일", [lit "friday"]);
    (lit "목요일", [lit "thursday"]);
    (lit "수요일", [lit "wednesday"]);
    (lit "월요일", [lit "monday"]);
    (lit "일요일", [lit "sunday"]);
    (lit "토요일", [lit "saturday"]);
    (lit "화요일", [lit "tuesday"]);
    (lit "1월", [lit "january"]);
    (lit "2월", [lit "february"]);
    (lit "3월", [lit "march"]);
    (lit "4월", [lit "april"]);
    (lit "5월", [lit "may"]);
    (lit "6월", [lit "june"]);
    (lit "7월", [lit "july"]);
    (lit "8월", [lit "august"]);
    (lit "9월", [lit "september"]);
    (lit "am", [lit "am"]);
    (lit "pm", [lit "pm"]);
    (lit "오전", [lit "am"]);
    (lit "오후", [lit "pm"]);
    (lit " ", [lit " "]);
    (lit "'", [lit ""]);
    (lit "+", [lit "+"]);
    (lit ",", [lit ""]);
    (lit "-", [lit "-"]);
    (lit ".", [lit "."]);
    (lit "/", [lit "/"]);
    (lit ":", [lit ":"]);
    (lit ";", [lit ""]);
    (lit "@", [lit ""]);
    (lit "[", [lit ""]);
    (lit "]", [lit ""]);
    (lit "z", [lit "z"]);
    (lit "|", [lit ""]);
    (lit "금", [lit "friday"]);
    (lit "년", [lit "year"]);
    (lit "목", [lit "thursday"]);
    (lit "분", [lit "minute"]);
    (lit "수", [lit "wednesday"]);
    (lit "시", [lit "hour"]);
    (lit "월", [lit "month"; lit "monday"]);
    (lit "일", [lit "day"; lit "sunday"]);
    (lit "주", [lit "week"]);
    (lit "초", [lit "second"]);
    (lit "토", [lit "saturday"]);
    (lit "화", [lit "tuesday"])];
    ld_reltype := [(lit "현재 시간", lit "0 hour ago");
    (lit "다음 달", lit "in 1 month");
    (lit "다음 주", lit "in 1 week");
    (lit "이번 달", lit "0 month ago");
    (lit "이번 주", lit "0 week ago");
    (lit "현재 분", lit "0 minute ago");
    (lit "지난달", lit "1 month ago");
    (lit "지난주", lit "1 week ago");
    (lit "내년", lit "in 1 year");
    (lit "내일", lit "in 1 day");
    (lit "어제", lit "1 day ago");
    (lit "오늘", lit "0 day ago");
    (lit "올해", lit "0 year ago");
    (lit "작년", lit "1 year ago");
    (lit "지금", lit "0 second ago")];
    ld_relrx := [(rx "(?i)(\d+[.,]?\d*)개월 전", lit "$1 month ago");
    (rx "(?i)(\d+[.,]?\d*)개월 후", lit "in $1 month");
    (rx "(?i)(\d+[.,]?\d*)시간 전", lit "$1 hour ago");
    (rx "(?i)(\d+[.,]?\d*)시간 후", lit "in $1 hour");
    (rx "(?i)(\d+[.,]?\d*)년 전", lit "$1 year ago");
    (rx "(?i)(\d+[.,]?\d*)년 후", lit "in $1 year");
    (rx "(?i)(\d+[.,]?\d*)분 전", lit "$1 minute ago");
    (rx "(?i)(\d+[.,]?\d*)분 후", lit "in $1 minute");
    (rx "(?i)(\d+[.,]?\d*)일 전", lit "$1 day ago");
    (rx "(?i)(\d+[.,]?\d*)일 후", lit "in $1 day");
    (rx "(?i)(\d+[.,]?\d*)주 전", lit "$1 week ago");
    (rx "(?i)(\d+[.,]?\d*)주 후", lit "in $1 week");
    (rx "(?i)(\d+[.,]?\d*)초 전", lit "$1 second ago");
    (rx "(?i)(\d+[.,]?\d*)초 후", lit "in $1 second")];
    ld_rx := Some (rx "(?i)(\A|[^\pL\pM\d]|_)(\d+[.,]?\d*개월 전|\d+[.,]?\d*개월 후|\d+[.,]?\d*시간 전|\d+[.,]?\d*시간 후|\d+[.,]?\d*년 전|\d+[.,]?\d*년 후|\d+[.,]?\d*분 전|\d+[.,]?\d*분 후|\d+[.,]?\d*일 전|\d+[.,]?\d*일 후|\d+[.,]?\d*주 전|\d+[.,]?\d*주 후|\d+[.,]?\d*초 전|\d+[.,]?\d*초 후)(\z|[^\pL\pM\d]|_)");
    ld_rx_exact := Some (rx "(?i)^(\d+[.,]?\d*개월 전|\d+[.,]?\d*개월 후|\d+[.,]?\d*시간 전|\d+[.,]?\d*시간 후|\d+[.,]?\d*년 전|\d+[.,]?\d*년 후|\d+[.,]?\d*분 전|\d+[.,]?\d*분 후|\d+[.,]?\d*일 전|\d+[.,]?\d*일 후|\d+[.,]?\d*주 전|\d+[.,]?\d*주 후|\d+[.,]?\d*초 전|\d+[.,]?\d*초 후)$");
    ld_known := [lit "현재 시간";
    lit "다음 달";
    lit "다음 주";
    lit "이번 달";
    lit "이번 주";
    lit "현재 분";
    lit "10월";
    lit "11월";
    lit "12월";
    lit "gmt";
    lit "utc";
    lit "금요일";
    lit "목요일";
    lit "수요일";
    lit "월요일";
    lit "일요일";
    lit "지난달";
    lit "지난주";
    lit "토요일";
    lit "화요일";
    lit "1월";
    lit "2월";
    lit "3월";
    lit "4월";
    lit "5월";
    lit "6월";
    lit "7월";
    lit "8월";
    lit "9월";
    lit "am";
    lit "pm";
    lit "내년";
    lit "내일";
    lit "어제";
    lit "오늘";
    lit "오전";
    lit "오후";
    lit "올해";
    lit "작년";
    lit "지금";
    lit " ";
    lit "'";
    lit "+";
    lit ",";
    lit "-";
    lit ".";
    lit "/";
    lit ":";
    lit ";";
    lit "@";
    lit "[";
    lit "]";
    lit "z";
    lit "|";
    lit "금";
    lit "년";
    lit "목";
    lit "분";
    lit "수";
    lit "시";
    lit "월";
    lit "일";
    lit "주";
    lit "초";
    lit "토";
    lit "화"] |}.

(** ko.go:108-111 *)
Definition own_ko_KP : locale := Eval vm_compute in
  {| ld_name := lit "ko-KP"; ld_order := lit "YMD."; ld_nospacing := false; ld_splitter := 0;
    ld_charset := runes (lit "");
    ld_abbr := [];
    ld_simpl := [];
    ld_trans := [];
    ld_reltype := [];
    ld_relrx := [];
    ld_rx := None;
    ld_rx_exact := None;
    ld_known := [] |}.
Definition loc_ko_KP : locale := merge loc_ko own_ko_KP.

(** kok.go:10-87 *)
Definition loc_kok : locale := Eval vm_compute in
  {| ld_name := lit "kok"; ld_order := lit "YMD"; ld_nospacing := false; ld_splitter := 0;
    ld_charset := runes (lit "cdeghiklnorstuwxyzंआएओकगचजटडतदधनपफबमयरलळवशसहािीुूेैो्");
    ld_abbr := [];
    ld_simpl := [];
    ld_trans := [(lit "आदितयवार", [lit "sunday"]);
    (lit "जानवारी", [lit "january"]);
    (lit "फबरवारी", [lit "february"]);
    (lit "minute", [lit "minute"]);
    (lit "second", [lit "second"]);
    (lit "ओकटोबर", [lit "october"]);
    (lit "नोवहबर", [lit "november"]);
    (lit "शकरवार", [lit "friday"]);
    (lit "शनिवार", [lit "saturday"]);
    (lit "सोमवार", [lit "monday"]);
    (lit "month", [lit "month"]);
    (lit "एपरिल", [lit "april"]);
    (lit "गरवार", [lit "thursday"]);
    (lit "डिसबर", [lit "december"]);
    (lit "बधवार", [lit "wednesday"]);
    (lit "मगळार", [lit "tuesday"]);
    (lit "सपटबर", [lit "september"]);
    (lit "hour", [lit "hour"]);
    (lit "week", [lit "week"]);
    (lit "year", [lit "year"]);
    (lit "ओगसट", [lit "august"]);
    (lit "मारच", [lit "march"]);
    (lit "day", [lit "day"]);
    (lit "gmt", [lit "gmt"]);
    (lit "utc", [lit "utc"]);
    (lit "मगळ", [lit "tuesday"]);
    (lit "रवि", [lit "sunday"]);
    (lit "शकर", [lit "friday"]);
    (lit "शनि", [lit "saturday"]);
    (lit "सोम", [lit "monday"]);
    (lit "am", [lit "am"]);
    (lit "pm", [lit "pm"]);
    (lit "गर", [lit "thursday"]);
    (lit "जन", [lit "june"]);
    (lit "जल", [lit "july"]);
    (lit "बध", [lit "wednesday"]);
    (lit "मन", [lit "pm"]);
    (lit "मप", [lit "am"]);
    (lit " ", [lit " "]);
    (lit "'", [lit ""]);
    (lit "+", [lit "+"]);
    (lit ",", [lit ""]);
    (lit "-", [lit "-"]);
    (lit ".", [lit "."]);
    (lit "/", [lit "/"]);
    (lit ":", [lit ":"]);
    (lit ";", [lit ""]);
    (lit "@", [lit ""]);
    (lit "[", [lit ""]);
    (lit "]", [lit ""]);
    (lit "z", [lit "z"]);
    (lit "|", [lit ""]);
    (lit "म", [lit "may"])];
    ld_reltype := [(lit "this minute", lit "0 minute ago");
    (lit "last month", lit "1 month ago");
    (lit "next month", lit "in 1 month");
    (lit "this month", lit "0 month ago");
    (lit "last week", lit "1 week ago");
    (lit "last year", lit "1 year ago");
    (lit "next week", lit "in 1 week");
    (lit "next year", lit "in 1 year");
    (lit "this hour", lit "0 hour ago");
    (lit "this week", lit "0 week ago");
    (lit "this year", lit "0 year ago");
    (lit "yesterday", lit "1 day ago");
    (lit "tomorrow", lit "in 1 day");
    (lit "today", lit "0 day ago");
    (lit "now", lit "0 second ago")];
    ld_relrx := [];
    ld_rx := None;
    ld_rx_exact := None;
    ld_known := [lit "this minute";
    lit "last month";
    lit "next month";
    lit "this month";
    lit "last week";
    lit "last year";
    lit "next week";
    lit "next year";
    lit "this hour";
    lit "this week";
    lit "this year";
    lit "yesterday";
    lit "tomorrow";
    lit "आदितयवार";
    lit "जानवारी";
    lit "फबरवारी";
    lit "minute";
    lit "second";
    lit "ओकटोबर";
    lit "नोवहबर";
    lit "शकरवार";
    lit "शनिवार";
    lit "सोमवार";
    lit "month";
    lit "today";
    lit "एपरिल";
    lit "गरवार";
    lit "डिसबर";
    lit "बधवार";
    lit "मगळार";
    lit "सपटबर";
    lit "hour";
    lit "week";
    lit "year";
    lit "ओगसट";
    lit "मारच";
    lit "day";
    lit "gmt";
    lit "now";
    lit "utc";
    lit "मगळ";
    lit "रवि";
    lit "शकर";
    lit "शनि";
    lit "सोम";
    lit "am";
    lit "pm";
    lit "गर";
    lit "जन";
    lit "जल";
    lit "बध";
    lit "मन";
    lit "मप";
    lit " ";
    lit "'";
    lit "+";
    lit ",";
    lit "-";
    lit ".";
    lit "/";
    lit ":";
    lit ";";
    lit "@";
    lit "[";
    lit "]";
    lit "z";
    lit "|";
    lit "म"] |}.

(** all patterns above are accepted by the syntax parser *)
Example patterns_ok : forallb (fun s => match parse_regex s with Some _ => true | None => false end)
  [lit "(?i)(\A|[^\pL\pM\d]|_)(\d+[.,]?\d* minggu yang lalu|\d+[.,]?\d* bulan yang lalu|\d+[.,]?\d* detik yang lalu|\d+[.,]?\d* menit yang lalu|\d+[.,]?\d* tahun yang lalu|\d+[.,]?\d* hari yang lalu|\d+[.,]?\d* jam yang lalu|dalam \d+[.,]?\d* minggu|\d+[.,]?\d* minggu lalu|dalam \d+[.,]?\d* bulan|dalam \d+[.,]?\d* detik|dalam \d+[.,]?\d* menit|dalam \d+[.,]?\d* tahun|\d+[.,]?\d* bulan lalu|\d+[.,]?\d* tahun lalu|dalam \d+[.,]?\d* hari|dalam \d+[.,]?\d* jam|\d+[.,]?\d* bln lalu|\d+[.,]?\d* dtk lalu|\d+[.,]?\d* jam lalu|\d+[.,]?\d* mgg lalu|\d+[.,]?\d* mnt lalu|\d+[.,]?\d* thn lalu|dalam \d+[.,]?\d* h|dlm \d+[.,]?\d* bln|dlm \d+[.,]?\d* dtk|dlm \d+[.,]?\d* mgg|dlm \d+[.,]?\d* mnt|dlm \d+[.,]?\d* thn|\d+[.,]?\d* h lalu|\d+[.,]?\d* minggu)(\z|[^\pL\pM\d]|_)";
  lit "(?i)(\A|[^\pL\pM\d]|_)(\d+[.,]?\d* секундтан кеиін|\d+[.,]?\d* минуттан кеиін|\d+[.,]?\d* сағаттан кеиін|\d+[.,]?\d* аптадан кеиін|\d+[.,]?\d* жылдан кеиін|\d+[.,]?\d* күннен кеиін|\d+[.,]?\d* секунд бұрын|\d+[.,]?\d* аидан кеиін|\d+[.,]?\d* минут бұрын|\d+[.,]?\d* сағат бұрын|\d+[.,]?\d* апта бұрын|\d+[.,]?\d* жыл бұрын|\d+[.,]?\d* күн бұрын|\d+[.,]?\d* мин бұрын|\d+[.,]?\d* мин кеиін|\d+[.,]?\d* сағ бұрын|\d+[.,]?\d* сағ кеиін|\d+[.,]?\d* сек бұрын|\d+[.,]?\d* сек кеиін|\d+[.,]?\d* аи бұрын|\d+[.,]?\d* ап бұрын|\d+[.,]?\d* ап кеиін|\d+[.,]?\d* ж бұрын|\d+[.,]?\d* ж кеиін)(\z|[^\pL\pM\d]|_)";
  lit "(?i)(\A|[^\pL\pM\d]|_)(\d+[.,]?\d* ತಂಗಳುಗಳ ಹಂದ|\d+[.,]?\d* ಸಕಂಡುಗಳ ಹಂದ|\d+[.,]?\d* ಗಂಟಗಳ ಹಂದ|\d+[.,]?\d* ತಂಗಳು ಹಂದ|\d+[.,]?\d* ತಂಗಳುಗಳಲಲ|\d+[.,]?\d* ನಮಷಗಳ ಹಂದ|\d+[.,]?\d* ವರಷಗಳ ಹಂದ|\d+[.,]?\d* ವಾರಗಳ ಹಂದ|\d+[.,]?\d* ಸಕಂಡ‌ಗಳಲಲ|\d+[.,]?\d* ತಂಗಳ ಹಂದ|\d+[.,]?\d* ದನಗಳ ಹಂದ|\d+[.,]?\d* ನಮಷದ ಹಂದ|\d+[.,]?\d* ವರಷದ ಹಂದ|\d+[.,]?\d* ವಾರದ ಹಂದ|\d+[.,]?\d* ಸಕಂಡ ಹಂದ|\d+[.,]?\d* ಸಕಂಡ‌ನಲಲ|\d+[.,]?\d* ಗಂಟ ಹಂದ|\d+[.,]?\d* ಗಂಟಗಳಲಲ|\d+[.,]?\d* ದನದ ಹಂದ|\d+[.,]?\d* ನಮಷಗಳಲಲ|\d+[.,]?\d* ವರಷಗಳಲಲ|\d+[.,]?\d* ವಾರಗಳಲಲ|\d+[.,]?\d* ಗಂಟಯಲಲ|\d+[.,]?\d* ತಂಗಳಲಲ|\d+[.,]?\d* ದನಗಳಲಲ|\d+[.,]?\d* ನಮಷದಲಲ|\d+[.,]?\d* ವರಷದಲಲ|\d+[.,]?\d* ವಾರದಲಲ|\d+[.,]?\d* ದನದಲಲ)(\z|[^\pL\pM\d]|_)";
  lit "(?i)(\A|[^\pL\pM\d]|_)(\d+[.,]?\d* კვირის წინ|\d+[.,]?\d* საათის წინ|\d+[.,]?\d* წამის წინ|\d+[.,]?\d* წელიწადში|\d+[.,]?\d* წუთის წინ|\d+[.,]?\d* დღის წინ|\d+[.,]?\d* თვის წინ|\d+[.,]?\d* წლის წინ|\d+[.,]?\d* კვირაში|\d+[.,]?\d* კვ წინ|\d+[.,]?\d* საათში|\d+[.,]?\d* სთ წინ|\d+[.,]?\d* წთ წინ|\d+[.,]?\d* წმ წინ|\d+[.,]?\d* დღეში|\d+[.,]?\d* თვეში|\d+[.,]?\d* წამში|\d+[.,]?\d* წელში|\d+[.,]?\d* წუთში)(\z|[^\pL\pM\d]|_)";
  lit "(?i)(\A|[^\pL\pM\d]|_)(\d+[.,]?\d*개월 전|\d+[.,]?\d*개월 후|\d+[.,]?\d*시간 전|\d+[.,]?\d*시간 후|\d+[.,]?\d*년 전|\d+[.,]?\d*년 후|\d+[.,]?\d*분 전|\d+[.,]?\d*분 후|\d+[.,]?\d*일 전|\d+[.,]?\d*일 후|\d+[.,]?\d*주 전|\d+[.,]?\d*주 후|\d+[.,]?\d*초 전|\d+[.,]?\d*초 후)(\z|[^\pL\pM\d]|_)";
  lit "(?i)(\A|[^\pL\pM\d]|_)(a ten \d+[.,]?\d* sigundu|di li \d+[.,]?\d* sigundu|a ten \d+[.,]?\d* minutu|a ten \d+[.,]?\d* simana|di li \d+[.,]?\d* minutu|di li \d+[.,]?\d* simana|a ten \d+[.,]?\d* anu|a ten \d+[.,]?\d* dia|a ten \d+[.,]?\d* mes|a ten \d+[.,]?\d* min|a ten \d+[.,]?\d* ora|a ten \d+[.,]?\d* sig|a ten \d+[.,]?\d* sim|di li \d+[.,]?\d* anu|di li \d+[.,]?\d* dia|di li \d+[.,]?\d* mes|di li \d+[.,]?\d* min|di li \d+[.,]?\d* ora|di li \d+[.,]?\d* sig|di li \d+[.,]?\d* sim|a ten \d+[.,]?\d* m|a ten \d+[.,]?\d* s|di li \d+[.,]?\d* m|di li \d+[.,]?\d* s)(\z|[^\pL\pM\d]|_)";
  lit "(?i)(\A|[^\pL\pM\d]|_)(eftir \d+[.,]?\d* klukkustundir|fyrir \d+[.,]?\d* klukkustundum|eftir \d+[.,]?\d* klukkustund|fyrir \d+[.,]?\d* klukkustund|eftir \d+[.,]?\d* sekundur|fyrir \d+[.,]?\d* sekundum|eftir \d+[.,]?\d* minutur|eftir \d+[.,]?\d* sekundu|fyrir \d+[.,]?\d* manuðum|fyrir \d+[.,]?\d* minutum|fyrir \d+[.,]?\d* sekundu|eftir \d+[.,]?\d* manuði|eftir \d+[.,]?\d* minutu|fyrir \d+[.,]?\d* manuði|fyrir \d+[.,]?\d* minutu|eftir \d+[.,]?\d* manuð|eftir \d+[.,]?\d* vikur|fyrir \d+[.,]?\d* dogum|fyrir \d+[.,]?\d* vikum|eftir \d+[.,]?\d* daga|eftir \d+[.,]?\d* klst|eftir \d+[.,]?\d* viku|fyrir \d+[.,]?\d* arum|fyrir \d+[.,]?\d* degi|fyrir \d+[.,]?\d* klst|fyrir \d+[.,]?\d* viku|eftir \d+[.,]?\d* dag|eftir \d+[.,]?\d* man|eftir \d+[.,]?\d* min|eftir \d+[.,]?\d* sek|fyrir \d+[.,]?\d* ari|fyrir \d+[.,]?\d* man|fyrir \d+[.,]?\d* min|fyrir \d+[.,]?\d* sek|eftir \d+[.,]?\d* ar)(\z|[^\pL\pM\d]|_)";
  lit "(?i)(\A|[^\pL\pM\d]|_)(for \d+[.,]?\d* nalunaaquttap-akunnera siden|for \d+[.,]?\d* sapaatip-akunnera siden|om \d+[.,]?\d* nalunaaquttap-akunnera|for \d+[.,]?\d* ulloq unnuarlu siden|om \d+[.,]?\d* sapaatip-akunnera|for \d+[.,]?\d* minutsi siden|for \d+[.,]?\d* qaammat siden|for \d+[.,]?\d* sekundi siden|om \d+[.,]?\d* ulloq unnuarlu|for \d+[.,]?\d* ukioq siden|om \d+[.,]?\d* minutsi|om \d+[.,]?\d* qaammat|om \d+[.,]?\d* sekundi|om \d+[.,]?\d* ukioq)(\z|[^\pL\pM\d]|_)";
  lit "(?i)(\A|[^\pL\pM\d]|_)(tra \d+[.,]?\d* settimana|tra \d+[.,]?\d* settimane|\d+[.,]?\d* settimana fa|\d+[.,]?\d* settimane fa|tra \d+[.,]?\d* secondi|tra \d+[.,]?\d* secondo|\d+[.,]?\d* secondi fa|\d+[.,]?\d* secondo fa|tra \d+[.,]?\d* giorni|tra \d+[.,]?\d* giorno|tra \d+[.,]?\d* minuti|tra \d+[.,]?\d* minuto|\d+[.,]?\d* giorni fa|\d+[.,]?\d* giorno fa|\d+[.,]?\d* minuti fa|\d+[.,]?\d* minuto fa|tra \d+[.,]?\d* anni|tra \d+[.,]?\d* anno|tra \d+[.,]?\d* mese|tra \d+[.,]?\d* mesi|tra \d+[.,]?\d* sett|\d+[.,]?\d* anni fa|\d+[.,]?\d* anno fa|\d+[.,]?\d* mese fa|\d+[.,]?\d* mesi fa|\d+[.,]?\d* sett fa|tra \d+[.,]?\d* min|tra \d+[.,]?\d* ora|tra \d+[.,]?\d* ore|tra \d+[.,]?\d* sec|\d+[.,]?\d* min fa|\d+[.,]?\d* ora fa|\d+[.,]?\d* ore fa|\d+[.,]?\d* sec fa|tra \d+[.,]?\d* gg|\d+[.,]?\d* gg fa|tra \d+[.,]?\d* g|tra \d+[.,]?\d* h|tra \d+[.,]?\d* s|\d+[.,]?\d* g fa|\d+[.,]?\d* h fa|\d+[.,]?\d* s fa)(\z|[^\pL\pM\d]|_)";
  lit "(?i)(\A|[^\pL\pM\d]|_)(ɛ gɛ mɔ \d+[.,]?\d* ŋgap-mbi|ɛ gɛ mɔ minut \d+[.,]?\d*|ɛ gɛ mɔ pɛsaŋ \d+[.,]?\d*|nuu ŋgap-mbi \d+[.,]?\d*|ɛ gɛ mɔ \d+[.,]?\d* hawa|ɛ gɛ mɔ lɛꞌ \d+[.,]?\d*|ɛgɛ mɔ ŋguꞌ \d+[.,]?\d*|nuu \d+[.,]?\d* minut|nuu hawa \d+[.,]?\d*|nuu ŋguꞌ \d+[.,]?\d*|nuu \d+[.,]?\d* saŋ|nuu lɛꞌ \d+[.,]?\d*)(\z|[^\pL\pM\d]|_)";
  lit "(?i)(\A|[^\pL\pM\d]|_)(កនង​រយៈ​ពេល \d+[.,]?\d* មោង|\d+[.,]?\d* សបដាហទៀត|\d+[.,]?\d* សបដាហ​មន|\d+[.,]?\d* ថងៃ​​មន|\d+[.,]?\d* នាទ​​មន|\d+[.,]?\d* វនាទទៀត|\d+[.,]?\d* វនាទ​មន|\d+[.,]?\d* ឆនាទៀត|\d+[.,]?\d* ឆនា​មន|\d+[.,]?\d* ថងៃទៀត|\d+[.,]?\d* ថងៃ​មន|\d+[.,]?\d* នាទទៀត|\d+[.,]?\d* នាទ​មន|\d+[.,]?\d* មោងទៀត|\d+[.,]?\d* មោង​មន|\d+[.,]?\d* ខែទៀត|\d+[.,]?\d* ខែមន)(\z|[^\pL\pM\d]|_)";
  lit "(?i)(\A|[^\pL\pM\d_])(\d+[.,]?\d*)\s+ora(\z|[^\pL\pM\d_])";
  lit "(?i)(\A|[^\pL\pM\d_])ერთ(\z|[^\pL\pM\d_])";
  lit "(?i)(\d+[.,]?\d* か月前|\d+[.,]?\d* か月後|\d+[.,]?\d* 時間前|\d+[.,]?\d* 時間後|\d+[.,]?\d* 週間前|\d+[.,]?\d* 週間後|\d+[.,]?\d* 分前|\d+[.,]?\d* 分後|\d+[.,]?\d* 年前|\d+[.,]?\d* 年後|\d+[.,]?\d* 日前|\d+[.,]?\d* 日後|\d+[.,]?\d* 秒前|\d+[.,]?\d* 秒後|\d+[.,]?\d*か月前|\d+[.,]?\d*か月後|\d+[.,]?\d*時間前|\d+[.,]?\d*時間後|\d+[.,]?\d*週間前|\d+[.,]?\d*週間後|\d+[.,]?\d*分前|\d+[.,]?\d*分後|\d+[.,]?\d*年前|\d+[.,]?\d*年後|\d+[.,]?\d*日前|\d+[.,]?\d*日後|\d+[.,]?\d*秒前|\d+[.,]?\d*秒後)";
  lit "(?i)(\d+[.,]?\d*) anni fa";
  lit "(?i)(\d+[.,]?\d*) anno fa";
  lit "(?i)(\d+[.,]?\d*) bln lalu";
  lit "(?i)(\d+[.,]?\d*) bulan lalu";
  lit "(?i)(\d+[.,]?\d*) bulan yang lalu";
  lit "(?i)(\d+[.,]?\d*) detik yang lalu";
  lit "(?i)(\d+[.,]?\d*) dtk lalu";
  lit "(?i)(\d+[.,]?\d*) g fa";
  lit "(?i)(\d+[.,]?\d*) gg fa";
  lit "(?i)(\d+[.,]?\d*) giorni fa";
  lit "(?i)(\d+[.,]?\d*) giorno fa";
  lit "(?i)(\d+[.,]?\d*) h fa";
  lit "(?i)(\d+[.,]?\d*) h lalu";
  lit "(?i)(\d+[.,]?\d*) hari yang lalu";
  lit "(?i)(\d+[.,]?\d*) jam lalu";
  lit "(?i)(\d+[.,]?\d*) jam yang lalu";
  lit "(?i)(\d+[.,]?\d*) menit yang lalu";
  lit "(?i)(\d+[.,]?\d*) mese fa";
  lit "(?i)(\d+[.,]?\d*) mesi fa";
  lit "(?i)(\d+[.,]?\d*) mgg lalu";
  lit "(?i)(\d+[.,]?\d*) min fa";
  lit "(?i)(\d+[.,]?\d*) minggu";
  lit "(?i)(\d+[.,]?\d*) minggu lalu";
  lit "(?i)(\d+[.,]?\d*) minggu yang lalu";
  lit "(?i)(\d+[.,]?\d*) minuti fa";
  lit "(?i)(\d+[.,]?\d*) minuto fa";
  lit "(?i)(\d+[.,]?\d*) mnt lalu";
  lit "(?i)(\d+[.,]?\d*) ora fa";
  lit "(?i)(\d+[.,]?\d*) ore fa";
  lit "(?i)(\d+[.,]?\d*) s fa";
  lit "(?i)(\d+[.,]?\d*) sec fa";
  lit "(?i)(\d+[.,]?\d*) secondi fa";
  lit "(?i)(\d+[.,]?\d*) secondo fa";
  lit "(?i)(\d+[.,]?\d*) sett fa";
  lit "(?i)(\d+[.,]?\d*) settimana fa";
  lit "(?i)(\d+[.,]?\d*) settimane fa";
  lit "(?i)(\d+[.,]?\d*) tahun lalu";
  lit "(?i)(\d+[.,]?\d*) tahun yang lalu";
  lit "(?i)(\d+[.,]?\d*) thn lalu";
  lit "(?i)(\d+[.,]?\d*) аи бұрын";
  lit "(?i)(\d+[.,]?\d*) аидан кеиін";
  lit "(?i)(\d+[.,]?\d*) ап бұрын";
  lit "(?i)(\d+[.,]?\d*) ап кеиін";
  lit "(?i)(\d+[.,]?\d*) апта бұрын";
  lit "(?i)(\d+[.,]?\d*) аптадан кеиін";
  lit "(?i)(\d+[.,]?\d*) ж бұрын";
  lit "(?i)(\d+[.,]?\d*) ж кеиін";
  lit "(?i)(\d+[.,]?\d*) жыл бұрын";
  lit "(?i)(\d+[.,]?\d*) жылдан кеиін";
  lit "(?i)(\d+[.,]?\d*) күн бұрын";
  lit "(?i)(\d+[.,]?\d*) күннен кеиін";
  lit "(?i)(\d+[.,]?\d*) мин бұрын";
  lit "(?i)(\d+[.,]?\d*) мин кеиін";
  lit "(?i)(\d+[.,]?\d*) минут бұрын";
  lit "(?i)(\d+[.,]?\d*) минуттан кеиін";
  lit "(?i)(\d+[.,]?\d*) сағ бұрын";
  lit "(?i)(\d+[.,]?\d*) сағ кеиін";
  lit "(?i)(\d+[.,]?\d*) сағат бұрын";
  lit "(?i)(\d+[.,]?\d*) сағаттан кеиін";
  lit "(?i)(\d+[.,]?\d*) сек бұрын";
  lit "(?i)(\d+[.,]?\d*) сек кеиін";
  lit "(?i)(\d+[.,]?\d*) секунд бұрын";
  lit "(?i)(\d+[.,]?\d*) секундтан кеиін";
  lit "(?i)(\d+[.,]?\d*) ಗಂಟ ಹಂದ";
  lit "(?i)(\d+[.,]?\d*) ಗಂಟಗಳ ಹಂದ";
  lit "(?i)(\d+[.,]?\d*) ಗಂಟಗಳಲಲ";
  lit "(?i)(\d+[.,]?\d*) ಗಂಟಯಲಲ";
  lit "(?i)(\d+[.,]?\d*) ತಂಗಳ ಹಂದ";
  lit "(?i)(\d+[.,]?\d*) ತಂಗಳಲಲ";
  lit "(?i)(\d+[.,]?\d*) ತಂಗಳು ಹಂದ";
  lit "(?i)(\d+[.,]?\d*) ತಂಗಳುಗಳ ಹಂದ";
  lit "(?i)(\d+[.,]?\d*) ತಂಗಳುಗಳಲಲ";
  lit "(?i)(\d+[.,]?\d*) ದನಗಳ ಹಂದ";
  lit "(?i)(\d+[.,]?\d*) ದನಗಳಲಲ";
  lit "(?i)(\d+[.,]?\d*) ದನದ ಹಂದ";
  lit "(?i)(\d+[.,]?\d*) ದನದಲಲ";
  lit "(?i)(\d+[.,]?\d*) ನಮಷಗಳ ಹಂದ";
  lit "(?i)(\d+[.,]?\d*) ನಮಷಗಳಲಲ";
  lit "(?i)(\d+[.,]?\d*) ನಮಷದ ಹಂದ";
  lit "(?i)(\d+[.,]?\d*) ನಮಷದಲಲ";
  lit "(?i)(\d+[.,]?\d*) ವರಷಗಳ ಹಂದ";
  lit "(?i)(\d+[.,]?\d*) ವರಷಗಳಲಲ";
  lit "(?i)(\d+[.,]?\d*) ವರಷದ ಹಂದ";
  lit "(?i)(\d+[.,]?\d*) ವರಷದಲಲ";
  lit "(?i)(\d+[.,]?\d*) ವಾರಗಳ ಹಂದ";
  lit "(?i)(\d+[.,]?\d*) ವಾರಗಳಲಲ";
  lit "(?i)(\d+[.,]?\d*) ವಾರದ ಹಂದ";
  lit "(?i)(\d+[.,]?\d*) ವಾರದಲಲ";
  lit "(?i)(\d+[.,]?\d*) ಸಕಂಡ ಹಂದ";
  lit "(?i)(\d+[.,]?\d*) ಸಕಂಡುಗಳ ಹಂದ";
  lit "(?i)(\d+[.,]?\d*) ಸಕಂಡ‌ಗಳಲಲ";
  lit "(?i)(\d+[.,]?\d*) ಸಕಂಡ‌ನಲಲ";
  lit "(?i)(\d+[.,]?\d*) დღეში";
  lit "(?i)(\d+[.,]?\d*) დღის წინ";
  lit "(?i)(\d+[.,]?\d*) თვეში";
  lit "(?i)(\d+[.,]?\d*) თვის წინ";
  lit "(?i)(\d+[.,]?\d*) კვ წინ";
  lit "(?i)(\d+[.,]?\d*) კვირაში";
  lit "(?i)(\d+[.,]?\d*) კვირის წინ";
  lit "(?i)(\d+[.,]?\d*) საათის წინ";
  lit "(?i)(\d+[.,]?\d*) საათში";
  lit "(?i)(\d+[.,]?\d*) სთ წინ";
  lit "(?i)(\d+[.,]?\d*) წამის წინ";
  lit "(?i)(\d+[.,]?\d*) წამში";
  lit "(?i)(\d+[.,]?\d*) წელიწადში";
  lit "(?i)(\d+[.,]?\d*) წელში";
  lit "(?i)(\d+[.,]?\d*) წთ წინ";
  lit "(?i)(\d+[.,]?\d*) წლის წინ";
  lit "(?i)(\d+[.,]?\d*) წმ წინ";
  lit "(?i)(\d+[.,]?\d*) წუთის წინ";
  lit "(?i)(\d+[.,]?\d*) წუთში";
  lit "(?i)(\d+[.,]?\d*) ខែទៀត";
  lit "(?i)(\d+[.,]?\d*) ខែមន";
  lit "(?i)(\d+[.,]?\d*) ឆនាទៀត";
  lit "(?i)(\d+[.,]?\d*) ឆនា​មន";
  lit "(?i)(\d+[.,]?\d*) ថងៃទៀត";
  lit "(?i)(\d+[.,]?\d*) ថងៃ​មន";
  lit "(?i)(\d+[.,]?\d*) ថងៃ​​មន";
  lit "(?i)(\d+[.,]?\d*) នាទទៀត";
  lit "(?i)(\d+[.,]?\d*) នាទ​មន";
  lit "(?i)(\d+[.,]?\d*) នាទ​​មន";
  lit "(?i)(\d+[.,]?\d*) មោងទៀត";
  lit "(?i)(\d+[.,]?\d*) មោង​មន";
  lit "(?i)(\d+[.,]?\d*) វនាទទៀត";
  lit "(?i)(\d+[.,]?\d*) វនាទ​មន";
  lit "(?i)(\d+[.,]?\d*) សបដាហទៀត";
  lit "(?i)(\d+[.,]?\d*) សបដាហ​មន";
  lit "(?i)(\d+[.,]?\d*) か月前";
  lit "(?i)(\d+[.,]?\d*) か月後";
  lit "(?i)(\d+[.,]?\d*) 分前";
  lit "(?i)(\d+[.,]?\d*) 分後";
  lit "(?i)(\d+[.,]?\d*) 年前";
  lit "(?i)(\d+[.,]?\d*) 年後";
  lit "(?i)(\d+[.,]?\d*) 日前";
  lit "(?i)(\d+[.,]?\d*) 日後";
  lit "(?i)(\d+[.,]?\d*) 時間前";
  lit "(?i)(\d+[.,]?\d*) 時間後";
  lit "(?i)(\d+[.,]?\d*) 秒前";
  lit "(?i)(\d+[.,]?\d*) 秒後";
  lit "(?i)(\d+[.,]?\d*) 週間前";
  lit "(?i)(\d+[.,]?\d*) 週間後";
  lit "(?i)(\d+[.,]?\d*)か月前";
  lit "(?i)(\d+[.,]?\d*)か月後";
  lit "(?i)(\d+[.,]?\d*)分前";
  lit "(?i)(\d+[.,]?\d*)分後";
  lit "(?i)(\d+[.,]?\d*)年(?:\s+)?(\d+[.,]?\d*)月(?:\s+)?(\d+[.,]?\d*)日";
  lit "(?i)(\d+[.,]?\d*)年前";
  lit "(?i)(\d+[.,]?\d*)年後";
  lit "(?i)(\d+[.,]?\d*)日前";
  lit "(?i)(\d+[.,]?\d*)日後";
  lit "(?i)(\d+[.,]?\d*)時$";
  lit "(?i)(\d+[.,]?\d*)時(?:\s+)?(\d+[.,]?\d*)分";
  lit "(?i)(\d+[.,]?\d*)時(?:\s+)?(\d+[.,]?\d*)分(?:\s+)?(\d+[.,]?\d*)秒";
  lit "(?i)(\d+[.,]?\d*)時間前";
  lit "(?i)(\d+[.,]?\d*)時間後";
  lit "(?i)(\d+[.,]?\d*)月(?:\s+)?(\d+[.,]?\d*)日";
  lit "(?i)(\d+[.,]?\d*)秒前";
  lit "(?i)(\d+[.,]?\d*)秒後";
  lit "(?i)(\d+[.,]?\d*)週間前";
  lit "(?i)(\d+[.,]?\d*)週間後";
  lit "(?i)(\d+[.,]?\d*)개월 전";
  lit "(?i)(\d+[.,]?\d*)개월 후";
  lit "(?i)(\d+[.,]?\d*)년 전";
  lit "(?i)(\d+[.,]?\d*)년 후";
  lit "(?i)(\d+[.,]?\d*)분 전";
  lit "(?i)(\d+[.,]?\d*)분 후";
  lit "(?i)(\d+[.,]?\d*)시간 전";
  lit "(?i)(\d+[.,]?\d*)시간 후";
  lit "(?i)(\d+[.,]?\d*)일 전";
  lit "(?i)(\d+[.,]?\d*)일 후";
  lit "(?i)(\d+[.,]?\d*)주 전";
  lit "(?i)(\d+[.,]?\d*)주 후";
  lit "(?i)(\d+[.,]?\d*)초 전";
  lit "(?i)(\d+[.,]?\d*)초 후";
  lit "(?i)^(\d+[.,]?\d* minggu yang lalu|\d+[.,]?\d* bulan yang lalu|\d+[.,]?\d* detik yang lalu|\d+[.,]?\d* menit yang lalu|\d+[.,]?\d* tahun yang lalu|\d+[.,]?\d* hari yang lalu|\d+[.,]?\d* jam yang lalu|dalam \d+[.,]?\d* minggu|\d+[.,]?\d* minggu lalu|dalam \d+[.,]?\d* bulan|dalam \d+[.,]?\d* detik|dalam \d+[.,]?\d* menit|dalam \d+[.,]?\d* tahun|\d+[.,]?\d* bulan lalu|\d+[.,]?\d* tahun lalu|dalam \d+[.,]?\d* hari|dalam \d+[.,]?\d* jam|\d+[.,]?\d* bln lalu|\d+[.,]?\d* dtk lalu|\d+[.,]?\d* jam lalu|\d+[.,]?\d* mgg lalu|\d+[.,]?\d* mnt lalu|\d+[.,]?\d* thn lalu|dalam \d+[.,]?\d* h|dlm \d+[.,]?\d* bln|dlm \d+[.,]?\d* dtk|dlm \d+[.,]?\d* mgg|dlm \d+[.,]?\d* mnt|dlm \d+[.,]?\d* thn|\d+[.,]?\d* h lalu|\d+[.,]?\d* minggu)$";
  lit "(?i)^(\d+[.,]?\d* секундтан кеиін|\d+[.,]?\d* минуттан кеиін|\d+[.,]?\d* сағаттан кеиін|\d+[.,]?\d* аптадан кеиін|\d+[.,]?\d* жылдан кеиін|\d+[.,]?\d* күннен кеиін|\d+[.,]?\d* секунд бұрын|\d+[.,]?\d* аидан кеиін|\d+[.,]?\d* минут бұрын|\d+[.,]?\d* сағат бұрын|\d+[.,]?\d* апта бұрын|\d+[.,]?\d* жыл бұрын|\d+[.,]?\d* күн бұрын|\d+[.,]?\d* мин бұрын|\d+[.,]?\d* мин кеиін|\d+[.,]?\d* сағ бұрын|\d+[.,]?\d* сағ кеиін|\d+[.,]?\d* сек бұрын|\d+[.,]?\d* сек кеиін|\d+[.,]?\d* аи бұрын|\d+[.,]?\d* ап бұрын|\d+[.,]?\d* ап кеиін|\d+[.,]?\d* ж бұрын|\d+[.,]?\d* ж кеиін)$";
  lit "(?i)^(\d+[.,]?\d* ತಂಗಳುಗಳ ಹಂದ|\d+[.,]?\d* ಸಕಂಡುಗಳ ಹಂದ|\d+[.,]?\d* ಗಂಟಗಳ ಹಂದ|\d+[.,]?\d* ತಂಗಳು ಹಂದ|\d+[.,]?\d* ತಂಗಳುಗಳಲಲ|\d+[.,]?\d* ನಮಷಗಳ ಹಂದ|\d+[.,]?\d* ವರಷಗಳ ಹಂದ|\d+[.,]?\d* ವಾರಗಳ ಹಂದ|\d+[.,]?\d* ಸಕಂಡ‌ಗಳಲಲ|\d+[.,]?\d* ತಂಗಳ ಹಂದ|\d+[.,]?\d* ದನಗಳ ಹಂದ|\d+[.,]?\d* ನಮಷದ ಹಂದ|\d+[.,]?\d* ವರಷದ ಹಂದ|\d+[.,]?\d* ವಾರದ ಹಂದ|\d+[.,]?\d* ಸಕಂಡ ಹಂದ|\d+[.,]?\d* ಸಕಂಡ‌ನಲಲ|\d+[.,]?\d* ಗಂಟ ಹಂದ|\d+[.,]?\d* ಗಂಟಗಳಲಲ|\d+[.,]?\d* ದನದ ಹಂದ|\d+[.,]?\d* ನಮಷಗಳಲಲ|\d+[.,]?\d* ವರಷಗಳಲಲ|\d+[.,]?\d* ವಾರಗಳಲಲ|\d+[.,]?\d* ಗಂಟಯಲಲ|\d+[.,]?\d* ತಂಗಳಲಲ|\d+[.,]?\d* ದನಗಳಲಲ|\d+[.,]?\d* ನಮಷದಲಲ|\d+[.,]?\d* ವರಷದಲಲ|\d+[.,]?\d* ವಾರದಲಲ|\d+[.,]?\d* ದನದಲಲ)$";
  lit "(?i)^(\d+[.,]?\d* კვირის წინ|\d+[.,]?\d* საათის წინ|\d+[.,]?\d* წამის წინ|\d+[.,]?\d* წელიწადში|\d+[.,]?\d* წუთის წინ|\d+[.,]?\d* დღის წინ|\d+[.,]?\d* თვის წინ|\d+[.,]?\d* წლის წინ|\d+[.,]?\d* კვირაში|\d+[.,]?\d* კვ წინ|\d+[.,]?\d* საათში|\d+[.,]?\d* სთ წინ|\d+[.,]?\d* წთ წინ|\d+[.,]?\d* წმ წინ|\d+[.,]?\d* დღეში|\d+[.,]?\d* თვეში|\d+[.,]?\d* წამში|\d+[.,]?\d* წელში|\d+[.,]?\d* წუთში)$";
  lit "(?i)^(\d+[.,]?\d* か月前|\d+[.,]?\d* か月後|\d+[.,]?\d* 時間前|\d+[.,]?\d* 時間後|\d+[.,]?\d* 週間前|\d+[.,]?\d* 週間後|\d+[.,]?\d* 分前|\d+[.,]?\d* 分後|\d+[.,]?\d* 年前|\d+[.,]?\d* 年後|\d+[.,]?\d* 日前|\d+[.,]?\d* 日後|\d+[.,]?\d* 秒前|\d+[.,]?\d* 秒後|\d+[.,]?\d*か月前|\d+[.,]?\d*か月後|\d+[.,]?\d*時間前|\d+[.,]?\d*時間後|\d+[.,]?\d*週間前|\d+[.,]?\d*週間後|\d+[.,]?\d*分前|\d+[.,]?\d*分後|\d+[.,]?\d*年前|\d+[.,]?\d*年後|\d+[.,]?\d*日前|\d+[.,]?\d*日後|\d+[.,]?\d*秒前|\d+[.,]?\d*秒後)$";
  lit "(?i)^(\d+[.,]?\d*개월 전|\d+[.,]?\d*개월 후|\d+[.,]?\d*시간 전|\d+[.,]?\d*시간 후|\d+[.,]?\d*년 전|\d+[.,]?\d*년 후|\d+[.,]?\d*분 전|\d+[.,]?\d*분 후|\d+[.,]?\d*일 전|\d+[.,]?\d*일 후|\d+[.,]?\d*주 전|\d+[.,]?\d*주 후|\d+[.,]?\d*초 전|\d+[.,]?\d*초 후)$";
  lit "(?i)^(a ten \d+[.,]?\d* sigundu|di li \d+[.,]?\d* sigundu|a ten \d+[.,]?\d* minutu|a ten \d+[.,]?\d* simana|di li \d+[.,]?\d* minutu|di li \d+[.,]?\d* simana|a ten \d+[.,]?\d* anu|a ten \d+[.,]?\d* dia|a ten \d+[.,]?\d* mes|a ten \d+[.,]?\d* min|a ten \d+[.,]?\d* ora|a ten \d+[.,]?\d* sig|a ten \d+[.,]?\d* sim|di li \d+[.,]?\d* anu|di li \d+[.,]?\d* dia|di li \d+[.,]?\d* mes|di li \d+[.,]?\d* min|di li \d+[.,]?\d* ora|di li \d+[.,]?\d* sig|di li \d+[.,]?\d* sim|a ten \d+[.,]?\d* m|a ten \d+[.,]?\d* s|di li \d+[.,]?\d* m|di li \d+[.,]?\d* s)$";
  lit "(?i)^(eftir \d+[.,]?\d* klukkustundir|fyrir \d+[.,]?\d* klukkustundum|eftir \d+[.,]?\d* klukkustund|fyrir \d+[.,]?\d* klukkustund|eftir \d+[.,]?\d* sekundur|fyrir \d+[.,]?\d* sekundum|eftir \d+[.,]?\d* minutur|eftir \d+[.,]?\d* sekundu|fyrir \d+[.,]?\d* manuðum|fyrir \d+[.,]?\d* minutum|fyrir \d+[.,]?\d* sekundu|eftir \d+[.,]?\d* manuði|eftir \d+[.,]?\d* minutu|fyrir \d+[.,]?\d* manuði|fyrir \d+[.,]?\d* minutu|eftir \d+[.,]?\d* manuð|eftir \d+[.,]?\d* vikur|fyrir \d+[.,]?\d* dogum|fyrir \d+[.,]?\d* vikum|eftir \d+[.,]?\d* daga|eftir \d+[.,]?\d* klst|eftir \d+[.,]?\d* viku|fyrir \d+[.,]?\d* arum|fyrir \d+[.,]?\d* degi|fyrir \d+[.,]?\d* klst|fyrir \d+[.,]?\d* viku|eftir \d+[.,]?\d* dag|eftir \d+[.,]?\d* man|eftir \d+[.,]?\d* min|eftir \d+[.,]?\d* sek|fyrir \d+[.,]?\d* ari|fyrir \d+[.,]?\d* man|fyrir \d+[.,]?\d* min|fyrir \d+[.,]?\d* sek|eftir \d+[.,]?\d* ar)$";
  lit "(?i)^(for \d+[.,]?\d* nalunaaquttap-akunnera siden|for \d+[.,]?\d* sapaatip-akunnera siden|om \d+[.,]?\d* nalunaaquttap-akunnera|for \d+[.,]?\d* ulloq unnuarlu siden|om \d+[.,]?\d* sapaatip-akunnera|for \d+[.,]?\d* minutsi siden|for \d+[.,]?\d* qaammat siden|for \d+[.,]?\d* sekundi siden|om \d+[.,]?\d* ulloq unnuarlu|for \d+[.,]?\d* ukioq siden|om \d+[.,]?\d* minutsi|om \d+[.,]?\d* qaammat|om \d+[.,]?\d* sekundi|om \d+[.,]?\d* ukioq)$";
  lit "(?i)^(tra \d+[.,]?\d* settimana|tra \d+[.,]?\d* settimane|\d+[.,]?\d* settimana fa|\d+[.,]?\d* settimane fa|tra \d+[.,]?\d* secondi|tra \d+[.,]?\d* secondo|\d+[.,]?\d* secondi fa|\d+[.,]?\d* secondo fa|tra \d+[.,]?\d* giorni|tra \d+[.,]?\d* giorno|tra \d+[.,]?\d* minuti|tra \d+[.,]?\d* minuto|\d+[.,]?\d* giorni fa|\d+[.,]?\d* giorno fa|\d+[.,]?\d* minuti fa|\d+[.,]?\d* minuto fa|tra \d+[.,]?\d* anni|tra \d+[.,]?\d* anno|tra \d+[.,]?\d* mese|tra \d+[.,]?\d* mesi|tra \d+[.,]?\d* sett|\d+[.,]?\d* anni fa|\d+[.,]?\d* anno fa|\d+[.,]?\d* mese fa|\d+[.,]?\d* mesi fa|\d+[.,]?\d* sett fa|tra \d+[.,]?\d* min|tra \d+[.,]?\d* ora|tra \d+[.,]?\d* ore|tra \d+[.,]?\d* sec|\d+[.,]?\d* min fa|\d+[.,]?\d* ora fa|\d+[.,]?\d* ore fa|\d+[.,]?\d* sec fa|tra \d+[.,]?\d* gg|\d+[.,]?\d* gg fa|tra \d+[.,]?\d* g|tra \d+[.,]?\d* h|tra \d+[.,]?\d* s|\d+[.,]?\d* g fa|\d+[.,]?\d* h fa|\d+[.,]?\d* s fa)$";
  lit "(?i)^(ɛ gɛ mɔ \d+[.,]?\d* ŋgap-mbi|ɛ gɛ mɔ minut \d+[.,]?\d*|ɛ gɛ mɔ pɛsaŋ \d+[.,]?\d*|nuu ŋgap-mbi \d+[.,]?\d*|ɛ gɛ mɔ \d+[.,]?\d* hawa|ɛ gɛ mɔ lɛꞌ \d+[.,]?\d*|ɛgɛ mɔ ŋguꞌ \d+[.,]?\d*|nuu \d+[.,]?\d* minut|nuu hawa \d+[.,]?\d*|nuu ŋguꞌ \d+[.,]?\d*|nuu \d+[.,]?\d* saŋ|nuu lɛꞌ \d+[.,]?\d*)$";
  lit "(?i)^(កនង​រយៈ​ពេល \d+[.,]?\d* មោង|\d+[.,]?\d* សបដាហទៀត|\d+[.,]?\d* សបដាហ​មន|\d+[.,]?\d* ថងៃ​​មន|\d+[.,]?\d* នាទ​​មន|\d+[.,]?\d* វនាទទៀត|\d+[.,]?\d* វនាទ​មន|\d+[.,]?\d* ឆនាទៀត|\d+[.,]?\d* ឆនា​មន|\d+[.,]?\d* ថងៃទៀត|\d+[.,]?\d* ថងៃ​មន|\d+[.,]?\d* នាទទៀត|\d+[.,]?\d* នាទ​មន|\d+[.,]?\d* មោងទៀត|\d+[.,]?\d* មោង​មន|\d+[.,]?\d* ខែទៀត|\d+[.,]?\d* ខែមន)$";
  lit "(?i)a ten (\d+[.,]?\d*) anu";
  lit "(?i)a ten (\d+[.,]?\d*) dia";
  lit "(?i)a ten (\d+[.,]?\d*) m";
  lit "(?i)a ten (\d+[.,]?\d*) mes";
  lit "(?i)a ten (\d+[.,]?\d*) min";
  lit "(?i)a ten (\d+[.,]?\d*) minutu";
  lit "(?i)a ten (\d+[.,]?\d*) ora";
  lit "(?i)a ten (\d+[.,]?\d*) s";
  lit "(?i)a ten (\d+[.,]?\d*) sig";
  lit "(?i)a ten (\d+[.,]?\d*) sigundu";
  lit "(?i)a ten (\d+[.,]?\d*) sim";
  lit "(?i)a ten (\d+[.,]?\d*) simana";
  lit "(?i)dalam (\d+[.,]?\d*) bulan";
  lit "(?i)dalam (\d+[.,]?\d*) detik";
  lit "(?i)dalam (\d+[.,]?\d*) h";
  lit "(?i)dalam (\d+[.,]?\d*) hari";
  lit "(?i)dalam (\d+[.,]?\d*) jam";
  lit "(?i)dalam (\d+[.,]?\d*) menit";
  lit "(?i)dalam (\d+[.,]?\d*) minggu";
  lit "(?i)dalam (\d+[.,]?\d*) tahun";
  lit "(?i)di li (\d+[.,]?\d*) anu";
  lit "(?i)di li (\d+[.,]?\d*) dia";
  lit "(?i)di li (\d+[.,]?\d*) m";
  lit "(?i)di li (\d+[.,]?\d*) mes";
  lit "(?i)di li (\d+[.,]?\d*) min";
  lit "(?i)di li (\d+[.,]?\d*) minutu";
  lit "(?i)di li (\d+[.,]?\d*) ora";
  lit "(?i)di li (\d+[.,]?\d*) s";
  lit "(?i)di li (\d+[.,]?\d*) sig";
  lit "(?i)di li (\d+[.,]?\d*) sigundu";
  lit "(?i)di li (\d+[.,]?\d*) sim";
  lit "(?i)di li (\d+[.,]?\d*) simana";
  lit "(?i)dlm (\d+[.,]?\d*) bln";
  lit "(?i)dlm (\d+[.,]?\d*) dtk";
  lit "(?i)dlm (\d+[.,]?\d*) mgg";
  lit "(?i)dlm (\d+[.,]?\d*) mnt";
  lit "(?i)dlm (\d+[.,]?\d*) thn";
  lit "(?i)eftir (\d+[.,]?\d*) ar";
  lit "(?i)eftir (\d+[.,]?\d*) dag";
  lit "(?i)eftir (\d+[.,]?\d*) daga";
  lit "(?i)eftir (\d+[.,]?\d*) klst";
  lit "(?i)eftir (\d+[.,]?\d*) klukkustund";
  lit "(?i)eftir (\d+[.,]?\d*) klukkustundir";
  lit "(?i)eftir (\d+[.,]?\d*) man";
  lit "(?i)eftir (\d+[.,]?\d*) manuð";
  lit "(?i)eftir (\d+[.,]?\d*) manuði";
  lit "(?i)eftir (\d+[.,]?\d*) min";
  lit "(?i)eftir (\d+[.,]?\d*) minutu";
  lit "(?i)eftir (\d+[.,]?\d*) minutur";
  lit "(?i)eftir (\d+[.,]?\d*) sek";
  lit "(?i)eftir (\d+[.,]?\d*) sekundu";
  lit "(?i)eftir (\d+[.,]?\d*) sekundur";
  lit "(?i)eftir (\d+[.,]?\d*) viku";
  lit "(?i)eftir (\d+[.,]?\d*) vikur";
  lit "(?i)for (\d+[.,]?\d*) minutsi siden";
  lit "(?i)for (\d+[.,]?\d*) nalunaaquttap-akunnera siden";
  lit "(?i)for (\d+[.,]?\d*) qaammat siden";
  lit "(?i)for (\d+[.,]?\d*) sapaatip-akunnera siden";
  lit "(?i)for (\d+[.,]?\d*) sekundi siden";
  lit "(?i)for (\d+[.,]?\d*) ukioq siden";
  lit "(?i)for (\d+[.,]?\d*) ulloq unnuarlu siden";
  lit "(?i)fyrir (\d+[.,]?\d*) ari";
  lit "(?i)fyrir (\d+[.,]?\d*) arum";
  lit "(?i)fyrir (\d+[.,]?\d*) degi";
  lit "(?i)fyrir (\d+[.,]?\d*) dogum";
  lit "(?i)fyrir (\d+[.,]?\d*) klst";
  lit "(?i)fyrir (\d+[.,]?\d*) klukkustund";
  lit "(?i)fyrir (\d+[.,]?\d*) klukkustundum";
  lit "(?i)fyrir (\d+[.,]?\d*) man";
  lit "(?i)fyrir (\d+[.,]?\d*) manuði";
  lit "(?i)fyrir (\d+[.,]?\d*) manuðum";
  lit "(?i)fyrir (\d+[.,]?\d*) min";
  lit "(?i)fyrir (\d+[.,]?\d*) minutu";
  lit "(?i)fyrir (\d+[.,]?\d*) minutum";
  lit "(?i)fyrir (\d+[.,]?\d*) sek";
  lit "(?i)fyrir (\d+[.,]?\d*) sekundu";
  lit "(?i)fyrir (\d+[.,]?\d*) sekundum";
  lit "(?i)fyrir (\d+[.,]?\d*) viku";
  lit "(?i)fyrir (\d+[.,]?\d*) vikum";
  lit "(?i)nuu (\d+[.,]?\d*) minut";
  lit "(?i)nuu (\d+[.,]?\d*) saŋ";
  lit "(?i)nuu hawa (\d+[.,]?\d*)";
  lit "(?i)nuu lɛꞌ (\d+[.,]?\d*)";
  lit "(?i)nuu ŋgap-mbi (\d+[.,]?\d*)";
  lit "(?i)nuu ŋguꞌ (\d+[.,]?\d*)";
  lit "(?i)om (\d+[.,]?\d*) minutsi";
  lit "(?i)om (\d+[.,]?\d*) nalunaaquttap-akunnera";
  lit "(?i)om (\d+[.,]?\d*) qaammat";
  lit "(?i)om (\d+[.,]?\d*) sapaatip-akunnera";
  lit "(?i)om (\d+[.,]?\d*) sekundi";
  lit "(?i)om (\d+[.,]?\d*) ukioq";
  lit "(?i)om (\d+[.,]?\d*) ulloq unnuarlu";
  lit "(?i)tra (\d+[.,]?\d*) anni";
  lit "(?i)tra (\d+[.,]?\d*) anno";
  lit "(?i)tra (\d+[.,]?\d*) g";
  lit "(?i)tra (\d+[.,]?\d*) gg";
  lit "(?i)tra (\d+[.,]?\d*) giorni";
  lit "(?i)tra (\d+[.,]?\d*) giorno";
  lit "(?i)tra (\d+[.,]?\d*) h";
  lit "(?i)tra (\d+[.,]?\d*) mese";
  lit "(?i)tra (\d+[.,]?\d*) mesi";
  lit "(?i)tra (\d+[.,]?\d*) min";
  lit "(?i)tra (\d+[.,]?\d*) minuti";
  lit "(?i)tra (\d+[.,]?\d*) minuto";
  lit "(?i)tra (\d+[.,]?\d*) ora";
  lit "(?i)tra (\d+[.,]?\d*) ore";
  lit "(?i)tra (\d+[.,]?\d*) s";
  lit "(?i)tra (\d+[.,]?\d*) sec";
  lit "(?i)tra (\d+[.,]?\d*) secondi";
  lit "(?i)tra (\d+[.,]?\d*) secondo";
  lit "(?i)tra (\d+[.,]?\d*) sett";
  lit "(?i)tra (\d+[.,]?\d*) settimana";
  lit "(?i)tra (\d+[.,]?\d*) settimane";
  lit "(?i)ɛ gɛ mɔ (\d+[.,]?\d*) hawa";
  lit "(?i)ɛ gɛ mɔ (\d+[.,]?\d*) ŋgap-mbi";
  lit "(?i)ɛ gɛ mɔ lɛꞌ (\d+[.,]?\d*)";
  lit "(?i)ɛ gɛ mɔ minut (\d+[.,]?\d*)";
  lit "(?i)ɛ gɛ mɔ pɛsaŋ (\d+[.,]?\d*)";
  lit "(?i)ɛgɛ mɔ ŋguꞌ (\d+[.,]?\d*)";
  lit "(?i)កនង​រយៈ​ពេល (\d+[.,]?\d*) មោង";
  lit "(?i)正午"] = true.
Proof. vm_compute. reflexivity. Qed.

Definition table_06 : list (str * locale) :=
  [(lit "id", loc_id);
   (lit "ig", loc_ig);
   (lit "ii", loc_ii);
   (lit "is", loc_is);
   (lit "it", loc_it);
   (lit "it-CH", loc_it_CH);
   (lit "it-SM", loc_it_SM);
   (lit "it-VA", loc_it_VA);
   (lit "ja", loc_ja);
   (lit "jgo", loc_jgo);
   (lit "jmc", loc_jmc);
   (lit "ka", loc_ka);
   (lit "kab", loc_kab);
   (lit "kam", loc_kam);
   (lit "kde", loc_kde);
   (lit "kea", loc_kea);
   (lit "khq", loc_khq);
   (lit "ki", loc_ki);
   (lit "kk", loc_kk);
   (lit "kl", loc_kl);
   (lit "kln", loc_kln);
   (lit "km", loc_km);
   (lit "kn", loc_kn);
   (lit "ko", loc_ko);
   (lit "ko-KP", loc_ko_KP);
   (lit "kok", loc_kok)].

(** each region with its language *)
Definition regions_06 : list (str * str) :=
  [(lit "it-CH", lit "it");
   (lit "it-SM", lit "it");
   (lit "it-VA", lit "it");
   (lit "ko-KP", lit "ko")].
