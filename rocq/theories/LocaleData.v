(** Generated by tools/gen_locales.py from /repo/internal/data. Do not edit. *)
From Verif Require Import GoBase SMap Regex Language.

(** en.go:115-327 *)
Definition loc_en : locale := Eval vm_compute in
  {| ld_name := lit "en"; ld_order := lit "MDY"; ld_nospacing := false; ld_splitter := 1;
    ld_charset := runes (lit "bcdefghijklnorstuvwxyz");
    ld_abbr := [];
    ld_simpl := [(rx "(?i)(\A|[^\pL\pM\d_])an(\z|[^\pL\pM\d_])", lit "${1}1${2}");
    (rx "(?i)(\A|[^\pL\pM\d_])a(\z|[^\pL\pM\d_])", lit "${1}1${2}");
    (rx "(?i)(\A|[^\pL\pM\d_])(?:12\s+)?noon(\z|[^\pL\pM\d_])", lit "${1}12:00${2}");
    (rx "(?i)(\A|[^\pL\pM\d_])(?:12\s+)?midnight(\z|[^\pL\pM\d_])", lit "${1}00:00${2}");
    (rx "(?i)(\A|[^\pL\pM\d_])(\d+[.,]?\d*)h(\d+[.,]?\d*)(\z|[^\pL\pM\d_])", lit "${1}${2}:${3}${4}");
    (rx "(?i)(\A|[^\pL\pM\d_])(from\s+)now(\z|[^\pL\pM\d_])", lit "${1}${2}in${3}");
    (rx "(?i)(\A|[^\pL\pM\d_])less than 1 minute ago(\z|[^\pL\pM\d_])", lit "${1}45 second ago${2}");
    (rx "(?i)(\A|[^\pL\pM\d_])(\d+[.,]?\d*) (decade|year|month|week|day|hour|minute|second)s? later(\z|[^\pL\pM\d_])", lit "${1}in ${2} ${3}${4}");
    (rx "(?i)(\A|[^\pL\pM\d_])one(\z|[^\pL\pM\d_])", lit "${1}1${2}");
    (rx "(?i)(\A|[^\pL\pM\d_])two(\z|[^\pL\pM\d_])", lit "${1}2${2}");
    (rx "(?i)(\A|[^\pL\pM\d_])three(\z|[^\pL\pM\d_])", lit "${1}3${2}");
    (rx "(?i)(\A|[^\pL\pM\d_])four(\z|[^\pL\pM\d_])", lit "${1}4${2}");
    (rx "(?i)(\A|[^\pL\pM\d_])five(\z|[^\pL\pM\d_])", lit "${1}5${2}");
    (rx "(?i)(\A|[^\pL\pM\d_])six(\z|[^\pL\pM\d_])", lit "${1}6${2}");
    (rx "(?i)(\A|[^\pL\pM\d_])seven(\z|[^\pL\pM\d_])", lit "${1}7${2}");
    (rx "(?i)(\A|[^\pL\pM\d_])eight(\z|[^\pL\pM\d_])", lit "${1}8${2}");
    (rx "(?i)(\A|[^\pL\pM\d_])nine(\z|[^\pL\pM\d_])", lit "${1}9${2}");
    (rx "(?i)(\A|[^\pL\pM\d_])ten(\z|[^\pL\pM\d_])", lit "${1}10${2}");
    (rx "(?i)(\A|[^\pL\pM\d_])eleven(\z|[^\pL\pM\d_])", lit "${1}11${2}");
    (rx "(?i)(\A|[^\pL\pM\d_])twelve(\z|[^\pL\pM\d_])", lit "${1}12${2}")];
    ld_trans := [(lit "september", [lit "september"]);
    (lit "wednesday", [lit "wednesday"]);
    (lit "december", [lit "december"]);
    (lit "february", [lit "february"]);
    (lit "from now", [lit "in"]);
    (lit "november", [lit "november"]);
    (lit "saturday", [lit "saturday"]);
    (lit "thursday", [lit "thursday"]);
    (lit "decades", [lit "decade"]);
    (lit "january", [lit "january"]);
    (lit "minutes", [lit "minute"]);
    (lit "october", [lit "october"]);
    (lit "seconds", [lit "second"]);
    (lit "tuesday", [lit "tuesday"]);
    (lit "august", [lit "august"]);
    (lit "before", [lit "ago"]);
    (lit "decade", [lit "decade"]);
    (lit "friday", [lit "friday"]);
    (lit "minute", [lit "minute"]);
    (lit "monday", [lit "monday"]);
    (lit "months", [lit "month"]);
    (lit "second", [lit "second"]);
    (lit "sunday", [lit "sunday"]);
    (lit "about", [lit ""]);
    (lit "after", [lit "in"]);
    (lit "april", [lit "april"]);
    (lit "hours", [lit "hour"]);
    (lit "march", [lit "march"]);
    (lit "month", [lit "month"]);
    (lit "weeks", [lit "week"]);
    (lit "years", [lit "year"]);
    (lit "days", [lit "day"]);
    (lit "hour", [lit "hour"]);
    (lit "july", [lit "july"]);
    (lit "june", [lit "june"]);
    (lit "just", [lit ""]);
    (lit "mins", [lit "minute"]);
    (lit "secs", [lit "second"]);
    (lit "sept", [lit "september"]);
    (lit "tues", [lit "tuesday"]);
    (lit "week", [lit "week"]);
    (lit "year", [lit "year"]);
    (lit "ago", [lit "ago"]);
    (lit "and", [lit ""]);
    (lit "apr", [lit "april"]);
    (lit "aug", [lit "august"]);
    (lit "day", [lit "day"]);
    (lit "dec", [lit "december"]);
    (lit "feb", [lit "february"]);
    (lit "fri", [lit "friday"]);
    (lit "gmt", [lit "gmt"]);
    (lit "hrs", [lit "hour"]);
    (lit "jan", [lit "january"]);
    (lit "jul", [lit "july"]);
    (lit "jun", [lit "june"]);
    (lit "mar", [lit "march"]);
    (lit "may", [lit "may"]);
    (lit "min", [lit "minute"]);
    (lit "mon", [lit "monday"]);
    (lit "nov", [lit "november"]);
    (lit "oct", [lit "october"]);
    (lit "sat", [lit "saturday"]);
    (lit "sec", [lit "second"]);
    (lit "sep", [lit "september"]);
    (lit "sun", [lit "sunday"]);
    (lit "the", [lit ""]);
    (lit "thu", [lit "thursday"]);
    (lit "tue", [lit "tuesday"]);
    (lit "utc", [lit "utc"]);
    (lit "wed", [lit "wednesday"]);
    (lit "ad", [lit ""]);
    (lit "am", [lit "am"]);
    (lit "at", [lit ""]);
    (lit "by", [lit ""]);
    (lit "hr", [lit "hour"]);
    (lit "in", [lit "in"]);
    (lit "mo", [lit "month"]);
    (lit "nd", [lit ""]);
    (lit "of", [lit ""]);
    (lit "on", [lit ""]);
    (lit "pm", [lit "pm"]);
    (lit "rd", [lit ""]);
    (lit "st", [lit ""]);
    (lit "th", [lit ""]);
    (lit "wk", [lit "week"]);
    (lit "yr", [lit "year"]);
    (lit " ", [lit " "]);
    (lit "'", [lit ""]);
    (lit "+", [lit "+"]);
    (lit ",", [lit ""]);
    (lit "-", [lit "-"]);
    (lit ".", [lit "."]);
    (lit "/", [lit "/"]);
    (lit ":", [lit ":"]);
    (lit ";", [lit ""]);
    (lit "@", [lit ""]);
    (lit "[", [lit ""]);
    (lit "]", [lit ""]);
    (lit "d", [lit "day"]);
    (lit "h", [lit "hour"]);
    (lit "m", [lit "minute"]);
    (lit "s", [lit "second"]);
    (lit "y", [lit "year"]);
    (lit "z", [lit "z"]);
    (lit "|", [lit ""])];
    ld_reltype := [(lit "day before yesterday", lit "2 day ago");
    (lit "day after tomorrow", lit "in 2 day");
    (lit "last decade", lit "1 decade ago");
    (lit "next decade", lit "in 1 decade");
    (lit "this decade", lit "1 decade ago");
    (lit "this minute", lit "0 minute ago");
    (lit "last month", lit "1 month ago");
    (lit "next month", lit "in 1 month");
    (lit "this month", lit "0 month ago");
    (lit "last week", lit "1 week ago");
    (lit "last year", lit "1 year ago");
    (lit "next week", lit "in 1 week");
    (lit "next year", lit "in 1 year");
    (lit "this hour", lit "0 hour ago");
    (lit "this week", lit "0 week ago");
    (lit "this year", lit "0 year ago");
    (lit "till date", lit "0 day ago");
    (lit "yesterday", lit "1 day ago");
    (lit "tomorrow", lit "in 1 day");
    (lit "last mo", lit "1 month ago");
    (lit "last wk", lit "1 week ago");
    (lit "last yr", lit "1 year ago");
    (lit "next mo", lit "in 1 month");
    (lit "next wk", lit "in 1 week");
    (lit "next yr", lit "in 1 year");
    (lit "this mo", lit "0 month ago");
    (lit "this wk", lit "0 week ago");
    (lit "this yr", lit "0 year ago");
    (lit "today", lit "0 day ago");
    (lit "now", lit "0 second ago")];
    ld_relrx := [(rx "(?i)(\d+[.,]?\d*) decades? ago", lit "${1} decade ago");
    (rx "(?i)(\d+[.,]?\d*) minutes ago", lit "$1 minute ago");
    (rx "(?i)(\d+[.,]?\d*) seconds ago", lit "$1 second ago");
    (rx "(?i)in (\d+[.,]?\d*) decades?", lit "in ${1} decade");
    (rx "(?i)(\d+[.,]?\d*) minute ago", lit "$1 minute ago");
    (rx "(?i)(\d+[.,]?\d*) months ago", lit "$1 month ago");
    (rx "(?i)(\d+[.,]?\d*) second ago", lit "$1 second ago");
    (rx "(?i)in (\d+[.,]?\d*) minutes", lit "in $1 minute");
    (rx "(?i)in (\d+[.,]?\d*) seconds", lit "in $1 second");
    (rx "(?i)(\d+[.,]?\d*) hours ago", lit "$1 hour ago");
    (rx "(?i)(\d+[.,]?\d*) month ago", lit "$1 month ago");
    (rx "(?i)(\d+[.,]?\d*) weeks ago", lit "$1 week ago");
    (rx "(?i)(\d+[.,]?\d*) years ago", lit "$1 year ago");
    (rx "(?i)in (\d+[.,]?\d*) minute", lit "in $1 minute");
    (rx "(?i)in (\d+[.,]?\d*) months", lit "in $1 month");
    (rx "(?i)in (\d+[.,]?\d*) second", lit "in $1 second");
    (rx "(?i)(\d+[.,]?\d*) days ago", lit "$1 day ago");
    (rx "(?i)(\d+[.,]?\d*) hour ago", lit "$1 hour ago");
    (rx "(?i)(\d+[.,]?\d*) week ago", lit "$1 week ago");
    (rx "(?i)(\d+[.,]?\d*) year ago", lit "$1 year ago");
    (rx "(?i)in (\d+[.,]?\d*) hours", lit "in $1 hour");
    (rx "(?i)in (\d+[.,]?\d*) month", lit "in $1 month");
    (rx "(?i)in (\d+[.,]?\d*) weeks", lit "in $1 week");
    (rx "(?i)in (\d+[.,]?\d*) years", lit "in $1 year");
    (rx "(?i)(\d+[.,]?\d*) day ago", lit "$1 day ago");
    (rx "(?i)(\d+[.,]?\d*) min ago", lit "$1 minute ago");
    (rx "(?i)(\d+[.,]?\d*) sec ago", lit "$1 second ago");
    (rx "(?i)in (\d+[.,]?\d*) days", lit "in $1 day");
    (rx "(?i)in (\d+[.,]?\d*) hour", lit "in $1 hour");
    (rx "(?i)in (\d+[.,]?\d*) week", lit "in $1 week");
    (rx "(?i)in (\d+[.,]?\d*) year", lit "in $1 year");
    (rx "(?i)(\d+[.,]?\d*) hr ago", lit "$1 hour ago");
    (rx "(?i)(\d+[.,]?\d*) mo ago", lit "$1 month ago");
    (rx "(?i)(\d+[.,]?\d*) wk ago", lit "$1 week ago");
    (rx "(?i)(\d+[.,]?\d*) yr ago", lit "$1 year ago");
    (rx "(?i)in (\d+[.,]?\d*) day", lit "in $1 day");
    (rx "(?i)in (\d+[.,]?\d*) min", lit "in $1 minute");
    (rx "(?i)in (\d+[.,]?\d*) sec", lit "in $1 second");
    (rx "(?i)in (\d+[.,]?\d*) hr", lit "in $1 hour");
    (rx "(?i)in (\d+[.,]?\d*) mo", lit "in $1 month");
    (rx "(?i)in (\d+[.,]?\d*) wk", lit "in $1 week");
    (rx "(?i)in (\d+[.,]?\d*) yr", lit "in $1 year")];
    ld_rx := Some (rx "(?i)(\A|[^\pL\pM\d]|_)(\d+[.,]?\d* decades? ago|\d+[.,]?\d* minutes ago|\d+[.,]?\d* seconds ago|in \d+[.,]?\d* decades?|\d+[.,]?\d* minute ago|\d+[.,]?\d* months ago|\d+[.,]?\d* second ago|in \d+[.,]?\d* minutes|in \d+[.,]?\d* seconds|\d+[.,]?\d* hours ago|\d+[.,]?\d* month ago|\d+[.,]?\d* weeks ago|\d+[.,]?\d* years ago|in \d+[.,]?\d* minute|in \d+[.,]?\d* months|in \d+[.,]?\d* second|\d+[.,]?\d* days ago|\d+[.,]?\d* hour ago|\d+[.,]?\d* week ago|\d+[.,]?\d* year ago|in \d+[.,]?\d* hours|in \d+[.,]?\d* month|in \d+[.,]?\d* weeks|in \d+[.,]?\d* years|\d+[.,]?\d* day ago|\d+[.,]?\d* min ago|\d+[.,]?\d* sec ago|in \d+[.,]?\d* days|in \d+[.,]?\d* hour|in \d+[.,]?\d* week|in \d+[.,]?\d* year|\d+[.,]?\d* hr ago|\d+[.,]?\d* mo ago|\d+[.,]?\d* wk ago|\d+[.,]?\d* yr ago|in \d+[.,]?\d* day|in \d+[.,]?\d* min|in \d+[.,]?\d* sec|in \d+[.,]?\d* hr|in \d+[.,]?\d* mo|in \d+[.,]?\d* wk|in \d+[.,]?\d* yr)(\z|[^\pL\pM\d]|_)");
    ld_rx_exact := Some (rx "(?i)^(\d+[.,]?\d* decades? ago|\d+[.,]?\d* minutes ago|\d+[.,]?\d* seconds ago|in \d+[.,]?\d* decades?|\d+[.,]?\d* minute ago|\d+[.,]?\d* months ago|\d+[.,]?\d* second ago|in \d+[.,]?\d* minutes|in \d+[.,]?\d* seconds|\d+[.,]?\d* hours ago|\d+[.,]?\d* month ago|\d+[.,]?\d* weeks ago|\d+[.,]?\d* years ago|in \d+[.,]?\d* minute|in \d+[.,]?\d* months|in \d+[.,]?\d* second|\d+[.,]?\d* days ago|\d+[.,]?\d* hour ago|\d+[.,]?\d* week ago|\d+[.,]?\d* year ago|in \d+[.,]?\d* hours|in \d+[.,]?\d* month|in \d+[.,]?\d* weeks|in \d+[.,]?\d* years|\d+[.,]?\d* day ago|\d+[.,]?\d* min ago|\d+[.,]?\d* sec ago|in \d+[.,]?\d* days|in \d+[.,]?\d* hour|in \d+[.,]?\d* week|in \d+[.,]?\d* year|\d+[.,]?\d* hr ago|\d+[.,]?\d* mo ago|\d+[.,]?\d* wk ago|\d+[.,]?\d* yr ago|in \d+[.,]?\d* day|in \d+[.,]?\d* min|in \d+[.,]?\d* sec|in \d+[.,]?\d* hr|in \d+[.,]?\d* mo|in \d+[.,]?\d* wk|in \d+[.,]?\d* yr)$");
    ld_known := [lit "day before yesterday";
    lit "day after tomorrow";
    lit "last decade";
    lit "next decade";
    lit "this decade";
    lit "this minute";
    lit "last month";
    lit "next month";
    lit "this month";
    lit "last week";
    lit "last year";
    lit "next week";
    lit "next year";
    lit "september";
    lit "this hour";
    lit "this week";
    lit "this year";
    lit "till date";
    lit "wednesday";
    lit "yesterday";
    lit "december";
    lit "february";
    lit "from now";
    lit "november";
    lit "saturday";
    lit "thursday";
    lit "tomorrow";
    lit "decades";
    lit "january";
    lit "last mo";
    lit "last wk";
    lit "last yr";
    lit "minutes";
    lit "next mo";
    lit "next wk";
    lit "next yr";
    lit "october";
    lit "seconds";
    lit "this mo";
    lit "this wk";
    lit "this yr";
    lit "tuesday";
    lit "august";
    lit "before";
    lit "decade";
    lit "friday";
    lit "minute";
    lit "monday";
    lit "months";
    lit "second";
    lit "sunday";
    lit "about";
    lit "after";
    lit "april";
    lit "hours";
    lit "march";
    lit "month";
    lit "today";
    lit "weeks";
    lit "years";
    lit "days";
    lit "hour";
    lit "july";
    lit "june";
    lit "just";
    lit "mins";
    lit "secs";
    lit "sept";
    lit "tues";
    lit "week";
    lit "year";
    lit "ago";
    lit "and";
    lit "apr";
    lit "aug";
    lit "day";
    lit "dec";
    lit "feb";
    lit "fri";
    lit "gmt";
    lit "hrs";
    lit "jan";
    lit "jul";
    lit "jun";
    lit "mar";
    lit "may";
    lit "min";
    lit "mon";
    lit "nov";
    lit "now";
    lit "oct";
    lit "sat";
    lit "sec";
    lit "sep";
    lit "sun";
    lit "the";
    lit "thu";
    lit "tue";
    lit "utc";
    lit "wed";
    lit "ad";
    lit "am";
    lit "at";
    lit "by";
    lit "hr";
    lit "in";
    lit "mo";
    lit "nd";
    lit "of";
    lit "on";
    lit "pm";
    lit "rd";
    lit "st";
    lit "th";
    lit "wk";
    lit "yr";
    lit " ";
    lit "'";
    lit "+";
    lit ",";
    lit "-";
    lit ".";
    lit "/";
    lit ":";
    lit ";";
    lit "@";
    lit "[";
    lit "]";
    lit "d";
    lit "h";
    lit "m";
    lit "s";
    lit "y";
    lit "z";
    lit "|"] |}.

(** en.go:496-498 *)
Definition loc_en_GB : locale := Eval vm_compute in
  merge loc_en
  {| ld_name := lit "en-GB"; ld_order := lit "DMY"; ld_nospacing := false; ld_splitter := 0;
    ld_charset := runes (lit "");
    ld_abbr := [];
    ld_simpl := [];
    ld_trans := [];
    ld_reltype := [];
    ld_relrx := [];
    ld_rx := None;
    ld_rx_exact := None;
    ld_known := [] |}.

(** es.go:39-204 *)
Definition loc_es : locale := Eval vm_compute in
  {| ld_name := lit "es"; ld_order := lit "DMY"; ld_nospacing := false; ld_splitter := 2;
    ld_charset := runes (lit "bcdefghijlnorstuvxyzáéíñó");
    ld_abbr := [];
    ld_simpl := [(rx "(?i)(\A|[^\pL\pM\d_])una(\z|[^\pL\pM\d_])", lit "${1}1${2}");
    (rx "(?i)(\A|[^\pL\pM\d_])un(\z|[^\pL\pM\d_])", lit "${1}1${2}")];
    ld_trans := [(lit "septiembre", [lit "september"]);
    (lit "diciembre", [lit "december"]);
    (lit "miercoles", [lit "wednesday"]);
    (lit "noviembre", [lit "november"]);
    (lit "setiembre", [lit "september"]);
    (lit "segundos", [lit "second"]);
    (lit "domingo", [lit "sunday"]);
    (lit "febrero", [lit "february"]);
    (lit "minutos", [lit "minute"]);
    (lit "octubre", [lit "october"]);
    (lit "segundo", [lit "second"]);
    (lit "semanas", [lit "week"]);
    (lit "viernes", [lit "friday"]);
    (lit "agosto", [lit "august"]);
    (lit "jueves", [lit "thursday"]);
    (lit "martes", [lit "tuesday"]);
    (lit "minuto", [lit "minute"]);
    (lit "sabado", [lit "saturday"]);
    (lit "semana", [lit "week"]);
    (lit "a las", [lit ""]);
    (lit "abril", [lit "april"]);
    (lit "cerca", [lit ""]);
    (lit "enero", [lit "january"]);
    (lit "horas", [lit "hour"]);
    (lit "julio", [lit "july"]);
    (lit "junio", [lit "june"]);
    (lit "lunes", [lit "monday"]);
    (lit "marzo", [lit "march"]);
    (lit "meses", [lit "month"]);
    (lit "anos", [lit "year"]);
    (lit "dias", [lit "day"]);
    (lit "hace", [lit "ago"]);
    (lit "hora", [lit "hour"]);
    (lit "mayo", [lit "may"]);
    (lit "sept", [lit "september"]);
    (lit "abr", [lit "april"]);
    (lit "ago", [lit "august"]);
    (lit "ano", [lit "year"]);
    (lit "del", [lit ""]);
    (lit "dia", [lit "day"]);
    (lit "dic", [lit "december"]);
    (lit "dom", [lit "sunday"]);
    (lit "ene", [lit "january"]);
    (lit "feb", [lit "february"]);
    (lit "gmt", [lit "gmt"]);
    (lit "jue", [lit "thursday"]);
    (lit "jul", [lit "july"]);
    (lit "jun", [lit "june"]);
    (lit "lun", [lit "monday"]);
    (lit "mar", [lit "march"; lit "tuesday"]);
    (lit "may", [lit "may"]);
    (lit "mes", [lit "month"]);
    (lit "mie", [lit "wednesday"]);
    (lit "min", [lit "minute"]);
    (lit "nov", [lit "november"]);
    (lit "oct", [lit "october"]);
    (lit "sab", [lit "saturday"]);
    (lit "sem", [lit "week"]);
    (lit "sep", [lit "september"]);
    (lit "set", [lit "september"]);
    (lit "utc", [lit "utc"]);
    (lit "vie", [lit "friday"]);
    (lit "am", [lit "am"]);
    (lit "de", [lit ""]);
    (lit "do", [lit "sunday"]);
    (lit "en", [lit "in"]);
    (lit "ju", [lit "thursday"]);
    (lit "lu", [lit "monday"]);
    (lit "mi", [lit "wednesday"]);
    (lit "pm", [lit "pm"]);
    (lit "sa", [lit "saturday"]);
    (lit "vi", [lit "friday"]);
    (lit " ", [lit " "]);
    (lit "'", [lit ""]);
    (lit "+", [lit "+"]);
    (lit ",", [lit ""]);
    (lit "-", [lit "-"]);
    (lit ".", [lit "."]);
    (lit "/", [lit "/"]);
    (lit ":", [lit ":"]);
    (lit ";", [lit ""]);
    (lit "@", [lit ""]);
    (lit "[", [lit ""]);
    (lit "]", [lit ""]);
    (lit "a", [lit "year"]);
    (lit "d", [lit "day"]);
    (lit "h", [lit "hour"]);
    (lit "m", [lit "month"]);
    (lit "s", [lit "second"]);
    (lit "y", [lit ""]);
    (lit "z", [lit "z"]);
    (lit "|", [lit ""])];
    ld_reltype := [(lit "la proxima semana", lit "in 1 week");
    (lit "la semana pasada", lit "1 week ago");
    (lit "el proximo ano", lit "in 1 year");
    (lit "el proximo mes", lit "in 1 month");
    (lit "el ano pasado", lit "1 year ago");
    (lit "el mes pasado", lit "1 month ago");
    (lit "esta semana", lit "0 week ago");
    (lit "este minuto", lit "0 minute ago");
    (lit "esta hora", lit "0 hour ago");
    (lit "anteayer", lit "2 day ago");
    (lit "este ano", lit "0 year ago");
    (lit "este mes", lit "0 month ago");
    (lit "manana", lit "in 1 day");
    (lit "ahora", lit "0 second ago");
    (lit "ayer", lit "1 day ago");
    (lit "hoy", lit "0 day ago")];
    ld_relrx := [(rx "(?i)dentro de (\d+[.,]?\d*) segundos", lit "in $1 second");
    (rx "(?i)dentro de (\d+[.,]?\d*) minutos", lit "in $1 minute");
    (rx "(?i)dentro de (\d+[.,]?\d*) segundo", lit "in $1 second");
    (rx "(?i)dentro de (\d+[.,]?\d*) semanas", lit "in $1 week");
    (rx "(?i)dentro de (\d+[.,]?\d*) minuto", lit "in $1 minute");
    (rx "(?i)dentro de (\d+[.,]?\d*) semana", lit "in $1 week");
    (rx "(?i)dentro de (\d+[.,]?\d*) horas", lit "in $1 hour");
    (rx "(?i)dentro de (\d+[.,]?\d*) meses", lit "in $1 month");
    (rx "(?i)dentro de (\d+[.,]?\d*) anos", lit "in $1 year");
    (rx "(?i)dentro de (\d+[.,]?\d*) dias", lit "in $1 day");
    (rx "(?i)dentro de (\d+[.,]?\d*) hora", lit "in $1 hour");
    (rx "(?i)dentro de (\d+[.,]?\d*) ano", lit "in $1 year");
    (rx "(?i)dentro de (\d+[.,]?\d*) dia", lit "in $1 day");
    (rx "(?i)dentro de (\d+[.,]?\d*) mes", lit "in $1 month");
    (rx "(?i)dentro de (\d+[.,]?\d*) min", lit "in $1 minute");
    (rx "(?i)dentro de (\d+[.,]?\d*) sem", lit "in $1 week");
    (rx "(?i)hace (\d+[.,]?\d*) segundos", lit "$1 second ago");
    (rx "(?i)hace (\d+[.,]?\d*) minutos", lit "$1 minute ago");
    (rx "(?i)hace (\d+[.,]?\d*) segundo", lit "$1 second ago");
    (rx "(?i)hace (\d+[.,]?\d*) semanas", lit "$1 week ago");
    (rx "(?i)dentro de (\d+[.,]?\d*) a", lit "in $1 year");
    (rx "(?i)dentro de (\d+[.,]?\d*) h", lit "in $1 hour");
    (rx "(?i)dentro de (\d+[.,]?\d*) m", lit "in $1 month");
    (rx "(?i)dentro de (\d+[.,]?\d*) s", lit "in $1 second");
    (rx "(?i)hace (\d+[.,]?\d*) minuto", lit "$1 minute ago");
    (rx "(?i)hace (\d+[.,]?\d*) semana", lit "$1 week ago");
    (rx "(?i)hace (\d+[.,]?\d*) horas", lit "$1 hour ago");
    (rx "(?i)hace (\d+[.,]?\d*) meses", lit "$1 month ago");
    (rx "(?i)hace (\d+[.,]?\d*) anos", lit "$1 year ago");
    (rx "(?i)hace (\d+[.,]?\d*) dias", lit "$1 day ago");
    (rx "(?i)hace (\d+[.,]?\d*) hora", lit "$1 hour ago");
    (rx "(?i)hace (\d+[.,]?\d*) ano", lit "$1 year ago");
    (rx "(?i)hace (\d+[.,]?\d*) dia", lit "$1 day ago");
    (rx "(?i)hace (\d+[.,]?\d*) mes", lit "$1 month ago");
    (rx "(?i)hace (\d+[.,]?\d*) min", lit "$1 minute ago");
    (rx "(?i)hace (\d+[.,]?\d*) sem", lit "$1 week ago");
    (rx "(?i)hace (\d+[.,]?\d*) a", lit "$1 year ago");
    (rx "(?i)hace (\d+[.,]?\d*) h", lit "$1 hour ago");
    (rx "(?i)hace (\d+[.,]?\d*) m", lit "$1 month ago");
    (rx "(?i)hace (\d+[.,]?\d*) s", lit "$1 second ago")];
    ld_rx := Some (rx "(?i)(\A|[^\pL\pM\d]|_)(dentro de \d+[.,]?\d* segundos|dentro de \d+[.,]?\d* minutos|dentro de \d+[.,]?\d* segundo|dentro de \d+[.,]?\d* semanas|dentro de \d+[.,]?\d* minuto|dentro de \d+[.,]?\d* semana|dentro de \d+[.,]?\d* horas|dentro de \d+[.,]?\d* meses|dentro de \d+[.,]?\d* anos|dentro de \d+[.,]?\d* dias|dentro de \d+[.,]?\d* hora|dentro de \d+[.,]?\d* ano|dentro de \d+[.,]?\d* dia|dentro de \d+[.,]?\d* mes|dentro de \d+[.,]?\d* min|dentro de \d+[.,]?\d* sem|hace \d+[.,]?\d* segundos|hace \d+[.,]?\d* minutos|hace \d+[.,]?\d* segundo|hace \d+[.,]?\d* semanas|dentro de \d+[.,]?\d* a|dentro de \d+[.,]?\d* h|dentro de \d+[.,]?\d* m|dentro de \d+[.,]?\d* s|hace \d+[.,]?\d* minuto|hace \d+[.,]?\d* semana|hace \d+[.,]?\d* horas|hace \d+[.,]?\d* meses|hace \d+[.,]?\d* anos|hace \d+[.,]?\d* dias|hace \d+[.,]?\d* hora|hace \d+[.,]?\d* ano|hace \d+[.,]?\d* dia|hace \d+[.,]?\d* mes|hace \d+[.,]?\d* min|hace \d+[.,]?\d* sem|hace \d+[.,]?\d* a|hace \d+[.,]?\d* h|hace \d+[.,]?\d* m|hace \d+[.,]?\d* s)(\z|[^\pL\pM\d]|_)");
    ld_rx_exact := Some (rx "(?i)^(dentro de \d+[.,]?\d* segundos|dentro de \d+[.,]?\d* minutos|dentro de \d+[.,]?\d* segundo|dentro de \d+[.,]?\d* semanas|dentro de \d+[.,]?\d* minuto|dentro de \d+[.,]?\d* semana|dentro de \d+[.,]?\d* horas|dentro de \d+[.,]?\d* meses|dentro de \d+[.,]?\d* anos|dentro de \d+[.,]?\d* dias|dentro de \d+[.,]?\d* hora|dentro de \d+[.,]?\d* ano|dentro de \d+[.,]?\d* dia|dentro de \d+[.,]?\d* mes|dentro de \d+[.,]?\d* min|dentro de \d+[.,]?\d* sem|hace \d+[.,]?\d* segundos|hace \d+[.,]?\d* minutos|hace \d+[.,]?\d* segundo|hace \d+[.,]?\d* semanas|dentro de \d+[.,]?\d* a|dentro de \d+[.,]?\d* h|dentro de \d+[.,]?\d* m|dentro de \d+[.,]?\d* s|hace \d+[.,]?\d* minuto|hace \d+[.,]?\d* semana|hace \d+[.,]?\d* horas|hace \d+[.,]?\d* meses|hace \d+[.,]?\d* anos|hace \d+[.,]?\d* dias|hace \d+[.,]?\d* hora|hace \d+[.,]?\d* ano|hace \d+[.,]?\d* dia|hace \d+[.,]?\d* mes|hace \d+[.,]?\d* min|hace \d+[.,]?\d* sem|hace \d+[.,]?\d* a|hace \d+[.,]?\d* h|hace \d+[.,]?\d* m|hace \d+[.,]?\d* s)$");
    ld_known := [lit "la proxima semana";
    lit "la semana pasada";
    lit "el proximo ano";
    lit "el proximo mes";
    lit "el ano pasado";
    lit "el mes pasado";
    lit "esta semana";
    lit "este minuto";
    lit "septiembre";
    lit "diciembre";
    lit "esta hora";
    lit "miercoles";
    lit "noviembre";
    lit "setiembre";
    lit "anteayer";
    lit "este ano";
    lit "este mes";
    lit "segundos";
    lit "domingo";
    lit "febrero";
    lit "minutos";
    lit "octubre";
    lit "segundo";
    lit "semanas";
    lit "viernes";
    lit "agosto";
    lit "jueves";
    lit "manana";
    lit "martes";
    lit "minuto";
    lit "sabado";
    lit "semana";
    lit "a las";
    lit "abril";
    lit "ahora";
    lit "cerca";
    lit "enero";
    lit "horas";
    lit "julio";
    lit "junio";
    lit "lunes";
    lit "marzo";
    lit "meses";
    lit "anos";
    lit "ayer";
    lit "dias";
    lit "hace";
    lit "hora";
    lit "mayo";
    lit "sept";
    lit "abr";
    lit "ago";
    lit "ano";
    lit "del";
    lit "dia";
    lit "dic";
    lit "dom";
    lit "ene";
    lit "feb";
    lit "gmt";
    lit "hoy";
    lit "jue";
    lit "jul";
    lit "jun";
    lit "lun";
    lit "mar";
    lit "may";
    lit "mes";
    lit "mie";
    lit "min";
    lit "nov";
    lit "oct";
    lit "sab";
    lit "sem";
    lit "sep";
    lit "set";
    lit "utc";
    lit "vie";
    lit "am";
    lit "de";
    lit "do";
    lit "en";
    lit "ju";
    lit "lu";
    lit "mi";
    lit "pm";
    lit "sa";
    lit "vi";
    lit " ";
    lit "'";
    lit "+";
    lit ",";
    lit "-";
    lit ".";
    lit "/";
    lit ":";
    lit ";";
    lit "@";
    lit "[";
    lit "]";
    lit "a";
    lit "d";
    lit "h";
    lit "m";
    lit "s";
    lit "y";
    lit "z";
    lit "|"] |}.

(** de.go:18-205 *)
Definition loc_de : locale := Eval vm_compute in
  {| ld_name := lit "de"; ld_order := lit "DMY"; ld_nospacing := false; ld_splitter := 1;
    ld_charset := runes (lit "bcdefghijklnorstuvwzäü");
    ld_abbr := [];
    ld_simpl := [(rx "(?i)(\A|[^\pL\pM\d_])einer(\z|[^\pL\pM\d_])", lit "${1}1${2}");
    (rx "(?i)(\A|[^\pL\pM\d_])einem(\z|[^\pL\pM\d_])", lit "${1}1${2}");
    (rx "(?i)(\A|[^\pL\pM\d_])ein(\z|[^\pL\pM\d_])", lit "${1}1${2}");
    (rx "(?i)(\A|[^\pL\pM\d_])zwei(\z|[^\pL\pM\d_])", lit "${1}2${2}");
    (rx "(?i)(\A|[^\pL\pM\d_])drei(\z|[^\pL\pM\d_])", lit "${1}3${2}");
    (rx "(?i)(\A|[^\pL\pM\d_])vier(\z|[^\pL\pM\d_])", lit "${1}4${2}");
    (rx "(?i)(\A|[^\pL\pM\d_])funf(\z|[^\pL\pM\d_])", lit "${1}5${2}");
    (rx "(?i)(\A|[^\pL\pM\d_])sechs(\z|[^\pL\pM\d_])", lit "${1}6${2}");
    (rx "(?i)(\A|[^\pL\pM\d_])sieben(\z|[^\pL\pM\d_])", lit "${1}7${2}");
    (rx "(?i)(\A|[^\pL\pM\d_])acht(\z|[^\pL\pM\d_])", lit "${1}8${2}");
    (rx "(?i)(\A|[^\pL\pM\d_])neun(\z|[^\pL\pM\d_])", lit "${1}9${2}");
    (rx "(?i)(\A|[^\pL\pM\d_])zehn(\z|[^\pL\pM\d_])", lit "${1}10${2}");
    (rx "(?i)(\A|[^\pL\pM\d_])elf(\z|[^\pL\pM\d_])", lit "${1}11${2}");
    (rx "(?i)(\A|[^\pL\pM\d_])zwolf(\z|[^\pL\pM\d_])", lit "${1}12${2}")];
    ld_trans := [(lit "donnerstag", [lit "thursday"]);
    (lit "september", [lit "september"]);
    (lit "dezember", [lit "december"]);
    (lit "dienstag", [lit "tuesday"]);
    (lit "mittwoch", [lit "wednesday"]);
    (lit "november", [lit "november"]);
    (lit "sekunden", [lit "second"]);
    (lit "februar", [lit "february"]);
    (lit "freitag", [lit "friday"]);
    (lit "minuten", [lit "minute"]);
    (lit "monaten", [lit "month"]);
    (lit "oktober", [lit "october"]);
    (lit "samstag", [lit "saturday"]);
    (lit "sekunde", [lit "second"]);
    (lit "sonntag", [lit "sunday"]);
    (lit "stunden", [lit "hour"]);
    (lit "august", [lit "august"]);
    (lit "jahren", [lit "year"]);
    (lit "janner", [lit "january"]);
    (lit "januar", [lit "january"]);
    (lit "minute", [lit "minute"]);
    (lit "monate", [lit "month"]);
    (lit "montag", [lit "monday"]);
    (lit "stunde", [lit "hour"]);
    (lit "wochen", [lit "week"]);
    (lit "april", [lit "april"]);
    (lit "feber", [lit "february"]);
    (lit "jahre", [lit "year"]);
    (lit "monat", [lit "month"]);
    (lit "nachm", [lit "pm"]);
    (lit "tagen", [lit "day"]);
    (lit "woche", [lit "week"]);
    (lit "etwa", [lit ""]);
    (lit "jahr", [lit "year"]);
    (lit "juli", [lit "july"]);
    (lit "juni", [lit "june"]);
    (lit "marz", [lit "march"]);
    (lit "sept", [lit "september"]);
    (lit "tage", [lit "day"]);
    (lit "vorm", [lit "am"]);
    (lit "apr", [lit "april"]);
    (lit "aug", [lit "august"]);
    (lit "dez", [lit "december"]);
    (lit "die", [lit "tuesday"]);
    (lit "don", [lit "thursday"]);
    (lit "feb", [lit "february"]);
    (lit "fre", [lit "friday"]);
    (lit "gmt", [lit "gmt"]);
    (lit "jan", [lit "january"]);
    (lit "jul", [lit "july"]);
    (lit "jun", [lit "june"]);
    (lit "mai", [lit "may"]);
    (lit "mar", [lit "march"]);
    (lit "min", [lit "minute"]);
    (lit "mit", [lit "wednesday"]);
    (lit "mon", [lit "monday"]);
    (lit "mrz", [lit "march"]);
    (lit "nov", [lit "november"]);
    (lit "okt", [lit "october"]);
    (lit "sam", [lit "saturday"]);
    (lit "sek", [lit "second"]);
    (lit "sep", [lit "september"]);
    (lit "son", [lit "sunday"]);
    (lit "std", [lit "hour"]);
    (lit "tag", [lit "day"]);
    (lit "uhr", [lit ""]);
    (lit "und", [lit ""]);
    (lit "utc", [lit "utc"]);
    (lit "vor", [lit "ago"]);
    (lit "am", [lit "am"]);
    (lit "di", [lit "tuesday"]);
    (lit "do", [lit "thursday"]);
    (lit "fr", [lit "friday"]);
    (lit "im", [lit "in"]);
    (lit "in", [lit "in"]);
    (lit "mi", [lit "wednesday"]);
    (lit "mo", [lit "monday"]);
    (lit "pm", [lit "pm"]);
    (lit "sa", [lit "saturday"]);
    (lit "so", [lit "sunday"]);
    (lit "um", [lit ""]);
    (lit " ", [lit " "]);
    (lit "'", [lit ""]);
    (lit "+", [lit "+"]);
    (lit ",", [lit ""]);
    (lit "-", [lit "-"]);
    (lit ".", [lit "."]);
    (lit "/", [lit "/"]);
    (lit ":", [lit ":"]);
    (lit ";", [lit ""]);
    (lit "@", [lit ""]);
    (lit "[", [lit ""]);
    (lit "]", [lit ""]);
    (lit "j", [lit "year"]);
    (lit "m", [lit "month"]);
    (lit "w", [lit "week"]);
    (lit "z", [lit "z"]);
    (lit "|", [lit ""])];
    ld_reltype := [(lit "in dieser minute", lit "0 minute ago");
    (lit "in dieser stunde", lit "0 hour ago");
    (lit "nachsten monat", lit "in 1 month");
    (lit "letzten monat", lit "1 month ago");
    (lit "nachste woche", lit "in 1 week");
    (lit "nachstes jahr", lit "in 1 year");
    (lit "diesen monat", lit "0 month ago");
    (lit "letzte woche", lit "1 week ago");
    (lit "letztes jahr", lit "1 year ago");
    (lit "diese woche", lit "0 week ago");
    (lit "dieses jahr", lit "0 year ago");
    (lit "ubermorgen", lit "in 2 day");
    (lit "vorgestern", lit "2 day ago");
    (lit "gestern", lit "1 day ago");
    (lit "morgen", lit "in 1 day");
    (lit "heute", lit "0 day ago");
    (lit "jetzt", lit "0 second ago")];
    ld_relrx := [(rx "(?i)vor (\d+[.,]?\d*) sekunden", lit "$1 second ago");
    (rx "(?i)in (\d+[.,]?\d*) sekunden", lit "in $1 second");
    (rx "(?i)vor (\d+[.,]?\d*) minuten", lit "$1 minute ago");
    (rx "(?i)vor (\d+[.,]?\d*) monaten", lit "$1 month ago");
    (rx "(?i)vor (\d+[.,]?\d*) sekunde", lit "$1 second ago");
    (rx "(?i)vor (\d+[.,]?\d*) stunden", lit "$1 hour ago");
    (rx "(?i)in (\d+[.,]?\d*) minuten", lit "in $1 minute");
    (rx "(?i)in (\d+[.,]?\d*) monaten", lit "in $1 month");
    (rx "(?i)in (\d+[.,]?\d*) sekunde", lit "in $1 second");
    (rx "(?i)in (\d+[.,]?\d*) stunden", lit "in $1 hour");
    (rx "(?i)vor (\d+[.,]?\d*) jahren", lit "$1 year ago");
    (rx "(?i)vor (\d+[.,]?\d*) minute", lit "$1 minute ago");
    (rx "(?i)vor (\d+[.,]?\d*) stunde", lit "$1 hour ago");
    (rx "(?i)vor (\d+[.,]?\d*) wochen", lit "$1 week ago");
    (rx "(?i)in (\d+[.,]?\d*) jahren", lit "in $1 year");
    (rx "(?i)in (\d+[.,]?\d*) minute", lit "in $1 minute");
    (rx "(?i)in (\d+[.,]?\d*) stunde", lit "in $1 hour");
    (rx "(?i)in (\d+[.,]?\d*) wochen", lit "in $1 week");
    (rx "(?i)vor (\d+[.,]?\d*) monat", lit "$1 month ago");
    (rx "(?i)vor (\d+[.,]?\d*) tagen", lit "$1 day ago");
    (rx "(?i)vor (\d+[.,]?\d*) woche", lit "$1 week ago");
    (rx "(?i)in (\d+[.,]?\d*) monat", lit "in $1 month");
    (rx "(?i)in (\d+[.,]?\d*) tagen", lit "in $1 day");
    (rx "(?i)in (\d+[.,]?\d*) woche", lit "in $1 week");
    (rx "(?i)vor (\d+[.,]?\d*) jahr", lit "$1 year ago");
    (rx "(?i)in (\d+[.,]?\d*) jahr", lit "in $1 year");
    (rx "(?i)vor (\d+[.,]?\d*) min", lit "$1 minute ago");
    (rx "(?i)vor (\d+[.,]?\d*) sek", lit "$1 second ago");
    (rx "(?i)vor (\d+[.,]?\d*) std", lit "$1 hour ago");
    (rx "(?i)vor (\d+[.,]?\d*) tag", lit "$1 day ago");
    (rx "(?i)vor (\d+[.,]?\d*)\s*h", lit "${1} hour ago");
    (rx "(?i)vor (\d+[.,]?\d*)\s*m", lit "${1} minute ago");
    (rx "(?i)vor (\d+[.,]?\d*)\s*s", lit "${1} second ago");
    (rx "(?i)in (\d+[.,]?\d*) min", lit "in $1 minute");
    (rx "(?i)in (\d+[.,]?\d*) sek", lit "in $1 second");
    (rx "(?i)in (\d+[.,]?\d*) std", lit "in $1 hour");
    (rx "(?i)in (\d+[.,]?\d*) tag", lit "in $1 day");
    (rx "(?i)vor (\d+[.,]?\d*) wo", lit "$1 week ago");
    (rx "(?i)in (\d+[.,]?\d*) wo", lit "in $1 week");
    (rx "(?i)vor (\d+[.,]?\d*) m", lit "$1 minute ago");
    (rx "(?i)vor (\d+[.,]?\d*) s", lit "$1 second ago");
    (rx "(?i)in (\d+[.,]?\d*) m", lit "in $1 minute");
    (rx "(?i)in (\d+[.,]?\d*) s", lit "in $1 second")];
    ld_rx := Some (rx "(?i)(\A|[^\pL\pM\d]|_)(vor \d+[.,]?\d* sekunden|in \d+[.,]?\d* sekunden|vor \d+[.,]?\d* minuten|vor \d+[.,]?\d* monaten|vor \d+[.,]?\d* sekunde|vor \d+[.,]?\d* stunden|in \d+[.,]?\d* minuten|in \d+[.,]?\d* monaten|in \d+[.,]?\d* sekunde|in \d+[.,]?\d* stunden|vor \d+[.,]?\d* jahren|vor \d+[.,]?\d* minute|vor \d+[.,]?\d* stunde|vor \d+[.,]?\d* wochen|in \d+[.,]?\d* jahren|in \d+[.,]?\d* minute|in \d+[.,]?\d* stunde|in \d+[.,]?\d* wochen|vor \d+[.,]?\d* monat|vor \d+[.,]?\d* tagen|vor \d+[.,]?\d* woche|in \d+[.,]?\d* monat|in \d+[.,]?\d* tagen|in \d+[.,]?\d* woche|vor \d+[.,]?\d* jahr|in \d+[.,]?\d* jahr|vor \d+[.,]?\d* min|vor \d+[.,]?\d* sek|vor \d+[.,]?\d* std|vor \d+[.,]?\d* tag|vor \d+[.,]?\d*\s*h|vor \d+[.,]?\d*\s*m|vor \d+[.,]?\d*\s*s|in \d+[.,]?\d* min|in \d+[.,]?\d* sek|in \d+[.,]?\d* std|in \d+[.,]?\d* tag|vor \d+[.,]?\d* wo|in \d+[.,]?\d* wo|vor \d+[.,]?\d* m|vor \d+[.,]?\d* s|in \d+[.,]?\d* m|in \d+[.,]?\d* s)(\z|[^\pL\pM\d]|_)");
    ld_rx_exact := Some (rx "(?i)^(vor \d+[.,]?\d* sekunden|in \d+[.,]?\d* sekunden|vor \d+[.,]?\d* minuten|vor \d+[.,]?\d* monaten|vor \d+[.,]?\d* sekunde|vor \d+[.,]?\d* stunden|in \d+[.,]?\d* minuten|in \d+[.,]?\d* monaten|in \d+[.,]?\d* sekunde|in \d+[.,]?\d* stunden|vor \d+[.,]?\d* jahren|vor \d+[.,]?\d* minute|vor \d+[.,]?\d* stunde|vor \d+[.,]?\d* wochen|in \d+[.,]?\d* jahren|in \d+[.,]?\d* minute|in \d+[.,]?\d* stunde|in \d+[.,]?\d* wochen|vor \d+[.,]?\d* monat|vor \d+[.,]?\d* tagen|vor \d+[.,]?\d* woche|in \d+[.,]?\d* monat|in \d+[.,]?\d* tagen|in \d+[.,]?\d* woche|vor \d+[.,]?\d* jahr|in \d+[.,]?\d* jahr|vor \d+[.,]?\d* min|vor \d+[.,]?\d* sek|vor \d+[.,]?\d* std|vor \d+[.,]?\d* tag|vor \d+[.,]?\d*\s*h|vor \d+[.,]?\d*\s*m|vor \d+[.,]?\d*\s*s|in \d+[.,]?\d* min|in \d+[.,]?\d* sek|in \d+[.,]?\d* std|in \d+[.,]?\d* tag|vor \d+[.,]?\d* wo|in \d+[.,]?\d* wo|vor \d+[.,]?\d* m|vor \d+[.,]?\d* s|in \d+[.,]?\d* m|in \d+[.,]?\d* s)$");
    ld_known := [lit "in dieser minute";
    lit "in dieser stunde";
    lit "nachsten monat";
    lit "letzten monat";
    lit "nachste woche";
    lit "nachstes jahr";
    lit "diesen monat";
    lit "letzte woche";
    lit "letztes jahr";
    lit "diese woche";
    lit "dieses jahr";
    lit "donnerstag";
    lit "ubermorgen";
    lit "vorgestern";
    lit "september";
    lit "dezember";
    lit "dienstag";
    lit "mittwoch";
    lit "november";
    lit "sekunden";
    lit "februar";
    lit "freitag";
    lit "gestern";
    lit "minuten";
    lit "monaten";
    lit "oktober";
    lit "samstag";
    lit "sekunde";
    lit "sonntag";
    lit "stunden";
    lit "august";
    lit "jahren";
    lit "janner";
    lit "januar";
    lit "minute";
    lit "monate";
    lit "montag";
    lit "morgen";
    lit "stunde";
    lit "wochen";
    lit "april";
    lit "feber";
    lit "heute";
    lit "jahre";
    lit "jetzt";
    lit "monat";
    lit "nachm";
    lit "tagen";
    lit "woche";
    lit "etwa";
    lit "jahr";
    lit "juli";
    lit "juni";
    lit "marz";
    lit "sept";
    lit "tage";
    lit "vorm";
    lit "apr";
    lit "aug";
    lit "dez";
    lit "die";
    lit "don";
    lit "feb";
    lit "fre";
    lit "gmt";
    lit "jan";
    lit "jul";
    lit "jun";
    lit "mai";
    lit "mar";
    lit "min";
    lit "mit";
    lit "mon";
    lit "mrz";
    lit "nov";
    lit "okt";
    lit "sam";
    lit "sek";
    lit "sep";
    lit "son";
    lit "std";
    lit "tag";
    lit "uhr";
    lit "und";
    lit "utc";
    lit "vor";
    lit "am";
    lit "di";
    lit "do";
    lit "fr";
    lit "im";
    lit "in";
    lit "mi";
    lit "mo";
    lit "pm";
    lit "sa";
    lit "so";
    lit "um";
    lit " ";
    lit "'";
    lit "+";
    lit ",";
    lit "-";
    lit ".";
    lit "/";
    lit ":";
    lit ";";
    lit "@";
    lit "[";
    lit "]";
    lit "j";
    lit "m";
    lit "w";
    lit "z";
    lit "|"] |}.

(** fi.go:12-236 *)
Definition loc_fi : locale := Eval vm_compute in
  {| ld_name := lit "fi"; ld_order := lit "DMY"; ld_nospacing := false; ld_splitter := 1;
    ld_charset := runes (lit "cdeghijklnorstuvyzä");
    ld_abbr := [];
    ld_simpl := [(rx "(?i)(\A|[^\pL\pM\d_])(\d+[.,]?\d*) (sekunnin|sekuntin|minuutin|tunnin|paivan|viikon|kuukauden|vuoden) (paasta|kuluttua)(\z|[^\pL\pM\d_])", lit "${1}${4} ${2} ${3}${5}")];
    ld_trans := [(lit "keskiviikkona", [lit "wednesday"]);
    (lit "maaliskuussa", [lit "march"]);
    (lit "marraskuussa", [lit "november"]);
    (lit "heinakuussa", [lit "july"]);
    (lit "helmikuussa", [lit "february"]);
    (lit "huhtikuussa", [lit "april"]);
    (lit "joulukuussa", [lit "december"]);
    (lit "keskiviikko", [lit "wednesday"]);
    (lit "maaliskuuta", [lit "march"]);
    (lit "maanantaina", [lit "monday"]);
    (lit "marraskuuta", [lit "november"]);
    (lit "perjantaina", [lit "friday"]);
    (lit "sunnuntaina", [lit "sunday"]);
    (lit "tammikuussa", [lit "january"]);
    (lit "toukokuussa", [lit "may"]);
    (lit "heinakuuta", [lit "july"]);
    (lit "helmikuuta", [lit "february"]);
    (lit "huhtikuuta", [lit "april"]);
    (lit "joulukuuta", [lit "december"]);
    (lit "kesakuussa", [lit "june"]);
    (lit "lauantaina", [lit "saturday"]);
    (lit "lokakuussa", [lit "october"]);
    (lit "syyskuussa", [lit "september"]);
    (lit "tammikuuta", [lit "january"]);
    (lit "toukokuuta", [lit "may"]);
    (lit "elokuussa", [lit "august"]);
    (lit "kesakuuta", [lit "june"]);
    (lit "kuukauden", [lit "month"]);
    (lit "kuukautta", [lit "month"]);
    (lit "lokakuuta", [lit "october"]);
    (lit "maaliskuu", [lit "march"]);
    (lit "maanantai", [lit "monday"]);
    (lit "marraskuu", [lit "november"]);
    (lit "minuuttia", [lit "minute"]);
    (lit "perjantai", [lit "friday"]);
    (lit "sekunttia", [lit "second"]);
    (lit "sunnuntai", [lit "sunday"]);
    (lit "syyskuuta", [lit "september"]);
    (lit "tiistaina", [lit "tuesday"]);
    (lit "torstaina", [lit "thursday"]);
    (lit "elokuuta", [lit "august"]);
    (lit "heinakuu", [lit "july"]);
    (lit "helmikuu", [lit "february"]);
    (lit "huhtikuu", [lit "april"]);
    (lit "joulukuu", [lit "december"]);
    (lit "kuluttua", [lit "in"]);
    (lit "kuukausi", [lit "month"]);
    (lit "lauantai", [lit "saturday"]);
    (lit "minuutin", [lit "minute"]);
    (lit "minuutti", [lit "minute"]);
    (lit "sekunnin", [lit "second"]);
    (lit "sekuntia", [lit "second"]);
    (lit "sekuntin", [lit "second"]);
    (lit "sekuntti", [lit "second"]);
    (lit "tammikuu", [lit "january"]);
    (lit "toukokuu", [lit "may"]);
    (lit "kesakuu", [lit "june"]);
    (lit "lokakuu", [lit "october"]);
    (lit "maalisk", [lit "march"]);
    (lit "marrask", [lit "november"]);
    (lit "sekunti", [lit "second"]);
    (lit "syyskuu", [lit "september"]);
    (lit "tiistai", [lit "tuesday"]);
    (lit "torstai", [lit "thursday"]);
    (lit "viikkoa", [lit "week"]);
    (lit "elokuu", [lit "august"]);
    (lit "heinak", [lit "july"]);
    (lit "helmik", [lit "february"]);
    (lit "huhtik", [lit "april"]);
    (lit "jouluk", [lit "december"]);
    (lit "maalis", [lit "march"]);
    (lit "marras", [lit "november"]);
    (lit "paasta", [lit "in"]);
    (lit "paivaa", [lit "day"]);
    (lit "paivan", [lit "day"]);
    (lit "sitten", [lit "ago"]);
    (lit "tammik", [lit "january"]);
    (lit "toukok", [lit "may"]);
    (lit "tunnin", [lit "hour"]);
    (lit "tuntia", [lit "hour"]);
    (lit "viikko", [lit "week"]);
    (lit "viikon", [lit "week"]);
    (lit "vuoden", [lit "year"]);
    (lit "vuonna", [lit "year"]);
    (lit "vuotta", [lit "year"]);
    (lit "heina", [lit "july"]);
    (lit "helmi", [lit "february"]);
    (lit "huhti", [lit "april"]);
    (lit "joulu", [lit "december"]);
    (lit "kesak", [lit "june"]);
    (lit "lokak", [lit "october"]);
    (lit "paiva", [lit "day"]);
    (lit "syysk", [lit "september"]);
    (lit "tammi", [lit "january"]);
    (lit "touko", [lit "may"]);
    (lit "tunti", [lit "hour"]);
    (lit "vuosi", [lit "year"]);
    (lit "elok", [lit "august"]);
    (lit "kesa", [lit "june"]);
    (lit "loka", [lit "october"]);
    (lit "pvaa", [lit "day"]);
    (lit "syys", [lit "september"]);
    (lit "elo", [lit "august"]);
    (lit "gmt", [lit "gmt"]);
    (lit "min", [lit "minute"]);
    (lit "pva", [lit "day"]);
    (lit "utc", [lit "utc"]);
    (lit "vko", [lit "week"]);
    (lit ":n", [lit ""]);
    (lit "am", [lit "am"]);
    (lit "ap", [lit "am"]);
    (lit "ip", [lit "pm"]);
    (lit "ke", [lit "wednesday"]);
    (lit "kk", [lit "month"]);
    (lit "la", [lit "saturday"]);
    (lit "ma", [lit "monday"]);
    (lit "pe", [lit "friday"]);
    (lit "pm", [lit "pm"]);
    (lit "pv", [lit "day"]);
    (lit "su", [lit "sunday"]);
    (lit "ti", [lit "tuesday"]);
    (lit "to", [lit "thursday"]);
    (lit "vk", [lit "week"]);
    (lit "vv", [lit "year"]);
    (lit " ", [lit " "]);
    (lit "'", [lit ""]);
    (lit "+", [lit "+"]);
    (lit ",", [lit ""]);
    (lit "-", [lit "-"]);
    (lit ".", [lit "."]);
    (lit "/", [lit "/"]);
    (lit ":", [lit ":"]);
    (lit ";", [lit ""]);
    (lit "@", [lit ""]);
    (lit "[", [lit ""]);
    (lit "]", [lit ""]);
    (lit "p", [lit "day"]);
    (lit "s", [lit "second"]);
    (lit "t", [lit "hour"]);
    (lit "v", [lit "year"]);
    (lit "z", [lit "z"]);
    (lit "|", [lit ""])];
    ld_reltype := [(lit "taman minuutin aikana", lit "0 minute ago");
    (lit "taman tunnin aikana", lit "0 hour ago");
    (lit "minuutin sisalla", lit "0 minute ago");
    (lit "toissa viikolla", lit "2 week ago");
    (lit "talla viikolla", lit "0 week ago");
    (lit "toissa paivana", lit "2 day ago");
    (lit "tunnin sisalla", lit "0 hour ago");
    (lit "viime viikolla", lit "1 week ago");
    (lit "ensi viikolla", lit "in 1 week");
    (lit "toissa kuussa", lit "2 month ago");
    (lit "toissa vuonna", lit "2 year ago");
    (lit "tassa kuussa", lit "0 month ago");
    (lit "viime kuussa", lit "1 month ago");
    (lit "viime vuonna", lit "1 year ago");
    (lit "ensi kuussa", lit "in 1 month");
    (lit "ensi vuonna", lit "in 1 year");
    (lit "tana vuonna", lit "0 year ago");
    (lit "huomenna", lit "in 1 day");
    (lit "talla vk", lit "0 week ago");
    (lit "tassa kk", lit "0 month ago");
    (lit "viime kk", lit "1 month ago");
    (lit "viime vk", lit "1 week ago");
    (lit "ensi kk", lit "in 1 month");
    (lit "ensi vk", lit "in 1 week");
    (lit "viime v", lit "1 year ago");
    (lit "ensi v", lit "in 1 year");
    (lit "tana v", lit "0 year ago");
    (lit "tanaan", lit "0 day ago");
    (lit "eilen", lit "1 day ago");
    (lit "huom", lit "in 1 day");
    (lit "nyt", lit "0 second ago")];
    ld_relrx := [(rx "(?i)(\d+[.,]?\d*) kuukauden paasta", lit "in $1 month");
    (rx "(?i)(\d+[.,]?\d*) kuukautta sitten", lit "$1 month ago");
    (rx "(?i)(\d+[.,]?\d*) minuuttia sitten", lit "$1 minute ago");
    (rx "(?i)(\d+[.,]?\d*) kuukausi sitten", lit "$1 month ago");
    (rx "(?i)(\d+[.,]?\d*) minuutin paasta", lit "in $1 minute");
    (rx "(?i)(\d+[.,]?\d*) minuutti sitten", lit "$1 minute ago");
    (rx "(?i)(\d+[.,]?\d*) sekunnin paasta", lit "in $1 second");
    (rx "(?i)(\d+[.,]?\d*) sekuntia sitten", lit "$1 second ago");
    (rx "(?i)(\d+[.,]?\d*) sekunti sitten", lit "$1 second ago");
    (rx "(?i)(\d+[.,]?\d*) viikkoa sitten", lit "$1 week ago");
    (rx "(?i)(\d+[.,]?\d*) paivaa sitten", lit "$1 day ago");
    (rx "(?i)(\d+[.,]?\d*) paivan paasta", lit "in $1 day");
    (rx "(?i)(\d+[.,]?\d*) tunnin paasta", lit "in $1 hour");
    (rx "(?i)(\d+[.,]?\d*) tuntia sitten", lit "$1 hour ago");
    (rx "(?i)(\d+[.,]?\d*) viikko sitten", lit "$1 week ago");
    (rx "(?i)(\d+[.,]?\d*) viikon paasta", lit "in $1 week");
    (rx "(?i)(\d+[.,]?\d*) vuoden paasta", lit "in $1 year");
    (rx "(?i)(\d+[.,]?\d*) vuotta sitten", lit "$1 year ago");
    (rx "(?i)(\d+[.,]?\d*) paiva sitten", lit "$1 day ago");
    (rx "(?i)(\d+[.,]?\d*) tunti sitten", lit "$1 hour ago");
    (rx "(?i)(\d+[.,]?\d*) vuosi sitten", lit "$1 year ago");
    (rx "(?i)(\d+[.,]?\d*) min paasta", lit "in $1 minute");
    (rx "(?i)(\d+[.,]?\d*) min sitten", lit "$1 minute ago");
    (rx "(?i)(\d+[.,]?\d*) kk paasta", lit "in $1 month");
    (rx "(?i)(\d+[.,]?\d*) kk sitten", lit "$1 month ago");
    (rx "(?i)(\d+[.,]?\d*) pv paasta", lit "in $1 day");
    (rx "(?i)(\d+[.,]?\d*) pv sitten", lit "$1 day ago");
    (rx "(?i)(\d+[.,]?\d*) vk paasta", lit "in $1 week");
    (rx "(?i)(\d+[.,]?\d*) vk sitten", lit "$1 week ago");
    (rx "(?i)(\d+[.,]?\d*) s paasta", lit "in $1 second");
    (rx "(?i)(\d+[.,]?\d*) s sitten", lit "$1 second ago");
    (rx "(?i)(\d+[.,]?\d*) t paasta", lit "in $1 hour");
    (rx "(?i)(\d+[.,]?\d*) t sitten", lit "$1 hour ago");
    (rx "(?i)(\d+[.,]?\d*) v paasta", lit "in $1 year");
    (rx "(?i)(\d+[.,]?\d*) v sitten", lit "$1 year ago")];
    ld_rx := Some (rx "(?i)(\A|[^\pL\pM\d]|_)(\d+[.,]?\d* kuukauden paasta|\d+[.,]?\d* kuukautta sitten|\d+[.,]?\d* minuuttia sitten|\d+[.,]?\d* kuukausi sitten|\d+[.,]?\d* minuutin paasta|\d+[.,]?\d* minuutti sitten|\d+[.,]?\d* sekunnin paasta|\d+[.,]?\d* sekuntia sitten|\d+[.,]?\d* sekunti sitten|\d+[.,]?\d* viikkoa sitten|\d+[.,]?\d* paivaa sitten|\d+[.,]?\d* paivan paasta|\d+[.,]?\d* tunnin paasta|\d+[.,]?\d* tuntia sitten|\d+[.,]?\d* viikko sitten|\d+[.,]?\d* viikon paasta|\d+[.,]?\d* vuoden paasta|\d+[.,]?\d* vuotta sitten|\d+[.,]?\d* paiva sitten|\d+[.,]?\d* tunti sitten|\d+[.,]?\d* vuosi sitten|\d+[.,]?\d* min paasta|\d+[.,]?\d* min sitten|\d+[.,]?\d* kk paasta|\d+[.,]?\d* kk sitten|\d+[.,]?\d* pv paasta|\d+[.,]?\d* pv sitten|\d+[.,]?\d* vk paasta|\d+[.,]?\d* vk sitten|\d+[.,]?\d* s paasta|\d+[.,]?\d* s sitten|\d+[.,]?\d* t paasta|\d+[.,]?\d* t sitten|\d+[.,]?\d* v paasta|\d+[.,]?\d* v sitten)(\z|[^\pL\pM\d]|_)");
    ld_rx_exact := Some (rx "(?i)^(\d+[.,]?\d* kuukauden paasta|\d+[.,]?\d* kuukautta sitten|\d+[.,]?\d* minuuttia sitten|\d+[.,]?\d* kuukausi sitten|\d+[.,]?\d* minuutin paasta|\d+[.,]?\d* minuutti sitten|\d+[.,]?\d* sekunnin paasta|\d+[.,]?\d* sekuntia sitten|\d+[.,]?\d* sekunti sitten|\d+[.,]?\d* viikkoa sitten|\d+[.,]?\d* paivaa sitten|\d+[.,]?\d* paivan paasta|\d+[.,]?\d* tunnin paasta|\d+[.,]?\d* tuntia sitten|\d+[.,]?\d* viikko sitten|\d+[.,]?\d* viikon paasta|\d+[.,]?\d* vuoden paasta|\d+[.,]?\d* vuotta sitten|\d+[.,]?\d* paiva sitten|\d+[.,]?\d* tunti sitten|\d+[.,]?\d* vuosi sitten|\d+[.,]?\d* min paasta|\d+[.,]?\d* min sitten|\d+[.,]?\d* kk paasta|\d+[.,]?\d* kk sitten|\d+[.,]?\d* pv paasta|\d+[.,]?\d* pv sitten|\d+[.,]?\d* vk paasta|\d+[.,]?\d* vk sitten|\d+[.,]?\d* s paasta|\d+[.,]?\d* s sitten|\d+[.,]?\d* t paasta|\d+[.,]?\d* t sitten|\d+[.,]?\d* v paasta|\d+[.,]?\d* v sitten)$");
    ld_known := [lit "taman minuutin aikana";
    lit "taman tunnin aikana";
    lit "minuutin sisalla";
    lit "toissa viikolla";
    lit "talla viikolla";
    lit "toissa paivana";
    lit "tunnin sisalla";
    lit "viime viikolla";
    lit "ensi viikolla";
    lit "keskiviikkona";
    lit "toissa kuussa";
    lit "toissa vuonna";
    lit "maaliskuussa";
    lit "marraskuussa";
    lit "tassa kuussa";
    lit "viime kuussa";
    lit "viime vuonna";
    lit "ensi kuussa";
    lit "ensi vuonna";
    lit "heinakuussa";
    lit "helmikuussa";
    lit "huhtikuussa";
    lit "joulukuussa";
    lit "keskiviikko";
    lit "maaliskuuta";
    lit "maanantaina";
    lit "marraskuuta";
    lit "perjantaina";
    lit "sunnuntaina";
    lit "tammikuussa";
    lit "tana vuonna";
    lit "toukokuussa";
    lit "heinakuuta";
    lit "helmikuuta";
    lit "huhtikuuta";
    lit "joulukuuta";
    lit "kesakuussa";
    lit "lauantaina";
    lit "lokakuussa";
    lit "syyskuussa";
    lit "tammikuuta";
    lit "toukokuuta";
    lit "elokuussa";
    lit "kesakuuta";
    lit "kuukauden";
    lit "kuukautta";
    lit "lokakuuta";
    lit "maaliskuu";
    lit "maanantai";
    lit "marraskuu";
    lit "minuuttia";
    lit "perjantai";
    lit "sekunttia";
    lit "sunnuntai";
    lit "syyskuuta";
    lit "tiistaina";
    lit "torstaina";
    lit "elokuuta";
    lit "heinakuu";
    lit "helmikuu";
    lit "huhtikuu";
    lit "huomenna";
    lit "joulukuu";
    lit "kuluttua";
    lit "kuukausi";
    lit "lauantai";
    lit "minuutin";
    lit "minuutti";
    lit "sekunnin";
    lit "sekuntia";
    lit "sekuntin";
    lit "sekuntti";
    lit "talla vk";
    lit "tammikuu";
    lit "tassa kk";
    lit "toukokuu";
    lit "viime kk";
    lit "viime vk";
    lit "ensi kk";
    lit "ensi vk";
    lit "kesakuu";
    lit "lokakuu";
    lit "maalisk";
    lit "marrask";
    lit "sekunti";
    lit "syyskuu";
    lit "tiistai";
    lit "torstai";
    lit "viikkoa";
    lit "viime v";
    lit "elokuu";
    lit "ensi v";
    lit "heinak";
    lit "helmik";
    lit "huhtik";
    lit "jouluk";
    lit "maalis";
    lit "marras";
    lit "paasta";
    lit "paivaa";
    lit "paivan";
    lit "sitten";
    lit "tammik";
    lit "tana v";
    lit "tanaan";
    lit "toukok";
    lit "tunnin";
    lit "tuntia";
    lit "viikko";
    lit "viikon";
    lit "vuoden";
    lit "vuonna";
    lit "vuotta";
    lit "eilen";
    lit "heina";
    lit "helmi";
    lit "huhti";
    lit "joulu";
    lit "kesak";
    lit "lokak";
    lit "paiva";
    lit "syysk";
    lit "tammi";
    lit "touko";
    lit "tunti";
    lit "vuosi";
    lit "elok";
    lit "huom";
    lit "kesa";
    lit "loka";
    lit "pvaa";
    lit "syys";
    lit "elo";
    lit "gmt";
    lit "min";
    lit "nyt";
    lit "pva";
    lit "utc";
    lit "vko";
    lit ":n";
    lit "am";
    lit "ap";
    lit "ip";
    lit "ke";
    lit "kk";
    lit "la";
    lit "ma";
    lit "pe";
    lit "pm";
    lit "pv";
    lit "su";
    lit "ti";
    lit "to";
    lit "vk";
    lit "vv";
    lit " ";
    lit "'";
    lit "+";
    lit ",";
    lit "-";
    lit ".";
    lit "/";
    lit ":";
    lit ";";
    lit "@";
    lit "[";
    lit "]";
    lit "p";
    lit "s";
    lit "t";
    lit "v";
    lit "z";
    lit "|"] |}.

(** zh.go:12-154 *)
Definition loc_zh : locale := Eval vm_compute in
  {| ld_name := lit "zh"; ld_order := lit "YMD"; ld_nospacing := true; ld_splitter := 4;
    ld_charset := runes (lit "/cgtuz一七三上下个九二五今個八六分刚刻前十午去后周四在天小年拜日时明星昨月期本此现礼秒约这钟间");
    ld_abbr := [];
    ld_simpl := [(rx "(?i)半小时前", lit "30分前");
    (rx "(?i)(?:中午|下午|(?:晚上?))(?:\s*)(\d+[.,]?\d*)(?:\s*):(?:\s+|:)?(\d+[.,]?\d*)", lit "${1}:${2} pm");
    (rx "(?i)(?:上午|早上|凌晨)(?:\s*)(\d+[.,]?\d*)(?:\s*):(?:\s+|:)?(\d+[.,]?\d*)", lit "${1}:${2} am");
    (rx "(?i)中午", lit "12:00");
    (rx "(?i)(\d+[.,]?\d*)年(?:\s+)?(\d+[.,]?\d*)月(?:\s+)?(\d+[.,]?\d*)日(?:\s+)?(\d+[.,]?\d*)时(?:\s+)?(\d+[.,]?\d*)分", lit "${1}-${2}-${3} ${4}:${5}");
    (rx "(?i)(\d+[.,]?\d*)年(?:\s+)?(\d+[.,]?\d*)月(?:\s+)?(\d{1,2})(?:日)?(?:\s+)?(\d{1,2})(?:点|:)(\d{1,2})", lit "${1}-${2}-${3} ${4}:${5}");
    (rx "(?i)(\d+[.,]?\d*)年(?:\s+)?(\d+[.,]?\d*)月(?:\s+)?(\d{1,2})(?:日)?", lit "${1}-${2}-${3}");
    (rx "(?i)(\d+[.,]?\d*)月(.*[前后])", lit "${1} 月${2}")];
    ld_trans := [(lit "10月", [lit "october"]);
    (lit "11月", [lit "november"]);
    (lit "12月", [lit "december"]);
    (lit "gmt", [lit "gmt"]);
    (lit "utc", [lit "utc"]);
    (lit "十一月", [lit "november"]);
    (lit "十二月", [lit "december"]);
    (lit "星期一", [lit "monday"]);
    (lit "星期三", [lit "wednesday"]);
    (lit "星期二", [lit "tuesday"]);
    (lit "星期五", [lit "friday"]);
    (lit "星期六", [lit "saturday"]);
    (lit "星期四", [lit "thursday"]);
    (lit "星期天", [lit "sunday"]);
    (lit "星期日", [lit "sunday"]);
    (lit "礼拜一", [lit "monday"]);
    (lit "礼拜三", [lit "wednesday"]);
    (lit "礼拜二", [lit "tuesday"]);
    (lit "礼拜五", [lit "friday"]);
    (lit "礼拜六", [lit "saturday"]);
    (lit "礼拜四", [lit "thursday"]);
    (lit "礼拜天", [lit "sunday"]);
    (lit "礼拜日", [lit "sunday"]);
    (lit "1月", [lit "january"]);
    (lit "2月", [lit "february"]);
    (lit "3月", [lit "march"]);
    (lit "4月", [lit "april"]);
    (lit "5月", [lit "may"]);
    (lit "6月", [lit "june"]);
    (lit "7月", [lit "july"]);
    (lit "8月", [lit "august"]);
    (lit "9月", [lit "september"]);
    (lit "am", [lit "am"]);
    (lit "pm", [lit "pm"]);
    (lit "一月", [lit "january"]);
    (lit "七月", [lit "july"]);
    (lit "三月", [lit "march"]);
    (lit "上午", [lit "am"]);
    (lit "下午", [lit "pm"]);
    (lit "个月", [lit "month"]);
    (lit "九月", [lit "september"]);
    (lit "二月", [lit "february"]);
    (lit "五月", [lit "may"]);
    (lit "個月", [lit "month"]);
    (lit "八月", [lit "august"]);
    (lit "六月", [lit "june"]);
    (lit "分钟", [lit "minute"]);
    (lit "十月", [lit "october"]);
    (lit "周一", [lit "monday"]);
    (lit "周三", [lit "wednesday"]);
    (lit "周二", [lit "tuesday"]);
    (lit "周五", [lit "friday"]);
    (lit "周六", [lit "saturday"]);
    (lit "周四", [lit "thursday"]);
    (lit "周日", [lit "sunday"]);
    (lit "四月", [lit "april"]);
    (lit "小时", [lit "hour"]);
    (lit "星期", [lit "week"]);
    (lit " ", [lit " "]);
    (lit "'", [lit ""]);
    (lit "+", [lit "+"]);
    (lit ",", [lit ""]);
    (lit "-", [lit "-"]);
    (lit ".", [lit "."]);
    (lit "/", [lit "/"]);
    (lit ":", [lit ":"]);
    (lit ";", [lit ""]);
    (lit "@", [lit ""]);
    (lit "[", [lit ""]);
    (lit "]", [lit ""]);
    (lit "z", [lit "z"]);
    (lit "|", [lit ""]);
    (lit "分", [lit "minute"]);
    (lit "前", [lit "ago"]);
    (lit "周", [lit "week"]);
    (lit "在", [lit "in"]);
    (lit "天", [lit "day"]);
    (lit "年", [lit "year"]);
    (lit "日", [lit "day"]);
    (lit "月", [lit "month"]);
    (lit "秒", [lit "second"]);
    (lit "约", [lit ""])];
    ld_reltype := [(lit "这一时间 / 此时", lit "0 hour ago");
    (lit "这一时间", lit "0 hour ago");
    (lit "上个月", lit "1 month ago");
    (lit "下个月", lit "in 1 month");
    (lit "上周", lit "1 week ago");
    (lit "下周", lit "in 1 week");
    (lit "今天", lit "0 day ago");
    (lit "今年", lit "0 year ago");
    (lit "刚刚", lit "0 second ago");
    (lit "前天", lit "2 day ago");
    (lit "去年", lit "1 year ago");
    (lit "后天", lit "in 2 days");
    (lit "明天", lit "in 1 day");
    (lit "明年", lit "in 1 year");
    (lit "昨天", lit "1 day ago");
    (lit "本周", lit "0 week ago");
    (lit "本月", lit "0 month ago");
    (lit "此刻", lit "0 minute ago");
    (lit "此时", lit "0 hour ago");
    (lit "现在", lit "0 second ago")];
    ld_relrx := [(rx "(?i)(\d+[.,]?\d*)个月前", lit "$1 month ago");
    (rx "(?i)(\d+[.,]?\d*)个月后", lit "in $1 month");
    (rx "(?i)(\d+[.,]?\d*)分钟前", lit "$1 minute ago");
    (rx "(?i)(\d+[.,]?\d*)分钟后", lit "in $1 minute");
    (rx "(?i)(\d+[.,]?\d*)小时前", lit "$1 hour ago");
    (rx "(?i)(\d+[.,]?\d*)小时后", lit "in $1 hour");
    (rx "(?i)(\d+[.,]?\d*)秒钟前", lit "$1 second ago");
    (rx "(?i)(\d+[.,]?\d*)秒钟后", lit "in $1 second");
    (rx "(?i)(\d+[.,]?\d*)周前", lit "$1 week ago");
    (rx "(?i)(\d+[.,]?\d*)周后", lit "in $1 week");
    (rx "(?i)(\d+[.,]?\d*)天前", lit "$1 day ago");
    (rx "(?i)(\d+[.,]?\d*)天后", lit "in $1 day");
    (rx "(?i)(\d+[.,]?\d*)年前", lit "$1 year ago");
    (rx "(?i)(\d+[.,]?\d*)年后", lit "in $1 year");
    (rx "(?i)(\d+[.,]?\d*)秒前", lit "$1 second ago");
    (rx "(?i)(\d+[.,]?\d*)秒后", lit "in $1 second")];
    ld_rx := Some (rx "(?i)(\d+[.,]?\d*个月前|\d+[.,]?\d*个月后|\d+[.,]?\d*分钟前|\d+[.,]?\d*分钟后|\d+[.,]?\d*小时前|\d+[.,]?\d*小时后|\d+[.,]?\d*秒钟前|\d+[.,]?\d*秒钟后|\d+[.,]?\d*周前|\d+[.,]?\d*周后|\d+[.,]?\d*天前|\d+[.,]?\d*天后|\d+[.,]?\d*年前|\d+[.,]?\d*年后|\d+[.,]?\d*秒前|\d+[.,]?\d*秒后)");
    ld_rx_exact := Some (rx "(?i)^(\d+[.,]?\d*个月前|\d+[.,]?\d*个月后|\d+[.,]?\d*分钟前|\d+[.,]?\d*分钟后|\d+[.,]?\d*小时前|\d+[.,]?\d*小时后|\d+[.,]?\d*秒钟前|\d+[.,]?\d*秒钟后|\d+[.,]?\d*周前|\d+[.,]?\d*周后|\d+[.,]?\d*天前|\d+[.,]?\d*天后|\d+[.,]?\d*年前|\d+[.,]?\d*年后|\d+[.,]?\d*秒前|\d+[.,]?\d*秒后)$");
    ld_known := [lit "这一时间 / 此时";
    lit "这一时间";
    lit "10月";
    lit "11月";
    lit "12月";
    lit "gmt";
    lit "utc";
    lit "上个月";
    lit "下个月";
    lit "十一月";
    lit "十二月";
    lit "星期一";
    lit "星期三";
    lit "星期二";
    lit "星期五";
    lit "星期六";
    lit "星期四";
    lit "星期天";
    lit "星期日";
    lit "礼拜一";
    lit "礼拜三";
    lit "礼拜二";
    lit "礼拜五";
    lit "礼拜六";
    lit "礼拜四";
    lit "礼拜天";
    lit "礼拜日";
    lit "1月";
    lit "2月";
    lit "3月";
    lit "4月";
    lit "5月";
    lit "6月";
    lit "7月";
    lit "8月";
    lit "9月";
    lit "am";
    lit "pm";
    lit "一月";
    lit "七月";
    lit "三月";
    lit "上午";
    lit "上周";
    lit "下午";
    lit "下周";
    lit "个月";
    lit "九月";
    lit "二月";
    lit "五月";
    lit "今天";
    lit "今年";
    lit "個月";
    lit "八月";
    lit "六月";
    lit "分钟";
    lit "刚刚";
    lit "前天";
    lit "十月";
    lit "去年";
    lit "后天";
    lit "周一";
    lit "周三";
    lit "周二";
    lit "周五";
    lit "周六";
    lit "周四";
    lit "周日";
    lit "四月";
    lit "小时";
    lit "明天";
    lit "明年";
    lit "星期";
    lit "昨天";
    lit "本周";
    lit "本月";
    lit "此刻";
    lit "此时";
    lit "现在";
    lit " ";
    lit "'";
    lit "+";
    lit ",";
    lit "-";
    lit ".";
    lit "/";
    lit ":";
    lit ";";
    lit "@";
    lit "[";
    lit "]";
    lit "z";
    lit "|";
    lit "分";
    lit "前";
    lit "周";
    lit "在";
    lit "天";
    lit "年";
    lit "日";
    lit "月";
    lit "秒";
    lit "约"] |}.

(** yue.go:12-108 *)
Definition loc_yue : locale := Eval vm_compute in
  {| ld_name := lit "yue"; ld_order := lit "YMD"; ld_nospacing := true; ld_splitter := 4;
    ld_charset := runes (lit "cgtuz一三上下二五今個六分午呢四宜家尋小年日星時月期秒聽舊週鐘");
    ld_abbr := [];
    ld_simpl := [];
    ld_trans := [(lit "10月", [lit "october"]);
    (lit "11月", [lit "november"]);
    (lit "12月", [lit "december"]);
    (lit "gmt", [lit "gmt"]);
    (lit "utc", [lit "utc"]);
    (lit "星期一", [lit "monday"]);
    (lit "星期三", [lit "wednesday"]);
    (lit "星期二", [lit "tuesday"]);
    (lit "星期五", [lit "friday"]);
    (lit "星期六", [lit "saturday"]);
    (lit "星期四", [lit "thursday"]);
    (lit "星期日", [lit "sunday"]);
    (lit "1月", [lit "january"]);
    (lit "2月", [lit "february"]);
    (lit "3月", [lit "march"]);
    (lit "4月", [lit "april"]);
    (lit "5月", [lit "may"]);
    (lit "6月", [lit "june"]);
    (lit "7月", [lit "july"]);
    (lit "8月", [lit "august"]);
    (lit "9月", [lit "september"]);
    (lit "am", [lit "am"]);
    (lit "pm", [lit "pm"]);
    (lit "上午", [lit "am"]);
    (lit "下午", [lit "pm"]);
    (lit "分鐘", [lit "minute"]);
    (lit "小時", [lit "hour"]);
    (lit "週一", [lit "monday"]);
    (lit "週三", [lit "wednesday"]);
    (lit "週二", [lit "tuesday"]);
    (lit "週五", [lit "friday"]);
    (lit "週六", [lit "saturday"]);
    (lit "週四", [lit "thursday"]);
    (lit "週日", [lit "sunday"]);
    (lit " ", [lit " "]);
    (lit "'", [lit ""]);
    (lit "+", [lit "+"]);
    (lit ",", [lit ""]);
    (lit "-", [lit "-"]);
    (lit ".", [lit "."]);
    (lit "/", [lit "/"]);
    (lit ":", [lit ":"]);
    (lit ";", [lit ""]);
    (lit "@", [lit ""]);
    (lit "[", [lit ""]);
    (lit "]", [lit ""]);
    (lit "z", [lit "z"]);
    (lit "|", [lit ""]);
    (lit "年", [lit "year"]);
    (lit "日", [lit "day"]);
    (lit "月", [lit "month"]);
    (lit "秒", [lit "second"]);
    (lit "週", [lit "week"])];
    ld_reltype := [(lit "今個星期", lit "0 week ago");
    (lit "呢個小時", lit "0 hour ago");
    (lit "上個月", lit "1 month ago");
    (lit "上星期", lit "1 week ago");
    (lit "下個月", lit "in 1 month");
    (lit "下星期", lit "in 1 week");
    (lit "今個月", lit "0 month ago");
    (lit "呢分鐘", lit "0 minute ago");
    (lit "下年", lit "in 1 year");
    (lit "今年", lit "0 year ago");
    (lit "今日", lit "0 day ago");
    (lit "宜家", lit "0 second ago");
    (lit "尋日", lit "1 day ago");
    (lit "聽日", lit "in 1 day");
    (lit "舊年", lit "1 year ago")];
    ld_relrx := [(rx "(?i)(\d+[.,]?\d*) 個星期前", lit "$1 week ago");
    (rx "(?i)(\d+[.,]?\d*) 個星期後", lit "in $1 week");
    (rx "(?i)(\d+[.,]?\d*) 個月前", lit "$1 month ago");
    (rx "(?i)(\d+[.,]?\d*) 個月後", lit "in $1 month");
    (rx "(?i)(\d+[.,]?\d*) 分鐘前", lit "$1 minute ago");
    (rx "(?i)(\d+[.,]?\d*) 分鐘後", lit "in $1 minute");
    (rx "(?i)(\d+[.,]?\d*) 小時前", lit "$1 hour ago");
    (rx "(?i)(\d+[.,]?\d*) 小時後", lit "in $1 hour");
    (rx "(?i)(\d+[.,]?\d*) 年前", lit "$1 year ago");
    (rx "(?i)(\d+[.,]?\d*) 年後", lit "in $1 year");
    (rx "(?i)(\d+[.,]?\d*) 日前", lit "$1 day ago");
    (rx "(?i)(\d+[.,]?\d*) 日後", lit "in $1 day");
    (rx "(?i)(\d+[.,]?\d*) 秒前", lit "$1 second ago");
    (rx "(?i)(\d+[.,]?\d*) 秒後", lit "in $1 second")];
    ld_rx := Some (rx "(?i)(\d+[.,]?\d* 個星期前|\d+[.,]?\d* 個星期後|\d+[.,]?\d* 個月前|\d+[.,]?\d* 個月後|\d+[.,]?\d* 分鐘前|\d+[.,]?\d* 分鐘後|\d+[.,]?\d* 小時前|\d+[.,]?\d* 小時後|\d+[.,]?\d* 年前|\d+[.,]?\d* 年後|\d+[.,]?\d* 日前|\d+[.,]?\d* 日後|\d+[.,]?\d* 秒前|\d+[.,]?\d* 秒後)");
    ld_rx_exact := Some (rx "(?i)^(\d+[.,]?\d* 個星期前|\d+[.,]?\d* 個星期後|\d+[.,]?\d* 個月前|\d+[.,]?\d* 個月後|\d+[.,]?\d* 分鐘前|\d+[.,]?\d* 分鐘後|\d+[.,]?\d* 小時前|\d+[.,]?\d* 小時後|\d+[.,]?\d* 年前|\d+[.,]?\d* 年後|\d+[.,]?\d* 日前|\d+[.,]?\d* 日後|\d+[.,]?\d* 秒前|\d+[.,]?\d* 秒後)$");
    ld_known := [lit "今個星期";
    lit "呢個小時";
    lit "10月";
    lit "11月";
    lit "12月";
    lit "gmt";
    lit "utc";
    lit "上個月";
    lit "上星期";
    lit "下個月";
    lit "下星期";
    lit "今個月";
    lit "呢分鐘";
    lit "星期一";
    lit "星期三";
    lit "星期二";
    lit "星期五";
    lit "星期六";
    lit "星期四";
    lit "星期日";
    lit "1月";
    lit "2月";
    lit "3月";
    lit "4月";
    lit "5月";
    lit "6月";
    lit "7月";
    lit "8月";
    lit "9月";
    lit "am";
    lit "pm";
    lit "上午";
    lit "下午";
    lit "下年";
    lit "今年";
    lit "今日";
    lit "分鐘";
    lit "宜家";
    lit "尋日";
    lit "小時";
    lit "聽日";
    lit "舊年";
    lit "週一";
    lit "週三";
    lit "週二";
    lit "週五";
    lit "週六";
    lit "週四";
    lit "週日";
    lit " ";
    lit "'";
    lit "+";
    lit ",";
    lit "-";
    lit ".";
    lit "/";
    lit ":";
    lit ";";
    lit "@";
    lit "[";
    lit "]";
    lit "z";
    lit "|";
    lit "年";
    lit "日";
    lit "月";
    lit "秒";
    lit "週"] |}.

(** fr.go:57-249 *)
Definition loc_fr : locale := Eval vm_compute in
  {| ld_name := lit "fr"; ld_order := lit "DMY"; ld_nospacing := false; ld_splitter := 1;
    ld_charset := runes (lit "-bcdefghijlnorstuvyzèéû");
    ld_abbr := [];
    ld_simpl := [(rx "(?i)(\A|[^\pL\pM\d_])d'une(\z|[^\pL\pM\d_])", lit "${1}1${2}");
    (rx "(?i)(\A|[^\pL\pM\d_])d'un(\z|[^\pL\pM\d_])", lit "${1}1${2}");
    (rx "(?i)(\A|[^\pL\pM\d_])une(\z|[^\pL\pM\d_])", lit "${1}1${2}");
    (rx "(?i)(\A|[^\pL\pM\d_])un(\z|[^\pL\pM\d_])", lit "${1}1${2}");
    (rx "(?i)(\A|[^\pL\pM\d_])(\d+[.,]?\d*)\s+h\s+(\d+[.,]?\d*)\s+min(\z|[^\pL\pM\d_])", lit "${1}${2}h${3}m${4}");
    (rx "(?i)(\A|[^\pL\pM\d_])(\d+[.,]?\d*)h(\d+[.,]?\d*)m?(\z|[^\pL\pM\d_])", lit "${1}${2}:${3}${4}");
    (rx "(?i)(\A|[^\pL\pM\d_])moins\s(?:de\s)?(\d+[.,]?\d*)\s?(minute|seconde|heure)(\z|[^\pL\pM\d_])", lit "${1}${2} ${3}${4}");
    (rx "(?i)(\A|[^\pL\pM\d_])moins\s(?:de\s)?(\d+[.,]?\d*)\s?s(\z|[^\pL\pM\d_])", lit "${1}${2} seconde${3}");
    (rx "(?i)(\A|[^\pL\pM\d_])moins\s(?:de\s)?(\d+[.,]?\d*)\s?m(\z|[^\pL\pM\d_])", lit "${1}${2} minute${3}");
    (rx "(?i)(\A|[^\pL\pM\d_])moins\s(?:de\s)?(\d+[.,]?\d*)\s?h(\z|[^\pL\pM\d_])", lit "${1}${2} heure${3}");
    (rx "(?i)(\A|[^\pL\pM\d_])deux(\z|[^\pL\pM\d_])", lit "${1}2${2}");
    (rx "(?i)(\A|[^\pL\pM\d_])trois(\z|[^\pL\pM\d_])", lit "${1}3${2}");
    (rx "(?i)(\A|[^\pL\pM\d_])quatre(\z|[^\pL\pM\d_])", lit "${1}4${2}");
    (rx "(?i)(\A|[^\pL\pM\d_])cinq(\z|[^\pL\pM\d_])", lit "${1}5${2}");
    (rx "(?i)(\A|[^\pL\pM\d_])six(\z|[^\pL\pM\d_])", lit "${1}6${2}");
    (rx "(?i)(\A|[^\pL\pM\d_])sept(\z|[^\pL\pM\d_])", lit "${1}7${2}");
    (rx "(?i)(\A|[^\pL\pM\d_])huit(\z|[^\pL\pM\d_])", lit "${1}8${2}");
    (rx "(?i)(\A|[^\pL\pM\d_])neuf(\z|[^\pL\pM\d_])", lit "${1}9${2}");
    (rx "(?i)(\A|[^\pL\pM\d_])dix(\z|[^\pL\pM\d_])", lit "${1}10${2}");
    (rx "(?i)(\A|[^\pL\pM\d_])onze(\z|[^\pL\pM\d_])", lit "${1}11${2}");
    (rx "(?i)(\A|[^\pL\pM\d_])douze(\z|[^\pL\pM\d_])", lit "${1}12${2}")];
    ld_trans := [(lit "septembre", [lit "september"]);
    (lit "decembre", [lit "december"]);
    (lit "dimanche", [lit "sunday"]);
    (lit "mercredi", [lit "wednesday"]);
    (lit "novembre", [lit "november"]);
    (lit "secondes", [lit "second"]);
    (lit "semaines", [lit "week"]);
    (lit "vendredi", [lit "friday"]);
    (lit "environ", [lit ""]);
    (lit "fevrier", [lit "february"]);
    (lit "janvier", [lit "january"]);
    (lit "juillet", [lit "july"]);
    (lit "minutes", [lit "minute"]);
    (lit "octobre", [lit "october"]);
    (lit "seconde", [lit "second"]);
    (lit "semaine", [lit "week"]);
    (lit "annees", [lit "year"]);
    (lit "heures", [lit "hour"]);
    (lit "il y a", [lit "ago"]);
    (lit "minute", [lit "minute"]);
    (lit "samedi", [lit "saturday"]);
    (lit "annee", [lit "year"]);
    (lit "apres", [lit "in"]);
    (lit "avril", [lit "april"]);
    (lit "heure", [lit "hour"]);
    (lit "il ya", [lit "ago"]);
    (lit "jeudi", [lit "thursday"]);
    (lit "jours", [lit "day"]);
    (lit "lundi", [lit "monday"]);
    (lit "mardi", [lit "tuesday"]);
    (lit "aout", [lit "august"]);
    (lit "dans", [lit "in"]);
    (lit "fevr", [lit "february"]);
    (lit "janv", [lit "january"]);
    (lit "jour", [lit "day"]);
    (lit "juil", [lit "july"]);
    (lit "juin", [lit "june"]);
    (lit "mars", [lit "march"]);
    (lit "mois", [lit "month"]);
    (lit "sept", [lit "september"]);
    (lit "ans", [lit "year"]);
    (lit "aou", [lit "august"]);
    (lit "avr", [lit "april"]);
    (lit "dec", [lit "december"]);
    (lit "dim", [lit "sunday"]);
    (lit "fev", [lit "february"]);
    (lit "gmt", [lit "gmt"]);
    (lit "jan", [lit "january"]);
    (lit "jeu", [lit "thursday"]);
    (lit "jul", [lit "july"]);
    (lit "jun", [lit "june"]);
    (lit "lun", [lit "monday"]);
    (lit "mai", [lit "may"]);
    (lit "mar", [lit "tuesday"]);
    (lit "mer", [lit "wednesday"]);
    (lit "min", [lit "minute"]);
    (lit "nov", [lit "november"]);
    (lit "oct", [lit "october"]);
    (lit "sam", [lit "saturday"]);
    (lit "sem", [lit "week"]);
    (lit "sep", [lit "september"]);
    (lit "utc", [lit "utc"]);
    (lit "ven", [lit "friday"]);
    (lit "am", [lit "am"]);
    (lit "an", [lit "year"]);
    (lit "di", [lit "sunday"]);
    (lit "en", [lit "in"]);
    (lit "er", [lit ""]);
    (lit "et", [lit ""]);
    (lit "je", [lit "thursday"]);
    (lit "le", [lit ""]);
    (lit "lu", [lit "monday"]);
    (lit "ma", [lit "tuesday"]);
    (lit "me", [lit "wednesday"]);
    (lit "pm", [lit "pm"]);
    (lit "sa", [lit "saturday"]);
    (lit "ve", [lit "friday"]);
    (lit " ", [lit " "]);
    (lit "'", [lit ""]);
    (lit "+", [lit "+"]);
    (lit ",", [lit ""]);
    (lit "-", [lit "-"]);
    (lit ".", [lit "."]);
    (lit "/", [lit "/"]);
    (lit ":", [lit ":"]);
    (lit ";", [lit ""]);
    (lit "@", [lit ""]);
    (lit "[", [lit ""]);
    (lit "]", [lit ""]);
    (lit "a", [lit ""]);
    (lit "h", [lit "hour"]);
    (lit "j", [lit "day"]);
    (lit "m", [lit "month"]);
    (lit "s", [lit "second"]);
    (lit "z", [lit "z"]);
    (lit "|", [lit ""])];
    ld_reltype := [(lit "la semaine prochaine", lit "in 1 week");
    (lit "la semaine derniere", lit "1 week ago");
    (lit "l'annee prochaine", lit "in 1 year");
    (lit "l'annee derniere", lit "1 year ago");
    (lit "le mois prochain", lit "in 1 month");
    (lit "cette minute-ci", lit "0 minute ago");
    (lit "le mois dernier", lit "1 month ago");
    (lit "cette heure-ci", lit "0 hour ago");
    (lit "cette semaine", lit "0 week ago");
    (lit "apres-demain", lit "in 2 day");
    (lit "aujourd'hui", lit "0 day ago");
    (lit "cette annee", lit "0 year ago");
    (lit "avant-hier", lit "2 day ago");
    (lit "ce mois-ci", lit "0 month ago");
    (lit "maintenant", lit "0 second ago");
    (lit "demain", lit "in 1 day");
    (lit "hier", lit "1 day ago")];
    ld_relrx := [(rx "(?i)il y a (\d+[.,]?\d*) secondes", lit "$1 second ago");
    (rx "(?i)il y a (\d+[.,]?\d*) semaines", lit "$1 week ago");
    (rx "(?i)il y a (\d+[.,]?\d*) minutes", lit "$1 minute ago");
    (rx "(?i)il y a (\d+[.,]?\d*) seconde", lit "$1 second ago");
    (rx "(?i)il y a (\d+[.,]?\d*) semaine", lit "$1 week ago");
    (rx "(?i)dans (\d+[.,]?\d*) secondes", lit "in $1 second");
    (rx "(?i)dans (\d+[.,]?\d*) semaines", lit "in $1 week");
    (rx "(?i)il y a (\d+[.,]?\d*) heures", lit "$1 hour ago");
    (rx "(?i)il y a (\d+[.,]?\d*) minute", lit "$1 minute ago");
    (rx "(?i)dans (\d+[.,]?\d*) minutes", lit "in $1 minute");
    (rx "(?i)dans (\d+[.,]?\d*) seconde", lit "in $1 second");
    (rx "(?i)dans (\d+[.,]?\d*) semaine", lit "in $1 week");
    (rx "(?i)il y a (\d+[.,]?\d*) heure", lit "$1 hour ago");
    (rx "(?i)il y a (\d+[.,]?\d*) jours", lit "$1 day ago");
    (rx "(?i)dans (\d+[.,]?\d*) heures", lit "in $1 hour");
    (rx "(?i)dans (\d+[.,]?\d*) minute", lit "in $1 minute");
    (rx "(?i)il y a (\d+[.,]?\d*) jour", lit "$1 day ago");
    (rx "(?i)il y a (\d+[.,]?\d*) mois", lit "$1 month ago");
    (rx "(?i)dans (\d+[.,]?\d*) heure", lit "in $1 hour");
    (rx "(?i)dans (\d+[.,]?\d*) jours", lit "in $1 day");
    (rx "(?i)il y a (\d+[.,]?\d*) ans", lit "$1 year ago");
    (rx "(?i)il y a (\d+[.,]?\d*) min", lit "$1 minute ago");
    (rx "(?i)il y a (\d+[.,]?\d*) sem", lit "$1 week ago");
    (rx "(?i)dans (\d+[.,]?\d*) jour", lit "in $1 day");
    (rx "(?i)dans (\d+[.,]?\d*) mois", lit "in $1 month");
    (rx "(?i)il y a (\d+[.,]?\d*) an", lit "$1 year ago");
    (rx "(?i)il y a (\d+[.,]?\d*)min", lit "$1 minute ago");
    (rx "(?i)dans (\d+[.,]?\d*) ans", lit "in $1 year");
    (rx "(?i)dans (\d+[.,]?\d*) min", lit "in $1 minute");
    (rx "(?i)dans (\d+[.,]?\d*) sem", lit "in $1 week");
    (rx "(?i)il y a (\d+[.,]?\d*) a", lit "$1 year ago");
    (rx "(?i)il y a (\d+[.,]?\d*) h", lit "$1 hour ago");
    (rx "(?i)il y a (\d+[.,]?\d*) j", lit "$1 day ago");
    (rx "(?i)il y a (\d+[.,]?\d*) m", lit "$1 month ago");
    (rx "(?i)il y a (\d+[.,]?\d*) s", lit "$1 second ago");
    (rx "(?i)dans (\d+[.,]?\d*) an", lit "in $1 year");
    (rx "(?i)il y a (\d+[.,]?\d*)h", lit "$1 hour ago");
    (rx "(?i)dans (\d+[.,]?\d*) a", lit "in $1 year");
    (rx "(?i)dans (\d+[.,]?\d*) h", lit "in $1 hour");
    (rx "(?i)dans (\d+[.,]?\d*) j", lit "in $1 day");
    (rx "(?i)dans (\d+[.,]?\d*) m", lit "in $1 month");
    (rx "(?i)dans (\d+[.,]?\d*) s", lit "in $1 second");
    (rx "(?i)dans (\d+[.,]?\d*)h", lit "in $1 hour")];
    ld_rx := Some (rx "(?i)(\A|[^\pL\pM\d]|_)(il y a \d+[.,]?\d* secondes|il y a \d+[.,]?\d* semaines|il y a \d+[.,]?\d* minutes|il y a \d+[.,]?\d* seconde|il y a \d+[.,]?\d* semaine|dans \d+[.,]?\d* secondes|dans \d+[.,]?\d* semaines|il y a \d+[.,]?\d* heures|il y a \d+[.,]?\d* minute|dans \d+[.,]?\d* minutes|dans \d+[.,]?\d* seconde|dans \d+[.,]?\d* semaine|il y a \d+[.,]?\d* heure|il y a \d+[.,]?\d* jours|dans \d+[.,]?\d* heures|dans \d+[.,]?\d* minute|il y a \d+[.,]?\d* jour|il y a \d+[.,]?\d* mois|dans \d+[.,]?\d* heure|dans \d+[.,]?\d* jours|il y a \d+[.,]?\d* ans|il y a \d+[.,]?\d* min|il y a \d+[.,]?\d* sem|dans \d+[.,]?\d* jour|dans \d+[.,]?\d* mois|il y a \d+[.,]?\d* an|il y a \d+[.,]?\d*min|dans \d+[.,]?\d* ans|dans \d+[.,]?\d* min|dans \d+[.,]?\d* sem|il y a \d+[.,]?\d* a|il y a \d+[.,]?\d* h|il y a \d+[.,]?\d* j|il y a \d+[.,]?\d* m|il y a \d+[.,]?\d* s|dans \d+[.,]?\d* an|il y a \d+[.,]?\d*h|dans \d+[.,]?\d* a|dans \d+[.,]?\d* h|dans \d+[.,]?\d* j|dans \d+[.,]?\d* m|dans \d+[.,]?\d* s|dans \d+[.,]?\d*h)(\z|[^\pL\pM\d]|_)");
    ld_rx_exact := Some (rx "(?i)^(il y a \d+[.,]?\d* secondes|il y a \d+[.,]?\d* semaines|il y a \d+[.,]?\d* minutes|il y a \d+[.,]?\d* seconde|il y a \d+[.,]?\d* semaine|dans \d+[.,]?\d* secondes|dans \d+[.,]?\d* semaines|il y a \d+[.,]?\d* heures|il y a \d+[.,]?\d* minute|dans \d+[.,]?\d* minutes|dans \d+[.,]?\d* seconde|dans \d+[.,]?\d* semaine|il y a \d+[.,]?\d* heure|il y a \d+[.,]?\d* jours|dans \d+[.,]?\d* heures|dans \d+[.,]?\d* minute|il y a \d+[.,]?\d* jour|il y a \d+[.,]?\d* mois|dans \d+[.,]?\d* heure|dans \d+[.,]?\d* jours|il y a \d+[.,]?\d* ans|il y a \d+[.,]?\d* min|il y a \d+[.,]?\d* sem|dans \d+[.,]?\d* jour|dans \d+[.,]?\d* mois|il y a \d+[.,]?\d* an|il y a \d+[.,]?\d*min|dans \d+[.,]?\d* ans|dans \d+[.,]?\d* min|dans \d+[.,]?\d* sem|il y a \d+[.,]?\d* a|il y a \d+[.,]?\d* h|il y a \d+[.,]?\d* j|il y a \d+[.,]?\d* m|il y a \d+[.,]?\d* s|dans \d+[.,]?\d* an|il y a \d+[.,]?\d*h|dans \d+[.,]?\d* a|dans \d+[.,]?\d* h|dans \d+[.,]?\d* j|dans \d+[.,]?\d* m|dans \d+[.,]?\d* s|dans \d+[.,]?\d*h)$");
    ld_known := [lit "la semaine prochaine";
    lit "la semaine derniere";
    lit "l'annee prochaine";
    lit "l'annee derniere";
    lit "le mois prochain";
    lit "cette minute-ci";
    lit "le mois dernier";
    lit "cette heure-ci";
    lit "cette semaine";
    lit "apres-demain";
    lit "aujourd'hui";
    lit "cette annee";
    lit "avant-hier";
    lit "ce mois-ci";
    lit "maintenant";
    lit "septembre";
    lit "decembre";
    lit "dimanche";
    lit "mercredi";
    lit "novembre";
    lit "secondes";
    lit "semaines";
    lit "vendredi";
    lit "environ";
    lit "fevrier";
    lit "janvier";
    lit "juillet";
    lit "minutes";
    lit "octobre";
    lit "seconde";
    lit "semaine";
    lit "annees";
    lit "demain";
    lit "heures";
    lit "il y a";
    lit "minute";
    lit "samedi";
    lit "annee";
    lit "apres";
    lit "avril";
    lit "heure";
    lit "il ya";
    lit "jeudi";
    lit "jours";
    lit "lundi";
    lit "mardi";
    lit "aout";
    lit "dans";
    lit "fevr";
    lit "hier";
    lit "janv";
    lit "jour";
    lit "juil";
    lit "juin";
    lit "mars";
    lit "mois";
    lit "sept";
    lit "ans";
    lit "aou";
    lit "avr";
    lit "dec";
    lit "dim";
    lit "fev";
    lit "gmt";
    lit "jan";
    lit "jeu";
    lit "jul";
    lit "jun";
    lit "lun";
    lit "mai";
    lit "mar";
    lit "mer";
    lit "min";
    lit "nov";
    lit "oct";
    lit "sam";
    lit "sem";
    lit "sep";
    lit "utc";
    lit "ven";
    lit "am";
    lit "an";
    lit "di";
    lit "en";
    lit "er";
    lit "et";
    lit "je";
    lit "le";
    lit "lu";
    lit "ma";
    lit "me";
    lit "pm";
    lit "sa";
    lit "ve";
    lit " ";
    lit "'";
    lit "+";
    lit ",";
    lit "-";
    lit ".";
    lit "/";
    lit ":";
    lit ";";
    lit "@";
    lit "[";
    lit "]";
    lit "a";
    lit "h";
    lit "j";
    lit "m";
    lit "s";
    lit "z";
    lit "|"] |}.

(** all patterns above are accepted by the syntax parser *)
Example patterns_ok : forallb (fun s => match parse_regex s with Some _ => true | None => false end)
  [lit "(?i)(\A|[^\pL\pM\d_])an(\z|[^\pL\pM\d_])";
  lit "(?i)(\A|[^\pL\pM\d_])a(\z|[^\pL\pM\d_])";
  lit "(?i)(\A|[^\pL\pM\d_])(?:12\s+)?noon(\z|[^\pL\pM\d_])";
  lit "(?i)(\A|[^\pL\pM\d_])(?:12\s+)?midnight(\z|[^\pL\pM\d_])";
  lit "(?i)(\A|[^\pL\pM\d_])(\d+[.,]?\d*)h(\d+[.,]?\d*)(\z|[^\pL\pM\d_])";
  lit "(?i)(\A|[^\pL\pM\d_])(from\s+)now(\z|[^\pL\pM\d_])";
  lit "(?i)(\A|[^\pL\pM\d_])less than 1 minute ago(\z|[^\pL\pM\d_])";
  lit "(?i)(\A|[^\pL\pM\d_])(\d+[.,]?\d*) (decade|year|month|week|day|hour|minute|second)s? later(\z|[^\pL\pM\d_])";
  lit "(?i)(\A|[^\pL\pM\d_])one(\z|[^\pL\pM\d_])";
  lit "(?i)(\A|[^\pL\pM\d_])two(\z|[^\pL\pM\d_])";
  lit "(?i)(\A|[^\pL\pM\d_])three(\z|[^\pL\pM\d_])";
  lit "(?i)(\A|[^\pL\pM\d_])four(\z|[^\pL\pM\d_])";
  lit "(?i)(\A|[^\pL\pM\d_])five(\z|[^\pL\pM\d_])";
  lit "(?i)(\A|[^\pL\pM\d_])six(\z|[^\pL\pM\d_])";
  lit "(?i)(\A|[^\pL\pM\d_])seven(\z|[^\pL\pM\d_])";
  lit "(?i)(\A|[^\pL\pM\d_])eight(\z|[^\pL\pM\d_])";
  lit "(?i)(\A|[^\pL\pM\d_])nine(\z|[^\pL\pM\d_])";
  lit "(?i)(\A|[^\pL\pM\d_])ten(\z|[^\pL\pM\d_])";
  lit "(?i)(\A|[^\pL\pM\d_])eleven(\z|[^\pL\pM\d_])";
  lit "(?i)(\A|[^\pL\pM\d_])twelve(\z|[^\pL\pM\d_])";
  lit "(?i)(\d+[.,]?\d*) decades? ago";
  lit "(?i)(\d+[.,]?\d*) minutes ago";
  lit "(?i)(\d+[.,]?\d*) seconds ago";
  lit "(?i)in (\d+[.,]?\d*) decades?";
  lit "(?i)(\d+[.,]?\d*) minute ago";
  lit "(?i)(\d+[.,]?\d*) months ago";
  lit "(?i)(\d+[.,]?\d*) second ago";
  lit "(?i)in (\d+[.,]?\d*) minutes";
  lit "(?i)in (\d+[.,]?\d*) seconds";
  lit "(?i)(\d+[.,]?\d*) hours ago";
  lit "(?i)(\d+[.,]?\d*) month ago";
  lit "(?i)(\d+[.,]?\d*) weeks ago";
  lit "(?i)(\d+[.,]?\d*) years ago";
  lit "(?i)in (\d+[.,]?\d*) minute";
  lit "(?i)in (\d+[.,]?\d*) months";
  lit "(?i)in (\d+[.,]?\d*) second";
  lit "(?i)(\d+[.,]?\d*) days ago";
  lit "(?i)(\d+[.,]?\d*) hour ago";
  lit "(?i)(\d+[.,]?\d*) week ago";
  lit "(?i)(\d+[.,]?\d*) year ago";
  lit "(?i)in (\d+[.,]?\d*) hours";
  lit "(?i)in (\d+[.,]?\d*) month";
  lit "(?i)in (\d+[.,]?\d*) weeks";
  lit "(?i)in (\d+[.,]?\d*) years";
  lit "(?i)(\d+[.,]?\d*) day ago";
  lit "(?i)(\d+[.,]?\d*) min ago";
  lit "(?i)(\d+[.,]?\d*) sec ago";
  lit "(?i)in (\d+[.,]?\d*) days";
  lit "(?i)in (\d+[.,]?\d*) hour";
  lit "(?i)in (\d+[.,]?\d*) week";
  lit "(?i)in (\d+[.,]?\d*) year";
  lit "(?i)(\d+[.,]?\d*) hr ago";
  lit "(?i)(\d+[.,]?\d*) mo ago";
  lit "(?i)(\d+[.,]?\d*) wk ago";
  lit "(?i)(\d+[.,]?\d*) yr ago";
  lit "(?i)in (\d+[.,]?\d*) day";
  lit "(?i)in (\d+[.,]?\d*) min";
  lit "(?i)in (\d+[.,]?\d*) sec";
  lit "(?i)in (\d+[.,]?\d*) hr";
  lit "(?i)in (\d+[.,]?\d*) mo";
  lit "(?i)in (\d+[.,]?\d*) wk";
  lit "(?i)in (\d+[.,]?\d*) yr";
  lit "(?i)(\A|[^\pL\pM\d]|_)(\d+[.,]?\d* decades? ago|\d+[.,]?\d* minutes ago|\d+[.,]?\d* seconds ago|in \d+[.,]?\d* decades?|\d+[.,]?\d* minute ago|\d+[.,]?\d* months ago|\d+[.,]?\d* second ago|in \d+[.,]?\d* minutes|in \d+[.,]?\d* seconds|\d+[.,]?\d* hours ago|\d+[.,]?\d* month ago|\d+[.,]?\d* weeks ago|\d+[.,]?\d* years ago|in \d+[.,]?\d* minute|in \d+[.,]?\d* months|in \d+[.,]?\d* second|\d+[.,]?\d* days ago|\d+[.,]?\d* hour ago|\d+[.,]?\d* week ago|\d+[.,]?\d* year ago|in \d+[.,]?\d* hours|in \d+[.,]?\d* month|in \d+[.,]?\d* weeks|in \d+[.,]?\d* years|\d+[.,]?\d* day ago|\d+[.,]?\d* min ago|\d+[.,]?\d* sec ago|in \d+[.,]?\d* days|in \d+[.,]?\d* hour|in \d+[.,]?\d* week|in \d+[.,]?\d* year|\d+[.,]?\d* hr ago|\d+[.,]?\d* mo ago|\d+[.,]?\d* wk ago|\d+[.,]?\d* yr ago|in \d+[.,]?\d* day|in \d+[.,]?\d* min|in \d+[.,]?\d* sec|in \d+[.,]?\d* hr|in \d+[.,]?\d* mo|in \d+[.,]?\d* wk|in \d+[.,]?\d* yr)(\z|[^\pL\pM\d]|_)";
  lit "(?i)^(\d+[.,]?\d* decades? ago|\d+[.,]?\d* minutes ago|\d+[.,]?\d* seconds ago|in \d+[.,]?\d* decades?|\d+[.,]?\d* minute ago|\d+[.,]?\d* months ago|\d+[.,]?\d* second ago|in \d+[.,]?\d* minutes|in \d+[.,]?\d* seconds|\d+[.,]?\d* hours ago|\d+[.,]?\d* month ago|\d+[.,]?\d* weeks ago|\d+[.,]?\d* years ago|in \d+[.,]?\d* minute|in \d+[.,]?\d* months|in \d+[.,]?\d* second|\d+[.,]?\d* days ago|\d+[.,]?\d* hour ago|\d+[.,]?\d* week ago|\d+[.,]?\d* year ago|in \d+[.,]?\d* hours|in \d+[.,]?\d* month|in \d+[.,]?\d* weeks|in \d+[.,]?\d* years|\d+[.,]?\d* day ago|\d+[.,]?\d* min ago|\d+[.,]?\d* sec ago|in \d+[.,]?\d* days|in \d+[.,]?\d* hour|in \d+[.,]?\d* week|in \d+[.,]?\d* year|\d+[.,]?\d* hr ago|\d+[.,]?\d* mo ago|\d+[.,]?\d* wk ago|\d+[.,]?\d* yr ago|in \d+[.,]?\d* day|in \d+[.,]?\d* min|in \d+[.,]?\d* sec|in \d+[.,]?\d* hr|in \d+[.,]?\d* mo|in \d+[.,]?\d* wk|in \d+[.,]?\d* yr)$";
  lit "(?i)(\A|[^\pL\pM\d_])una(\z|[^\pL\pM\d_])";
  lit "(?i)(\A|[^\pL\pM\d_])un(\z|[^\pL\pM\d_])";
  lit "(?i)dentro de (\d+[.,]?\d*) segundos";
  lit "(?i)dentro de (\d+[.,]?\d*) minutos";
  lit "(?i)dentro de (\d+[.,]?\d*) segundo";
  lit "(?i)dentro de (\d+[.,]?\d*) semanas";
  lit "(?i)dentro de (\d+[.,]?\d*) minuto";
  lit "(?i)dentro de (\d+[.,]?\d*) semana";
  lit "(?i)dentro de (\d+[.,]?\d*) horas";
  lit "(?i)dentro de (\d+[.,]?\d*) meses";
  lit "(?i)dentro de (\d+[.,]?\d*) anos";
  lit "(?i)dentro de (\d+[.,]?\d*) dias";
  lit "(?i)dentro de (\d+[.,]?\d*) hora";
  lit "(?i)dentro de (\d+[.,]?\d*) ano";
  lit "(?i)dentro de (\d+[.,]?\d*) dia";
  lit "(?i)dentro de (\d+[.,]?\d*) mes";
  lit "(?i)dentro de (\d+[.,]?\d*) min";
  lit "(?i)dentro de (\d+[.,]?\d*) sem";
  lit "(?i)hace (\d+[.,]?\d*) segundos";
  lit "(?i)hace (\d+[.,]?\d*) minutos";
  lit "(?i)hace (\d+[.,]?\d*) segundo";
  lit "(?i)hace (\d+[.,]?\d*) semanas";
  lit "(?i)dentro de (\d+[.,]?\d*) a";
  lit "(?i)dentro de (\d+[.,]?\d*) h";
  lit "(?i)dentro de (\d+[.,]?\d*) m";
  lit "(?i)dentro de (\d+[.,]?\d*) s";
  lit "(?i)hace (\d+[.,]?\d*) minuto";
  lit "(?i)hace (\d+[.,]?\d*) semana";
  lit "(?i)hace (\d+[.,]?\d*) horas";
  lit "(?i)hace (\d+[.,]?\d*) meses";
  lit "(?i)hace (\d+[.,]?\d*) anos";
  lit "(?i)hace (\d+[.,]?\d*) dias";
  lit "(?i)hace (\d+[.,]?\d*) hora";
  lit "(?i)hace (\d+[.,]?\d*) ano";
  lit "(?i)hace (\d+[.,]?\d*) dia";
  lit "(?i)hace (\d+[.,]?\d*) mes";
  lit "(?i)hace (\d+[.,]?\d*) min";
  lit "(?i)hace (\d+[.,]?\d*) sem";
  lit "(?i)hace (\d+[.,]?\d*) a";
  lit "(?i)hace (\d+[.,]?\d*) h";
  lit "(?i)hace (\d+[.,]?\d*) m";
  lit "(?i)hace (\d+[.,]?\d*) s";
  lit "(?i)(\A|[^\pL\pM\d]|_)(dentro de \d+[.,]?\d* segundos|dentro de \d+[.,]?\d* minutos|dentro de \d+[.,]?\d* segundo|dentro de \d+[.,]?\d* semanas|dentro de \d+[.,]?\d* minuto|dentro de \d+[.,]?\d* semana|dentro de \d+[.,]?\d* horas|dentro de \d+[.,]?\d* meses|dentro de \d+[.,]?\d* anos|dentro de \d+[.,]?\d* dias|dentro de \d+[.,]?\d* hora|dentro de \d+[.,]?\d* ano|dentro de \d+[.,]?\d* dia|dentro de \d+[.,]?\d* mes|dentro de \d+[.,]?\d* min|dentro de \d+[.,]?\d* sem|hace \d+[.,]?\d* segundos|hace \d+[.,]?\d* minutos|hace \d+[.,]?\d* segundo|hace \d+[.,]?\d* semanas|dentro de \d+[.,]?\d* a|dentro de \d+[.,]?\d* h|dentro de \d+[.,]?\d* m|dentro de \d+[.,]?\d* s|hace \d+[.,]?\d* minuto|hace \d+[.,]?\d* semana|hace \d+[.,]?\d* horas|hace \d+[.,]?\d* meses|hace \d+[.,]?\d* anos|hace \d+[.,]?\d* dias|hace \d+[.,]?\d* hora|hace \d+[.,]?\d* ano|hace \d+[.,]?\d* dia|hace \d+[.,]?\d* mes|hace \d+[.,]?\d* min|hace \d+[.,]?\d* sem|hace \d+[.,]?\d* a|hace \d+[.,]?\d* h|hace \d+[.,]?\d* m|hace \d+[.,]?\d* s)(\z|[^\pL\pM\d]|_)";
  lit "(?i)^(dentro de \d+[.,]?\d* segundos|dentro de \d+[.,]?\d* minutos|dentro de \d+[.,]?\d* segundo|dentro de \d+[.,]?\d* semanas|dentro de \d+[.,]?\d* minuto|dentro de \d+[.,]?\d* semana|dentro de \d+[.,]?\d* horas|dentro de \d+[.,]?\d* meses|dentro de \d+[.,]?\d* anos|dentro de \d+[.,]?\d* dias|dentro de \d+[.,]?\d* hora|dentro de \d+[.,]?\d* ano|dentro de \d+[.,]?\d* dia|dentro de \d+[.,]?\d* mes|dentro de \d+[.,]?\d* min|dentro de \d+[.,]?\d* sem|hace \d+[.,]?\d* segundos|hace \d+[.,]?\d* minutos|hace \d+[.,]?\d* segundo|hace \d+[.,]?\d* semanas|dentro de \d+[.,]?\d* a|dentro de \d+[.,]?\d* h|dentro de \d+[.,]?\d* m|dentro de \d+[.,]?\d* s|hace \d+[.,]?\d* minuto|hace \d+[.,]?\d* semana|hace \d+[.,]?\d* horas|hace \d+[.,]?\d* meses|hace \d+[.,]?\d* anos|hace \d+[.,]?\d* dias|hace \d+[.,]?\d* hora|hace \d+[.,]?\d* ano|hace \d+[.,]?\d* dia|hace \d+[.,]?\d* mes|hace \d+[.,]?\d* min|hace \d+[.,]?\d* sem|hace \d+[.,]?\d* a|hace \d+[.,]?\d* h|hace \d+[.,]?\d* m|hace \d+[.,]?\d* s)$";
  lit "(?i)(\A|[^\pL\pM\d_])einer(\z|[^\pL\pM\d_])";
  lit "(?i)(\A|[^\pL\pM\d_])einem(\z|[^\pL\pM\d_])";
  lit "(?i)(\A|[^\pL\pM\d_])ein(\z|[^\pL\pM\d_])";
  lit "(?i)(\A|[^\pL\pM\d_])zwei(\z|[^\pL\pM\d_])";
  lit "(?i)(\A|[^\pL\pM\d_])drei(\z|[^\pL\pM\d_])";
  lit "(?i)(\A|[^\pL\pM\d_])vier(\z|[^\pL\pM\d_])";
  lit "(?i)(\A|[^\pL\pM\d_])funf(\z|[^\pL\pM\d_])";
  lit "(?i)(\A|[^\pL\pM\d_])sechs(\z|[^\pL\pM\d_])";
  lit "(?i)(\A|[^\pL\pM\d_])sieben(\z|[^\pL\pM\d_])";
  lit "(?i)(\A|[^\pL\pM\d_])acht(\z|[^\pL\pM\d_])";
  lit "(?i)(\A|[^\pL\pM\d_])neun(\z|[^\pL\pM\d_])";
  lit "(?i)(\A|[^\pL\pM\d_])zehn(\z|[^\pL\pM\d_])";
  lit "(?i)(\A|[^\pL\pM\d_])elf(\z|[^\pL\pM\d_])";
  lit "(?i)(\A|[^\pL\pM\d_])zwolf(\z|[^\pL\pM\d_])";
  lit "(?i)vor (\d+[.,]?\d*) sekunden";
  lit "(?i)in (\d+[.,]?\d*) sekunden";
  lit "(?i)vor (\d+[.,]?\d*) minuten";
  lit "(?i)vor (\d+[.,]?\d*) monaten";
  lit "(?i)vor (\d+[.,]?\d*) sekunde";
  lit "(?i)vor (\d+[.,]?\d*) stunden";
  lit "(?i)in (\d+[.,]?\d*) minuten";
  lit "(?i)in (\d+[.,]?\d*) monaten";
  lit "(?i)in (\d+[.,]?\d*) sekunde";
  lit "(?i)in (\d+[.,]?\d*) stunden";
  lit "(?i)vor (\d+[.,]?\d*) jahren";
  lit "(?i)vor (\d+[.,]?\d*) minute";
  lit "(?i)vor (\d+[.,]?\d*) stunde";
  lit "(?i)vor (\d+[.,]?\d*) wochen";
  lit "(?i)in (\d+[.,]?\d*) jahren";
  lit "(?i)in (\d+[.,]?\d*) minute";
  lit "(?i)in (\d+[.,]?\d*) stunde";
  lit "(?i)in (\d+[.,]?\d*) wochen";
  lit "(?i)vor (\d+[.,]?\d*) monat";
  lit "(?i)vor (\d+[.,]?\d*) tagen";
  lit "(?i)vor (\d+[.,]?\d*) woche";
  lit "(?i)in (\d+[.,]?\d*) monat";
  lit "(?i)in (\d+[.,]?\d*) tagen";
  lit "(?i)in (\d+[.,]?\d*) woche";
  lit "(?i)vor (\d+[.,]?\d*) jahr";
  lit "(?i)in (\d+[.,]?\d*) jahr";
  lit "(?i)vor (\d+[.,]?\d*) min";
  lit "(?i)vor (\d+[.,]?\d*) sek";
  lit "(?i)vor (\d+[.,]?\d*) std";
  lit "(?i)vor (\d+[.,]?\d*) tag";
  lit "(?i)vor (\d+[.,]?\d*)\s*h";
  lit "(?i)vor (\d+[.,]?\d*)\s*m";
  lit "(?i)vor (\d+[.,]?\d*)\s*s";
  lit "(?i)in (\d+[.,]?\d*) min";
  lit "(?i)in (\d+[.,]?\d*) sek";
  lit "(?i)in (\d+[.,]?\d*) std";
  lit "(?i)in (\d+[.,]?\d*) tag";
  lit "(?i)vor (\d+[.,]?\d*) wo";
  lit "(?i)in (\d+[.,]?\d*) wo";
  lit "(?i)vor (\d+[.,]?\d*) m";
  lit "(?i)vor (\d+[.,]?\d*) s";
  lit "(?i)in (\d+[.,]?\d*) m";
  lit "(?i)in (\d+[.,]?\d*) s";
  lit "(?i)(\A|[^\pL\pM\d]|_)(vor \d+[.,]?\d* sekunden|in \d+[.,]?\d* sekunden|vor \d+[.,]?\d* minuten|vor \d+[.,]?\d* monaten|vor \d+[.,]?\d* sekunde|vor \d+[.,]?\d* stunden|in \d+[.,]?\d* minuten|in \d+[.,]?\d* monaten|in \d+[.,]?\d* sekunde|in \d+[.,]?\d* stunden|vor \d+[.,]?\d* jahren|vor \d+[.,]?\d* minute|vor \d+[.,]?\d* stunde|vor \d+[.,]?\d* wochen|in \d+[.,]?\d* jahren|in \d+[.,]?\d* minute|in \d+[.,]?\d* stunde|in \d+[.,]?\d* wochen|vor \d+[.,]?\d* monat|vor \d+[.,]?\d* tagen|vor \d+[.,]?\d* woche|in \d+[.,]?\d* monat|in \d+[.,]?\d* tagen|in \d+[.,]?\d* woche|vor \d+[.,]?\d* jahr|in \d+[.,]?\d* jahr|vor \d+[.,]?\d* min|vor \d+[.,]?\d* sek|vor \d+[.,]?\d* std|vor \d+[.,]?\d* tag|vor \d+[.,]?\d*\s*h|vor \d+[.,]?\d*\s*m|vor \d+[.,]?\d*\s*s|in \d+[.,]?\d* min|in \d+[.,]?\d* sek|in \d+[.,]?\d* std|in \d+[.,]?\d* tag|vor \d+[.,]?\d* wo|in \d+[.,]?\d* wo|vor \d+[.,]?\d* m|vor \d+[.,]?\d* s|in \d+[.,]?\d* m|in \d+[.,]?\d* s)(\z|[^\pL\pM\d]|_)";
  lit "(?i)^(vor \d+[.,]?\d* sekunden|in \d+[.,]?\d* sekunden|vor \d+[.,]?\d* minuten|vor \d+[.,]?\d* monaten|vor \d+[.,]?\d* sekunde|vor \d+[.,]?\d* stunden|in \d+[.,]?\d* minuten|in \d+[.,]?\d* monaten|in \d+[.,]?\d* sekunde|in \d+[.,]?\d* stunden|vor \d+[.,]?\d* jahren|vor \d+[.,]?\d* minute|vor \d+[.,]?\d* stunde|vor \d+[.,]?\d* wochen|in \d+[.,]?\d* jahren|in \d+[.,]?\d* minute|in \d+[.,]?\d* stunde|in \d+[.,]?\d* wochen|vor \d+[.,]?\d* monat|vor \d+[.,]?\d* tagen|vor \d+[.,]?\d* woche|in \d+[.,]?\d* monat|in \d+[.,]?\d* tagen|in \d+[.,]?\d* woche|vor \d+[.,]?\d* jahr|in \d+[.,]?\d* jahr|vor \d+[.,]?\d* min|vor \d+[.,]?\d* sek|vor \d+[.,]?\d* std|vor \d+[.,]?\d* tag|vor \d+[.,]?\d*\s*h|vor \d+[.,]?\d*\s*m|vor \d+[.,]?\d*\s*s|in \d+[.,]?\d* min|in \d+[.,]?\d* sek|in \d+[.,]?\d* std|in \d+[.,]?\d* tag|vor \d+[.,]?\d* wo|in \d+[.,]?\d* wo|vor \d+[.,]?\d* m|vor \d+[.,]?\d* s|in \d+[.,]?\d* m|in \d+[.,]?\d* s)$";
  lit "(?i)(\A|[^\pL\pM\d_])(\d+[.,]?\d*) (sekunnin|sekuntin|minuutin|tunnin|paivan|viikon|kuukauden|vuoden) (paasta|kuluttua)(\z|[^\pL\pM\d_])";
  lit "(?i)(\d+[.,]?\d*) kuukauden paasta";
  lit "(?i)(\d+[.,]?\d*) kuukautta sitten";
  lit "(?i)(\d+[.,]?\d*) minuuttia sitten";
  lit "(?i)(\d+[.,]?\d*) kuukausi sitten";
  lit "(?i)(\d+[.,]?\d*) minuutin paasta";
  lit "(?i)(\d+[.,]?\d*) minuutti sitten";
  lit "(?i)(\d+[.,]?\d*) sekunnin paasta";
  lit "(?i)(\d+[.,]?\d*) sekuntia sitten";
  lit "(?i)(\d+[.,]?\d*) sekunti sitten";
  lit "(?i)(\d+[.,]?\d*) viikkoa sitten";
  lit "(?i)(\d+[.,]?\d*) paivaa sitten";
  lit "(?i)(\d+[.,]?\d*) paivan paasta";
  lit "(?i)(\d+[.,]?\d*) tunnin paasta";
  lit "(?i)(\d+[.,]?\d*) tuntia sitten";
  lit "(?i)(\d+[.,]?\d*) viikko sitten";
  lit "(?i)(\d+[.,]?\d*) viikon paasta";
  lit "(?i)(\d+[.,]?\d*) vuoden paasta";
  lit "(?i)(\d+[.,]?\d*) vuotta sitten";
  lit "(?i)(\d+[.,]?\d*) paiva sitten";
  lit "(?i)(\d+[.,]?\d*) tunti sitten";
  lit "(?i)(\d+[.,]?\d*) vuosi sitten";
  lit "(?i)(\d+[.,]?\d*) min paasta";
  lit "(?i)(\d+[.,]?\d*) min sitten";
  lit "(?i)(\d+[.,]?\d*) kk paasta";
  lit "(?i)(\d+[.,]?\d*) kk sitten";
  lit "(?i)(\d+[.,]?\d*) pv paasta";
  lit "(?i)(\d+[.,]?\d*) pv sitten";
  lit "(?i)(\d+[.,]?\d*) vk paasta";
  lit "(?i)(\d+[.,]?\d*) vk sitten";
  lit "(?i)(\d+[.,]?\d*) s paasta";
  lit "(?i)(\d+[.,]?\d*) s sitten";
  lit "(?i)(\d+[.,]?\d*) t paasta";
  lit "(?i)(\d+[.,]?\d*) t sitten";
  lit "(?i)(\d+[.,]?\d*) v paasta";
  lit "(?i)(\d+[.,]?\d*) v sitten";
  lit "(?i)(\A|[^\pL\pM\d]|_)(\d+[.,]?\d* kuukauden paasta|\d+[.,]?\d* kuukautta sitten|\d+[.,]?\d* minuuttia sitten|\d+[.,]?\d* kuukausi sitten|\d+[.,]?\d* minuutin paasta|\d+[.,]?\d* minuutti sitten|\d+[.,]?\d* sekunnin paasta|\d+[.,]?\d* sekuntia sitten|\d+[.,]?\d* sekunti sitten|\d+[.,]?\d* viikkoa sitten|\d+[.,]?\d* paivaa sitten|\d+[.,]?\d* paivan paasta|\d+[.,]?\d* tunnin paasta|\d+[.,]?\d* tuntia sitten|\d+[.,]?\d* viikko sitten|\d+[.,]?\d* viikon paasta|\d+[.,]?\d* vuoden paasta|\d+[.,]?\d* vuotta sitten|\d+[.,]?\d* paiva sitten|\d+[.,]?\d* tunti sitten|\d+[.,]?\d* vuosi sitten|\d+[.,]?\d* min paasta|\d+[.,]?\d* min sitten|\d+[.,]?\d* kk paasta|\d+[.,]?\d* kk sitten|\d+[.,]?\d* pv paasta|\d+[.,]?\d* pv sitten|\d+[.,]?\d* vk paasta|\d+[.,]?\d* vk sitten|\d+[.,]?\d* s paasta|\d+[.,]?\d* s sitten|\d+[.,]?\d* t paasta|\d+[.,]?\d* t sitten|\d+[.,]?\d* v paasta|\d+[.,]?\d* v sitten)(\z|[^\pL\pM\d]|_)";
  lit "(?i)^(\d+[.,]?\d* kuukauden paasta|\d+[.,]?\d* kuukautta sitten|\d+[.,]?\d* minuuttia sitten|\d+[.,]?\d* kuukausi sitten|\d+[.,]?\d* minuutin paasta|\d+[.,]?\d* minuutti sitten|\d+[.,]?\d* sekunnin paasta|\d+[.,]?\d* sekuntia sitten|\d+[.,]?\d* sekunti sitten|\d+[.,]?\d* viikkoa sitten|\d+[.,]?\d* paivaa sitten|\d+[.,]?\d* paivan paasta|\d+[.,]?\d* tunnin paasta|\d+[.,]?\d* tuntia sitten|\d+[.,]?\d* viikko sitten|\d+[.,]?\d* viikon paasta|\d+[.,]?\d* vuoden paasta|\d+[.,]?\d* vuotta sitten|\d+[.,]?\d* paiva sitten|\d+[.,]?\d* tunti sitten|\d+[.,]?\d* vuosi sitten|\d+[.,]?\d* min paasta|\d+[.,]?\d* min sitten|\d+[.,]?\d* kk paasta|\d+[.,]?\d* kk sitten|\d+[.,]?\d* pv paasta|\d+[.,]?\d* pv sitten|\d+[.,]?\d* vk paasta|\d+[.,]?\d* vk sitten|\d+[.,]?\d* s paasta|\d+[.,]?\d* s sitten|\d+[.,]?\d* t paasta|\d+[.,]?\d* t sitten|\d+[.,]?\d* v paasta|\d+[.,]?\d* v sitten)$";
  lit "(?i)半小时前";
  lit "(?i)(?:中午|下午|(?:晚上?))(?:\s*)(\d+[.,]?\d*)(?:\s*):(?:\s+|:)?(\d+[.,]?\d*)";
  lit "(?i)(?:上午|早上|凌晨)(?:\s*)(\d+[.,]?\d*)(?:\s*):(?:\s+|:)?(\d+[.,]?\d*)";
  lit "(?i)中午";
  lit "(?i)(\d+[.,]?\d*)年(?:\s+)?(\d+[.,]?\d*)月(?:\s+)?(\d+[.,]?\d*)日(?:\s+)?(\d+[.,]?\d*)时(?:\s+)?(\d+[.,]?\d*)分";
  lit "(?i)(\d+[.,]?\d*)年(?:\s+)?(\d+[.,]?\d*)月(?:\s+)?(\d{1,2})(?:日)?(?:\s+)?(\d{1,2})(?:点|:)(\d{1,2})";
  lit "(?i)(\d+[.,]?\d*)年(?:\s+)?(\d+[.,]?\d*)月(?:\s+)?(\d{1,2})(?:日)?";
  lit "(?i)(\d+[.,]?\d*)月(.*[前后])";
  lit "(?i)(\d+[.,]?\d*)个月前";
  lit "(?i)(\d+[.,]?\d*)个月后";
  lit "(?i)(\d+[.,]?\d*)分钟前";
  lit "(?i)(\d+[.,]?\d*)分钟后";
  lit "(?i)(\d+[.,]?\d*)小时前";
  lit "(?i)(\d+[.,]?\d*)小时后";
  lit "(?i)(\d+[.,]?\d*)秒钟前";
  lit "(?i)(\d+[.,]?\d*)秒钟后";
  lit "(?i)(\d+[.,]?\d*)周前";
  lit "(?i)(\d+[.,]?\d*)周后";
  lit "(?i)(\d+[.,]?\d*)天前";
  lit "(?i)(\d+[.,]?\d*)天后";
  lit "(?i)(\d+[.,]?\d*)年前";
  lit "(?i)(\d+[.,]?\d*)年后";
  lit "(?i)(\d+[.,]?\d*)秒前";
  lit "(?i)(\d+[.,]?\d*)秒后";
  lit "(?i)(\d+[.,]?\d*个月前|\d+[.,]?\d*个月后|\d+[.,]?\d*分钟前|\d+[.,]?\d*分钟后|\d+[.,]?\d*小时前|\d+[.,]?\d*小时后|\d+[.,]?\d*秒钟前|\d+[.,]?\d*秒钟后|\d+[.,]?\d*周前|\d+[.,]?\d*周后|\d+[.,]?\d*天前|\d+[.,]?\d*天后|\d+[.,]?\d*年前|\d+[.,]?\d*年后|\d+[.,]?\d*秒前|\d+[.,]?\d*秒后)";
  lit "(?i)^(\d+[.,]?\d*个月前|\d+[.,]?\d*个月后|\d+[.,]?\d*分钟前|\d+[.,]?\d*分钟后|\d+[.,]?\d*小时前|\d+[.,]?\d*小时后|\d+[.,]?\d*秒钟前|\d+[.,]?\d*秒钟后|\d+[.,]?\d*周前|\d+[.,]?\d*周后|\d+[.,]?\d*天前|\d+[.,]?\d*天后|\d+[.,]?\d*年前|\d+[.,]?\d*年后|\d+[.,]?\d*秒前|\d+[.,]?\d*秒后)$";
  lit "(?i)(\d+[.,]?\d*) 個星期前";
  lit "(?i)(\d+[.,]?\d*) 個星期後";
  lit "(?i)(\d+[.,]?\d*) 個月前";
  lit "(?i)(\d+[.,]?\d*) 個月後";
  lit "(?i)(\d+[.,]?\d*) 分鐘前";
  lit "(?i)(\d+[.,]?\d*) 分鐘後";
  lit "(?i)(\d+[.,]?\d*) 小時前";
  lit "(?i)(\d+[.,]?\d*) 小時後";
  lit "(?i)(\d+[.,]?\d*) 年前";
  lit "(?i)(\d+[.,]?\d*) 年後";
  lit "(?i)(\d+[.,]?\d*) 日前";
  lit "(?i)(\d+[.,]?\d*) 日後";
  lit "(?i)(\d+[.,]?\d*) 秒前";
  lit "(?i)(\d+[.,]?\d*) 秒後";
  lit "(?i)(\d+[.,]?\d* 個星期前|\d+[.,]?\d* 個星期後|\d+[.,]?\d* 個月前|\d+[.,]?\d* 個月後|\d+[.,]?\d* 分鐘前|\d+[.,]?\d* 分鐘後|\d+[.,]?\d* 小時前|\d+[.,]?\d* 小時後|\d+[.,]?\d* 年前|\d+[.,]?\d* 年後|\d+[.,]?\d* 日前|\d+[.,]?\d* 日後|\d+[.,]?\d* 秒前|\d+[.,]?\d* 秒後)";
  lit "(?i)^(\d+[.,]?\d* 個星期前|\d+[.,]?\d* 個星期後|\d+[.,]?\d* 個月前|\d+[.,]?\d* 個月後|\d+[.,]?\d* 分鐘前|\d+[.,]?\d* 分鐘後|\d+[.,]?\d* 小時前|\d+[.,]?\d* 小時後|\d+[.,]?\d* 年前|\d+[.,]?\d* 年後|\d+[.,]?\d* 日前|\d+[.,]?\d* 日後|\d+[.,]?\d* 秒前|\d+[.,]?\d* 秒後)$";
  lit "(?i)(\A|[^\pL\pM\d_])d'une(\z|[^\pL\pM\d_])";
  lit "(?i)(\A|[^\pL\pM\d_])d'un(\z|[^\pL\pM\d_])";
  lit "(?i)(\A|[^\pL\pM\d_])une(\z|[^\pL\pM\d_])";
  lit "(?i)(\A|[^\pL\pM\d_])un(\z|[^\pL\pM\d_])";
  lit "(?i)(\A|[^\pL\pM\d_])(\d+[.,]?\d*)\s+h\s+(\d+[.,]?\d*)\s+min(\z|[^\pL\pM\d_])";
  lit "(?i)(\A|[^\pL\pM\d_])(\d+[.,]?\d*)h(\d+[.,]?\d*)m?(\z|[^\pL\pM\d_])";
  lit "(?i)(\A|[^\pL\pM\d_])moins\s(?:de\s)?(\d+[.,]?\d*)\s?(minute|seconde|heure)(\z|[^\pL\pM\d_])";
  lit "(?i)(\A|[^\pL\pM\d_])moins\s(?:de\s)?(\d+[.,]?\d*)\s?s(\z|[^\pL\pM\d_])";
  lit "(?i)(\A|[^\pL\pM\d_])moins\s(?:de\s)?(\d+[.,]?\d*)\s?m(\z|[^\pL\pM\d_])";
  lit "(?i)(\A|[^\pL\pM\d_])moins\s(?:de\s)?(\d+[.,]?\d*)\s?h(\z|[^\pL\pM\d_])";
  lit "(?i)(\A|[^\pL\pM\d_])deux(\z|[^\pL\pM\d_])";
  lit "(?i)(\A|[^\pL\pM\d_])trois(\z|[^\pL\pM\d_])";
  lit "(?i)(\A|[^\pL\pM\d_])quatre(\z|[^\pL\pM\d_])";
  lit "(?i)(\A|[^\pL\pM\d_])cinq(\z|[^\pL\pM\d_])";
  lit "(?i)(\A|[^\pL\pM\d_])six(\z|[^\pL\pM\d_])";
  lit "(?i)(\A|[^\pL\pM\d_])sept(\z|[^\pL\pM\d_])";
  lit "(?i)(\A|[^\pL\pM\d_])huit(\z|[^\pL\pM\d_])";
  lit "(?i)(\A|[^\pL\pM\d_])neuf(\z|[^\pL\pM\d_])";
  lit "(?i)(\A|[^\pL\pM\d_])dix(\z|[^\pL\pM\d_])";
  lit "(?i)(\A|[^\pL\pM\d_])onze(\z|[^\pL\pM\d_])";
  lit "(?i)(\A|[^\pL\pM\d_])douze(\z|[^\pL\pM\d_])";
  lit "(?i)il y a (\d+[.,]?\d*) secondes";
  lit "(?i)il y a (\d+[.,]?\d*) semaines";
  lit "(?i)il y a (\d+[.,]?\d*) minutes";
  lit "(?i)il y a (\d+[.,]?\d*) seconde";
  lit "(?i)il y a (\d+[.,]?\d*) semaine";
  lit "(?i)dans (\d+[.,]?\d*) secondes";
  lit "(?i)dans (\d+[.,]?\d*) semaines";
  lit "(?i)il y a (\d+[.,]?\d*) heures";
  lit "(?i)il y a (\d+[.,]?\d*) minute";
  lit "(?i)dans (\d+[.,]?\d*) minutes";
  lit "(?i)dans (\d+[.,]?\d*) seconde";
  lit "(?i)dans (\d+[.,]?\d*) semaine";
  lit "(?i)il y a (\d+[.,]?\d*) heure";
  lit "(?i)il y a (\d+[.,]?\d*) jours";
  lit "(?i)dans (\d+[.,]?\d*) heures";
  lit "(?i)dans (\d+[.,]?\d*) minute";
  lit "(?i)il y a (\d+[.,]?\d*) jour";
  lit "(?i)il y a (\d+[.,]?\d*) mois";
  lit "(?i)dans (\d+[.,]?\d*) heure";
  lit "(?i)dans (\d+[.,]?\d*) jours";
  lit "(?i)il y a (\d+[.,]?\d*) ans";
  lit "(?i)il y a (\d+[.,]?\d*) min";
  lit "(?i)il y a (\d+[.,]?\d*) sem";
  lit "(?i)dans (\d+[.,]?\d*) jour";
  lit "(?i)dans (\d+[.,]?\d*) mois";
  lit "(?i)il y a (\d+[.,]?\d*) an";
  lit "(?i)il y a (\d+[.,]?\d*)min";
  lit "(?i)dans (\d+[.,]?\d*) ans";
  lit "(?i)dans (\d+[.,]?\d*) min";
  lit "(?i)dans (\d+[.,]?\d*) sem";
  lit "(?i)il y a (\d+[.,]?\d*) a";
  lit "(?i)il y a (\d+[.,]?\d*) h";
  lit "(?i)il y a (\d+[.,]?\d*) j";
  lit "(?i)il y a (\d+[.,]?\d*) m";
  lit "(?i)il y a (\d+[.,]?\d*) s";
  lit "(?i)dans (\d+[.,]?\d*) an";
  lit "(?i)il y a (\d+[.,]?\d*)h";
  lit "(?i)dans (\d+[.,]?\d*) a";
  lit "(?i)dans (\d+[.,]?\d*) h";
  lit "(?i)dans (\d+[.,]?\d*) j";
  lit "(?i)dans (\d+[.,]?\d*) m";
  lit "(?i)dans (\d+[.,]?\d*) s";
  lit "(?i)dans (\d+[.,]?\d*)h";
  lit "(?i)(\A|[^\pL\pM\d]|_)(il y a \d+[.,]?\d* secondes|il y a \d+[.,]?\d* semaines|il y a \d+[.,]?\d* minutes|il y a \d+[.,]?\d* seconde|il y a \d+[.,]?\d* semaine|dans \d+[.,]?\d* secondes|dans \d+[.,]?\d* semaines|il y a \d+[.,]?\d* heures|il y a \d+[.,]?\d* minute|dans \d+[.,]?\d* minutes|dans \d+[.,]?\d* seconde|dans \d+[.,]?\d* semaine|il y a \d+[.,]?\d* heure|il y a \d+[.,]?\d* jours|dans \d+[.,]?\d* heures|dans \d+[.,]?\d* minute|il y a \d+[.,]?\d* jour|il y a \d+[.,]?\d* mois|dans \d+[.,]?\d* heure|dans \d+[.,]?\d* jours|il y a \d+[.,]?\d* ans|il y a \d+[.,]?\d* min|il y a \d+[.,]?\d* sem|dans \d+[.,]?\d* jour|dans \d+[.,]?\d* mois|il y a \d+[.,]?\d* an|il y a \d+[.,]?\d*min|dans \d+[.,]?\d* ans|dans \d+[.,]?\d* min|dans \d+[.,]?\d* sem|il y a \d+[.,]?\d* a|il y a \d+[.,]?\d* h|il y a \d+[.,]?\d* j|il y a \d+[.,]?\d* m|il y a \d+[.,]?\d* s|dans \d+[.,]?\d* an|il y a \d+[.,]?\d*h|dans \d+[.,]?\d* a|dans \d+[.,]?\d* h|dans \d+[.,]?\d* j|dans \d+[.,]?\d* m|dans \d+[.,]?\d* s|dans \d+[.,]?\d*h)(\z|[^\pL\pM\d]|_)";
  lit "(?i)^(il y a \d+[.,]?\d* secondes|il y a \d+[.,]?\d* semaines|il y a \d+[.,]?\d* minutes|il y a \d+[.,]?\d* seconde|il y a \d+[.,]?\d* semaine|dans \d+[.,]?\d* secondes|dans \d+[.,]?\d* semaines|il y a \d+[.,]?\d* heures|il y a \d+[.,]?\d* minute|dans \d+[.,]?\d* minutes|dans \d+[.,]?\d* seconde|dans \d+[.,]?\d* semaine|il y a \d+[.,]?\d* heure|il y a \d+[.,]?\d* jours|dans \d+[.,]?\d* heures|dans \d+[.,]?\d* minute|il y a \d+[.,]?\d* jour|il y a \d+[.,]?\d* mois|dans \d+[.,]?\d* heure|dans \d+[.,]?\d* jours|il y a \d+[.,]?\d* ans|il y a \d+[.,]?\d* min|il y a \d+[.,]?\d* sem|dans \d+[.,]?\d* jour|dans \d+[.,]?\d* mois|il y a \d+[.,]?\d* an|il y a \d+[.,]?\d*min|dans \d+[.,]?\d* ans|dans \d+[.,]?\d* min|dans \d+[.,]?\d* sem|il y a \d+[.,]?\d* a|il y a \d+[.,]?\d* h|il y a \d+[.,]?\d* j|il y a \d+[.,]?\d* m|il y a \d+[.,]?\d* s|dans \d+[.,]?\d* an|il y a \d+[.,]?\d*h|dans \d+[.,]?\d* a|dans \d+[.,]?\d* h|dans \d+[.,]?\d* j|dans \d+[.,]?\d* m|dans \d+[.,]?\d* s|dans \d+[.,]?\d*h)$"] = true.
Proof. vm_compute. reflexivity. Qed.

(** LanguageOrder (01-language-order.go), by position *)
Definition language_order : list str := Eval vm_compute in
  [lit "en";
  lit "es";
  lit "de";
  lit "ja";
  lit "fr";
  lit "pt";
  lit "ru";
  lit "it";
  lit "nl";
  lit "pl";
  lit "tr";
  lit "fa";
  lit "zh";
  lit "zh-Hans";
  lit "vi";
  lit "id";
  lit "cs";
  lit "ko";
  lit "uk";
  lit "hu";
  lit "sv";
  lit "ro";
  lit "ar";
  lit "el";
  lit "he";
  lit "da";
  lit "fi";
  lit "sk";
  lit "th";
  lit "bg";
  lit "hr";
  lit "sr";
  lit "sr-Cyrl";
  lit "lt";
  lit "nb";
  lit "sl";
  lit "ca";
  lit "et";
  lit "lv";
  lit "hi";
  lit "bn";
  lit "ur";
  lit "sw";
  lit "pa-Arab";
  lit "te";
  lit "mr";
  lit "ta";
  lit "yue";
  lit "fil";
  lit "gu";
  lit "kn";
  lit "ps";
  lit "zh-Hant";
  lit "ml";
  lit "or";
  lit "my";
  lit "pa";
  lit "pa-Guru";
  lit "am";
  lit "om";
  lit "ha";
  lit "uz";
  lit "uz-Latn";
  lit "yo";
  lit "ms";
  lit "ig";
  lit "mg";
  lit "ne";
  lit "as";
  lit "so";
  lit "si";
  lit "km";
  lit "zu";
  lit "sn";
  lit "kk";
  lit "rw";
  lit "ckb";
  lit "qu";
  lit "ak";
  lit "be";
  lit "ti";
  lit "az";
  lit "az-Latn";
  lit "af";
  lit "sr-Latn";
  lit "ii";
  lit "bm";
  lit "ki";
  lit "gsw";
  lit "ug";
  lit "zgh";
  lit "ff";
  lit "rn";
  lit "sq";
  lit "ks";
  lit "hy";
  lit "luy";
  lit "lg";
  lit "lo";
  lit "bem";
  lit "kok";
  lit "luo";
  lit "uz-Cyrl";
  lit "ka";
  lit "ee";
  lit "mzn";
  lit "bs-Cyrl";
  lit "bs";
  lit "bs-Latn";
  lit "kln";
  lit "kam";
  lit "gl";
  lit "tzm";
  lit "dje";
  lit "kab";
  lit "bo";
  lit "shi-Latn";
  lit "shi";
  lit "shi-Tfng";
  lit "mn";
  lit "ln";
  lit "ky";
  lit "sg";
  lit "nyn";
  lit "guz";
  lit "cgg";
  lit "xog";
  lit "lrc";
  lit "mer";
  lit "lu";
  lit "teo";
  lit "brx";
  lit "nd";
  lit "mk";
  lit "uz-Arab";
  lit "mas";
  lit "nn";
  lit "kde";
  lit "mfe";
  lit "seh";
  lit "mgh";
  lit "az-Cyrl";
  lit "ga";
  lit "eu";
  lit "yi";
  lit "ce";
  lit "ksb";
  lit "bez";
  lit "ewo";
  lit "fy";
  lit "ebu";
  lit "nus";
  lit "ast";
  lit "asa";
  lit "ses";
  lit "os";
  lit "br";
  lit "cy";
  lit "kea";
  lit "lag";
  lit "sah";
  lit "mt";
  lit "vun";
  lit "rof";
  lit "jmc";
  lit "lb";
  lit "dav";
  lit "dyo";
  lit "dz";
  lit "nnh";
  lit "is";
  lit "khq";
  lit "bas";
  lit "naq";
  lit "mua";
  lit "ksh";
  lit "saq";
  lit "se";
  lit "dua";
  lit "rwk";
  lit "mgo";
  lit "sbp";
  lit "to";
  lit "jgo";
  lit "ksf";
  lit "fo";
  lit "gd";
  lit "kl";
  lit "rm";
  lit "fur";
  lit "agq";
  lit "haw";
  lit "chr";
  lit "hsb";
  lit "wae";
  lit "nmg";
  lit "lkt";
  lit "twq";
  lit "dsb";
  lit "yav";
  lit "kw";
  lit "gv";
  lit "smn";
  lit "eo";
  lit "tl"].

(** LocaleOrder (04-locale-order.go) *)
Definition locale_order : smap Z := Eval vm_compute in
  [(lit "en", 0);
  (lit "en-001", 0);
  (lit "en-150", 0);
  (lit "en-AG", 0);
  (lit "en-AI", 0);
  (lit "en-AS", 0);
  (lit "en-AT", 0);
  (lit "en-AU", 0);
  (lit "en-BB", 0);
  (lit "en-BE", 0);
  (lit "en-BI", 0);
  (lit "en-BM", 0);
  (lit "en-BS", 0);
  (lit "en-BW", 0);
  (lit "en-BZ", 0);
  (lit "en-CA", 0);
  (lit "en-CC", 0);
  (lit "en-CH", 0);
  (lit "en-CK", 0);
  (lit "en-CM", 0);
  (lit "en-CX", 0);
  (lit "en-CY", 0);
  (lit "en-DE", 0);
  (lit "en-DG", 0);
  (lit "en-DK", 0);
  (lit "en-DM", 0);
  (lit "en-ER", 0);
  (lit "en-FI", 0);
  (lit "en-FJ", 0);
  (lit "en-FK", 0);
  (lit "en-FM", 0);
  (lit "en-GB", 0);
  (lit "en-GD", 0);
  (lit "en-GG", 0);
  (lit "en-GH", 0);
  (lit "en-GI", 0);
  (lit "en-GM", 0);
  (lit "en-GU", 0);
  (lit "en-GY", 0);
  (lit "en-HK", 0);
  (lit "en-IE", 0);
  (lit "en-IL", 0);
  (lit "en-IM", 0);
  (lit "en-IN", 0);
  (lit "en-IO", 0);
  (lit "en-JE", 0);
  (lit "en-JM", 0);
  (lit "en-KE", 0);
  (lit "en-KI", 0);
  (lit "en-KN", 0);
  (lit "en-KY", 0);
  (lit "en-LC", 0);
  (lit "en-LR", 0);
  (lit "en-LS", 0);
  (lit "en-MG", 0);
  (lit "en-MH", 0);
  (lit "en-MO", 0);
  (lit "en-MP", 0);
  (lit "en-MS", 0);
  (lit "en-MT", 0);
  (lit "en-MU", 0);
  (lit "en-MW", 0);
  (lit "en-MY", 0);
  (lit "en-NA", 0);
  (lit "en-NF", 0);
  (lit "en-NG", 0);
  (lit "en-NL", 0);
  (lit "en-NR", 0);
  (lit "en-NU", 0);
  (lit "en-NZ", 0);
  (lit "en-PG", 0);
  (lit "en-PH", 0);
  (lit "en-PK", 0);
  (lit "en-PN", 0);
  (lit "en-PR", 0);
  (lit "en-PW", 0);
  (lit "en-RW", 0);
  (lit "en-SB", 0);
  (lit "en-SC", 0);
  (lit "en-SD", 0);
  (lit "en-SE", 0);
  (lit "en-SG", 0);
  (lit "en-SH", 0);
  (lit "en-SI", 0);
  (lit "en-SL", 0);
  (lit "en-SS", 0);
  (lit "en-SX", 0);
  (lit "en-SZ", 0);
  (lit "en-TC", 0);
  (lit "en-TK", 0);
  (lit "en-TO", 0);
  (lit "en-TT", 0);
  (lit "en-TV", 0);
  (lit "en-TZ", 0);
  (lit "en-UG", 0);
  (lit "en-UM", 0);
  (lit "en-VC", 0);
  (lit "en-VG", 0);
  (lit "en-VI", 0);
  (lit "en-VU", 0);
  (lit "en-WS", 0);
  (lit "en-ZA", 0);
  (lit "en-ZM", 0);
  (lit "en-ZW", 0);
  (lit "es", 1);
  (lit "es-419", 1);
  (lit "es-AR", 1);
  (lit "es-BO", 1);
  (lit "es-BR", 1);
  (lit "es-BZ", 1);
  (lit "es-CL", 1);
  (lit "es-CO", 1);
  (lit "es-CR", 1);
  (lit "es-CU", 1);
  (lit "es-DO", 1);
  (lit "es-EA", 1);
  (lit "es-EC", 1);
  (lit "es-GQ", 1);
  (lit "es-GT", 1);
  (lit "es-HN", 1);
  (lit "es-IC", 1);
  (lit "es-MX", 1);
  (lit "es-NI", 1);
  (lit "es-PA", 1);
  (lit "es-PE", 1);
  (lit "es-PH", 1);
  (lit "es-PR", 1);
  (lit "es-PY", 1);
  (lit "es-SV", 1);
  (lit "es-US", 1);
  (lit "es-UY", 1);
  (lit "es-VE", 1);
  (lit "de", 2);
  (lit "de-AT", 2);
  (lit "de-BE", 2);
  (lit "de-CH", 2);
  (lit "de-IT", 2);
  (lit "de-LI", 2);
  (lit "de-LU", 2);
  (lit "ja", 3);
  (lit "fr", 4);
  (lit "fr-BE", 4);
  (lit "fr-BF", 4);
  (lit "fr-BI", 4);
  (lit "fr-BJ", 4);
  (lit "fr-BL", 4);
  (lit "fr-CA", 4);
  (lit "fr-CD", 4);
  (lit "fr-CF", 4);
  (lit "fr-CG", 4);
  (lit "fr-CH", 4);
  (lit "fr-CI", 4);
  (lit "fr-CM", 4);
  (lit "fr-DJ", 4);
  (lit "fr-DZ", 4);
  (lit "fr-GA", 4);
  (lit "fr-GF", 4);
  (lit "fr-GN", 4);
  (lit "fr-GP", 4);
  (lit "fr-GQ", 4);
  (lit "fr-HT", 4);
  (lit "fr-KM", 4);
  (lit "fr-LU", 4);
  (lit "fr-MA", 4);
  (lit "fr-MC", 4);
  (lit "fr-MF", 4);
  (lit "fr-MG", 4);
  (lit "fr-ML", 4);
  (lit "fr-MQ", 4);
  (lit "fr-MR", 4);
  (lit "fr-MU", 4);
  (lit "fr-NC", 4);
  (lit "fr-NE", 4);
  (lit "fr-PF", 4);
  (lit "fr-PM", 4);
  (lit "fr-RE", 4);
  (lit "fr-RW", 4);
  (lit "fr-SC", 4);
  (lit "fr-SN", 4);
  (lit "fr-SY", 4);
  (lit "fr-TD", 4);
  (lit "fr-TG", 4);
  (lit "fr-TN", 4);
  (lit "fr-VU", 4);
  (lit "fr-WF", 4);
  (lit "fr-YT", 4);
  (lit "pt", 5);
  (lit "pt-AO", 5);
  (lit "pt-CH", 5);
  (lit "pt-CV", 5);
  (lit "pt-GQ", 5);
  (lit "pt-GW", 5);
  (lit "pt-LU", 5);
  (lit "pt-MO", 5);
  (lit "pt-MZ", 5);
  (lit "pt-PT", 5);
  (lit "pt-ST", 5);
  (lit "pt-TL", 5);
  (lit "ru", 6);
  (lit "ru-BY", 6);
  (lit "ru-KG", 6);
  (lit "ru-KZ", 6);
  (lit "ru-MD", 6);
  (lit "ru-UA", 6);
  (lit "it", 7);
  (lit "it-CH", 7);
  (lit "it-SM", 7);
  (lit "it-VA", 7);
  (lit "nl", 8);
  (lit "nl-AW", 8);
  (lit "nl-BE", 8);
  (lit "nl-BQ", 8);
  (lit "nl-CW", 8);
  (lit "nl-SR", 8);
  (lit "nl-SX", 8);
  (lit "pl", 9);
  (lit "tr", 10);
  (lit "tr-CY", 10);
  (lit "fa", 11);
  (lit "fa-AF", 11);
  (lit "zh", 12);
  (lit "zh-Hans", 13);
  (lit "zh-Hans-HK", 13);
  (lit "zh-Hans-MO", 13);
  (lit "zh-Hans-SG", 13);
  (lit "vi", 14);
  (lit "id", 15);
  (lit "cs", 16);
  (lit "ko", 17);
  (lit "ko-KP", 17);
  (lit "uk", 18);
  (lit "hu", 19);
  (lit "sv", 20);
  (lit "sv-AX", 20);
  (lit "sv-FI", 20);
  (lit "ro", 21);
  (lit "ro-MD", 21);
  (lit "ar", 22);
  (lit "ar-AE", 22);
  (lit "ar-BH", 22);
  (lit "ar-DJ", 22);
  (lit "ar-DZ", 22);
  (lit "ar-EG", 22);
  (lit "ar-EH", 22);
  (lit "ar-ER", 22);
  (lit "ar-IL", 22);
  (lit "ar-IQ", 22);
  (lit "ar-JO", 22);
  (lit "ar-KM", 22);
  (lit "ar-KW", 22);
  (lit "ar-LB", 22);
  (lit "ar-LY", 22);
  (lit "ar-MA", 22);
  (lit "ar-MR", 22);
  (lit "ar-OM", 22);
  (lit "ar-PS", 22);
  (lit "ar-QA", 22);
  (lit "ar-SA", 22);
  (lit "ar-SD", 22);
  (lit "ar-SO", 22);
  (lit "ar-SS", 22);
  (lit "ar-SY", 22);
  (lit "ar-TD", 22);
  (lit "ar-TN", 22);
  (lit "ar-YE", 22);
  (lit "el", 23);
  (lit "el-CY", 23);
  (lit "he", 24);
  (lit "da", 25);
  (lit "da-GL", 25);
  (lit "fi", 26);
  (lit "sk", 27);
  (lit "th", 28);
  (lit "bg", 29);
  (lit "hr", 30);
  (lit "hr-BA", 30);
  (lit "sr", 31);
  (lit "sr-Cyrl", 32);
  (lit "sr-Cyrl-BA", 32);
  (lit "sr-Cyrl-ME", 32);
  (lit "sr-Cyrl-XK", 32);
  (lit "lt", 33);
  (lit "nb", 34);
  (lit "nb-SJ", 34);
  (lit "sl", 35);
  (lit "ca", 36);
  (lit "ca-AD", 36);
  (lit "ca-FR", 36);
  (lit "ca-IT", 36);
  (lit "et", 37);
  (lit "lv", 38);
  (lit "hi", 39);
  (lit "bn", 40);
  (lit "bn-IN", 40);
  (lit "ur", 41);
  (lit "ur-IN", 41);
  (lit "sw", 42);
  (lit "sw-CD", 42);
  (lit "sw-KE", 42);
  (lit "sw-UG", 42);
  (lit "pa-Arab", 43);
  (lit "te", 44);
  (lit "mr", 45);
  (lit "ta", 46);
  (lit "ta-LK", 46);
  (lit "ta-MY", 46);
  (lit "ta-SG", 46);
  (lit "yue", 47);
  (lit "fil", 48);
  (lit "gu", 49);
  (lit "kn", 50);
  (lit "ps", 51);
  (lit "zh-Hant", 52);
  (lit "zh-Hant-HK", 52);
  (lit "zh-Hant-MO", 52);
  (lit "ml", 53);
  (lit "or", 54);
  (lit "my", 55);
  (lit "pa", 56);
  (lit "pa-Guru", 57);
  (lit "am", 58);
  (lit "om", 59);
  (lit "om-KE", 59);
  (lit "ha", 60);
  (lit "ha-GH", 60);
  (lit "ha-NE", 60);
  (lit "uz", 61);
  (lit "uz-Latn", 62);
  (lit "yo", 63);
  (lit "yo-BJ", 63);
  (lit "ms", 64);
  (lit "ms-BN", 64);
  (lit "ms-SG", 64);
  (lit "ig", 65);
  (lit "mg", 66);
  (lit "ne", 67);
  (lit "ne-IN", 67);
  (lit "as", 68);
  (lit "so", 69);
  (lit "so-DJ", 69);
  (lit "so-ET", 69);
  (lit "so-KE", 69);
  (lit "si", 70);
  (lit "km", 71);
  (lit "zu", 72);
  (lit "sn", 73);
  (lit "kk", 74);
  (lit "rw", 75);
  (lit "ckb", 76);
  (lit "ckb-IR", 76);
  (lit "qu", 77);
  (lit "qu-BO", 77);
  (lit "qu-EC", 77);
  (lit "ak", 78);
  (lit "be", 79);
  (lit "ti", 80);
  (lit "ti-ER", 80);
  (lit "az", 81);
  (lit "az-Latn", 82);
  (lit "af", 83);
  (lit "af-NA", 83);
  (lit "sr-Latn", 84);
  (lit "sr-Latn-BA", 84);
  (lit "sr-Latn-ME", 84);
  (lit "sr-Latn-XK", 84);
  (lit "ii", 85);
  (lit "bm", 86);
  (lit "ki", 87);
  (lit "gsw", 88);
  (lit "gsw-FR", 88);
  (lit "gsw-LI", 88);
  (lit "ug", 89);
  (lit "zgh", 90);
  (lit "ff", 91);
  (lit "ff-CM", 91);
  (lit "ff-GN", 91);
  (lit "ff-MR", 91);
  (lit "rn", 92);
  (lit "sq", 93);
  (lit "sq-MK", 93);
  (lit "sq-XK", 93);
  (lit "ks", 94);
  (lit "hy", 95);
  (lit "luy", 96);
  (lit "lg", 97);
  (lit "lo", 98);
  (lit "bem", 99);
  (lit "kok", 100);
  (lit "luo", 101);
  (lit "uz-Cyrl", 102);
  (lit "ka", 103);
  (lit "ee", 104);
  (lit "ee-TG", 104);
  (lit "mzn", 105);
  (lit "bs-Cyrl", 106);
  (lit "bs", 107);
  (lit "bs-Latn", 108);
  (lit "kln", 109);
  (lit "kam", 110);
  (lit "gl", 111);
  (lit "tzm", 112);
  (lit "dje", 113);
  (lit "kab", 114);
  (lit "bo", 115);
  (lit "bo-IN", 115);
  (lit "shi-Latn", 116);
  (lit "shi", 117);
  (lit "shi-Tfng", 118);
  (lit "mn", 119);
  (lit "ln", 120);
  (lit "ln-AO", 120);
  (lit "ln-CF", 120);
  (lit "ln-CG", 120);
  (lit "ky", 121);
  (lit "sg", 122);
  (lit "nyn", 123);
  (lit "guz", 124);
  (lit "cgg", 125);
  (lit "xog", 126);
  (lit "lrc", 127);
  (lit "lrc-IQ", 127);
  (lit "mer", 128);
  (lit "lu", 129);
  (lit "teo", 130);
  (lit "teo-KE", 130);
  (lit "brx", 131);
  (lit "nd", 132);
  (lit "mk", 133);
  (lit "uz-Arab", 134);
  (lit "mas", 135);
  (lit "mas-TZ", 135);
  (lit "nn", 136);
  (lit "kde", 137);
  (lit "mfe", 138);
  (lit "seh", 139);
  (lit "mgh", 140);
  (lit "az-Cyrl", 141);
  (lit "ga", 142);
  (lit "eu", 143);
  (lit "yi", 144);
  (lit "ce", 145);
  (lit "ksb", 146);
  (lit "bez", 147);
  (lit "ewo", 148);
  (lit "fy", 149);
  (lit "ebu", 150);
  (lit "nus", 151);
  (lit "ast", 152);
  (lit "asa", 153);
  (lit "ses", 154);
  (lit "os", 155);
  (lit "os-RU", 155);
  (lit "br", 156);
  (lit "cy", 157);
  (lit "kea", 158);
  (lit "lag", 159);
  (lit "sah", 160);
  (lit "mt", 161);
  (lit "vun", 162);
  (lit "rof", 163);
  (lit "jmc", 164);
  (lit "lb", 165);
  (lit "dav", 166);
  (lit "dyo", 167);
  (lit "dz", 168);
  (lit "nnh", 169);
  (lit "is", 170);
  (lit "khq", 171);
  (lit "bas", 172);
  (lit "naq", 173);
  (lit "mua", 174);
  (lit "ksh", 175);
  (lit "saq", 176);
  (lit "se", 177);
  (lit "se-FI", 177);
  (lit "se-SE", 177);
  (lit "dua", 178);
  (lit "rwk", 179);
  (lit "mgo", 180);
  (lit "sbp", 181);
  (lit "to", 182);
  (lit "jgo", 183);
  (lit "ksf", 184);
  (lit "fo", 185);
  (lit "fo-DK", 185);
  (lit "gd", 186);
  (lit "kl", 187);
  (lit "rm", 188);
  (lit "fur", 189);
  (lit "agq", 190);
  (lit "haw", 191);
  (lit "chr", 192);
  (lit "hsb", 193);
  (lit "wae", 194);
  (lit "nmg", 195);
  (lit "lkt", 196);
  (lit "twq", 197);
  (lit "dsb", 198);
  (lit "yav", 199);
  (lit "kw", 200);
  (lit "gv", 201);
  (lit "smn", 202);
  (lit "eo", 203);
  (lit "tl", 204)].

(** GetLocaleData restricted to the locales above *)
Definition loc_table : smap locale :=
  [(lit "en", loc_en); (lit "en-GB", loc_en_GB); (lit "es", loc_es); (lit "de", loc_de); (lit "fi", loc_fi); (lit "zh", loc_zh); (lit "yue", loc_yue); (lit "fr", loc_fr)].
Definition db0 : langdb :=
  {| db_get := mget loc_table; db_langs := language_order; db_order := mget_or 0 locale_order |}.
